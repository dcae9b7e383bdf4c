(** ADSC pallet: properties C39-C43 and C77-C80. *)
From Verif Require Import Base Balances Proofs_Balances Model_Adsc Spec_Adsc Proofs_Adsc Proofs_Adsc2 Proofs_Adsc3 Proofs_Adsc4 Proofs_Adsc5.
From stdpp Require Import gmap sorting.
Open Scope N_scope.

(** ** A concrete chain *)
Definition zcfg : acfg := ACfg (DPR / 5) 99 (fun a => a).
Definition DAY : N := 86400000.
Definition zx (t : N) : actx := ACtx t (fun w => if w =? 4 then 1 else 0) (fun w => w =? 7) true.
Definition zu : uniques := Uniques (<[1 := tt]> ∅) ∅ ∅.
Definition zs0 : astate := ainit (Bank ∅ 0) zu.
Definition call (t o : N) (c : acall) : aop := (zx t, inl (Signed o, c)).
Definition blk (t : N) : aop := (zx t, inr AInitialize).
(** Two stakers, one with an NFT, one offline account; two days of blocks. *)
Definition zh : list aop :=
  [(zx DAY, inr AUpgrade); call DAY 7 (ASetPeriod 2); call DAY 7 (AAdd 1); call DAY 7 (AAddNft 2 1 5);
   call DAY 7 (AAdd 4); call DAY 7 (ABridgeMint 3 DPR); blk DAY; blk (DAY + 5000); call (DAY + 6000) 7 (AAdd 5);
   blk (DAY + 10000); blk (DAY + 15000); blk (2 * DAY); blk (2 * DAY + 5000); blk (2 * DAY + 10000)].

Lemma zkeys : keys_differ zcfg.
Proof. intros a b H. exact H. Qed.
Lemma zchrono : chrono 0 zh.
Proof. vm_compute. repeat split; discriminate. Qed.
Lemma init_bnum b u : bnum_ok (ainit b u).
Proof. split; reflexivity. Qed.

(** * C39: at most once a day *)
Theorem C39_once_a_day :
  forall cfg b u h, keys_differ cfg -> chrono 0 h -> NoDup (rewards (snd (arun cfg (ainit b u) h))).
Proof.
  intros cfg b u h Hk Hc.
  exact (proj1 (paid_once cfg Hk h (ainit b u) 0 (init_bnum b u) (N.le_0_l _) Hc)).
Qed.
Print Assumptions C39_once_a_day.
Example C39_example : rewards (snd (arun zcfg zs0 zh)) = [(1, 1); (1, 2); (1, 5); (2, 1); (2, 2); (2, 5)].
Proof. vm_compute. reflexivity. Qed.

(** * C40: at most the period *)
(** From any reachable state, an account that is not added again is paid at most
    as often as it has days left. *)
Theorem C40_period :
  forall cfg b u h0 h who, keys_differ cfg ->
    Forall (fun op => ~ adds who op) h ->
    let s := fst (arun cfg (ainit b u) h0) in
    times_paid who (snd (arun cfg s h)) <= default 0 (a_stakers s !! who).
Proof.
  intros cfg b u h0 h who Hk Ha. cbv zeta.
  assert (Hb : bnum_ok (fst (arun cfg (ainit b u) h0))).
  { generalize (ainit b u) (init_bnum b u). induction h0 as [|op r IH]; intros s Hs; [exact Hs|]. cbn [arun].
    destruct (ado cfg s op) as [s1 evs] eqn:E. specialize (IH s1 (ado_bnum _ _ _ _ _ E Hs)). now destruct (arun cfg s1 r). }
  pose proof (paid_period cfg Hk h _ who Hb Ha) as H. unfold hits in H. unfold times_paid. unfold left_days in H at 2. lia.
Qed.
Print Assumptions C40_period.
(** Days left are set to the period when an account is added. *)
Theorem C40_added :
  forall cfg s x o who s' evs,
    astep cfg s x o (AAdd who) = (s', ROk evs) \/
    (exists class item, astep cfg s x o (AAddNft who class item) = (s', ROk evs)) ->
    a_stakers s' !! who = Some (a_period s).
Proof.
  intros cfg s x o who s' evs [H|(class & item & H)].
  - unfold astep in H. cbn [aexec] in H. unfold ensure_admin, rbind in H. break_match; try discriminate.
    repeat match goal with H : ROk _ = ROk _ |- _ => injection H as <- <- || injection H as <- end.
    injection H as <- _. cbn. apply lookup_insert.
  - unfold astep in H. cbn [aexec] in H. unfold ensure_admin, do_add_nft, rbind in H. break_match; try discriminate;
    repeat match goal with H : ROk _ = ROk _ |- _ => injection H as <- <- || injection H as <- end;
    injection H as <- _; cbn; apply lookup_insert.
Qed.
Print Assumptions C40_added.
(** Every payment of a block goes to a staker with [p] days left, and is the share
    [p / period] of a base reward between those before and after the block. *)
Theorem C40_amount :
  forall cfg s x who v,
    EReward who v ∈ snd (aentry cfg s x AInitialize) ->
    exists p base, a_stakers s !! who = Some p /\ p <> 0 /\
      a_base (fst (aentry cfg s x AInitialize)) <= base /\ base <= a_base s /\
      share_of base p (a_period s) v.
Proof.
  intros cfg s x who v H. cbn [aentry] in *. unfold on_init in *. destruct (_ <? _); [now apply elem_of_nil in H|].
  destruct (adsc_reward cfg s x) as [s' evs] eqn:E. cbn [fst snd] in *.
  apply block_amounts in E as [E _]. rewrite Forall_forall in E. exact (E _ H).
Qed.
Print Assumptions C40_amount.
(** An account leaves only with no days left; its NFT entry goes, and the NFT is
    burnt with it. *)
Theorem C40_removal :
  forall cfg b u h x who p,
    let s := fst (arun cfg (ainit b u) h) in
    let s' := fst (aentry cfg s x AInitialize) in
    a_stakers s !! who = Some p -> a_stakers s' !! who = None ->
    p = 0 /\ a_nfts s' !! who = None /\
    (forall k, a_nfts s !! who = Some k -> nft_whole s k -> u_items (a_uniq s') !! k = None).
Proof.
  intros cfg b u h x who p s s'.
  assert (Hb : bnum_ok s).
  { unfold s. generalize (ainit b u) (init_bnum b u). induction h as [|op r IH]; intros s1 Hs; [exact Hs|]. cbn [arun].
    destruct (ado cfg s1 op) as [s2 evs] eqn:E. specialize (IH s2 (ado_bnum _ _ _ _ _ E Hs)). now destruct (arun cfg s2 r). }
  unfold s'. cbn [aentry]. unfold on_init. destruct (_ <? _); [cbn; congruence|].
  destruct (adsc_reward cfg s x) as [s1 evs] eqn:E. cbn [fst]. intros Hp Hn.
  destruct (block_leave _ _ _ _ _ _ _ Hb E Hp Hn) as (H1 & H2 & H3). repeat split; auto.
  intros k Hk (G1 & G2 & G3). apply H3; [done|]. split; auto.
Qed.
Print Assumptions C40_removal.
Example C40_example :
  let s := fst (arun zcfg zs0 zh) in
  let h3 := zh ++ [blk (3 * DAY); blk (3 * DAY + 5000); blk (3 * DAY + 10000)] in
  times_paid 2 (snd (arun zcfg zs0 h3)) = 2 /\ a_stakers s !! 2 = Some 0 /\ a_nfts s !! 2 = Some (1, 5) /\
  u_items (a_uniq s) !! (1, 5) = Some 2 /\ nft_whole s (1, 5) /\
  a_stakers (fst (arun zcfg zs0 h3)) !! 2 = None /\ u_items (a_uniq (fst (arun zcfg zs0 h3))) !! (1, 5) = None /\
  adsc_of s 2 = INIT_REWARD + INIT_REWARD / 2.
Proof. vm_compute. repeat split; eexists; reflexivity. Qed.

(** * C41: halving *)
Theorem C41_halving :
  forall cfg b u h, Forall no_tuning h ->
    let s := fst (arun cfg (ainit b u) h) in
    let total := lsum (reward_amounts (snd (arun cfg (ainit b u) h))) in
    a_minted s = total /\
    a_base s = 8235 * 10 ^ 18 / 2 ^ (total / 10 ^ 28) /\
    a_target s = 10 ^ 28 * (total / 10 ^ 28 + 1).
Proof.
  intros cfg b u h Hn. cbv zeta.
  destruct (run_halved cfg h (ainit b u)) as ((H1 & H2 & H3) & H4); [|exact Hn|].
  { unfold halved. cbn [a_base a_target a_minted ainit]. repeat split. discriminate. }
  change (a_minted (ainit b u)) with 0 in H4. rewrite N.add_0_l in H4. rewrite <- H4. repeat split; assumption.
Qed.
Print Assumptions C41_halving.
(** One block away from the target. *)
Definition zlate : astate :=
  set_a_minted (fst (arun zcfg zs0 (take 7 zh))) (INIT_TARGET - 1).
Example C41_example :
  Forall no_tuning zh /\ a_minted (fst (arun zcfg zs0 zh)) = 4 * INIT_REWARD + INIT_REWARD / 2 /\
  let s := fst (arun zcfg zlate [blk (DAY + 5000)]) in
  a_base s = INIT_REWARD / 2 /\ a_target s = 2 * INIT_TARGET /\
  map snd (snd (arun zcfg zlate [blk (DAY + 5000)])) = [EReward 1 INIT_REWARD; EReward 2 (INIT_REWARD / 2)].
Proof. split; [repeat constructor|]. vm_compute. repeat split. Qed.

(** * C42: swap *)
(** C42 is false: a rate of zero, which the call accepts, makes every swap panic;
    and a product beyond 128 bits is cut off, so the caller gets less. *)
Theorem C42_swap_refuted :
  (exists cfg h x who amount,
     snd (astep cfg (fst (arun cfg (ainit (Bank ∅ 0) zu) h)) x (Signed who) (ASwap amount)) = RPanic) /\
  (exists cfg s x who amount dpr,
     a_rate s = (2 ^ 64, 2 ^ 64) /\
     snd (astep cfg s x (Signed who) (ASwap amount)) = ROk [ESwap who amount dpr] /\ dpr < amount).
Proof.
  split.
  - exists zcfg, [(zx DAY, inr AUpgrade); call DAY 7 (ABridgeMint 3 DPR); call DAY 7 (ASetRate 0 1)], (zx DAY), 3, DPR.
    vm_compute. reflexivity.
  - exists zcfg, (set_a_rate (fst (arun zcfg zs0 [(zx DAY, inr AUpgrade); call DAY 7 (ABridgeMint 3 (100 * DPR))])) (2 ^ 64, 2 ^ 64)),
      (zx DAY), 3, (100 * DPR), (2 ^ 64 - 1).
    vm_compute. repeat split.
Qed.
Print Assumptions C42_swap_refuted.
(** What does hold. Missing: zero rates, products beyond 128 bits, and the caller
    loses a rest below the minimum balance. *)
Theorem C42_swap_partial :
  forall cfg s x who amount s' evs ar dr,
    astep cfg s x (Signed who) (ASwap amount) = (s', ROk evs) ->
    who <> ac_acct cfg -> a_rate s = (ar, dr) -> amount * dr < 2 ^ 128 ->
    let dpr := amount * dr / ar in let pool := ac_acct cfg in
    exists l, a_ass s = Some l /\
    evs = [ESwap who amount dpr] /\ ar <> 0 /\
    amount <= adsc_of s who /\ adsc_of s' who = rest (as_min l) (adsc_of s who) amount /\
    adsc_of s' pool = adsc_of s pool + amount /\
    free_of (a_bank s') who = free_of (a_bank s) who + dpr /\
    (dpr <> 0 -> dpr <= free_of (a_bank s) pool) /\
    (rsv (acct_of (a_bank s) pool) = 0 -> free_of (a_bank s') pool = rest (ac_ed cfg) (free_of (a_bank s) pool) dpr) /\
    (forall w, w <> who -> w <> pool -> adsc_of s' w = adsc_of s w /\ acct_of (a_bank s') w = acct_of (a_bank s) w) /\
    money (a_bank s') = money (a_bank s) /\
    s' = set_a_bank (set_a_ass s (a_ass s')) (a_bank s').
Proof.
  intros cfg s x who amount s' evs ar dr H Hne Hr Hfit. cbv zeta. unfold astep in H. cbn [aexec] in H. unfold do_swap in H.
  destruct (a_ass s) as [l|] eqn:El; [|discriminate].
  destruct (atransfer l who (ac_acct cfg) amount) as [l'|] eqn:Et; [|discriminate]. rewrite Hr in H.
  destruct (N.eqb_spec ar 0) as [|Har]; [discriminate|].
  assert (Es : smul128 amount dr = amount * dr) by (unfold smul128; change two128 with (2 ^ 128); rewrite N.min_l; lia).
  rewrite Es in H. destruct (transfer_allow _ _ _ _ _) as [b|] eqn:Eb; [|discriminate]. injection H as <- <-.
  exists l. destruct (atransfer_spec _ _ _ _ _ Et Hne) as (A1 & A2 & A3 & A4 & A5 & A6).
  destruct (transfer_allow_spec _ _ _ _ _ _ Eb ltac:(congruence)) as (B1 & B2 & B3).
  cbn [a_ass a_bank set_a_bank set_a_ass]. unfold adsc_of, rest. cbn [a_ass a_bank set_a_bank set_a_ass]. rewrite El.
  fold (abal l who) (abal l' who) (abal l (ac_acct cfg)) (abal l' (ac_acct cfg)).
  split; [done|]. split; [done|]. split; [done|]. split; [done|]. split; [done|]. split; [done|]. split; [done|].
  split; [intros Hd; destruct B1; [contradiction|done]|]. split; [|split; [|split; [|reflexivity]]].
  - intros Hrsv. rewrite B3, Hrsv. rewrite N.eqb_refl, andb_true_r. reflexivity.
  - intros w H1 H2. rewrite A6 by done. split; [done|]. eapply transfer_allow_ne; eauto.
  - eapply transfer_allow_money; eauto.
Qed.
Print Assumptions C42_swap_partial.
(** It panics only at a zero rate, and a call that fails changes nothing. *)
Theorem C42_no_panic_partial :
  forall cfg s x o amount,
    (fst (a_rate s) <> 0 -> snd (astep cfg s x o (ASwap amount)) <> RPanic) /\
    ((forall evs, snd (astep cfg s x o (ASwap amount)) <> ROk evs) -> fst (astep cfg s x o (ASwap amount)) = s).
Proof.
  intros cfg s x o amount. split.
  - intros Hr. unfold astep. cbn [aexec]. destruct o as [|who|]; try discriminate. unfold do_swap.
    destruct (a_ass s); [|discriminate]. destruct (atransfer _ _ _ _); [|discriminate].
    destruct (a_rate s) as [ar dr]. cbn in Hr. destruct (N.eqb_spec ar 0); [contradiction|].
    destruct (transfer_allow _ _ _ _ _); discriminate.
  - unfold astep. destruct (aexec cfg s x o (ASwap amount)) as [[s' evs]|e|]; cbn; auto. intros H. now destruct (H evs).
Qed.
Print Assumptions C42_no_panic_partial.
Example C42_example :
  let s := fst (arun zcfg zs0 [(zx DAY, inr AUpgrade); call DAY 7 (ABridgeMint 3 (10 * DPR))]) in
  let '(s', r) := astep zcfg s (zx DAY) (Signed 3) (ASwap (3 * DPR)) in
  r = ROk [ESwap 3 (3 * DPR) (3 * DPR / 2)] /\ adsc_of s' 3 = 7 * DPR /\ free_of (a_bank s') 3 = 3 * DPR / 2 /\
  snd (astep zcfg s (zx DAY) (Signed 3) (ASwap (11 * DPR))) = RErr AAsset.
Proof. vm_compute. repeat split. Qed.

(** * C43: exclusive NFT stakes *)
(** C43 is false: the owner burns the staked NFT, and it can be staked again for
    someone else. When the first account's period ends, the second one's NFT goes. *)
Definition zh43 : list aop :=
  [(zx DAY, inr AUpgrade); call DAY 7 (ASetPeriod 0); call DAY 7 (AAddNft 1 1 5); (zx DAY, inr (AUniqBurn 1 5));
   call DAY 7 (ASetPeriod 9); call DAY 7 (AAddNft 2 1 5)].
Theorem C43_exclusive_refuted :
  exists cfg b u h h' w w' k, keys_differ cfg /\ w <> w' /\
    let s := fst (arun cfg (ainit b u) h) in
    a_nfts s !! w = Some k /\ a_nfts s !! w' = Some k /\ u_items (a_uniq s) !! k = Some w' /\
    let s' := fst (arun cfg s h') in
    a_stakers s' !! w' = Some 8 /\ a_nfts s' !! w' = Some k /\ u_items (a_uniq s') !! k = None.
Proof.
  exists zcfg, (Bank ∅ 0), zu, zh43, [blk DAY; blk (DAY + 5000)], 1, 2, (1, 5).
  split; [exact zkeys|]. split; [discriminate|]. vm_compute. repeat split.
Qed.
Print Assumptions C43_exclusive_refuted.
(** What does hold: if nobody burns staked NFTs, stakes are exclusive and every
    staked NFT exists. Missing: NFTs burnt by their owner. *)
Theorem C43_exclusive_partial :
  forall cfg b u h, no_burn_of_staked cfg (ainit b u) h ->
    let s := fst (arun cfg (ainit b u) h) in
    (forall w w' k, a_nfts s !! w = Some k -> a_nfts s !! w' = Some k -> w = w') /\
    (forall w k, a_nfts s !! w = Some k -> is_Some (u_items (a_uniq s) !! k)).
Proof.
  intros cfg b u h Hn. cbv zeta.
  destruct (run_stakes cfg h (ainit b u)) as [H1 H2]; [|exact Hn|auto].
  split; cbn; intros *; rewrite lookup_empty; discriminate.
Qed.
Print Assumptions C43_exclusive_partial.
Example C43_example :
  no_burn_of_staked zcfg zs0 zh /\ a_nfts (fst (arun zcfg zs0 zh)) !! 2 = Some (1, 5) /\
  snd (astep zcfg (fst (arun zcfg zs0 zh)) (zx (2 * DAY)) (Signed 7) (AAddNft 3 1 5)) = RErr ANft.
Proof. split; [vm_compute; repeat split|]. vm_compute. repeat split. Qed.

(** * C77: nobody is forgotten *)
Theorem C77_everyone_served :
  forall cfg s x r who p d,
    keys_differ cfg -> a_stakers s !! who = Some p -> N.of_nat (size (a_stakers s)) < 2 ^ 32 ->
    day (ax_time x) = d -> d < 2 ^ 32 -> a_day s < d ->
    Forall (on_day d) r -> Forall (online who) r -> Forall (fun op => ~ adds who op) r ->
    how_many is_add r <= 17000 -> 17000 <= how_many is_block r ->
    let h := (x, inr AInitialize) :: r in
    a_stakers (fst (arun cfg s h)) !! who = (if p =? 0 then None else Some (p - 1)) /\
    (p <> 0 -> can_receive cfg who s h -> (d, who) ∈ rewards (snd (arun cfg s h))).
Proof. intros. now apply (day_serves cfg who p d). Qed.
Print Assumptions C77_everyone_served.
(** A full day of 17000 blocks after the first day above: account 5 has one day
    left, is paid, and has none left. *)
Definition zs1 : astate := fst (arun zcfg zs0 (take 11 zh)).
Definition zday : list aop := repeat (blk (2 * DAY + 5000)) (N.to_nat 17000).
Lemma how_many_repeat f op n : how_many f (repeat op n) = if f op then N.of_nat n else 0.
Proof.
  unfold how_many. induction n as [|n IH]; cbn [repeat List.filter]; [now destruct (f op)|].
  destruct (f op); cbn [length]; lia.
Qed.
(** Once the pass of the day is over, blocks change nothing. *)
Lemma idle_receive cfg who t n : forall s l b,
  a_cursor s = CEmpty -> day_of t <= a_day s ->
  a_ass s = Some l -> as_bal l !! who = Some b -> b <= as_supply l -> as_supply l + 2 ^ 32 * a_base s < 2 ^ 128 ->
  can_receive cfg who s (repeat (blk t) n).
Proof.
  induction n as [|n IH]; intros s l b H1 H2 H3 H4 H5 H6; [exact I|]. cbn [repeat can_receive]. split; [intros _; exists l, b; auto|].
  assert (E : ado cfg s (blk t) = (s, [])).
  { cbn [ado blk snd fst aentry]. rewrite old_day_state by exact H2. unfold adsc_reward. now rewrite H1. }
  rewrite E. cbn [fst]. eapply IH; eauto.
Qed.
Lemma zday_ops (P : aop -> Prop) : P (blk (2 * DAY + 5000)) -> Forall P zday.
Proof. intros H. apply Forall_forall. intros op Hop. apply elem_of_list_In, repeat_spec in Hop. now subst op. Qed.
Lemma zday_receive n : can_receive zcfg 5 zs1 (blk (2 * DAY) :: repeat (blk (2 * DAY + 5000)) (3 + n)).
Proof.
  cbn [plus repeat can_receive].
  split; [intros _; do 2 eexists; split; [vm_compute; reflexivity|]; split; [vm_compute; reflexivity|]; split; [vm_compute; discriminate|vm_compute; reflexivity]|].
  split; [intros _; do 2 eexists; split; [vm_compute; reflexivity|]; split; [vm_compute; reflexivity|]; split; [vm_compute; discriminate|vm_compute; reflexivity]|].
  split; [intros _; do 2 eexists; split; [vm_compute; reflexivity|]; split; [vm_compute; reflexivity|]; split; [vm_compute; discriminate|vm_compute; reflexivity]|].
  split; [intros _; do 2 eexists; split; [vm_compute; reflexivity|]; split; [vm_compute; reflexivity|]; split; [vm_compute; discriminate|vm_compute; reflexivity]|].
  eapply idle_receive.
  - vm_compute. reflexivity.
  - vm_compute. discriminate.
  - vm_compute. reflexivity.
  - vm_compute. reflexivity.
  - vm_compute. discriminate.
  - vm_compute. reflexivity.
Qed.
Lemma zday_counts : how_many is_add zday = 0 /\ how_many is_block zday = 17000.
Proof. unfold zday. rewrite !how_many_repeat, N2Nat.id. split; reflexivity. Qed.
Lemma zday_long : exists n, zday = repeat (blk (2 * DAY + 5000)) (3 + n).
Proof. exists (N.to_nat 16997). unfold zday. f_equal. Qed.
Example C77_example :
  let h := (zx (2 * DAY), inr AInitialize) :: zday in
  a_stakers zs1 !! 5 = Some 1 /\ a_stakers zs1 !! 4 = Some 2 /\ Forall (on_day 2) zday /\ Forall (online 5) zday /\
  how_many is_block zday = 17000 /\ can_receive zcfg 5 zs1 h /\
  a_stakers (fst (arun zcfg zs1 h)) !! 5 = Some 0 /\ (2, 5) ∈ rewards (snd (arun zcfg zs1 h)).
Proof.
  cbv zeta. destruct zday_counts as [G1 G2]. destruct zday_long as [n En].
  assert (F1 : Forall (on_day 2) zday) by (apply zday_ops; intros _; vm_compute; reflexivity).
  assert (F2 : Forall (online 5) zday) by (apply zday_ops; intros _; vm_compute; reflexivity).
  assert (F3 : Forall (fun op => ~ adds 5 op) zday) by (apply zday_ops; intros []).
  assert (G3 : can_receive zcfg 5 zs1 ((zx (2 * DAY), inr AInitialize) :: zday)) by (rewrite En; apply (zday_receive n)).
  assert (S1 : a_stakers zs1 !! 5 = Some 1) by (vm_compute; reflexivity).
  assert (S2 : a_stakers zs1 !! 4 = Some 2) by (vm_compute; reflexivity).
  clear En. revert F1 F2 F3 G1 G2 G3. generalize zday. intros r F1 F2 F3 G1 G2 G3.
  repeat (split; [assumption|]).
  destruct (C77_everyone_served zcfg zs1 (zx (2 * DAY)) r 5 1 2 zkeys S1) as [H1 H2]; try assumption.
  - vm_compute. reflexivity.
  - vm_compute. reflexivity.
  - vm_compute. reflexivity.
  - vm_compute. reflexivity.
  - rewrite G1. discriminate.
  - rewrite G2. apply N.le_refl.
  - split; [exact H1|]. apply H2; [discriminate|exact G3].
Qed.

(** * C78: the rewards have a ceiling *)
Theorem C78_reward_cap :
  forall cfg b u h, Forall no_tuning h ->
    lsum (reward_amounts (snd (arun cfg (ainit b u) h))) <= 73 * 10 ^ 28.
Proof.
  intros cfg b u h Hn.
  destruct (run_halved cfg h (ainit b u)) as ((H1 & H2 & H3) & H4); [|exact Hn|].
  { unfold halved. cbn [a_base a_target a_minted ainit]. repeat split. discriminate. }
  change (a_minted (ainit b u)) with 0 in H4. rewrite N.add_0_l in H4. rewrite <- H4. exact H3.
Qed.
Print Assumptions C78_reward_cap.
Example C78_example :
  lsum (reward_amounts (snd (arun zcfg zs0 zh))) = 4 * INIT_REWARD + INIT_REWARD / 2 /\ INIT_REWARD / 2 ^ 72 = 1.
Proof. vm_compute. repeat split. Qed.

(** * C79: supply *)
Theorem C79_supply :
  forall cfg b u h,
    let '(s, out) := arun cfg (ainit b u) h in
    circulating s + lsum (bridge_out out) <= lsum (reward_amounts out) + lsum (bridge_in out).
Proof.
  intros cfg b u h. destruct (run_supply cfg h (ainit b u) I) as [H1 H2]. destruct (arun cfg (ainit b u) h) as [s out].
  cbn [fst snd] in *. unfold circulating, sup, ass_ok, led_ok, circ, ins in *. cbn [a_ass ainit] in H2.
  destruct (a_ass s); lia.
Qed.
Print Assumptions C79_supply.
(** A bridge transfer moves exactly the amount, or nothing. *)
Theorem C79_bridge :
  forall cfg s x o who amount s' evs,
    (astep cfg s x o (ABridgeMint who amount) = (s', ROk evs) ->
     (evs = [EBridgeFailed] /\ s' = s) \/
     (evs = [EBridgeMinted who amount] /\ adsc_of s' who = adsc_of s who + amount /\
      (forall w, w <> who -> adsc_of s' w = adsc_of s w) /\ s' = set_a_ass s (a_ass s'))) /\
    (astep cfg s x o (ABridgeBurn who amount) = (s', ROk evs) ->
     (evs = [EBridgeFailed] /\ s' = s) \/
     (exists l, a_ass s = Some l /\
      evs = [EBridgeBurned who amount] /\ amount <= adsc_of s who /\ adsc_of s' who = rest (as_min l) (adsc_of s who) amount /\
      (forall w, w <> who -> adsc_of s' w = adsc_of s w) /\ s' = set_a_ass s (a_ass s'))).
Proof.
  intros cfg s x o who amount s' evs. split; intros H; unfold astep in H; cbn [aexec] in H.
  - unfold do_bridge_mint, rbind in H. destruct (ensure_admin x o); [|injection H as <- <-; auto..].
    destruct (a_ass s) as [l|] eqn:El; [|injection H as <- <-; auto].
    destruct (amint l who amount) as [l'|] eqn:Em; injection H as <- <-; [|auto]. right. split; [done|].
    unfold adsc_of. cbn [a_ass set_a_ass]. rewrite El. unfold amint in Em. destruct (_ <=? _); [discriminate|].
    destruct (N.eqb_spec amount 0) as [->|].
    { injection Em as <-. repeat split; auto; lia. }
    destruct (as_bal l !! who) as [b|] eqn:Eb.
    + destruct (_ <=? _); [discriminate|]. injection Em as <-. cbn [as_bal]. rewrite lookup_insert. repeat split; auto.
      intros w Hw. now rewrite lookup_insert_ne by congruence.
    + destruct (_ <? _); [discriminate|]. injection Em as <-. cbn [as_bal]. rewrite lookup_insert. repeat split; auto.
      intros w Hw. now rewrite lookup_insert_ne by congruence.
  - unfold do_bridge_burn, rbind in H. destruct (ensure_admin x o); [|injection H as <- <-; auto..].
    destruct (a_ass s) as [l|] eqn:El; [|injection H as <- <-; auto].
    destruct (aburn l who amount) as [l'|] eqn:Em; injection H as <- <-; [|auto]. right. exists l. split; [done|]. split; [done|].
    unfold adsc_of, rest. cbn [a_ass set_a_ass]. rewrite El. unfold aburn in Em.
    destruct (N.eqb_spec amount 0) as [->|].
    { injection Em as <-. repeat split; auto; lia. }
    destruct (as_bal l !! who) as [b|] eqn:Eb; [|discriminate]. destruct (N.ltb_spec b amount); [discriminate|]. cbn [orb] in Em.
    destruct (_ <? _); [discriminate|]. injection Em as <-. cbn [as_bal default from_option id]. split; [lia|]. split; [|split; [|done]].
    + unfold aset, adebit. destruct (b - amount <? as_min l).
      * rewrite N.sub_diag. cbn [N.eqb]. now rewrite lookup_delete.
      * destruct (N.eqb_spec (b - amount) 0) as [->|]; [now rewrite lookup_delete|now rewrite lookup_insert].
    + intros w Hw. unfold aset. destruct (_ =? 0); [now rewrite lookup_delete_ne by congruence|now rewrite lookup_insert_ne by congruence].
Qed.
Print Assumptions C79_bridge.
Example C79_example :
  let h := zh ++ [call (2 * DAY) 7 (ABridgeBurn 3 (DPR / 2)); call (2 * DAY) 8 (ABridgeMint 3 DPR)] in
  let '(s, out) := arun zcfg zs0 h in
  lsum (bridge_in out) = DPR /\ lsum (bridge_out out) = DPR / 2 /\ adsc_of s 3 = DPR / 2 /\
  last out = Some (2 * DAY, EBridgeFailed).
Proof. vm_compute. repeat split. Qed.

(** * C80: who may do what *)
(** A signed caller without the CreditAdmin privilege changes nothing, except by
    swapping its own ADSC. *)
Theorem C80_unprivileged :
  forall cfg s x who c,
    ax_admin x who = false -> (forall amount, c <> ASwap amount) ->
    fst (astep cfg s x (Signed who) c) = s.
Proof.
  intros cfg s x who c Ha Hc. unfold astep.
  destruct c; cbn [aexec]; unfold do_bridge_burn, do_bridge_mint, ensure_admin; try rewrite Ha; try reflexivity.
  exfalso. now apply (Hc amount).
Qed.
Print Assumptions C80_unprivileged.
(** Root can only fund the pool; nobody else can. *)
Theorem C80_root :
  forall cfg s x o c,
    (o = Root -> (forall amount, c <> AAddPool amount) -> fst (astep cfg s x o c) = s) /\
    (o <> Root -> a_pool (fst (astep cfg s x o c)) = a_pool s).
Proof.
  intros cfg s x o c. split.
  - intros -> Hc. unfold astep.
    destruct c; cbn [aexec]; unfold do_bridge_burn, do_bridge_mint, ensure_admin; try reflexivity. exfalso. now apply (Hc amount).
  - intros Ho. unfold astep. destruct (aexec cfg s x o c) as [[s1 evs]|e|] eqn:E; try reflexivity. cbn [fst].
    destruct c; cbn [aexec] in E; unfold ensure_admin, do_add_nft, do_bridge_burn, do_bridge_mint, do_swap, rbind in E;
      break_match; try contradiction;
      repeat match goal with H : ROk _ = ROk _ |- _ => injection H as <- <- || injection H as <- end; reflexivity || auto.
Qed.
Print Assumptions C80_root.
Example C80_example :
  let s := fst (arun zcfg zs0 zh) in
  ax_admin (zx DAY) 8 = false /\ snd (astep zcfg s (zx DAY) (Signed 8) (AAdd 8)) = RErr ANotAdmin /\
  a_stakers (fst (astep zcfg s (zx DAY) (Signed 7) (AAdd 8))) !! 8 = Some 2 /\
  a_pool (fst (astep zcfg s (zx DAY) Root (AAddPool DPR))) = a_pool s + DPR.
Proof. vm_compute. repeat split. Qed.
