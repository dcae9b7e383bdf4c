(** ADSC: amounts paid, swap, NFT stakes, supply. *)
From Verif Require Import Base Balances Proofs_Balances Model_Adsc Spec_Adsc Proofs_Adsc Proofs_Adsc2 Proofs_Adsc3.
From stdpp Require Import gmap sorting.
Open Scope N_scope.

(** * How much is paid *)
Lemma perbill_small p q : q <> 0 -> q <= PERBILL -> p <= q -> perbill_of p q = p * PERBILL / q.
Proof.
  intros Hq Hm Hp. unfold perbill_of. destruct (N.eqb_spec q 0); [contradiction|]. cbn [orb].
  destruct (N.ltb_spec q p); [lia|].
  assert (Hf : N.max 1 ((q + (PERBILL - 1)) / PERBILL) = 1).
  { assert ((q + (PERBILL - 1)) / PERBILL < 2); [|lia]. apply N.div_lt_upper_bound; [discriminate|].
    change PERBILL with 1000000000 in *. lia. }
  now rewrite Hf, !N.div_1_r.
Qed.
Lemma perbill_near p q : q <> 0 -> q <= PERBILL ->
  let m := N.min p q in perbill_of p q * q <= m * PERBILL /\ m * PERBILL <= (perbill_of p q + 1) * q.
Proof.
  intros Hq Hm. cbv zeta. destruct (N.le_gt_cases p q) as [H|H].
  - rewrite perbill_small by done. rewrite N.min_l by lia.
    pose proof (N.div_mod (p * PERBILL) q Hq) as Hd. pose proof (N.mod_lt (p * PERBILL) q Hq) as Hl.
    revert Hd Hl. generalize (p * PERBILL / q). intros z. generalize ((p * PERBILL) mod q). intros r. generalize (p * PERBILL). intros y Hd Hl. subst y. split; lia.
  - rewrite N.min_r by lia. unfold perbill_of. apply N.ltb_lt in H. rewrite H, orb_true_r. nia.
Qed.
Lemma perbill_full p : p <> 0 -> p <= PERBILL -> perbill_of p p = PERBILL.
Proof. intros H0 Hm. rewrite perbill_small by lia. rewrite N.mul_comm. now apply N.div_mul. Qed.
Lemma frac_mul_full x : frac_mul PERBILL PERBILL x = x.
Proof.
  unfold frac_mul. rewrite N.div_mul, N.mod_mul by discriminate. cbn [N.ltb].
  change (PERBILL / 2 <? 0) with false. cbn iota.
  pose proof (N.div_mod x PERBILL ltac:(discriminate)) as H. rewrite N.add_0_r, (N.mul_comm (x / PERBILL)). lia.
Qed.

Lemma frac_share base p period : share_of base p period (frac_mul (perbill_of p period) PERBILL base).
Proof.
  split; [apply frac_mul_le; [discriminate|apply perbill_of_le]|]. change (10 ^ 9) with PERBILL. intros H0 Hm. cbv zeta.
  pose proof (perbill_near p period H0 Hm) as [H1 H2].
  split; [|split].
  - pose proof (frac_mul_nearest (perbill_of p period) PERBILL base ltac:(discriminate)) as [_ H4].
    revert H1 H2 H4. generalize (frac_mul (perbill_of p period) PERBILL base). intros v.
    generalize (perbill_of p period). intros f. generalize (N.min p period). intros m H1 H2 H4.
    assert (G : PERBILL * (2 * v * period) <= PERBILL * (2 * base * m + period)).
    { assert (G1 : PERBILL * (2 * v) * period <= (2 * f * base + PERBILL) * period) by (apply N.mul_le_mono_r; exact H4).
      assert (G2 : 2 * base * (f * period) <= 2 * base * (m * PERBILL)) by (apply N.mul_le_mono_l; exact H1). lia. }
    apply N.mul_le_mono_pos_l in G; [exact G|reflexivity].
  - pose proof (frac_mul_nearest (perbill_of p period) PERBILL base ltac:(discriminate)) as [H3 _].
    revert H1 H2 H3. generalize (frac_mul (perbill_of p period) PERBILL base). intros v.
    generalize (perbill_of p period). intros f. generalize (N.min p period). intros m H1 H2 H3.
    assert (G1 : 2 * base * (m * PERBILL) <= 2 * base * ((f + 1) * period)) by (apply N.mul_le_mono_l; exact H2).
    assert (G2 : 2 * f * base * period <= PERBILL * (2 * v + 1) * period) by (apply N.mul_le_mono_r; exact H3).
    lia.
  - intros ->. now rewrite perbill_full, frac_mul_full.
Qed.

(** Like [reward_loop_ind], with the account and its days left. *)
Lemma reward_loop_ind2 cfg x (L : list (N * N)) (I : astate -> list aev -> Prop) :
  (forall s w d s' v evs, I s evs -> (w, d) ∈ L -> d <> 0 -> paid s w d s' v -> I s' (evs ++ [EReward w v])) ->
  forall bnum l counter s d s' last rem sub evs acc,
    (forall q, q ∈ l -> q ∈ L) ->
    reward_loop cfg x bnum l counter s d = (s', last, rem, sub, evs) -> I s acc -> I s' (acc ++ evs).
Proof.
  intros HI bnum. induction l as [|[a p] l IH]; intros counter s d s' last rem sub evs acc HL H HS; cbn [reward_loop] in H.
  - injection H as <- <- <- <- <-. now rewrite app_nil_r.
  - assert (HL' : forall q, q ∈ l -> q ∈ L) by (intros q Hq; apply HL; now right).
    destruct (negb _); [eapply IH; eauto|].
    destruct (if p =? 0 then (s, []) else _) as [s1 ev1] eqn:Ep.
    assert (H1 : I s1 (acc ++ ev1)).
    { destruct (N.eqb_spec p 0); [injection Ep as <- <-; now rewrite app_nil_r|].
      destruct (pay_reward s a p) as [[s2 v]|] eqn:Er; injection Ep as <- <-; [|now rewrite app_nil_r].
      eapply HI; eauto; [apply HL; left|]. now apply pay_paid in Er. }
    destruct (_ =? bnum); [injection H as <- <- <- <- <-; exact H1|].
    destruct (reward_loop cfg x bnum l (add32 counter 1) s1 _) as [[[[s2 l2] r2] b2] e2] eqn:El.
    injection H as <- <- <- <- <-. rewrite app_assoc. eapply IH; eauto.
Qed.
Lemma adsc_reward_loop cfg s x s' evs :
  adsc_reward cfg s x = (s', evs) -> a_cursor s <> CEmpty ->
  exists s1 l1 r1 b1, reward_loop cfg x (a_bnum s) (iter_from cfg s (a_cursor s)) 0 s CEmpty = (s1, l1, r1, b1, evs) /\
    s' = fold_left count_down b1 (fold_left remove_staker r1 (set_a_cursor s1 l1)).
Proof.
  unfold adsc_reward. intros H Hc.
  destruct (reward_loop cfg x (a_bnum s) (iter_from cfg s (a_cursor s)) 0 s CEmpty) as [[[[s1 l1] r1] b1] e1] eqn:El.
  exists s1, l1, r1, b1. destruct (a_cursor s); [congruence|..]; rewrite El in H; injection H as <- <-; auto.
Qed.
Definition good_pay (s : astate) (lo : N) (e : aev) : Prop :=
  match e with
  | EReward w v => exists p base, a_stakers s !! w = Some p /\ p <> 0 /\ lo <= base /\ base <= a_base s /\
                     share_of base p (a_period s) v
  | _ => False
  end.
Lemma block_amounts cfg s x s' evs :
  adsc_reward cfg s x = (s', evs) -> Forall (good_pay s (a_base s')) evs /\ a_base s' <= a_base s.
Proof.
  intros H. assert (Ec : a_cursor s = CEmpty \/ a_cursor s <> CEmpty) by (destruct (a_cursor s); auto; right; discriminate).
  destruct Ec as [Ec|Ec].
  { unfold adsc_reward in H. rewrite Ec in H. injection H as <- <-. split; [constructor|lia]. }
  apply adsc_reward_loop in H as (s1 & l1 & r1 & b1 & El & ->); [|done].
  assert (G : (Forall (good_pay s (a_base s1)) ([] ++ evs) /\ a_base s1 <= a_base s) /\ a_period s1 = a_period s).
  { eapply (reward_loop_ind2 cfg x (iter_from cfg s (a_cursor s))
      (fun s2 e2 => (Forall (good_pay s (a_base s2)) e2 /\ a_base s2 <= a_base s) /\ a_period s2 = a_period s)) with (acc := []) (l := iter_from cfg s (a_cursor s)); [|auto|exact El|].
    - intros s2 w d s3 v ev [[G1 G2] G3] Hin Hd P. pose proof (paid_le _ _ _ _ _ P) as [P1 P2].
      apply iter_elem in Hin as [Hst _].
      split; [split; [|lia]|].
      + apply Forall_app. split.
        * eapply Forall_impl; [exact G1|]. intros [w' v'| | | |] Hg; try contradiction. cbn in *.
          destruct Hg as (p & base & A1 & A2 & A3 & A4 & A5). exists p, base. repeat split; auto; try lia; apply A5; auto.
        * constructor; [|constructor]. cbn. exists d, (a_base s2). repeat (split; [done||lia|]).
          rewrite (pd_v _ _ _ _ _ P), G3. apply frac_share.
      + destruct (pd_rest _ _ _ _ _ P) as (_ & _ & _ & _ & _ & E & _). congruence.
    - cbn beta. split; [|done]. split; [constructor|lia]. }
  destruct G as [G _]. cbn [app] in G.
  pose proof (pass_same_trans _ _ _ (fold_remove_same r1 (set_a_cursor s1 l1)) (fold_count_same b1 (fold_left remove_staker r1 (set_a_cursor s1 l1)))) as F.
  destruct F as (_ & _ & _ & _ & _ & _ & F & _). cbn [a_base set_a_cursor] in F. now rewrite F.
Qed.

(** * Removal takes the NFT along *)
Lemma remove_staker_nfts s a w : a_nfts (remove_staker s a) !! w = if decide (w = a) then None else a_nfts s !! w.
Proof.
  unfold remove_staker. cbn [a_nfts set_a_stakers].
  destruct (a_nfts s !! a) as [[c i]|] eqn:E.
  - cbn [a_uniq set_a_nfts set_a_stakers].
    assert (G : delete a (a_nfts s) !! w = if decide (w = a) then None else a_nfts s !! w).
    { destruct (decide (w = a)) as [->|]; [apply lookup_delete|rewrite lookup_delete_ne by congruence; reflexivity]. }
    destruct (remove_nft _ c i); exact G.
  - cbn [a_nfts set_a_stakers]. destruct (decide (w = a)) as [->|]; [exact E|reflexivity].
Qed.
Lemma fold_remove_nfts l : forall s w,
  a_nfts (fold_left remove_staker l s) !! w = if decide (w ∈ l) then None else a_nfts s !! w.
Proof.
  induction l as [|a l IH]; intros s w; cbn [fold_left].
  - rewrite decide_False; [reflexivity|]. apply not_elem_of_nil.
  - rewrite IH, remove_staker_nfts. destruct (decide (w ∈ l)) as [H|H].
    + rewrite decide_True; [reflexivity|]. now right.
    + destruct (decide (w = a)) as [->|Hn]; [rewrite decide_True; [reflexivity|left]|].
      rewrite decide_False; [reflexivity|]. rewrite not_elem_of_cons. auto.
Qed.
Definition whole (u : uniques) (k : N * N) : Prop :=
  is_Some (u_colls u !! k.1) /\ (u_items u !! k = None \/ (is_Some (u_items u !! k) /\ is_Some (u_meta u !! k))).
Lemma remove_nft_whole u c i u' k : remove_nft u c i = Some u' -> whole u k -> whole u' k.
Proof.
  unfold remove_nft, whole. destruct (u_colls u !! c), (u_items u !! (c, i)), (u_meta u !! (c, i)); try discriminate.
  intros H. injection H as <-. cbn. intros [H1 H2]. split; [done|].
  destruct (decide (k = (c, i))) as [->|Hn]; [left; apply lookup_delete|]. now rewrite !lookup_delete_ne by congruence.
Qed.
Lemma remove_nft_items u c i u' k :
  remove_nft u c i = Some u' -> u_items u' !! k = if decide (k = (c, i)) then None else u_items u !! k.
Proof.
  unfold remove_nft. destruct (u_colls u !! c), (u_items u !! (c, i)), (u_meta u !! (c, i)); try discriminate.
  intros H. injection H as <-. cbn. destruct (decide (k = (c, i))) as [->|Hn]; [apply lookup_delete|].
  now rewrite lookup_delete_ne by congruence.
Qed.
Lemma remove_staker_whole s a k : whole (a_uniq s) k -> whole (a_uniq (remove_staker s a)) k.
Proof.
  intros H. unfold remove_staker. cbn [a_nfts set_a_stakers]. destruct (a_nfts s !! a) as [[c i]|]; [|exact H].
  cbn [a_uniq set_a_nfts set_a_stakers]. destruct (remove_nft (a_uniq s) c i) as [u|] eqn:E; [|exact H].
  cbn. eapply remove_nft_whole; eauto.
Qed.
Lemma remove_staker_items s a k : u_items (a_uniq s) !! k = None -> u_items (a_uniq (remove_staker s a)) !! k = None.
Proof.
  intros H. unfold remove_staker. cbn [a_nfts set_a_stakers]. destruct (a_nfts s !! a) as [[c i]|]; [|exact H].
  cbn [a_uniq set_a_nfts set_a_stakers]. destruct (remove_nft (a_uniq s) c i) as [u|] eqn:E; [|exact H].
  cbn. rewrite (remove_nft_items _ _ _ _ _ E). now destruct (decide _).
Qed.
Lemma fold_remove_gone l : forall s k, u_items (a_uniq s) !! k = None -> u_items (a_uniq (fold_left remove_staker l s)) !! k = None.
Proof. induction l as [|a l IH]; intros s k H; [exact H|]. cbn [fold_left]. apply IH. now apply remove_staker_items. Qed.
Lemma fold_remove_burns l : forall s w k, w ∈ l -> a_nfts s !! w = Some k -> whole (a_uniq s) k ->
  u_items (a_uniq (fold_left remove_staker l s)) !! k = None.
Proof.
  induction l as [|a l IH]; intros s w k Hin Hw Hk; [now apply elem_of_nil in Hin|]. cbn [fold_left].
  destruct (decide (w = a)) as [->|Hne].
  - apply fold_remove_gone. destruct Hk as [[? Hc] [Hi|[[? Hi] [? Hm]]]]; [now apply remove_staker_items|].
    unfold remove_staker. cbn [a_nfts set_a_stakers]. rewrite Hw. destruct k as [c i].
    cbn [a_uniq set_a_nfts set_a_stakers fst] in *. unfold remove_nft. rewrite Hc, Hi, Hm. cbn. apply lookup_delete.
  - apply elem_of_cons in Hin as [->|Hin]; [congruence|].
    apply (IH _ w); [done| |now apply remove_staker_whole].
    rewrite remove_staker_nfts, decide_False by done. exact Hw.
Qed.
(** An account leaves the stakers only with no days left, and its NFT goes too. *)
Lemma block_leave cfg s x s' evs w p :
  bnum_ok s -> adsc_reward cfg s x = (s', evs) -> a_stakers s !! w = Some p -> a_stakers s' !! w = None ->
  p = 0 /\ a_nfts s' !! w = None /\
  (forall k, a_nfts s !! w = Some k -> whole (a_uniq s) k -> u_items (a_uniq s') !! k = None).
Proof.
  intros Hb H Hp Hn. assert (Ec : a_cursor s = CEmpty \/ a_cursor s <> CEmpty) by (destruct (a_cursor s); auto; right; discriminate).
  destruct Ec as [Ec|Ec].
  { unfold adsc_reward in H. rewrite Ec in H. injection H as <- <-. congruence. }
  pose proof (reward_block cfg s x s' evs Hb Ec H) as (R1 & _). rewrite R1, Hp in Hn. cbn [after_visit] in Hn.
  destruct (bool_decide (w ∈ (served cfg s x).*1)) eqn:Ev; [|discriminate]. destruct (N.eqb_spec p 0) as [->|]; [|discriminate].
  apply bool_decide_eq_true in Ev. split; [done|].
  apply adsc_reward_loop in H as (s1 & l1 & r1 & b1 & El & ->); [|done].
  destruct Hb as [B1 B2].
  destruct (reward_loop_spec cfg x (a_bnum s) _ 0 s CEmpty s1 l1 r1 b1 evs B1 B2 El) as (Q1 & _ & _ & Q4 & _).
  rewrite N.sub_0_r in Q1. fold (served cfg s x) in Q1.
  assert (Hin : w ∈ r1).
  { rewrite Q1. unfold rem_of. apply sub_filter_fst. apply elem_of_list_fmap in Ev as ([w' p] & E & Hv). cbn in E. subst w'.
    pose proof (served_in cfg s x w p Hv) as (E & _). exists p. split; [done|]. cbn. congruence. }
  destruct Q4 as (_ & E1 & _ & E2 & _).
  destruct (fold_count_nfts b1 (fold_left remove_staker r1 (set_a_cursor s1 l1))) as [-> ->]. split.
  - now rewrite fold_remove_nfts, decide_True.
  - intros k Hk Hw. eapply fold_remove_burns; [exact Hin|cbn; now rewrite E2|cbn; now rewrite E1].
Qed.

(** * Swap *)
Lemma atransfer_spec l src dst v l' :
  atransfer l src dst v = Some l' -> src <> dst ->
  v <= abal l src /\ as_supply l' = as_supply l /\ as_min l' = as_min l /\
  abal l' src = (if v =? 0 then abal l src else if abal l src - v <? as_min l then 0 else abal l src - v) /\
  abal l' dst = abal l dst + v /\
  (forall w, w <> src -> w <> dst -> as_bal l' !! w = as_bal l !! w).
Proof.
  unfold atransfer, abal. intros H Hne. destruct (as_bal l !! src) as [b|] eqn:Es.
  2: { destruct (N.eqb_spec v 0) as [->|]; [|discriminate].
       assert (l' = l) as -> by (destruct (as_bal l !! dst); [congruence|]; destruct (_ =? 0); congruence).
       rewrite Es. cbn. repeat split; auto; lia. }
  destruct (N.ltb_spec b v); [discriminate|]. cbn [orb] in H. destruct (as_supply l <? v); [discriminate|].
  assert (Hset : forall z, aset l src z !! src = (if z =? 0 then None else Some z)).
  { intros z. unfold aset. destruct (z =? 0); [apply lookup_delete|apply lookup_insert]. }
  assert (Hset2 : forall z w, w <> src -> aset l src z !! w = as_bal l !! w).
  { intros z w Hw. unfold aset. destruct (z =? 0); [rewrite lookup_delete_ne by congruence|rewrite lookup_insert_ne by congruence]; reflexivity. }
  assert (Hdeb : default 0 (if b - adebit l b v =? 0 then None else Some (b - adebit l b v)) =
                 (if b - v <? as_min l then 0 else b - v)).
  { unfold adebit. destruct (b - v <? as_min l).
    - rewrite N.sub_diag. reflexivity.
    - destruct (N.eqb_spec (b - v) 0) as [->|]; reflexivity. }
  destruct (as_bal l !! dst) as [d|] eqn:Ed.
  - destruct (two128 <=? d + v); [discriminate|]. destruct (N.eqb_spec src dst); [contradiction|]. cbn [orb] in H.
    destruct (N.eqb_spec v 0) as [->|Hv]; injection H as <-; cbn [as_bal as_supply as_min].
    + rewrite Es, Ed. cbn. repeat split; auto; lia.
    + rewrite lookup_insert, lookup_insert_ne, Hset by congruence. cbn [default from_option id]. repeat split; auto.
      intros w H1 H2. rewrite lookup_insert_ne by congruence. now apply Hset2.
  - destruct (v <? as_min l); [discriminate|].
    destruct (N.eqb_spec v 0) as [->|Hv]; injection H as <-; cbn [as_bal as_supply as_min].
    + rewrite Es, Ed. cbn. repeat split; auto; lia.
    + rewrite lookup_insert, lookup_insert_ne, Hset by congruence. cbn [default from_option id]. repeat split; auto.
      intros w H1 H2. rewrite lookup_insert_ne by congruence. now apply Hset2.
Qed.
Lemma transfer_allow_spec ed b src dst v b' :
  transfer_allow ed b src dst v = Some b' -> src <> dst ->
  (v = 0 \/ v <= free_of b src) /\
  free_of b' dst = free_of b dst + v /\
  free_of b' src = (if v =? 0 then free_of b src else
                    if (free_of b src - v <? ed) && (rsv (acct_of b src) =? 0) then 0 else free_of b src - v).
Proof.
  unfold transfer_allow, free_of. intros H Hne. destruct (N.eqb_spec v 0) as [->|Hv]; cbn [orb] in H.
  { injection H as <-. repeat split; auto; lia. }
  destruct (N.eqb_spec src dst); [contradiction|].
  destruct (N.ltb_spec (free (acct_of b src)) v); [discriminate|].
  destruct (_ <? v); [discriminate|]. destruct (_ && negb _); [discriminate|].
  destruct (N.ltb_spec (free (acct_of b dst) + rsv (acct_of b dst) + v) ed) as [|Hed]; [discriminate|].
  destruct (_ <=? _); [discriminate|]. injection H as <-. split; [auto|]. split.
  - rewrite put_acct_eq; [reflexivity|]. cbn.
    destruct (N.eq_dec (rsv (acct_of b dst)) 0) as [E|E]; [left; lia|auto].
  - rewrite put_acct_ne by congruence. unfold put. cbn [free rsv].
    destruct ((free (acct_of b src) - v <? ed) && (rsv (acct_of b src) =? 0)); unfold acct_of at 1; cbn [accts].
    + rewrite lookup_delete. reflexivity.
    + rewrite lookup_insert. reflexivity.
Qed.

(** * NFT stakes *)
Definition stakes_ok (s : astate) : Prop :=
  (forall w k, a_nfts s !! w = Some k -> is_Some (u_items (a_uniq s) !! k)) /\
  (forall w w' k, a_nfts s !! w = Some k -> a_nfts s !! w' = Some k -> w = w').
Lemma stakes_ext s s' : a_nfts s' = a_nfts s -> (forall k, is_Some (u_items (a_uniq s) !! k) -> is_Some (u_items (a_uniq s') !! k)) ->
  stakes_ok s -> stakes_ok s'.
Proof. intros E1 E2 [H1 H2]. split; rewrite E1; [intros w k Hw; apply E2; eauto|exact H2]. Qed.
Lemma remove_staker_stakes s a : stakes_ok s -> stakes_ok (remove_staker s a).
Proof.
  intros [H1 H2]. unfold remove_staker. cbn [a_nfts set_a_stakers].
  destruct (a_nfts s !! a) as [[c i]|] eqn:E; [|split; assumption].
  cbn [a_uniq set_a_nfts set_a_stakers].
  assert (G1 : forall w k, delete a (a_nfts s) !! w = Some k -> w <> a /\ a_nfts s !! w = Some k).
  { intros w k Hw. apply lookup_delete_Some in Hw as [Hn Hw]. auto. }
  destruct (remove_nft (a_uniq s) c i) as [u|] eqn:Er; (split; cbn [a_nfts a_uniq set_a_uniq set_a_nfts]).
  - intros w k Hw. apply G1 in Hw as [Hn Hw]. rewrite (remove_nft_items _ _ _ _ _ Er).
    rewrite decide_False; [eauto|]. intros ->. apply Hn. eauto.
  - intros w w' k Hw Hw'. apply G1 in Hw as [_ Hw]. apply G1 in Hw' as [_ Hw']. eauto.
  - intros w k Hw. apply G1 in Hw as [_ Hw]. eauto.
  - intros w w' k Hw Hw'. apply G1 in Hw as [_ Hw]. apply G1 in Hw' as [_ Hw']. eauto.
Qed.
Lemma fold_remove_stakes l : forall s, stakes_ok s -> stakes_ok (fold_left remove_staker l s).
Proof. induction l as [|a l IH]; intros s H; [exact H|]. cbn [fold_left]. now apply IH, remove_staker_stakes. Qed.
Lemma block_stakes cfg s x s' evs : adsc_reward cfg s x = (s', evs) -> stakes_ok s -> stakes_ok s'.
Proof.
  intros H HS. assert (Ec : a_cursor s = CEmpty \/ a_cursor s <> CEmpty) by (destruct (a_cursor s); auto; right; discriminate).
  destruct Ec as [Ec|Ec].
  { unfold adsc_reward in H. rewrite Ec in H. injection H as <- <-. exact HS. }
  apply adsc_reward_loop in H as (s1 & l1 & r1 & b1 & El & ->); [|done].
  assert (G : a_nfts s1 = a_nfts s /\ a_uniq s1 = a_uniq s).
  { refine (reward_loop_ind cfg x (fun s2 _ => a_nfts s2 = a_nfts s /\ a_uniq s2 = a_uniq s) _ _ _ _ _ _ _ _ _ _ _ [] El _); [|auto].
    intros s2 w d s3 v ev [G1 G2] _ P. destruct (pd_rest _ _ _ _ _ P) as (_ & E1 & _ & E2 & _). split; congruence. }
  destruct G as [G1 G2].
  eapply (stakes_ext (fold_left remove_staker r1 (set_a_cursor s1 l1))).
  - apply fold_count_nfts.
  - intros k. now rewrite (proj2 (fold_count_nfts b1 _)).
  - apply fold_remove_stakes. eapply stakes_ext; [| |exact HS]; cbn; [exact G1|now rewrite G2].
Qed.
Lemma add_nft_stakes s x who class item s' :
  do_add_nft s x who class item = ROk s' -> stakes_ok s -> stakes_ok s'.
Proof.
  unfold do_add_nft. cbn [a_nfts a_uniq set_a_stakers]. intros H [H1 H2].
  assert (G : exists u u', add_nft x u class item who = Some u' /\
            s' = set_a_uniq (set_a_nfts (set_a_uniq (set_a_stakers s (<[who:=a_period s]> (a_stakers s))) u) (<[who := (class, item)]> (a_nfts s))) u' /\
            (forall w k, w <> who -> a_nfts s !! w = Some k -> is_Some (u_items u !! k))).
  { destruct (a_nfts s !! who) as [[oc oi]|] eqn:E; cbn [rbind] in H.
    - destruct (_ && _); [discriminate|]. cbn [rbind] in H. destruct (remove_nft (a_uniq s) oc oi) as [u|] eqn:Er; [|discriminate].
      cbn [rbind a_nfts a_uniq set_a_uniq set_a_nfts set_a_stakers] in H.
      destruct (add_nft x u class item who) as [u'|] eqn:Ea; [|discriminate]. injection H as <-.
      exists u, u'. split; [done|]. split; [reflexivity|]. intros w k Hn Hw. rewrite (remove_nft_items _ _ _ _ _ Er).
      rewrite decide_False; [eauto|]. intros ->. apply Hn. eauto.
    - cbn [rbind a_nfts a_uniq set_a_uniq set_a_nfts set_a_stakers] in H.
      destruct (add_nft x (a_uniq s) class item who) as [u'|] eqn:Ea; [|discriminate]. injection H as <-.
      exists (a_uniq s), u'. split; [done|]. split; [reflexivity|]. eauto. }
  destruct G as (u & u' & Ea & -> & Hu). unfold add_nft in Ea.
  destruct (u_colls u !! class), (u_items u !! (class, item)) eqn:Ei; try discriminate.
  destruct (ax_deposit x); [|discriminate]. injection Ea as <-.
  assert (Hfresh : forall w k, w <> who -> a_nfts s !! w = Some k -> k <> (class, item)).
  { intros w k Hn Hw ->. destruct (Hu _ _ Hn Hw) as [? Hx]. congruence. }
  split; cbn [a_nfts a_uniq set_a_uniq set_a_nfts u_items].
  - intros w k Hw. apply lookup_insert_Some in Hw as [[<- <-]|[Hn Hw]].
    + rewrite lookup_insert. eauto.
    + rewrite lookup_insert_ne by (intros E; eapply Hfresh; eauto). eapply Hu; eauto.
  - intros w w' k Hw Hw'. apply lookup_insert_Some in Hw as [[<- <-]|[Hn Hw]];
    apply lookup_insert_Some in Hw' as [[<- E]|[Hn' Hw']]; auto.
    + exfalso. eapply Hfresh; eauto.
    + subst k. exfalso. eapply (Hfresh w); eauto.
    + eauto.
Qed.
Lemma call_nfts cfg s x o c s' r :
  astep cfg s x o c = (s', r) -> stakes_ok s -> stakes_ok s'.
Proof.
  unfold astep. destruct (aexec cfg s x o c) as [[s1 evs]|e|] eqn:E; intros H HS; injection H as <- <-; auto.
  destruct c; cbn [aexec] in E.
  2: { unfold ensure_admin in E. destruct o; try discriminate. destruct (ax_admin x who0); try discriminate. cbn [rbind] in E.
       destruct (do_add_nft s x who class item) as [s2| |] eqn:Ed; try discriminate. cbn [rbind] in E. injection E as <- <-.
       eapply add_nft_stakes; eauto. }
  all: assert (G : a_nfts s1 = a_nfts s /\ a_uniq s1 = a_uniq s) by
   (unfold ensure_admin, do_bridge_burn, do_bridge_mint, do_swap, add_pool, rbind in E;
    break_match;
    repeat match goal with
    | H : ROk _ = ROk _ |- _ => injection H as <- <- || injection H as <-
    end; auto);
   destruct G as [G1 G2]; eapply stakes_ext; [exact G1|now rewrite G2|exact HS].
Qed.
Lemma run_stakes cfg : forall h s,
  stakes_ok s -> no_burn_of_staked cfg s h -> stakes_ok (fst (arun cfg s h)).
Proof.
  induction h as [|op r IH]; intros s HS Hn; [exact HS|]. cbn [no_burn_of_staked] in Hn. destruct Hn as [Hn Hr].
  cbn [arun]. destruct (ado cfg s op) as [s1 evs] eqn:E. cbn [fst] in Hr.
  assert (H1 : stakes_ok s1).
  { destruct op as [x [[o c]|e]]; unfold ado in E; cbn [fst snd] in E, Hn.
    - destruct (astep cfg s x o c) as [s2 r2] eqn:Ec. injection E as <- _. eapply call_nfts; eauto.
    - destruct e; cbn [aentry] in E.
      + unfold on_init in E. destruct (_ <? _); [injection E as <- _; exact HS|]. eapply block_stakes; eauto.
      + injection E as <- _. unfold on_upgrade, add_pool. destruct (_ <? _); [|exact HS]. destruct (a_ass s); exact HS.
      + injection E as <- _. destruct HS as [H1 H2]. split; [|exact H2]. cbn. intros w k Hw.
        rewrite lookup_delete_ne; [eauto|]. intros <-. now apply (Hn w).
      + injection E as <- _. destruct (u_colls _ !! class); [|exact HS]. destruct (u_items (a_uniq s) !! (class, item)) eqn:Ei; [exact HS|].
        apply (stakes_ext s); [reflexivity| |exact HS]. cbn. intros k Hk. destruct (decide (k = (class, item))) as [->|].
        * rewrite lookup_insert. eauto.
        * now rewrite lookup_insert_ne by congruence.
      + injection E as <- _. destruct (u_items (a_uniq s) !! (class, item)) eqn:Ei; [|exact HS].
        apply (stakes_ext s); [reflexivity| |exact HS]. cbn. intros k Hk. destruct (decide (k = (class, item))) as [->|].
        * rewrite lookup_insert. eauto.
        * now rewrite lookup_insert_ne by congruence.
      + injection E as <- _. exact HS.
      + injection E as <- _. destruct HS as [H1 H2]. split; [|exact H2]. cbn [a_nfts a_uniq set_a_uniq u_items].
        intros w [c i] Hw. destruct (H1 _ _ Hw) as [z Hz]. exists z. apply map_filter_lookup_Some. split; [exact Hz|].
        cbn. intros ->. now apply (Hn w i).
      + injection E as <- _. exact HS.
      + injection E as <- _. exact HS.
      + injection E as <- _. destruct (a_ass s) as [l|]; [|exact HS]. destruct (atransfer l src dst amount); exact HS.
      + injection E as <- _. exact HS. }
  specialize (IH s1 H1 Hr). destruct (arun cfg s1 r) as [s2 out]. exact IH.
Qed.

(** * Supply *)
Definition circ (l : ledger) : N := msum (fun _ b => b) (as_bal l).
Definition led_ok (l : ledger) : Prop := circ l <= as_supply l.
Lemma aset_circ l who b v : as_bal l !! who = Some b -> b + msum (fun _ z => z) (aset l who v) = v + circ l.
Proof.
  intros H. unfold aset, circ. destruct (N.eqb_spec v 0) as [->|].
  - rewrite (msum_delete (fun _ z => z) _ who b H). lia.
  - now apply (msum_insert_over (fun _ z => z)).
Qed.
Lemma amint_ok l who v l' : amint l who v = Some l' -> led_ok l -> led_ok l' /\ as_supply l' = as_supply l + v.
Proof.
  unfold amint, led_ok. destruct (_ <=? _); [discriminate|]. destruct (N.eqb_spec v 0) as [->|].
  { intros H; injection H as <-. split; [done|lia]. }
  destruct (as_bal l !! who) as [b|] eqn:Eb.
  - destruct (_ <=? _); [discriminate|]. intros H; injection H as <-. unfold circ. cbn [as_bal as_supply]. intros H.
    pose proof (msum_insert_over (fun _ z : N => z) _ who b (b + v) Eb) as E. cbn beta in E. split; lia.
  - destruct (_ <? _); [discriminate|]. intros H; injection H as <-. unfold circ. cbn [as_bal as_supply]. intros H.
    rewrite (msum_insert (fun _ z : N => z) _ who v Eb). split; lia.
Qed.
Lemma aburn_ok l who v l' : aburn l who v = Some l' -> led_ok l -> led_ok l' /\ as_supply l' + v <= as_supply l.
Proof.
  unfold aburn, led_ok. destruct (N.eqb_spec v 0) as [->|].
  { intros H; injection H as <-. split; [done|lia]. }
  destruct (as_bal l !! who) as [b|] eqn:Eb; [|discriminate].
  destruct (N.ltb_spec b v); [discriminate|]. cbn [orb]. destruct (N.ltb_spec (as_supply l) v); [discriminate|].
  intros Hb0; injection Hb0 as <-. intros Hl.
  pose proof (aset_circ l who b (b - adebit l b v) Eb) as E. pose proof (msum_le (fun _ z : N => z) _ _ _ Eb) as Hb.
  cbn beta in Hb. fold (circ l) in Hb. unfold circ at 1. cbn [as_bal as_supply].
  assert (v <= adebit l b v <= b) by (unfold adebit; destruct (_ <? _); lia). split; lia.
Qed.
Lemma atransfer_ok l src dst v l' : atransfer l src dst v = Some l' -> led_ok l -> led_ok l' /\ as_supply l' = as_supply l.
Proof.
  intros H Hl. destruct (N.eq_dec src dst) as [->|Hne].
  { assert (l' = l) as ->; [|auto]. unfold atransfer in H. destruct (as_bal l !! dst) as [b|] eqn:Eb.
    - destruct (_ || _); [discriminate|]. destruct (_ <=? _); [discriminate|]. rewrite N.eqb_refl in H. cbn [orb] in H. congruence.
    - destruct (v =? 0); [|discriminate]. destruct (as_min l =? 0); congruence. }
  unfold atransfer in H. destruct (as_bal l !! src) as [b|] eqn:Es.
  2: { assert (l' = l) as ->; [|auto]. destruct (v =? 0); [|discriminate].
       destruct (as_bal l !! dst); [congruence|]. destruct (_ =? 0); congruence. }
  destruct (N.ltb_spec b v) as [|Hbv]; [discriminate|]. cbn [orb] in H. destruct (as_supply l <? v); [discriminate|].
  pose proof (aset_circ l src b (b - adebit l b v) Es) as E.
  assert (Hd : v <= adebit l b v <= b) by (clear - Hbv; unfold adebit; destruct (b - v <? as_min l); lia).
  assert (Hset2 : forall z, aset l src z !! dst = as_bal l !! dst).
  { intros z. unfold aset. destruct (z =? 0); [rewrite lookup_delete_ne by congruence|rewrite lookup_insert_ne by congruence]; reflexivity. }
  unfold led_ok in *. destruct (as_bal l !! dst) as [d|] eqn:Ed.
  - destruct (_ <=? _); [discriminate|]. destruct (_ || _); injection H as <-; [auto|]. cbn [as_bal as_supply].
    unfold circ at 1. cbn [as_bal].
    pose proof (msum_insert_over (fun _ z : N => z) (aset l src (b - adebit l b v)) dst d (d + v)) as E2.
    rewrite Hset2 in E2. specialize (E2 eq_refl). cbn beta in E2. split; [lia|done].
  - destruct (_ <? _); [discriminate|]. destruct (v =? 0); injection H as <-; [auto|]. cbn [as_bal as_supply].
    unfold circ at 1. cbn [as_bal]. rewrite msum_insert by (rewrite Hset2; reflexivity). split; [lia|done].
Qed.

Definition sup (s : astate) : N := match a_ass s with Some l => as_supply l | None => 0 end.
Definition ass_ok (s : astate) : Prop := match a_ass s with Some l => led_ok l | None => True end.
Definition ins (out : list (N * aev)) : N := lsum (reward_amounts out) + lsum (bridge_in out).
Lemma ins_app a b : ins (a ++ b) = ins a + ins b.
Proof. unfold ins, reward_amounts, bridge_in. rewrite !omap_app, !lsum_app. lia. Qed.
Lemma outs_app a b : lsum (bridge_out (a ++ b)) = lsum (bridge_out a) + lsum (bridge_out b).
Proof. unfold bridge_out. rewrite omap_app, lsum_app. lia. Qed.
Lemma block_supply cfg s x s' evs t : adsc_reward cfg s x = (s', evs) -> ass_ok s ->
  ass_ok s' /\ sup s' + lsum (bridge_out (map (fun e => (t, e)) evs)) <= sup s + ins (map (fun e => (t, e)) evs).
Proof.
  intros H HS.
  apply (adsc_reward_ind cfg x (fun s1 ev => ass_ok s1 /\
    sup s1 + lsum (bridge_out (map (fun e => (t, e)) ev)) <= sup s + ins (map (fun e => (t, e)) ev)) s s' evs); auto.
  - intros s1 w d s2 v ev [H1 H2] _ P. destruct (pd_ass _ _ _ _ _ P) as (l & l' & E1 & E2 & E3).
    unfold ass_ok, sup in *. rewrite E1 in H1, H2. rewrite E3. destruct (amint_ok _ _ _ _ E2 H1) as [H3 H4].
    split; [done|]. rewrite map_app, ins_app, outs_app. cbn [map]. unfold ins at 2. cbn. lia.
  - intros s1 s2 ev (_ & _ & _ & _ & E1 & _) [H1 H2]. unfold ass_ok, sup in *. now rewrite E1.
Qed.
Lemma call_supply cfg s x o c s' r t :
  astep cfg s x o c = (s', r) -> ass_ok s ->
  let evs := match r with ROk evs => evs | _ => [] end in
  ass_ok s' /\ sup s' + lsum (bridge_out (map (fun e => (t, e)) evs)) <= sup s + ins (map (fun e => (t, e)) evs).
Proof.
  unfold astep. destruct (aexec cfg s x o c) as [[s1 evs]|e|] eqn:E; intros H HS; injection H as <- <-.
  2-3: cbv zeta; cbn; unfold ins; cbn; split; [done|lia].
  cbv zeta.
  assert (G0 : evs = [] \/ evs = [EBridgeFailed] -> a_ass s1 = a_ass s ->
     ass_ok s1 /\ sup s1 + lsum (bridge_out (map (fun e => (t, e)) evs)) <= sup s + ins (map (fun e => (t, e)) evs)).
  { intros Hev Ha. unfold ass_ok, sup in *. rewrite Ha. split; [done|]. destruct Hev as [-> | ->]; cbn; unfold ins; cbn; lia. }
  destruct c; cbn [aexec] in E.
  6: { unfold do_bridge_burn, ensure_admin, rbind in E.
       break_match; injection E as <- <-; try (apply G0; auto; fail).
       repeat match goal with H : ROk _ = ROk _ |- _ => injection H as <- end.
       match goal with H : aburn ?l _ _ = Some _, H2 : a_ass s = Some ?l |- _ =>
         unfold ass_ok, sup in *; rewrite H2 in *; cbn [a_ass set_a_ass];
         destruct (aburn_ok _ _ _ _ H HS) as [G1 G2]; split; [exact G1|]; cbn; unfold ins; cbn; lia end. }
  6: { unfold do_bridge_mint, ensure_admin, rbind in E.
       break_match; injection E as <- <-; try (apply G0; auto; fail).
       repeat match goal with H : ROk _ = ROk _ |- _ => injection H as <- end.
       match goal with H : amint ?l _ _ = Some _, H2 : a_ass s = Some ?l |- _ =>
         unfold ass_ok, sup in *; rewrite H2 in *; cbn [a_ass set_a_ass];
         destruct (amint_ok _ _ _ _ H HS) as [G1 G2]; split; [exact G1|]; cbn; unfold ins; cbn; lia end. }
  7: { unfold do_swap in E. destruct o; try discriminate. destruct (a_ass s) as [l|] eqn:El; try discriminate.
       destruct (atransfer l who (ac_acct cfg) amount) as [l'|] eqn:Et; try discriminate.
       destruct (a_rate s) as [ar dr]. destruct (ar =? 0); try discriminate.
       destruct (transfer_allow _ _ _ _ _); try discriminate. injection E as <- <-.
       unfold ass_ok, sup in *. rewrite El in *. cbn [a_ass set_a_ass set_a_bank].
       destruct (atransfer_ok _ _ _ _ _ Et HS) as [G1 G2]. split; [exact G1|]. cbn. unfold ins. cbn. lia. }
  all: unfold ensure_admin, do_add_nft, add_pool, rbind in E; break_match;
    repeat match goal with
    | H : ROk _ = ROk _ |- _ => injection H as <- <- || injection H as <-
    end; apply G0; auto.
Qed.
Lemma run_supply cfg : forall h s, ass_ok s ->
  ass_ok (fst (arun cfg s h)) /\
  sup (fst (arun cfg s h)) + lsum (bridge_out (snd (arun cfg s h))) <= sup s + ins (snd (arun cfg s h)).
Proof.
  induction h as [|op r IH]; intros s HS; [cbn; unfold ins; cbn; split; [done|lia]|].
  cbn [arun]. destruct (ado cfg s op) as [s1 evs] eqn:E.
  assert (H1 : ass_ok s1 /\ sup s1 + lsum (bridge_out (map (fun e => (ax_time op.1, e)) evs)) <= sup s + ins (map (fun e => (ax_time op.1, e)) evs)).
  { assert (G0 : forall s2, ass_ok s2 -> sup s2 = sup s -> (s2, []) = (s1, evs) ->
      ass_ok s1 /\ sup s1 + lsum (bridge_out (map (fun e => (ax_time op.1, e)) evs)) <= sup s + ins (map (fun e => (ax_time op.1, e)) evs)).
    { intros s2 G1 G2 G3. injection G3 as <- <-. rewrite G2. split; [done|]. cbn. unfold ins. cbn. lia. }
    destruct op as [x [[o c]|e]]; unfold ado in E; cbn [fst snd] in *.
    - destruct (astep cfg s x o c) as [s2 r2] eqn:Ec. injection E as <- <-. eapply call_supply; eauto.
    - destruct e; cbn [aentry] in E.
      + unfold on_init in E. destruct (_ <? _); [eapply G0; [..|exact E]; auto|]. eapply block_supply; eauto.
      + eapply G0; [..|exact E]; unfold on_upgrade, add_pool; destruct (_ <? _); auto.
        * destruct (a_ass s) eqn:Ea; [unfold ass_ok in *; cbn; now rewrite Ea in *|]. unfold ass_ok, led_ok, circ. cbn.
          rewrite msum_empty. lia.
        * unfold sup. destruct (a_ass s) eqn:Ea; cbn; [now rewrite Ea|reflexivity].
      + eapply G0; [..|exact E]; auto.
      + eapply G0; [..|exact E]; destruct (u_colls _ !! class); auto; destruct (u_items _ !! _); auto.
      + eapply G0; [..|exact E]; destruct (u_items _ !! _); auto.
      + eapply G0; [..|exact E]; auto.
      + eapply G0; [..|exact E]; auto.
      + eapply G0; [..|exact E]; auto.
      + eapply G0; [..|exact E]; auto.
      + destruct (a_ass s) as [l|] eqn:Ea; [|eapply G0; [..|exact E]; auto].
        destruct (atransfer l src dst amount) as [l'|] eqn:Et; [|eapply G0; [..|exact E]; auto].
        unfold ass_ok in HS. rewrite Ea in HS. destruct (atransfer_ok _ _ _ _ _ Et HS) as [G1 G2].
        eapply G0; [..|exact E]; [exact G1|]. unfold sup. cbn. now rewrite Ea.
      + eapply G0; [..|exact E]; auto. }
  destruct H1 as [H1 H2]. specialize (IH s1 H1). destruct (arun cfg s1 r) as [s2 out]. cbn [fst snd] in *.
  destruct IH as [I1 I2]. split; [done|]. rewrite outs_app, ins_app. lia.
Qed.
