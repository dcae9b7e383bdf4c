(** The first state of the chain. *)
From Verif Require Import Base Balances Model_UserPrivileges Spec_UserPrivileges.
From Verif Require Model_Credit Model_DeeperNode Model_Adsc Props_Chain.
From Verif Require Import Model_StakingLedger Model_Staking Model_Chain Model_World Model_Genesis.
From Verif Require Import Spec_World Spec_Genesis Proofs_Genesis Props_World.
From stdpp Require Import gmap.
Open Scope N_scope.
Local Notation D := Model_Credit.DPR.

(** * C156: a chain made by testnet_genesis starts with its authorities *)

(** Whatever authorities, amounts, endowed accounts and credit data are given, as long as
    they make sense: the build succeeds; every authority is bonded with its stash and
    stands for election; exactly the authorities are the validators of era 0, each exposed
    with its own stake alone; era 0 is active; everybody has the balance listed and nothing
    else exists; and everybody has the credit listed. *)
Theorem C156_authorities cfg x A ae stash en e settings data evm :
  let ed := kc_ed (jc_s (wc_chain cfg)) in
  let g := testnet ed A ae stash en e settings data evm in
  sane ed A ae stash en e -> 1 < kc_sessions (jc_s (wc_chain cfg)) ->
  (forall p, p ∈ A -> wx_consumer x p.1 = true) ->
  exists w, gbuild cfg x g = Some w /\
    (forall p, p ∈ A -> granted_stake w (Staker p.1 p.2 stash true)) /\
    (exists l, l ≡ₚ A.*1 /\ e_vals (the_eras w) = {[0 := l]} /\
       forall v, v ∈ l -> e_stakers (the_eras w) !! (0, v) = Some (Expo stash stash [])) /\
    e_act (the_eras w) = Some (0, false) /\
    (forall p, p ∈ A -> lists (g_balances g) p.1 stash) /\
    (forall a v, (a, v) ∈ g_balances g -> free_of (w_bank w) a = v) /\
    money (w_bank w) = lsum (g_balances g).*2 /\
    (NoDup data.*1 -> forall a d, (a, d) ∈ data -> Model_Credit.k_uc (j_c (w_chain w)) !! a = Some d).
Proof.
  intros ed g S Hse Hc. pose proof (testnet_proper ed A ae stash en e settings data evm S) as P.
  pose proof (fun p => testnet_lists ed A ae stash en e settings data evm p S) as L.
  assert (M1 : map g_stash (g_stakers g) = A.*1) by (unfold g; cbn; rewrite map_map; reflexivity).
  assert (M2 : map g_ctrl (g_stakers g) = A.*2) by (unfold g; cbn; rewrite map_map; reflexivity).
  assert (In : forall s, s ∈ g_stakers g -> exists p, p ∈ A /\ s = Staker p.1 p.2 stash true).
  { intros s Hs. apply elem_of_list_fmap in Hs as (p & -> & Hp). eauto. }
  destruct S as [[S1 S2] S3 S4 _ (_ & S5 & _) _].
  destruct (build_grants cfg x g) as (w2 & B & H & E & F & M & Er & Pa).
  - exact P.
  - rewrite <- M1 in S3. rewrite <- M2 in S4. split; [exact S3|]. split; [exact S4|].
    intros s Hs. destruct (In s Hs) as (p & _ & ->). exact S5.
  - reflexivity.
  - intros s Hs. destruct (In s Hs) as (p & Hp & ->). split; [now apply Hc|]. right. now apply L.
  - assert (V : elements (s_valid (k_stk (view w2))) ≡ₚ A.*1).
    { apply NoDup_Permutation; [apply NoDup_elements|exact S3|]. intros v. rewrite elem_of_elements, (hn_valid _ _ H). split.
      - intros (s & Hs & _ & ->). rewrite <- M1. apply elem_of_list_fmap. eauto.
      - intros Hv. rewrite <- M1 in Hv. apply elem_of_list_fmap in Hv as (s & -> & Hs). exists s. split; [exact Hs|].
        destruct (In s Hs) as (p & _ & ->). auto. }
    assert (Z : size (s_valid (k_stk (view w2))) = length A).
    { change (size (s_valid (k_stk (view w2)))) with (length (elements (s_valid (k_stk (view w2))))). rewrite V. apply fmap_length. }
    assert (N0 : N.of_nat (length A) mod two32 = N.of_nat (length A)) by (apply N.mod_small; exact S2).
    assert (N1 : (0 < length A)%nat) by (destruct A; [contradiction|cbn; lia]).
    destruct (sessions_effect cfg x w2 B Er Hse) as (W1 & W2 & W3 & W4 & W5 & _ & _ & W6 & l & W7 & W8 & W9).
    { rewrite Pa. vm_compute. reflexivity. }
    { rewrite Pa. reflexivity. }
    { rewrite Pa, Z. cbn [g testnet g_pars p_min p_count]. rewrite N0. lia. }
    eexists. split; [exact E|]. clear E. set (c := Model_Credit.kinit _ _ _). set (n := Model_DeeperNode.dinit _ _).
    rewrite (fill_eras c n) in W6, W8. rewrite (fill_staking c n) in W2, W3, W4, W5. rewrite (fill_bank c n) in W1.
    setoid_rewrite (fill_eras c n) in W9. set (w := gfill c n _) in *.
    assert (G : forall s, s ∈ g_stakers g -> granted_stake w s).
    { intros s Hs. eapply (honoured_granted w2 (g_stakers g)); eauto. rewrite M1. exact S3. }
    split; [|split; [|split; [exact W6|split; [exact L|split; [|split]]]]].
    + intros p Hp. apply G. apply elem_of_list_fmap. eauto.
    + exists l. split; [now rewrite W7|]. split; [exact W8|]. intros v Hv. rewrite (W9 v Hv).
      rewrite W7, V in Hv. apply elem_of_list_fmap in Hv as (p & -> & Hp).
      assert (Hs : Staker p.1 p.2 stash true ∈ g_stakers g) by (apply elem_of_list_fmap; eauto).
      destruct (G _ Hs) as (G1 & G2 & _). unfold active_stake. rewrite <- W2, <- W3. cbn [g_stash g_ctrl] in G1, G2.
      rewrite G1, G2. reflexivity.
    + intros a v Hv. rewrite W1, F. apply bank_free; [apply P|exact Hv].
    + rewrite W1. exact M.
    + intros N a d Hd. unfold w, c. rewrite fill_credit. exact (data_last data a d N Hd).
Qed.
Print Assumptions C156_authorities.

(** A chain that is built is one the histories of the other properties reach, so all of
    them hold of it and of what it becomes: the entries are calls of Root, of the stashes
    and of the controllers. *)
Theorem C156_history cfg x g w : gbuild cfg x g = Some w ->
  exists h0, Forall (fun op => match op.2 with WStaking o _ => exists who, o = Root \/ o = Signed who /\ (exists s, s ∈ g_stakers g /\ (who = g_stash s \/ who = g_ctrl s)) | WBlock _ => True | _ => False end) h0 /\
  forall h, wrun cfg w h =
    wrun cfg (wgenesis (gbank (g_balances g)) (g_pars g) (g_settings g) (g_data g) (g_evm g) (g_nfts g)) (h0 ++ h).
Proof.
  intros H. exists (gops x g). split.
  - unfold gops. constructor; [exists 0; now left|]. apply Forall_app. split; [|repeat constructor].
    apply Forall_forall. intros op Hop. apply elem_of_list_In, in_flat_map in Hop as (s & Hs & Hop). apply elem_of_list_In in Hs.
    unfold staker_ops in Hop. destruct Hop as [<-|Hop]; [exists (g_stash s); right; split; [reflexivity|eauto]|].
    destruct (g_valid s); [|destruct Hop]. destruct Hop as [<-|[]]. exists (g_ctrl s). right. split; [reflexivity|eauto].
  - intros h. rewrite run_app. now rewrite <- (build_history cfg x g w H).
Qed.
Print Assumptions C156_history.

(** For one: nobody has a privilege from the start. *)
Theorem C156_never cfg x g w h y a w' ev me q :
  gbuild cfg x g = Some w -> (forall z, (z, WPriv Root (USetUser me q)) ∉ h) -> needs a = Some (Signed me, POfficer q) ->
  wstep cfg (wrun cfg w h) (y, a) = (w', WDone ev) -> ~ effective (wrun cfg w h) w' a ev.
Proof.
  intros H Hn Ha Hs. destruct (C156_history cfg x g w H) as (h0 & F & E). rewrite E in *.
  eapply C149_never; [|exact Ha|exact Hs]. intros z Hz. apply elem_of_app in Hz as [Hz|Hz]; [|exact (Hn z Hz)].
  rewrite Forall_forall in F. exact (F _ Hz).
Qed.
Print Assumptions C156_never.

(** Two authorities, of which the second is its own controller; account 5 is endowed; the
    stash of the first is endowed too. *)
Definition gxe (stash : N) : gconfig :=
  testnet (D / 5) [(1, 11); (2, 2)] (70 * D) stash [5; 1; 5] (900 * D) Props_Chain.jsettings Props_Chain.jdata [].
Lemma example_sane : sane (D / 5) [(1, 11); (2, 2)] (70 * D) (500 * D) [5; 1; 5] (900 * D).
Proof.
  split.
  - split; [discriminate|reflexivity].
  - apply (bool_decide_unpack _). vm_compute. exact I.
  - apply (bool_decide_unpack _). vm_compute. exact I.
  - intros p q Hp Hq E. left. repeat (apply elem_of_cons in Hp as [->|Hp]); try inversion Hp;
      repeat (apply elem_of_cons in Hq as [->|Hq]); try inversion Hq; try reflexivity; discriminate E.
  - vm_compute. repeat split; discriminate.
  - intros p _ _. vm_compute. discriminate.
Qed.
Definition gshow (w : wstate) : list N * list (option N) * list (N * N) * N :=
  (default [] (e_vals (the_eras w) !! 0), map (fun a => s_bonded (staking w) !! a) [1; 2; 5],
   map (fun a => (free_of (w_bank w) a, frz (acct_of (w_bank w) a))) [1; 11; 2; 5], money (w_bank w)).
Example C156_example :
  option_map gshow (gbuild xwcfg (xw 0 0) (gxe (500 * D))) =
    Some ([1; 2], [Some 11; Some 2; None], [(900 * D, 500 * D); (70 * D, 0); (500 * D, 500 * D); (900 * D, 0)], 2370 * D) /\
  gbuild xwcfg (xw 0 0) (gxe (1000 * D)) = None /\ kc_ed (jc_s (wc_chain xwcfg)) = D / 5.
Proof. vm_compute. repeat split. Qed.

(** * C157: every entry of a specification is honoured or the chain is refused *)

(** When a chain is built: no account twice and none below the existential deposit in the
    balances, every stash has what it is to bond, and [delegations] is empty. *)
Theorem C157_built cfg x g :
  (exists w, gbuild cfg x g = Some w) <->
  proper (kc_ed (jc_s (wc_chain cfg))) (g_balances g) /\
  (forall s, s ∈ g_stakers g -> g_value s = 0 \/ lists (g_balances g) (g_stash s) (g_value s)) /\ g_dels g = [].
Proof. apply build_spec. Qed.
Print Assumptions C157_built.

(** Delegations cannot be given: whoever is named, with whatever credit the same
    specification gives them, the build stops. Staking is built before credit. *)
Theorem C157_delegations cfg x g : g_dels g <> [] -> gbuild cfg x g = None.
Proof.
  intros H. destruct (gbuild cfg x g) as [w|] eqn:E; [|reflexivity]. exfalso. apply H.
  apply (proj1 (C157_built cfg x g)). eauto.
Qed.
Print Assumptions C157_delegations.

Definition gx (stakers : list staker) (dels : list (N * list N)) : gconfig :=
  GConfig [(1, 900 * D); (2, 800 * D); (5, 900 * D)] Props_Chain.jpars NotForcing stakers dels [] Props_Chain.jsettings Props_Chain.jdata
    (Model_Adsc.Uniques ∅ ∅ ∅).
Definition grantedb (w : wstate) (s : staker) : bool :=
  bool_decide (s_bonded (staking w) !! g_stash s = Some (g_ctrl s)) &&
  match s_ledger (staking w) !! g_ctrl s with
  | Some (Ledger st a b []) => (st =? g_stash s) && (a =? g_value s) && (b =? g_value s)
  | _ => false
  end &&
  match s_payee (staking w) !! g_stash s with Some PStaked => true | _ => false end &&
  eqb (g_valid s) (bool_decide (g_stash s ∈ s_valid (staking w))).
Lemma grantedb_spec w s : grantedb w s = true <-> granted_stake w s.
Proof.
  unfold grantedb, granted_stake. rewrite !andb_true_iff, !bool_decide_eq_true, eqb_true_iff.
  assert (L : match s_ledger (staking w) !! g_ctrl s with
              | Some (Ledger st a b []) => (st =? g_stash s) && (a =? g_value s) && (b =? g_value s)
              | _ => false end = true <-> s_ledger (staking w) !! g_ctrl s = Some (Ledger (g_stash s) (g_value s) (g_value s) [])).
  { destruct (s_ledger (staking w) !! g_ctrl s) as [[st a b [|c l]]|]; [|split; discriminate..].
    rewrite !andb_true_iff, !N.eqb_eq. split; [intros [[-> ->] ->]; reflexivity|intros [= -> -> ->]; auto]. }
  rewrite L. clear L.
  assert (Y : match s_payee (staking w) !! g_stash s with Some PStaked => true | _ => false end = true <->
              s_payee (staking w) !! g_stash s = Some PStaked).
  { destruct (s_payee (staking w) !! g_stash s) as [[]|]; split; try discriminate; reflexivity. }
  rewrite Y. clear Y.
  assert (V : g_valid s = bool_decide (g_stash s ∈ s_valid (staking w)) <-> (g_valid s = true <-> g_stash s ∈ s_valid (staking w))).
  { destruct (decide (g_stash s ∈ s_valid (staking w))) as [H|H].
    - rewrite bool_decide_eq_true_2 by exact H. tauto.
    - rewrite bool_decide_eq_false_2 by exact H. destruct (g_valid s); split; intros E; [discriminate|destruct H; now apply E|split; [discriminate|contradiction]|reflexivity]. }
  rewrite V. tauto.
Qed.
(** Entries are dropped without a word: a second one with the same controller or the same
    stash, and one below the deposit. *)
Theorem C157_refuted :
  exists cfg x g w, gbuild cfg x g = Some w /\ proper (kc_ed (jc_s (wc_chain cfg))) (g_balances g) /\
    exists s1 s2 s3 s4, g_stakers g = [s1; s2; s3; s4] /\ Forall (fun s => lists (g_balances g) (g_stash s) (g_value s)) (g_stakers g) /\
      granted_stake w s1 /\ ~ granted_stake w s2 /\ ~ granted_stake w s3 /\ ~ granted_stake w s4.
Proof.
  set (l := [Staker 1 11 (500 * D) true; Staker 2 11 (500 * D) true; Staker 1 12 (100 * D) true; Staker 5 5 5 true]).
  exists xwcfg, (xw 0 0), (gx l []).
  destruct (gbuild xwcfg (xw 0 0) (gx l [])) as [w|] eqn:E.
  2: { exfalso. revert E. vm_compute. discriminate. }
  exists w. split; [reflexivity|]. split.
  { split; [apply (bool_decide_unpack _); vm_compute; exact I|]. intros a v H.
    repeat (apply elem_of_cons in H as [[= -> ->]|H]); try inversion H; vm_compute; discriminate. }
  exists (Staker 1 11 (500 * D) true), (Staker 2 11 (500 * D) true), (Staker 1 12 (100 * D) true), (Staker 5 5 5 true).
  split; [reflexivity|]. split.
  { assert (L : forall s, s ∈ l -> lists (g_balances (gx l [])) (g_stash s) (g_value s)); [|now apply Forall_forall].
    intros s Hs. repeat (apply elem_of_cons in Hs as [->|Hs]); [exists (900 * D)|exists (800 * D)|exists (900 * D)|exists (900 * D)|inversion Hs];
      (split; [|vm_compute; discriminate]); cbn [gx g_balances g_stash]; [left|right; left|left|right; right; left]. }
  assert (G : forall s r, option_map (fun w => grantedb w s) (gbuild xwcfg (xw 0 0) (gx l [])) = Some r -> grantedb w s = r).
  { intros s r. rewrite E. intros Y. now apply Some_inj in Y. }
  split; [apply grantedb_spec, G; vm_compute; reflexivity|].
  repeat split; rewrite <- grantedb_spec; rewrite (G _ false) by (vm_compute; reflexivity); discriminate.
Qed.
Print Assumptions C157_refuted.

(** What holds: with distinct stashes, distinct controllers and no balance below the
    deposit, every entry is honoured, nobody else is bonded or stands for election, and all
    have the balance listed. Missing: that the build refuses entries it cannot honour, and
    that delegations can be given. *)
Theorem C157_partial cfg x g :
  proper (kc_ed (jc_s (wc_chain cfg))) (g_balances g) -> distinct (p_ed (g_pars g)) (g_stakers g) -> g_dels g = [] ->
  (forall s, s ∈ g_stakers g -> wx_consumer x (g_stash s) = true /\ (g_value s = 0 \/ lists (g_balances g) (g_stash s) (g_value s))) ->
  exists w, gbuild cfg x g = Some w /\ (forall s, s ∈ g_stakers g -> granted_stake w s) /\
    (forall a c, s_bonded (staking w) !! a = Some c -> exists s, s ∈ g_stakers g /\ a = g_stash s /\ c = g_ctrl s) /\
    (forall a, a ∈ s_valid (staking w) -> exists s, s ∈ g_stakers g /\ g_valid s = true /\ a = g_stash s) /\
    (forall a v, (a, v) ∈ g_balances g -> free_of (w_bank w) a = v) /\ money (w_bank w) = lsum (g_balances g).*2.
Proof.
  intros P Di Hd Hs. destruct (build_grants cfg x g P Di Hd Hs) as (w2 & B & H & E & F & M & _ & _).
  destruct (sessions_keep cfg x w2 B) as (W1 & W2 & W3 & W4 & W5).
  eexists. split; [exact E|]. clear E. set (c := Model_Credit.kinit _ _ _). set (n := Model_DeeperNode.dinit _ _).
  rewrite (fill_staking2 c n) in W2, W3, W4, W5. rewrite (fill_bank c n) in W1. set (w := gfill c n _) in *.
  split. { intros s Hin. eapply (honoured_granted w2 (g_stakers g)); eauto. apply Di. }
  split. { intros a k Hb. rewrite W2 in Hb. now apply (hn_bonded _ _ H). }
  split. { intros a Ha. rewrite W5 in Ha. now apply (hn_valid _ _ H). }
  split; [|now rewrite W1]. intros a v Hv. rewrite W1, F. apply bank_free; [apply P|exact Hv].
Qed.
Print Assumptions C157_partial.
(** A validator and an idle staker; and what a delegation does, of an account with credit
    above the threshold. *)
Example C157_example :
  let l := [Staker 1 11 (500 * D) true; Staker 2 2 (300 * D) false] in
  option_map (fun w => (map (grantedb w) l, map (fun a => bool_decide (a ∈ s_valid (staking w))) [1; 2; 5])) (gbuild xwcfg (xw 0 0) (gx l [])) =
    Some ([true; true], [true; false; false]) /\
  gbuild xwcfg (xw 0 0) (gx l [(5, [1])]) = None /\
  passing (wc_chain xwcfg) (j_c (w_chain (wgenesis (gbank (g_balances (gx l []))) Props_Chain.jpars Props_Chain.jsettings Props_Chain.jdata [] (Model_Adsc.Uniques ∅ ∅ ∅)))) 5 = true.
Proof. vm_compute. repeat split. Qed.
