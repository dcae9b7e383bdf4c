(** Staking pallet, sixth part: standing as a validator, dissolving a stake, and
    delegating: properties C117-C120. *)
From Verif Require Import Base Balances Model_StakingLedger Model_Staking Spec_Staking Spec_Staking2 Spec_Staking3
  Proofs_StakingLedger Proofs_Staking Proofs_Staking2 Proofs_Staking20 Proofs_Staking21 Props_Staking.
From stdpp Require Import gmap.
Open Scope N_scope.

(** * C117: who stands as a validator, and who is paid for it *)
(** Only bonded stashes stand, and exactly the bonded stashes have a payee. *)
Theorem C117_bonded cfg b p h s :
  sane cfg (kgenesis b p) h -> s = krun cfg (kgenesis b p) h ->
  (forall v, stands s v -> bonded s v) /\ (forall v, is_Some (payee_at s v) <-> bonded s v).
Proof. intros S ->. exact (run_standing cfg h _ S (genesis_linv b p) (genesis_standing b p)). Qed.
Print Assumptions C117_bonded.
(** An account starts to stand only by a call of its controller, and stops only by a
    call of its controller, when its stake is dissolved, or when it is reported. *)
Theorem C117_stands cfg b p h s op s' out v :
  sane cfg (kgenesis b p) h -> s = krun cfg (kgenesis b p) h -> kstep cfg s op = (s', out) ->
  (stands s' v <-> stands s v) \/
  (stands s' v /\ exists x ct, op = KCall x (Signed ct) KValidate /\ controls s ct v) \/
  (~ stands s' v /\
    ((exists x ct, op = KCall x (Signed ct) KChill /\ controls s ct v) \/
     (dissolves cfg s v op /\ ~ bonded s' v) \/ reported op v)).
Proof. intros S -> H. exact (step_stands cfg _ _ _ _ v (run_linv cfg h _ S (genesis_linv b p)) H). Qed.
Print Assumptions C117_stands.
(** The payee of a stash is set by bonding and by its controller, and goes with the stake. *)
Theorem C117_payee cfg b p h s op s' out v :
  sane cfg (kgenesis b p) h -> s = krun cfg (kgenesis b p) h -> kstep cfg s op = (s', out) ->
  payee_at s' v <> payee_at s v ->
  exists x o c, op = KCall x o c /\
    ((exists ct val dest, o = Signed v /\ c = KBond ct val dest /\ payee_at s' v = Some dest) \/
     (exists ct dest, o = Signed ct /\ controls s ct v /\ c = KSetPayee dest /\ payee_at s' v = Some dest) \/
     (dissolves cfg s v op /\ ~ bonded s' v /\ payee_at s' v = None)).
Proof. intros S -> H. exact (step_payee cfg _ _ _ _ v (run_linv cfg h _ S (genesis_linv b p)) H). Qed.
Print Assumptions C117_payee.
(** A validator reported for an era of the span they are in stops to stand, unless a
    report for the same era that was at least as bad came before. *)
Theorem C117_kicked cfg s x a st ex reps f c session era s' out :
  kstep cfg s (KOffence x (a ++ (st, ex, reps, f) :: c) session) = (s', out) ->
  (forall o, o ∈ a -> o.1.1.1 <> st) -> st ∉ p_invul (k_par s) ->
  report_era s session = Some era -> in_current cfg s st era ->
  frac_mul f PERBILL (x_total ex) = 0 \/ last_fraction s st era < f ->
  ~ stands s' st.
Proof. exact (offence_kicks cfg x s a st ex reps f c session era s' out). Qed.
Print Assumptions C117_kicked.
(** A stash stands, is reported and no longer stands; another one is dissolved by Root. *)
Definition z117 : list kop := zsetup ++ zera 0 ++ zera 2.
Example C117_example :
  let s := krun zcfg zs0 z117 in
  let r := (kstep zcfg s (zoff 1 (500 * DPR) 100000000 2)).1 in
  let g := (kstep zcfg s (zroot (KForceUnstake 2 0))).1 in
  let c := (kstep zcfg s (zc 13 KChill)).1 in
  bool_decide (1 ∈ s_valid (k_stk s)) = true /\ bool_decide (1 ∈ s_valid (k_stk r)) = false /\
  payee_at r 1 = Some PStaked /\ bool_decide (2 ∈ s_valid (k_stk s)) = true /\
  bool_decide (2 ∈ s_valid (k_stk g)) = false /\ payee_at s 2 = Some PStash /\ payee_at g 2 = None /\
  bool_decide (3 ∈ s_valid (k_stk c)) = false.
Proof. vm_compute. repeat split; reflexivity. Qed.
Example C117_kicked_example :
  let s := krun zcfg zs0 z117 in
  in_current zcfg s 1 1 /\ report_era s 2 = Some 1 /\ last_fraction s 1 1 = 0 /\ p_invul (k_par s) = [].
Proof. vm_compute. repeat split; try reflexivity; discriminate. Qed.
Example C117_case : sane zcfg (kgenesis zbank zpars) z117. Proof. apply saneb_ok. vm_compute. reflexivity. Qed.

(** * C118: dissolving a stake takes the right to do it and the number of spans, and
    leaves nothing behind *)
(** Root dissolves a bonded stake if at least as many spans are named as there are. *)
Theorem C118_force cfg x s o st n :
  (exists s', kstep cfg s (KCall x o (KForceUnstake st n)) = (s', KDone [])) <->
  o = Root /\ bonded s st /\ span_count s st <= n.
Proof.
  cbn [kstep dispatch]. unfold root, quiet. rewrite <- (unstake_iff cfg x s st n).
  destruct o; cbn; try (split; [intros [? H]; discriminate|intros [? _]; discriminate]).
  split.
  - intros [s' H]. split; [auto|]. destruct (unstake cfg x s st n) as [s1|e|]; cbn in H; try discriminate. eauto.
  - intros [_ [s' ->]]. cbn. eauto.
Qed.
Print Assumptions C118_force.
(** So does anybody, once just the existential deposit is left on the account. *)
Theorem C118_reap cfg x s o st n :
  (exists s', kstep cfg s (KCall x o (KReap st n)) = (s', KDone [])) <->
  free (acct_of (k_bank s) st) + rsv (acct_of (k_bank s) st) = kc_ed cfg /\ bonded s st /\ span_count s st <= n.
Proof.
  cbn [kstep dispatch]. unfold quiet, ensure. rewrite <- (unstake_iff cfg x s st n).
  destruct (N.eqb_spec (free (acct_of (k_bank s) st) + rsv (acct_of (k_bank s) st)) (kc_ed cfg)); cbn.
  - split.
    + intros [s' H]. split; [auto|]. destruct (unstake cfg x s st n) as [s1|er|]; cbn in H; try discriminate. eauto.
    + intros [_ [s' ->]]. cbn. eauto.
  - split; [intros [? H]; discriminate|tauto].
Qed.
Print Assumptions C118_reap.
(** The controller dissolves it by a withdrawal when everything unlocking is due and
    the rest is at most the existential deposit; any other withdrawal keeps the bond. *)
Theorem C118_withdraw cfg b p h s x ct n l :
  sane cfg (kgenesis b p) h -> s = krun cfg (kgenesis b p) h ->
  s_ledger (k_stk s) !! ct = Some l ->
  let st := l_stash l in
  let s' := (kstep cfg s (KCall x (Signed ct) (KWithdraw n))).1 in
  let out := (kstep cfg s (KCall x (Signed ct) (KWithdraw n))).2 in
  (all_due s l /\ l_active l <= kc_ed cfg -> span_count s st <= n -> (exists ev, out = KDone ev) /\ cleared s' st) /\
  (all_due s l /\ l_active l <= kc_ed cfg -> n < span_count s st -> out = KFail KIncorrectSpans /\ s' = s) /\
  (~ (all_due s l /\ l_active l <= kc_ed cfg) -> (exists ev, out = KDone ev) /\ controls s' ct st).
Proof.
  intros S -> El. cbn zeta. cbn [kstep dispatch signed].
  pose proof (run_linv cfg h _ S (genesis_linv b p)) as I.
  destruct (withdraw_cases cfg x _ ct n l I El) as [A B]. split; [|split].
  - intros G L. specialize (A G). destruct (N.leb_spec (span_count (krun cfg (kgenesis b p) h) (l_stash l)) n); [|lia].
    destruct A as (s' & ev & -> & U). cbn. split; [eauto|]. eapply unstake_effect; eauto.
  - intros G L. specialize (A G). destruct (N.leb_spec (span_count (krun cfg (kgenesis b p) h) (l_stash l)) n); [lia|].
    rewrite A. auto.
  - intros G. destruct (B G) as (s' & ev & -> & U). cbn. split; [eauto|]. exact U.
Qed.
Print Assumptions C118_withdraw.
(** Whichever call dissolves a stake: bond, ledger, payee, standing, lock, spans and
    their records are gone, and everything stored for any other stash is as before. *)
Theorem C118_effect cfg b p h s op s' out st :
  sane cfg (kgenesis b p) h -> s = krun cfg (kgenesis b p) h -> kstep cfg s op = (s', out) ->
  bonded s st -> ~ bonded s' st ->
  dissolves cfg s st op /\ cleared s' st /\ span_count s' st = 0 /\
  (forall sp q, s_spans (k_stk s) !! st = Some sp -> q ∈ spans_iter sp -> s_rec (k_stk s') !! (st, sn_index q) = None) /\
  (forall st', st' <> st -> untouched s s' st').
Proof.
  intros S -> H B Nb. pose proof (run_linv cfg h _ S (genesis_linv b p)) as I.
  set (s0 := krun cfg (kgenesis b p) h) in *.
  assert (U : forall x n, unstake cfg x s0 st n = ROk s' ->
    cleared s' st /\ span_count s' st = 0 /\
    (forall sp q, s_spans (k_stk s0) !! st = Some sp -> q ∈ spans_iter sp -> s_rec (k_stk s') !! (st, sn_index q) = None) /\
    (forall st', st' <> st -> untouched s0 s' st')).
  { intros x n E. destruct (unstake_effect cfg x s0 st n s' I E) as (A1 & A2 & A3 & A4). unfold span_count. rewrite A2. auto. }
  assert (P : payee_at s' st <> payee_at s0 st).
  { destruct (run_standing cfg h _ S (genesis_linv b p) (genesis_standing b p)) as [_ P]. fold s0 in P.
    pose proof (step_standing cfg _ _ _ _ I H (run_standing cfg h _ S (genesis_linv b p) (genesis_standing b p))) as [_ Q].
    unfold payee_at. intros E. apply Nb. apply Q. rewrite E. apply P, B. }
  destruct (step_payee cfg _ _ _ _ st I H P) as (x & o & c & -> & [(ct & val & dest & -> & -> & E)|[(ct & dest & -> & Ct & -> & E)|(D & _ & _)]]).
  - exfalso. pose proof (step_standing cfg _ _ _ _ I H (run_standing cfg h _ S (genesis_linv b p) (genesis_standing b p))) as [_ Q].
    apply Nb, Q. unfold payee_at in E. rewrite E. eauto.
  - exfalso. pose proof (step_standing cfg _ _ _ _ I H (run_standing cfg h _ S (genesis_linv b p) (genesis_standing b p))) as [_ Q].
    apply Nb, Q. unfold payee_at in E. rewrite E. eauto.
  - split; [exact D|].
    destruct D as (x0 & o0 & c0 & n & [= <- <- <-] & _ & Sn & [(-> & ct & -> & Ct)|[(-> & ->)|(-> & F)]]); cbn [kstep dispatch] in H.
    + cbn [signed] in H. destruct (li_bonded _ I _ _ Ct) as (l & El & <-). cbn in El.
      destruct (withdraw_cases cfg x s0 ct n l I El) as [A Q].
      destruct (N.leb_spec (span_count s0 (l_stash l)) n) as [_|?]; [|lia].
      assert (Dc : {all_due s0 l /\ l_active l <= kc_ed cfg} + {~ (all_due s0 l /\ l_active l <= kc_ed cfg)}).
      { unfold all_due. destruct (decide (l_active l <= kc_ed cfg)); [|right; tauto].
        destruct (decide (l_unl l = [])); [left; auto|].
        destruct (e_cur (k_era s0)) as [e|]; [|right; intros [[?|(? & ? & _)] _]; [tauto|discriminate]].
        destruct (decide (Forall (fun ch => c_era ch <= e) (l_unl l))) as [F|F].
        - left. split; [|auto]. right. exists e. split; [auto|]. now apply Forall_forall.
        - right. intros [[?|(? & [= <-] & G)] _]; [tauto|]. apply F. now apply Forall_forall. }
      destruct Dc as [G|G].
      * destruct (A G) as (s1 & ev & E & E2). rewrite E in H. cbn in H. injection H as <- _. eapply U; eauto.
      * destruct (Q G) as (s1 & ev & E & E2). rewrite E in H. cbn in H. injection H as <- _. exfalso. apply Nb. unfold bonded. eauto.
    + unfold root, quiet in H. destruct (unstake cfg x s0 st n) as [s1|er|] eqn:E; cbn in H; injection H as <- <-; [eauto|tauto|tauto].
    + unfold quiet, ensure in H. destruct (_ =? _); cbn in H; [|injection H as <- <-; tauto].
      destruct (unstake cfg x s0 st n) as [s1|er|] eqn:E; cbn in H; injection H as <- <-; [eauto|tauto|tauto].
Qed.
Print Assumptions C118_effect.
(** After two offences three spans are stored for the first stash: naming two is
    refused, naming three dissolves the stake. *)
Example C118_example :
  let r := kstep zcfg zs (zroot (KForceUnstake 1 2)) in
  let g := kstep zcfg zs (zroot (KForceUnstake 1 3)) in
  span_count zs 1 = 3 /\ r.2 = KFail KIncorrectSpans /\ g.2 = KDone [] /\
  s_bonded (k_stk g.1) !! 1 = None /\ s_ledger (k_stk g.1) !! 11 = None /\ s_lock (k_stk g.1) !! 1 = None /\
  s_bonded (k_stk g.1) !! 3 = Some 13.
Proof. vm_compute. repeat split; reflexivity. Qed.
(** A controller unbonds everything, waits, and withdraws. *)
Definition z118 : list kop :=
  zsetup ++ zera 0 ++ [zc 13 (KUnbond (400 * DPR))] ++ zera 2 ++ zera 4 ++ zera 6.
Example C118_case :
  sane zcfg (kgenesis zbank zpars) z118 /\
  let g := kstep zcfg (krun zcfg zs0 z118) (zc 13 (KWithdraw 0)) in
  g.2 = KDone [KWithdrawn 3 (400 * DPR)] /\ stake_of g.1 3 = None /\ payee_at g.1 3 = None.
Proof. split; [apply saneb_ok; vm_compute; reflexivity|]. vm_compute. repeat split; reflexivity. Qed.

(** * C119: delegations go to validators, by the delegator's wish *)
(** Exactly these delegations are accepted, and the choice is recorded. *)
Theorem C119_iff cfg x s d vs :
  (exists s', kstep cfg s (KCall x (Signed d) (KDelegate vs)) = (s', KDone [])) <->
  ~ stands s d /\ vs <> [] /\ N.of_nat (size (list_to_set vs : gset N)) <= kc_maxdel cfg /\
  (forall v, v ∈ vs -> stands s v) /\ kx_pass x d = true.
Proof.
  rewrite <- delegate_iff. cbn [kstep dispatch signed]. unfold with_del.
  destruct (delegate cfg x s d vs) as [k|e|]; cbn; split; intros [? H]; try discriminate; eauto.
Qed.
Print Assumptions C119_iff.
Theorem C119_effect cfg x s d vs s' ev :
  kstep cfg s (KCall x (Signed d) (KDelegate vs)) = (s', KDone ev) ->
  chosen s' d = Some vs /\ delegating s' d /\ k_stk s' = k_stk s /\ k_bank s' = k_bank s /\
  forall d', d' <> d -> d_recs (k_del s') !! d' = d_recs (k_del s) !! d'.
Proof.
  cbn [kstep dispatch signed]. unfold with_del. destruct (delegate cfg x s d vs) as [k|e|] eqn:E; cbn; intros [= <- _].
  unfold delegate in E. repeat match type of E with rbind (ensure _ _) _ = _ => inv_bind E end.
  apply do_delegate_rec in E as [_ E]. unfold chosen, delegating. cbn. rewrite E, lookup_insert.
  split; [auto|]. split; [eauto|]. split; [auto|]. split; [auto|]. intros d' Hn. rewrite lookup_insert_ne by congruence; auto.
Qed.
Print Assumptions C119_effect.
(** In any step: what an account delegates to changes only by vanishing, or by a call
    they or a credit administrator made, and then to accounts that stand. Nor does
    anybody start to delegate without such a call. *)
Theorem C119_chosen cfg s op s' out d :
  kstep cfg s op = (s', out) ->
  chosen s' d <> chosen s d \/ (delegating s' d /\ ~ delegating s d) ->
  chosen s' d = None \/
  (may_delegate d op /\ exists vs, chosen s' d = Some vs /\ vs <> [] /\ forall v, v ∈ vs -> stands s v).
Proof.
  intros H N. destruct (step_choice cfg _ _ _ _ d H) as [F|R]; [|right; exact R].
  unfold chosen in *. destruct (d_recs (k_del s') !! d) as [r'|] eqn:E; [|left; reflexivity].
  exfalso. destruct (F _ eq_refl) as (r & Er & V & O). destruct N as [N|[(r1 & E1 & O1) N]].
  - apply N. rewrite Er. cbn. congruence.
  - apply N. exists r. split; [auto|]. apply O. congruence.
Qed.
Print Assumptions C119_chosen.
Example C119_example :
  let s := krun zcfg zs0 zsetup in
  let a := kstep zcfg s (zc 50 (KDelegate [2; 2])) in
  (kstep zcfg s (zc 50 (KDelegate []))).2 = KFail KNoValidators /\
  (kstep zcfg s (zc 50 (KDelegate [9]))).2 = KFail KNotValidator /\
  (kstep zcfg s (zc 50 (KDelegate [1; 2]))).2 = KFail KTooMany /\
  (kstep zcfg s (zc 1 (KDelegate [2]))).2 = KFail KCallNotAllowed /\
  a.2 = KDone [] /\ chosen a.1 50 = Some [2; 2] /\ chosen s 50 = None.
Proof. vm_compute. repeat split; reflexivity. Qed.

(** * C120: nobody is a validator and a delegator at once *)
Definition C120_claim : Prop := forall cfg b p h s d,
  sane cfg (kgenesis b p) h -> s = krun cfg (kgenesis b p) h -> delegating s d -> stands s d -> False.
(** False: delegate refuses validators, but validate does not refuse delegators. *)
Definition z120 : list kop :=
  [zc 1 (KBond 11 (500 * DPR) PStaked); zc 11 KValidate; zc 2 (KBond 12 (300 * DPR) PStash);
   zc 2 (KDelegate [1]); zc 12 KValidate].
Theorem C120_refuted : ~ C120_claim.
Proof.
  intros H. refine (H zcfg zbank zpars z120 (krun zcfg zs0 z120) 2 _ eq_refl _ _).
  - apply saneb_ok. vm_compute. reflexivity.
  - exists (DRec [1] (Some 0) true). vm_compute. auto.
  - apply (bool_decide_eq_true_1 (2 ∈ s_valid (k_stk (krun zcfg zs0 z120)))). vm_compute. reflexivity.
Qed.
Print Assumptions C120_refuted.
(** What holds: nobody who stands starts to delegate by delegate. *)
Theorem C120_partial cfg x s d vs s' out :
  kstep cfg s (KCall x (Signed d) (KDelegate vs)) = (s', out) -> stands s d -> s' = s /\ out = KFail KCallNotAllowed.
Proof.
  cbn [kstep dispatch signed]. unfold with_del, delegate, ensure, stands. intros H G.
  rewrite bool_decide_eq_true_2 in H by auto. cbn in H. now injection H as <- <-.
Qed.
Print Assumptions C120_partial.
Example C120_example :
  (kstep zcfg (krun zcfg zs0 zsetup) (zc 1 (KDelegate [2]))).2 = KFail KCallNotAllowed /\
  bool_decide (1 ∈ s_valid (k_stk (krun zcfg zs0 zsetup))) = true.
Proof. vm_compute. auto. Qed.
