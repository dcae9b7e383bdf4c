(** Staking pallet, eighth part: getting a stake back: property C173. *)
From Verif Require Import Base Balances Model_StakingLedger Model_Staking Spec_Staking Spec_Staking2 Spec_Staking3 Spec_Staking5
  Proofs_Arith Proofs_StakingLedger Proofs_Staking Proofs_Staking2 Proofs_Staking3 Proofs_Staking4 Proofs_Staking15 Proofs_Staking20
  Proofs_Staking21 Proofs_Staking25 Proofs_Staking27 Props_Staking Props_Staking3.
From stdpp Require Import gmap.
Open Scope N_scope.

(** * C173: a stake can be had back *)
(** The two calls with which a controller leaves: rewards no longer go to the stake,
    and everything active is unbonded. *)
Definition leave_with (x : kctx) (ct v : N) (dest : payee) : list kop :=
  [KCall x (Signed ct) (KSetPayee dest); KCall x (Signed ct) (KUnbond v)].

Lemma cleared_unbonded cfg b p h st :
  sane cfg (kgenesis b p) h -> ~ bonded (krun cfg (kgenesis b p) h) st -> cleared (krun cfg (kgenesis b p) h) st.
Proof.
  intros S Nb. pose proof (run_linv cfg h _ S (genesis_linv b p)) as I.
  destruct (run_standing cfg h _ S (genesis_linv b p) (genesis_standing b p)) as [P1 P2].
  set (s := krun cfg (kgenesis b p) h) in *. clearbody s. unfold bonded in *.
  assert (E : s_bonded (k_stk s) !! st = None) by (destruct (s_bonded (k_stk s) !! st); [destruct Nb; eauto|auto]).
  split; [exact E|]. split; [unfold stake_of; now rewrite E|].
  split; [|split].
  - unfold payee_at. destruct (s_payee (k_stk s) !! st) eqn:Ep; [|auto]. destruct Nb. apply P2. rewrite Ep. eauto.
  - intros Hs. apply Nb, P1, Hs.
  - destruct (s_lock (k_stk s) !! st) as [v|] eqn:El; [|auto]. destruct Nb. exact (proj2 (li_held _ I _ _ El)).
Qed.
Lemma due_free e l : free_by e l -> due e l = unlocking l.
Proof.
  unfold due, unlocking, free_by. induction (l_unl l) as [|c r IH]; intros F; [reflexivity|]. cbn.
  destruct (N.leb_spec (c_era c) e) as [_|Hx]; [|specialize (F c ltac:(left)); lia]. cbn. f_equal. apply IH. intros ch Hch. apply F. now right.
Qed.

(** In every state, a controller with fewer than 32 unlocking chunks can make these two
    calls; and if then neither the stash nor the controller does anything until the bonding
    duration has passed, the stake is dissolved already (by Root, or by somebody after
    the account was emptied), or one withdrawal dissolves it, removes the lock and pays
    out everything that was not slashed in the meantime, whatever else happens. *)
Theorem C173_leave_partial cfg b p h x ct v dest h2 x2 n st l e :
  let s := krun cfg (kgenesis b p) h in
  let s1 := krun cfg s (leave_with x ct v dest) in
  let s2 := krun cfg s1 h2 in
  sane cfg (kgenesis b p) (h ++ leave_with x ct v dest ++ h2) ->
  controls s ct st -> stake_of s st = Some l -> (length (l_unl l) < 32)%nat -> l_active l <= v -> dest <> PStaked ->
  Forall accepted (kouts cfg s (leave_with x ct v dest)) /\
  (Forall (away st ct) h2 -> e_cur (k_era s2) = Some e -> cur_era s + kc_bonding cfg <= e -> span_count s2 st <= n ->
   cleared s2 st \/
   exists s3 ev, kstep cfg s2 (KCall x2 (Signed ct) (KWithdraw n)) = (s3, KDone ev) /\
     cleared s3 st /\ frz (acct_of (k_bank s3) st) <= kx_other x2 st /\
     lsum (map (withdrawn_ev st) ev) + slashed_over cfg st s1 h2 = l_total l).
Proof.
  intros s s1 s2 Sn C E Hl Hv Hd.
  pose proof (sane_app cfg _ _ _ Sn) as [S0 S']. fold s in S'. pose proof (sane_app cfg _ _ _ S') as [S1 S2]. fold s1 in S2.
  pose proof (run_linv cfg h _ S0 (genesis_linv b p)) as I. fold s in I.
  pose proof (run_qinv cfg h _ S0 (genesis_linv b p) (genesis_qinv b p)) as Q. fold s in Q.
  pose proof (run_timely cfg h _ S0 (genesis_linv b p) (genesis_timely cfg b p)) as T. fold s in T.
  destruct (leave_calls cfg x s ct st l v dest I C E Hl Hv) as (A & C1 & Y1 & Er & l1 & E1 & T1 & Z1 & W1).
  change (krun cfg s _) with s1 in C1, Y1, Er, E1. split; [exact A|]. intros Aw Ec Le Ln.
  pose proof (run_linv cfg _ _ S1 I) as I1. pose proof (run_qinv cfg _ _ S1 I Q) as Q1. fold s1 in I1, Q1.
  destruct (run_away cfg st ct h2 s1 l1 S2 I1 Q1 Aw C1 E1) as [Nb|(C2 & Y2 & l2 & E2 & W2 & X2)].
  { left. assert (Es : s2 = krun cfg (kgenesis b p) (h ++ leave_with x ct v dest ++ h2)) by (subst s2 s1 s; now rewrite !krun_app).
    rewrite Es. apply cleared_unbonded; [exact Sn|]. rewrite <- Es. exact Nb. }
  fold s2 in C2, Y2, E2. rewrite Y1 in X2. cbn [default] in X2. destruct (X2 Hd) as [G1 G2]. clear X2.
  right. pose proof (run_linv cfg _ _ S2 I1) as I2. fold s2 in I2.
  destruct (stakev_some _ st l2 I2 E2) as (c & Hb & Hc & Hst). cbn in Hb, Hc.
  assert (c = ct) as -> by (unfold controls in C2; congruence).
  assert (F2 : free_by e l2).
  { eapply within_free; [exact W2|]. intros ch Hch. destruct (W1 ch Hch) as [Ho|Ho].
    - destruct (stakev_some _ st l I E) as (c0 & _ & Hc0 & _). specialize (T _ _ Hc0 ch Ho). lia.
    - rewrite Ho. pose proof (sane_fits _ _ _ S0) as (_ & _ & Fe & _). fold s in Fe. rewrite add32_exact by lia. lia. }
  assert (D : all_due s2 l2 /\ l_active l2 <= kc_ed cfg) by (split; [right; eauto|lia]).
  pose proof (Proofs_Staking21.withdraw_cases cfg x2 s2 ct n l2 I2 Hc) as [K _]. specialize (K D). rewrite Hst in K.
  destruct (N.leb_spec (span_count s2 st) n) as [_|]; [|lia]. destruct K as (s3 & ev & K1 & K2).
  exists s3, ev. cbn [kstep dispatch signed]. rewrite K1. split; [reflexivity|].
  split; [apply (unstake_effect cfg x2 s2 st n s3 I2 K2)|]. split; [eapply unstake_frz; eauto|].
  apply (Proofs_Staking3.withdraw_cases cfg x2 s2 ct n s3 ev) in K1 as (l0 & l0' & H0 & _ & Ev & _); [|exact I2].
  rewrite Ev. assert (l0 = l2) as -> by congruence. rewrite Hst, N.eqb_refl, Ec, (due_free _ _ F2).
  pose proof (li_sound _ I2 _ _ Hc) as So. unfold sound in So. lia.
Qed.
Print Assumptions C173_leave_partial.
(** A controller with 32 unlocking chunks only has to wait: after the bonding duration one
    withdrawal leaves no chunk behind. *)
Theorem C173_room_partial cfg b p h h2 x2 n ct st l e :
  let s := krun cfg (kgenesis b p) h in
  let s2 := krun cfg s h2 in
  sane cfg (kgenesis b p) (h ++ h2) ->
  controls s ct st -> stake_of s st = Some l -> Forall (away st ct) h2 ->
  e_cur (k_era s2) = Some e -> cur_era s + kc_bonding cfg <= e -> span_count s2 st <= n ->
  cleared s2 st \/
  exists s3 ev, kstep cfg s2 (KCall x2 (Signed ct) (KWithdraw n)) = (s3, KDone ev) /\
    (cleared s3 st \/ controls s3 ct st /\ exists l3, stake_of s3 st = Some l3 /\ l_unl l3 = []).
Proof.
  intros s s2 Sn C E Aw Ec Le Ln. pose proof (sane_app cfg _ _ _ Sn) as [S0 S2]. fold s in S2.
  pose proof (run_linv cfg h _ S0 (genesis_linv b p)) as I. fold s in I.
  pose proof (run_qinv cfg h _ S0 (genesis_linv b p) (genesis_qinv b p)) as Q. fold s in Q.
  pose proof (run_timely cfg h _ S0 (genesis_linv b p) (genesis_timely cfg b p)) as T. fold s in T.
  destruct (run_away cfg st ct h2 s l S2 I Q Aw C E) as [Nb|(C2 & Y2 & l2 & E2 & W2 & _)].
  { left. assert (Es : s2 = krun cfg (kgenesis b p) (h ++ h2)) by (subst s2 s; now rewrite krun_app).
    rewrite Es. apply cleared_unbonded; [exact Sn|]. rewrite <- Es. exact Nb. }
  fold s2 in C2, Y2, E2. right. pose proof (run_linv cfg _ _ S2 I) as I2. fold s2 in I2.
  destruct (stakev_some _ st l2 I2 E2) as (c & Hb & Hc & Hst). cbn in Hb, Hc.
  assert (c = ct) as -> by (unfold controls in C2; congruence).
  assert (F2 : free_by e l2).
  { eapply within_free; [exact W2|]. intros ch Hch. destruct (stakev_some _ st l I E) as (c0 & _ & Hc0 & _).
    specialize (T _ _ Hc0 ch Hch). lia. }
  pose proof (Proofs_Staking21.withdraw_cases cfg x2 s2 ct n l2 I2 Hc) as [K1 K2]. rewrite Hst in K1, K2.
  destruct (decide (l_active l2 <= kc_ed cfg)) as [La|La].
  - assert (D : all_due s2 l2 /\ l_active l2 <= kc_ed cfg) by (split; [right; eauto|lia]). specialize (K1 D).
    destruct (N.leb_spec (span_count s2 st) n) as [_|]; [|lia]. destruct K1 as (s3 & ev & K1 & K3).
    exists s3, ev. cbn [kstep dispatch signed]. rewrite K1. split; [reflexivity|]. left. apply (unstake_effect cfg x2 s2 st n s3 I2 K3).
  - destruct K2 as (s3 & ev & K1' & K3); [tauto|]. exists s3, ev. cbn [kstep dispatch signed]. rewrite K1'. split; [reflexivity|].
    right. split; [exact K3|].
    unfold withdraw_unbonded in K1'. rewrite Hc, Ec in K1'. cbn zeta in K1'.
    assert (Ln0 : l_unl (consolidate e l2) = []). { apply consolidate_nil. exact F2. }
    replace (l_active (consolidate e l2)) with (l_active l2) in K1' by reflexivity.
    destruct (N.leb_spec (l_active l2) (kc_ed cfg)) as [|_]; [lia|]. rewrite andb_false_r in K1'. injection K1' as <- _.
    exists (consolidate e l2). split; [|exact Ln0].
    pose proof (view_update cfg x2 s2 ct (consolidate e l2)) as V.
    match goal with |- stake_of ?t st = _ => change (stake_of t st) with (stakev (view t) st) end.
    rewrite V. unfold stakev. cbn [v_bonded v_ledger]. unfold controls in C2. now rewrite C2, lookup_insert.
Qed.
Print Assumptions C173_room_partial.
(** The claim as stated: a controller may begin to leave at any time. *)
Definition C173_claim : Prop := forall cfg b p h x ct v dest st l,
  let s := krun cfg (kgenesis b p) h in
  sane cfg (kgenesis b p) (h ++ leave_with x ct v dest) ->
  controls s ct st -> stake_of s st = Some l -> l_active l <= v -> dest <> PStaked ->
  Forall accepted (kouts cfg s (leave_with x ct v dest)).
(** False: after 32 small unbondings the next is refused until the first one is due. *)
Definition z173 : list kop := zsetup ++ repeat (zc 11 (KUnbond DPR)) 32.
Theorem C173_refuted : ~ C173_claim.
Proof.
  intros H.
  specialize (H zcfg zbank zpars z173 zx 11 (500 * DPR) PStash 1 (Ledger 1 (500 * DPR) (468 * DPR) (repeat (Chunk DPR 3) 32))
    ltac:(apply saneb_ok; vm_compute; reflexivity) ltac:(vm_compute; reflexivity) ltac:(vm_compute; reflexivity)
    ltac:(vm_compute; discriminate) ltac:(discriminate)).
  apply Forall_cons in H as [_ H]. apply Forall_cons in H as [[ev H] _]. revert H. vm_compute. discriminate.
Qed.
Print Assumptions C173_refuted.
(** The first stash leaves in era 0; a report in era 1 slashes it; three eras later it
    withdraws the rest, naming its two slashing spans. *)
Definition z173b : list kop := zsetup ++ zera 0.
Definition z173c : list kop :=
  [zc 13 (KUnbond (4 * DPR))] ++ zera 2 ++ [zoff 1 (500 * DPR) 100000000 2; KBank (k_bank (krun zcfg zs0 z173b))] ++ zera 4 ++ zera 6.
Example C173_example :
  let s := krun zcfg zs0 z173b in
  let s1 := krun zcfg s (leave_with zx 11 (500 * DPR) PStash) in
  let s2 := krun zcfg s1 z173c in
  sane zcfg zs0 (z173b ++ leave_with zx 11 (500 * DPR) PStash ++ z173c) /\
  controls s 11 1 /\ stake_of s 1 = Some (Ledger 1 (500 * DPR) (500 * DPR) []) /\
  Forall (away 1 11) z173c /\ e_cur (k_era s2) = Some 3 /\ cur_era s + kc_bonding zcfg = 3 /\ span_count s2 1 = 2 /\
  slashed_over zcfg 1 s1 z173c = 50 * DPR /\
  (kstep zcfg s2 (zc 11 (KWithdraw 2))).2 = KDone [KWithdrawn 1 (450 * DPR)] /\
  (kstep zcfg s2 (zc 11 (KWithdraw 1))).2 = KFail KIncorrectSpans.
Proof.
  split; [apply saneb_ok; vm_compute; reflexivity|]. split; [vm_compute; reflexivity|]. split; [vm_compute; reflexivity|].
  split; [repeat constructor; discriminate|]. vm_compute. repeat split; reflexivity.
Qed.
(** With 32 chunks, after the bonding duration, one withdrawal leaves just the active part. *)
Definition z173d : list kop := zera 0 ++ zera 2 ++ [zc 13 (KUnbond (4 * DPR))] ++ zera 4 ++ zera 6.
Example C173_room_example :
  let s := krun zcfg zs0 z173 in
  let s2 := krun zcfg s z173d in
  sane zcfg zs0 (z173 ++ z173d) /\ controls s 11 1 /\ (length <$> (l_unl <$> stake_of s 1)) = Some 32%nat /\
  Forall (away 1 11) z173d /\ e_cur (k_era s2) = Some 3 /\ cur_era s + kc_bonding zcfg = 3 /\ span_count s2 1 = 0 /\
  (kstep zcfg s2 (zc 11 (KWithdraw 0))).2 = KDone [KWithdrawn 1 (32 * DPR)] /\
  stake_of (kstep zcfg s2 (zc 11 (KWithdraw 0))).1 1 = Some (Ledger 1 (468 * DPR) (468 * DPR) []).
Proof.
  split; [apply saneb_ok; vm_compute; reflexivity|]. split; [vm_compute; reflexivity|]. split; [vm_compute; reflexivity|].
  split; [repeat constructor; discriminate|]. vm_compute. repeat split; reflexivity.
Qed.
