(** Staking pallet: reports withdrawn before they take effect: property C202. *)
From Verif Require Import Base Balances Model_StakingLedger Model_Staking Spec_Staking Spec_Cancelled Proofs_Cancelled Props_Staking.
From stdpp Require Import gmap.
Open Scope N_scope.

(** * C202: a cancelled slash leaves no trace *)
(** Where slashes are deferred, a report by itself takes nothing: it only adds slashes of the
    validators reported to what waits since the active era. *)
Theorem C202_report cfg s x os i act b s' out :
  kc_defer cfg <> 0 -> e_act (k_era s) = Some (act, b) -> kstep cfg s (KOffence x os i) = (s', out) ->
  same_goods s s' /\ exists new,
    (forall u, u ∈ new -> exists ex reps frac, (u_val u, ex, reps, frac) ∈ os) /\
    forall e, waiting s' e = waiting s e ++ (if e =? act then new else []).
Proof.
  intros Df Ea H. cbn [kstep] in H. destruct (on_offence cfg x s os i) as [s1 ev] eqn:E. injection H as <- _.
  destruct (report_goods cfg Df x s os i act b s1 ev Ea E) as [G (new & F & A)]. split; [exact G|]. exists new. split; [|exact A].
  intros u Hu. rewrite Forall_forall in F. specialize (F u Hu). apply elem_of_list_fmap in F as ([[[st ex] reps] fr] & Es & Hin).
  cbn in Es. subst st. eauto.
Qed.
Print Assumptions C202_report.
(** Full statement: if Root cancels the slashes a report has added, everything goes on as if
    there had been no report. As to money, stakes, locks, delegations and what waits to be
    slashed the state is the one before. Missing: the validator does not stand any more, and
    its record of slashes keeps what was cancelled, see below. *)
Theorem C202_partial cfg s x os i act b x' s1 o1 s2 o2 :
  kc_defer cfg <> 0 -> e_act (k_era s) = Some (act, b) -> kstep cfg s (KOffence x os i) = (s1, o1) ->
  let n := length (waiting s act) in
  let k := (length (waiting s1 act) - n)%nat in
  (0 < k)%nat -> N.of_nat (length (waiting s1 act)) <= 2 ^ 32 ->
  kstep cfg s1 (KCall x' Root (KCancel act (numbers (N.of_nat n) k))) = (s2, o2) ->
  (exists ev, o2 = KDone ev) /\ same_goods s s2 /\ forall e, waiting s2 e = waiting s e.
Proof.
  intros Df Ea H1 n k Hk Hl H2. destruct (C202_report _ _ _ _ _ _ _ _ _ Df Ea H1) as [G (new & _ & A)].
  pose proof (A act) as Aa. rewrite N.eqb_refl in Aa.
  assert (Ek : k = length new) by (subst k n; rewrite Aa, app_length; lia).
  assert (Hi : forall j, j ∈ numbers (N.of_nat n) k <-> N.of_nat n <= j /\ j < N.of_nat n + N.of_nat k) by (intros; apply numbers_in).
  assert (Hn : (n + k)%nat = length (waiting s1 act)) by (rewrite Aa, app_length, Ek; reflexivity).
  assert (Ty : Forall (fun j => j < two32) (numbers (N.of_nat n) k)).
  { apply Forall_forall. intros j Hj. apply Hi in Hj. change two32 with (2 ^ 32). lia. }
  destruct (C59_cancel cfg s1 x' Root act _ s2 o2 Ty H2) as (_ & B & C & _). fold (waiting s1 act) in B, C.
  assert (O : exists ev, o2 = KDone ev).
  { apply B. split; [reflexivity|]. split; [destruct k; [lia|discriminate]|]. split; [apply numbers_ascending|].
    intros j Hj. apply Hi in Hj. lia. }
  split; [exact O|]. destruct O as [ev O]. destruct (C ev O) as [_ ->].
  assert (W : without 0 (numbers (N.of_nat n) k) (waiting s1 act) = waiting s act).
  { rewrite Aa, without_some by (intros j Hj; apply Hi in Hj; fold n; lia).
    rewrite without_all; [apply app_nil_r|]. intros j J1 J2. apply Hi. fold n in J1, J2. lia. }
  rewrite W. split.
  - destruct G as (G1 & G2 & G3 & G4 & G5 & G6). repeat split; cbn; assumption.
  - intros e. destruct (decide (e = act)) as [->|N].
    + unfold waiting at 1. cbn. now rewrite lookup_insert.
    + unfold waiting at 1. cbn. rewrite lookup_insert_ne by auto. fold (waiting s1 e). rewrite A.
      destruct (N.eqb_spec e act); [contradiction|]. apply app_nil_r.
Qed.
Print Assumptions C202_partial.

(** Validators 1 and 2 are reported after validator 3, and the two are let off. *)
Definition y202 : list kop := zsetup ++ zera 0 ++ zera 2 ++ [zoff 3 (400 * DPR) 300000000 2].
Definition y202os : list (N * expo * list N * N) :=
  [(1, Expo (500 * DPR) (500 * DPR) [], [5], 100000000); (2, Expo (300 * DPR) (300 * DPR) [], [5], 200000000)].
Example C202_example :
  let s := krun zcfg zs0 y202 in
  let s1 := (kstep zcfg s (KOffence zx y202os 2)).1 in
  let s2 := (kstep zcfg s1 (zroot (KCancel 1 (numbers 1 2)))).1 in
  kc_defer zcfg <> 0 /\ e_act (k_era s) = Some (1, true) /\
  map u_val (waiting s 1) = [3] /\ map u_val (waiting s1 1) = [3; 1; 2] /\ map u_own (waiting s1 1) = [120 * DPR; 50 * DPR; 60 * DPR] /\
  map u_val (waiting s2 1) = [3].
Proof. cbv zeta. split; [discriminate|]. repeat match goal with |- _ /\ _ => split end; vm_compute; reflexivity. Qed.

(** A report that was cancelled is not forgotten. Validator 1 is reported by mistake and let
    off: it does not stand any more. It is reported for the same part of its stake in
    the same era again, now with reason: nothing is to be slashed, though without the
    first report it would lose 50 DPR of its stake. *)
Theorem C202_refuted :
  exists cfg s x os i act b st,
    let report := KOffence x os i in
    let cancel n := KCall x Root (KCancel act (numbers n 1)) in
    let s2 := krun cfg s [report; cancel 0] in
    kc_defer cfg <> 0 /\ e_act (k_era s) = Some (act, b) /\ (forall e, waiting s e = []) /\ same_goods s s2 /\
    (forall e, waiting s2 e = []) /\
    st ∈ s_valid (k_stk s) /\ ~ st ∈ s_valid (k_stk s2) /\
    map u_own (waiting (krun cfg s [report]) act) = [50 * DPR] /\
    map u_own (waiting (krun cfg s2 [report]) act) = [].
Proof.
  exists zcfg, (krun zcfg zs0 (zsetup ++ zera 0 ++ zera 2)), zx, [(1, Expo (500 * DPR) (500 * DPR) [], [5], 100000000)], 2, 1, true, 1.
  cbv zeta.
  split; [discriminate|]. split; [vm_compute; reflexivity|].
  assert (E : s_unapp (k_stk (krun zcfg zs0 (zsetup ++ zera 0 ++ zera 2))) = ∅) by (vm_compute; reflexivity).
  assert (W : forall e, waiting (krun zcfg zs0 (zsetup ++ zera 0 ++ zera 2)) e = []) by (intros e; unfold waiting; rewrite E, lookup_empty; reflexivity).
  split; [exact W|].
  match goal with |- same_goods ?s (krun _ ?s [KOffence ?y ?os ?i; ?c]) /\ _ =>
    let r := constr:(KOffence y os i) in
    destruct (C202_partial zcfg s zx os 2 1 true zx (kstep zcfg s r).1 (kstep zcfg s r).2 (kstep zcfg (kstep zcfg s r).1 c).1 (kstep zcfg (kstep zcfg s r).1 c).2)
      as (_ & G & W2); [discriminate|vm_compute; reflexivity|apply surjective_pairing|vm_compute; repeat constructor|vm_compute; discriminate| |]
  end.
  { match goal with |- context [numbers ?n ?k] => replace n with 0 by (vm_compute; reflexivity); replace k with 1%nat by (vm_compute; reflexivity) end.
    apply surjective_pairing. }
  split; [exact G|]. split; [intros e; etransitivity; [exact (W2 e)|exact (W e)]|].
  split; [apply (bool_decide_unpack _); vm_compute; exact I|]. split; [intros H; apply (bool_decide_pack _) in H; vm_compute in H; exact H|].
  split; vm_compute; reflexivity.
Qed.
Print Assumptions C202_refuted.
