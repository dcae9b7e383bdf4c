(** Staking pallet: validators that are not to be slashed: property C204. *)
From Verif Require Import Base Balances Model_StakingLedger Model_Staking Spec_Staking Spec_Staking2 Spec_Staking5 Spec_Invulnerable.
From Verif Require Import Proofs_Staking2 Proofs_Staking5 Proofs_Staking15 Proofs_Invulnerable Props_Staking.
From stdpp Require Import gmap.
Open Scope N_scope.

(** * C204: invulnerable validators are not slashed *)
(** A report of an invulnerable validator, possibly together with others, neither takes
    anything from its stake nor announces that something will be taken; the validator goes on
    standing, and its record of slashes is as before. *)
Theorem C204_report cfg b p h s x os i s' ev st :
  sane cfg (kgenesis b p) h -> s = krun cfg (kgenesis b p) h -> st ∈ p_invul (k_par s) ->
  kstep cfg s (KOffence x os i) = (s', KDone ev) ->
  stake_of s' st = stake_of s st /\ slash_sum st ev = 0 /\
  (forall e, against st (pending s' e) = against st (pending s e)) /\
  (st ∈ s_valid (k_stk s') <-> st ∈ s_valid (k_stk s)) /\
  s_spans (k_stk s') !! st = s_spans (k_stk s) !! st /\
  p_invul (k_par s') = p_invul (k_par s).
Proof.
  intros S -> Hi H. cbn [kstep] in H. destruct (on_offence cfg x _ os i) as [s1 e1] eqn:E. cbn in H. injection H as <- <-.
  pose proof (run_linv cfg h _ S (genesis_linv b p)) as I.
  destruct (offence_spared cfg st x _ os i s1 e1 (linv_pairs _ I) Hi E) as [A1 A2 A3 A4 [A5 _] A6].
  split; [exact A3|]. split; [exact A4|]. split; [exact A2|]. split; [exact A6|]. split; [exact A5|]. now rewrite A1.
Qed.
Print Assumptions C204_report.
(** Full statement: nothing is taken by slashes from a validator while it is invulnerable.
    It holds of a validator that has been invulnerable whenever offences were reported, and
    then no slash of it ever waits either. Missing: slashes that wait when the validator
    is made invulnerable, see below. *)
Theorem C204_partial cfg b p h st :
  sane cfg (kgenesis b p) h -> shielded cfg st (kgenesis b p) h ->
  slashed_over cfg st (kgenesis b p) h = 0 /\ forall e, against st (pending (krun cfg (kgenesis b p) h) e) = [].
Proof.
  intros S Sh. destruct (run_unslashed cfg st h _ S (genesis_linv b p) (genesis_qinv b p) (genesis_clear st b p) Sh) as [A B].
  split; [exact B|exact A].
Qed.
Print Assumptions C204_partial.

(** Validators 1 and 2 are reported together, for the same part of their stakes; validator 1 is
    invulnerable. *)
Definition y204os : list (N * expo * list N * N) :=
  [(1, Expo (500 * DPR) (500 * DPR) [], [5], 200000000); (2, Expo (300 * DPR) (300 * DPR) [], [5], 200000000)].
Definition y204 : list kop := zsetup ++ zroot (KSetInvul [1]) :: zera 0 ++ zera 2.
Definition y204h : list kop := y204 ++ KOffence zx y204os 2 :: zera 4 ++ zera 6 ++ zera 8.
Lemma shielded_app cfg st : forall h s h', shielded cfg st s h -> shielded cfg st (krun cfg s h) h' -> shielded cfg st s (h ++ h').
Proof. induction h as [|op h IH]; intros s h' A B; [exact B|]. destruct A as [A1 A2]. split; [exact A1|]. apply IH; auto. Qed.
Example C204_case : sane zcfg zs0 y204h /\ shielded zcfg 1 zs0 y204h.
Proof.
  split; [apply saneb_ok; vm_compute; reflexivity|].
  apply shielded_app; [repeat split|]. split; [|repeat split].
  apply (bool_decide_unpack _). vm_compute. exact I.
Qed.
Example C204_example :
  let s := krun zcfg zs0 y204 in
  let s1 := (kstep zcfg s (KOffence zx y204os 2)).1 in
  let s2 := krun zcfg zs0 y204h in
  map u_val (pending s1 1) = [2] /\ map (total_of s1) [1; 2] = [500 * DPR; 300 * DPR] /\
  map (total_of s2) [1; 2] = [500 * DPR; 240 * DPR] /\ slashed_over zcfg 2 zs0 y204h = 60 * DPR /\
  elements (s_valid (k_stk s)) ≡ₚ [1; 2; 3] /\ elements (s_valid (k_stk s1)) ≡ₚ [1; 3].
Proof.
  cbv zeta. repeat match goal with |- _ /\ _ => split end; try (vm_compute; reflexivity);
    apply (bool_decide_unpack _); vm_compute; exact I.
Qed.

(** Being made invulnerable does not help against what is already on its way: validator 1 is
    reported in era 1, Root makes it invulnerable, and it loses a fifth of its stake in
    an era through which it is invulnerable. *)
Theorem C204_refuted :
  exists cfg b p h1 h2 st,
    let s := krun cfg (kgenesis b p) h1 in
    sane cfg (kgenesis b p) (h1 ++ h2) /\ invulnerable_over cfg st s h2 /\
    total_of s st = 500 * DPR /\ slashed_over cfg st s h2 = 100 * DPR /\ total_of (krun cfg s h2) st = 400 * DPR.
Proof.
  exists zcfg, zbank, zpars, (zsetup ++ zera 0 ++ zera 2 ++ [KOffence zx y204os 2; zroot (KSetInvul [1])]), (zera 4 ++ zera 6), 1.
  cbv zeta. split; [apply saneb_ok; vm_compute; reflexivity|].
  split.
  { cbn [zera app invulnerable_over].
    repeat match goal with |- _ /\ _ => split end; try exact I; apply (bool_decide_unpack _); vm_compute; exact I. }
  repeat split; vm_compute; reflexivity.
Qed.
Print Assumptions C204_refuted.
