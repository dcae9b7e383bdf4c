(** C182 and C183: what the hooks that serve many accounts cost in one block. *)
From Verif Require Import Base Balances Model_Adsc Model_Operation Model_Staking Model_Meter Spec_Meter Proofs_Meter
  Props_Staking Props_Staking2.
From stdpp Require Import gmap.
Open Scope N_scope.

(** ** C182: work per block *)
(** Delegators: a block looks at no more of them than the quota says. *)
Theorem C182_delegators : forall cfg x g rewarded s,
  looked (staking_meter cfg x g rewarded s) <= d_per (k_del s).
Proof. exact staking_looked. Qed.
Print Assumptions C182_delegators.

(** The quota set in the first block of an era: the number of delegators spread over
    the other blocks, two more at most, and enough for all in the blocks that remain. *)
Theorem C182_quota : forall cfg x s,
  0 < cur_era s -> kx_block x mod kc_bpe cfg = 0 -> 2 < kc_bpe cfg < two32 ->
  d_count (k_del s) + kc_bpe cfg < two32 ->
  exists s', on_initialize cfg x s = ROk (s', []) /\
    d_per (k_del s') <= d_count (k_del s) / (kc_bpe cfg - 2) + 2 /\
    d_count (k_del s) < d_per (k_del s') * (kc_bpe cfg - 2).
Proof. exact quota. Qed.
Print Assumptions C182_quota.
(** Four delegators, ten blocks an era: two a block. *)
Definition xms : kstate := krun zcfg zs0 (zd0 ++ [zblock 4 10]).
Example C182_delegators_nonvacuous :
  d_count (k_del xms) = 4 /\ kc_bpe zcfg = 10 /\ cur_era xms = 1 /\ d_per (k_del xms) = 2 /\
  looked (staking_meter zcfg (zy 4 11) (fun _ => (3, 1)) (fun _ => false) xms) = 2.
Proof. vm_compute. repeat split; reflexivity. Qed.

(** ADSC stakers: beyond the quota only the silent ones are looked at, and never are
    more paid than the quota says. *)
Theorem C182_adsc_partial : forall cfg x s, 1 <= a_bnum s < two32 ->
  looked (adsc_init_meter cfg s x) <= a_bnum s + N.of_nat (size (silent x s)) /\
  rewards (on_init cfg s x).2 <= a_bnum s.
Proof. intros cfg x s H. split; [now apply adsc_looked|now apply adsc_rewards]. Qed.
Print Assumptions C182_adsc_partial.
Definition xmcfg : acfg := ACfg (DPR / 5) 99 (fun a => a).
Definition xms1 : astate :=
  (arun xmcfg (ainit (Bank ∅ 0) (Uniques ∅ ∅ ∅)) ((newday, inr AUpgrade) :: adds (names 5) ++ [(newday, inr AInitialize)])).1.
(** Of five stakers 0 and 3 are silent: three are looked at for two rewards. *)
Definition xmx : actx := ACtx Model_Adsc.MS_PER_DAY (fun w => if w mod 3 =? 0 then 1 else 0) (fun _ => true) true.
Example C182_adsc_nonvacuous :
  a_bnum xms1 = 2 /\ looked (adsc_init_meter xmcfg xms1 xmx) = 3 /\ rewards (on_init xmcfg xms1 xmx).2 = 2 /\
  size (silent xmx xms1) = 2%nat.
Proof. vm_compute. repeat split; reflexivity. Qed.

(** With [n] silent stakers all are looked at in one block, while the quota is a
    seventeen-thousandth of that. *)
Theorem C182_adsc_refuted : forall cfg (n : nat), exists s x,
  adsc_reachable cfg s /\ looked (adsc_init_meter cfg s x) = N.of_nat n /\
  (N.of_nat n < two32 -> a_bnum s = N.of_nat n / 17000 + 2).
Proof.
  intros cfg n. destruct (many_silent cfg (Bank ∅ 0) (Uniques ∅ ∅ ∅) n) as [H1 H2].
  eexists _, quiet. split; [eexists _, _, _; reflexivity|]. split; [rewrite H1; reflexivity|].
  intros L. rewrite H2. rewrite N.min_l by (unfold two32 in *; lia).
  unfold add32, w32. apply N.mod_small.
  assert (N.of_nat n / 17000 <= N.of_nat n / 2) by (apply N.div_le_compat_l; lia).
  assert (N.of_nat n / 2 < two32 / 2) by (apply N.div_lt_upper_bound; unfold two32 in *; cbn; lia).
  unfold two32 in *. cbn in *. lia.
Qed.
Print Assumptions C182_adsc_refuted.

(** Releases: each pays at least the smallest unit, and what a block pays is limited. *)
Theorem C182_releases_partial : forall cfg s x, o_smax s < 2 ^ 127 ->
  releases (Model_Operation.on_finalize cfg s x).2 <= o_smax s.
Proof. exact release_count. Qed.
Print Assumptions C182_releases_partial.
Definition xmo : ocfg := OCfg (DPR / 5) 1 98 (fun a => a).
(** With a maximum of 3 units a block pays three of five schedules of one unit a day. *)
Definition xmoh : list oop :=
  (setter, inl (Root, OSetLimits 3 1000)) ::
  map (fun i => (setter, inl (Signed 0, OUnstake i 10 0 10))) (names 5) ++
  [(OCtx Model_Operation.MS_PER_DAY (fun _ => true) (fun _ => true) (fun _ => true) (fun _ => true) (fun _ => 0), inr OFinalize)].
Definition xmos : ostate := (orun xmo (oinit (Bank ∅ 0)) xmoh).1.
Definition xmox : octx :=
  OCtx Model_Operation.MS_PER_DAY (fun _ => true) (fun _ => true) (fun _ => true) (fun _ => true) (fun _ => 0).
Example C182_releases_nonvacuous :
  o_smax xmos = 3 /\ releases (Model_Operation.on_finalize xmo xmos xmox).2 = 3.
Proof. vm_compute. repeat split; reflexivity. Qed.

(** When all schedules of a day have been served, or the day has just changed, none is
    looked at and nothing is released. *)
Theorem C182_releases_end : forall cfg s x,
  o_end s = true \/ o_day s < Model_Operation.day_of (ox_time x) ->
  looked (operation_meter cfg s x) = 0 /\ (Model_Operation.on_finalize cfg s x).2 = [].
Proof. exact release_end. Qed.
Print Assumptions C182_releases_end.
(** The example's third block ends the day. *)
Definition xmoe : ostate :=
  (Model_Operation.on_finalize xmo (Model_Operation.on_finalize xmo (Model_Operation.on_finalize xmo xmos xmox).1 xmox).1 xmox).1.
Example C182_releases_end_nonvacuous :
  o_end xmos = false /\ o_end xmoe = true /\ size (o_info xmoe) = 5%nat.
Proof. vm_compute. repeat split; reflexivity. Qed.

(** Schedules that begin later are all looked at in one block. *)
Theorem C182_releases_refuted : forall cfg (n : nat), exists s x,
  operation_reachable cfg s /\ looked (operation_meter cfg s x) = N.of_nat n.
Proof.
  intros cfg n. exists ((orun cfg (oinit (Bank ∅ 0)) (plans (names n))).1), setter.
  split; [eexists _, _; reflexivity|]. now rewrite many_plans.
Qed.
Print Assumptions C182_releases_refuted.

(** What is counted here is what the loops do: the rounds of the loop of delegators
    (the last may be cut short when the pool is empty), the stakers that are removed or
    counted down, the events of the releases. *)
Theorem C182_loops :
  (forall cfg x g rewarded n l s pool last c,
     let '(_, _, _, c', _) := pay_loop cfg x n l s pool last c in
     c' - c <= looked (pay_meter cfg x g rewarded n l s pool) <= c' - c + 1) /\
  (forall cfg x bnum l c s last,
     let '(_, _, rem, sub, _) := reward_loop cfg x bnum l c s last in
     N.of_nat (length rem + length sub) <= looked (adsc_meter x bnum l c)
       <= N.of_nat (length rem + length sub) + nsilent x l) /\
  (forall cfg d l s total daily blockly,
     let '(_, _, _, _, _, evs) := release_loop cfg d l s total daily blockly in
     N.of_nat (length evs) <= release_meter s d l daily blockly).
Proof.
  repeat split; intros.
  - pose proof (pay_meter_tied cfg x g rewarded n l s pool last c) as H.
    destruct (pay_loop _ _ _ _ _ _ _ _) as [[[[? ?] ?] ?] ?]. tauto.
  - pose proof (adsc_meter_tied cfg x bnum l c s last) as H.
    destruct (reward_loop _ _ _ _ _ _ _) as [[[[? ?] ?] ?] ?]. tauto.
  - pose proof (release_meter_tied cfg d l s total daily blockly) as H.
    destruct (release_loop _ _ _ _ _ _ _) as [[[[[? ?] ?] ?] ?] ?]. tauto.
Qed.
Print Assumptions C182_loops.

(** ** C183: reported weight *)
Theorem C183_delegators : forall cfg x g rewarded s, accounted (staking_meter cfg x g rewarded s).
Proof. exact staking_accounted. Qed.
Print Assumptions C183_delegators.
Example C183_delegators_nonvacuous :
  staking_meter zcfg (zy 4 11) (fun _ => (3, 1)) (fun _ => false) xms = Meter 2 23 13.
Proof. vm_compute. reflexivity. Qed.

(** And for what it does: two writes for every payment, the reads and writes that the
    credit pallet reports for every delegator asked for ([g]), a write for every delegator
    that stays, one for the pool and the cursor if they change and one for on_finalize;
    a read for every question, for every account already in Reward and for the
    number of referees of a referer that is paid. *)
Theorem C183_payments : forall cfg x g rewarded s s' evs,
  on_initialize cfg x s = ROk (s', evs) ->
  let m := staking_meter cfg x g rewarded s in
  2 * (paid_delegators (fun _ => 1) evs + paid_referers (fun _ => 1) evs)
    + asked (fun d => (g d).2 + stays s d) evs
    + one_if (bool_decide (d_pool (k_del s') <> d_pool (k_del s)))
    + one_if (bool_decide (d_cursor (k_del s') <> d_cursor (k_del s))) + 1 <= writes m /\
  asked (fun d => 1 + (g d).1) evs + paid_delegators (fun d => one_if (rewarded d)) evs
    + paid_referers (fun d => 1 + one_if (rewarded d)) evs <= reads m.
Proof. exact staking_told. Qed.
Print Assumptions C183_payments.
Example C183_payments_nonvacuous :
  match on_initialize zcfg (zy 4 11) xms with
  | ROk (s', evs) => paid_delegators (fun _ => 1) evs = 2 /\ asked (stays xms) evs = 2 /\
      d_cursor (k_del s') <> d_cursor (k_del xms)
  | _ => False
  end.
Proof. vm_compute. repeat split; try reflexivity. discriminate. Qed.
(** In each round a read for the delegator, one for its referer and one for the next key. *)
Theorem C183_rounds : forall cfg x g rewarded n l s pool last c,
  let '(_, _, _, c', evs) := pay_loop cfg x n l s pool last c in
  3 * (c' - c) + asked (fun d => 1 + (g d).1) evs + paid_delegators (fun d => one_if (rewarded d)) evs
    + paid_referers (fun d => 1 + one_if (rewarded d)) evs
    <= reads (pay_meter cfg x g rewarded n l s pool).
Proof. exact rounds_told. Qed.
Print Assumptions C183_rounds.

(** ADSC: as long as no staker is silent. *)
Theorem C183_adsc_partial : forall cfg x s, silent x s = ∅ -> accounted (adsc_init_meter cfg s x).
Proof. intros cfg x s. apply adsc_accounted. Qed.
Print Assumptions C183_adsc_partial.
Example C183_adsc_nonvacuous :
  silent newday xms1 = ∅ /\ adsc_init_meter xmcfg xms1 newday = Meter 2 12 9.
Proof. split; [apply map_size_empty_inv; vm_compute; reflexivity|vm_compute; reflexivity]. Qed.

(** For any number of silent stakers the reported weight is the same: four reads and a write. *)
Theorem C183_adsc_refuted : forall cfg (n : nat), exists s x,
  adsc_reachable cfg s /\ adsc_init_meter cfg s x = Meter (N.of_nat n) 4 1.
Proof.
  intros cfg n. destruct (many_silent cfg (Bank ∅ 0) (Uniques ∅ ∅ ∅) n) as [H1 H2].
  eexists _, quiet. split; [eexists _, _, _; reflexivity|exact H1].
Qed.
Print Assumptions C183_adsc_refuted.

(** The release hook pays three accounts and reports nothing. *)
Theorem C183_releases_refuted : exists cfg s x,
  operation_reachable cfg s /\ releases (Model_Operation.on_finalize cfg s x).2 = 3 /\
  operation_meter cfg s x = Meter 3 0 0.
Proof.
  exists xmo, xmos, xmox. split; [|split; vm_compute; reflexivity].
  unfold operation_reachable, xmos. exists (Bank ∅ 0), xmoh. reflexivity.
Qed.
Print Assumptions C183_releases_refuted.
