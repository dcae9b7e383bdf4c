(** Staking pallet: what all the reporters of one slashing span get: property C197. *)
From Verif Require Import Base Balances Model_StakingLedger Model_Staking Spec_Staking Spec_Staking2 Spec_Reporter Spec_Reporter2
  Proofs_Staking6 Proofs_Staking19 Proofs_Reporter2 Proofs_Reporter3
  Props_Staking Props_Staking2 Props_Staking3 Props_Staking5.
From stdpp Require Import gmap.
Open Scope N_scope.

(** * C197: the reporters of one span *)
(** Over any history in which the stash is not dissolved, all reports about one slashing
    span together promise at most the reward fraction of what they take. *)
Theorem C197_together cfg b p h st i :
  kc_defer cfg <> 0 -> p_frac p <= PERBILL ->
  sane cfg (kgenesis b p) h -> never_dissolved cfg (kgenesis b p) h st -> Forall fit_report h ->
  let bs := bills cfg (kgenesis b p) h st in
  vows i bs <= part (p_frac p) (taken i bs).
Proof.
  intros D F S Nd Fr bs.
  pose proof (run_vows cfg st (p_frac p) D F h (kgenesis b p) [] [] S Nd Fr (genesis_vows cfg st (p_frac p) D F b p eq_refl)) as V.
  cbn [app] in V. subst bs. rewrite (vi_taken _ _ _ _ _ _ V). apply (vi_le _ _ _ _ _ _ V).
Qed.
Print Assumptions C197_together.
(** A report that is worse than those of its era takes what the span has not yet paid, and
    promises half of what is left of the reward fraction; if the span has paid more, it
    takes and promises nothing. *)
Theorem C197_next cfg b p h s x st ex reps f session era :
  kc_defer cfg <> 0 -> p_frac p <= PERBILL ->
  sane cfg (kgenesis b p) h -> never_dissolved cfg (kgenesis b p) h st -> Forall fit_report h ->
  s = krun cfg (kgenesis b p) h ->
  report_era s session = Some era -> st ∉ p_invul (k_par s) -> part f (x_total ex) <> 0 ->
  (default (0, 0) (s_in_era (k_stk s) !! (era, st))).1 < f ->
  let bs := bills cfg (kgenesis b p) h st in
  let own := part f (x_own ex) in
  exists i, span_at cfg s st era = Some i /\
    bill cfg s (KOffence x [(st, ex, reps, f)] session) st =
      [(i, USlash st (own - taken i bs) (x_others ex) reps
             (if taken i bs <=? own then (part (p_frac p) own - vows i bs) / 2 else 0))].
Proof.
  intros D F S Nd Fr -> Hr Hi Ht Hm bs own.
  pose proof (run_vows cfg st (p_frac p) D F h (kgenesis b p) [] [] S Nd Fr (genesis_vows cfg st (p_frac p) D F b p eq_refl)) as V.
  cbn [app] in V. pose proof (vi_kept _ _ _ _ _ _ V) as K.
  destruct (run_covered cfg h (kgenesis b p) S) as [_ Cv].
  { intros st0. split; [exact I|apply genesis_covered]. }
  destruct (Cv st era) as [i Hs].
  { apply (bonded_in cfg _ _ K). eapply report_in; eauto. }
  exists i. split; [exact Hs|].
  apply (report_exact cfg st (p_frac p) D F _ x ex reps f session era i _ bs (sane_fits cfg _ _ S) V); auto.
Qed.
Print Assumptions C197_next.
(** No step changes the reward fraction. *)
Theorem C197_fraction cfg s h : p_frac (k_par (krun cfg s h)) = p_frac (k_par s).
Proof. apply run_frac. Qed.
Print Assumptions C197_fraction.

(** Stash 1 is reported for 50 DPR in two eras of one span, then for 100 DPR: a tenth of 100 DPR
    is the limit, and half of that is exceeded. Another span starts anew. *)
Definition y197 : list kop :=
  zsetup ++ zera 0 ++ zera 2 ++
  [zoff 1 (500 * DPR) 100000000 0; zoff 1 (500 * DPR) 100000000 2; zoff 1 (500 * DPR) 200000000 2] ++
  zera 4.
Definition fit_reportb (op : kop) : bool :=
  match op with
  | KOffence _ os _ => forallb (fun '(_, ex, _, f) => (x_own ex <? two128) && (f <=? PERBILL)) os
  | _ => true
  end.
Lemma fit_reportb_ok h : forallb fit_reportb h = true -> Forall fit_report h.
Proof.
  intros H. apply List.Forall_forall. rewrite forallb_forall in H. intros op Hin. specialize (H _ Hin). destruct op; cbn; auto.
  cbn in H. apply List.Forall_forall. rewrite forallb_forall in H. intros [[[a ex] reps] f] Ho. specialize (H _ Ho). cbn in H.
  apply andb_true_iff in H as [A B]. apply N.ltb_lt in A. apply N.leb_le in B. auto.
Qed.
Definition y197_last : kop := zoff 1 (500 * DPR) 300000000 4.
Example C197_example :
  sane zcfg zs0 y197 /\ never_dissolved zcfg zs0 y197 1 /\ Forall fit_report y197 /\
  map (fun q => (q.1, u_own q.2, u_pay q.2)) (bills zcfg zs0 (y197 ++ [y197_last]) 1) =
  [(0, 50 * DPR, 25 * DPR / 10); (0, 0, 125 * DPR / 100); (0, 50 * DPR, 3125 * DPR / 1000); (1, 150 * DPR, 75 * DPR / 10)] /\
  (let bs := bills zcfg zs0 y197 1 in
   taken 0 bs = 100 * DPR /\ vows 0 bs = 6875 * DPR / 1000 /\ part (p_frac (k_par zs0)) (taken 0 bs) = 10 * DPR) /\
  let s := krun zcfg zs0 y197 in
  report_era s 4 = Some 2 /\ 1 ∉ p_invul (k_par s) /\ (default (0, 0) (s_in_era (k_stk s) !! (2, 1))).1 = 0.
Proof.
  split; [apply saneb_ok; vm_compute; reflexivity|].
  split; [apply never_dissolvedb_ok; vm_compute; reflexivity|].
  split; [apply fit_reportb_ok; vm_compute; reflexivity|].
  split; [vm_compute; reflexivity|]. split; [vm_compute; repeat split; reflexivity|].
  split; [vm_compute; reflexivity|]. split; [|vm_compute; reflexivity].
  intros H. apply (bool_decide_eq_true_2 _) in H. vm_compute in H. discriminate.
Qed.
