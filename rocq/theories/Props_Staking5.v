(** Staking pallet, fifth part: every report of an offence counts, and the span of an
    era is settled: properties C60 and C61. *)
From Verif Require Import Base Balances Model_StakingLedger Model_Staking Spec_Staking Spec_Staking2
  Proofs_Arith Proofs_StakingLedger Proofs_Staking Proofs_Staking2 Proofs_Staking5 Proofs_Staking6
  Proofs_Staking18 Proofs_Staking19 Props_Staking Props_Staking2 Props_Staking3.
From stdpp Require Import gmap.
Open Scope N_scope.

(** * C60: offences in one span cost the maximum *)
(** Over any history in which the stash is not dissolved, and whose reports of the stash
    carry the exposure it had in the era in question: what is charged to a span is the
    worst of all that was ever reported in it. A report that was not booked because a worse
    one for the same era came before counts too. *)
Theorem C60_max cfg b p h st own i :
  sane cfg (kgenesis b p) h -> never_dissolved cfg (kgenesis b p) h st ->
  same_exposure cfg own (kgenesis b p) h st ->
  charged st i (events (kouts cfg (kgenesis b p) h)) = worst i (demands cfg (kgenesis b p) h st).
Proof.
  intros S Nd Se.
  pose proof (run_told cfg st own h (kgenesis b p) [] [] S Nd Se ltac:(intros st0; exact I) (genesis_told cfg st own b p)) as T.
  cbn [app] in T. rewrite <- (td_worst _ _ _ _ _ _ T). pose proof (td_books _ _ _ _ _ _ T) as B.
  unfold st_inv in B. destruct (s_spans _ !! st); [apply (bk_sum _ _ _ _ _ B)|].
  destruct (B i) as (_ & -> & ->). reflexivity.
Qed.
Print Assumptions C60_max.
(** The first stash is reported for 40, 120 and 80 DPR in era 1, for 10 DPR in era 0, which is
    in the same span, and for 22 DPR in era 2, which is in the next. *)
Definition z60 : list kop :=
  zsetup ++ zera 0 ++
  zera 2 ++ [zoff 1 (400 * DPR) 100000000 2; zoff 2 (250 * DPR) 200000000 2; zoff 1 (400 * DPR) 300000000 2;
             zoff 1 (400 * DPR) 200000000 3; zoff 1 (500 * DPR) 20000000 0] ++
  zera 4 ++ [zoff 1 (440 * DPR) 50000000 4].
Definition z60_own (e : N) : N := match e with 0 => 500 * DPR | 1 => 400 * DPR | _ => 440 * DPR end.
Definition same_exposureb (cfg : kcfg) (own : N -> N) (st : N) : list kop -> kstate -> bool :=
  fix go h s :=
  match h with
  | [] => true
  | op :: r =>
      match op with
      | KOffence _ os session =>
          match report_era s session with
          | Some era => forallb (fun '(a, ex, _, _) => negb (a =? st) || (x_own ex =? own era) && (x_own ex <=? x_total ex)) os
          | None => true
          end
      | _ => true
      end && go r (kstep cfg s op).1
  end.
Lemma same_exposureb_ok cfg own st : forall h s, same_exposureb cfg own st h s = true -> same_exposure cfg own s h st.
Proof.
  induction h as [|op h IH]; intros s H; cbn [same_exposure same_exposureb] in *; [auto|].
  apply andb_true_iff in H as [A B]. split; [|auto]. destruct op; auto. intros era ex reps f Hr Hin. rewrite Hr in A.
  rewrite forallb_forall in A. apply elem_of_list_In, A in Hin. cbn beta iota in Hin. rewrite N.eqb_refl in Hin. cbn [negb orb] in Hin.
  apply andb_true_iff in Hin as [X Y]. apply N.eqb_eq in X. apply N.leb_le in Y. auto.
Qed.
Example C60_max_example :
  never_dissolved zcfg zs0 z60 1 /\ same_exposure zcfg z60_own zs0 z60 1 /\
  demands zcfg zs0 z60 1 = [(0, 40 * DPR); (0, 120 * DPR); (0, 80 * DPR); (0, 10 * DPR); (1, 22 * DPR)] /\
  charged 1 0 (events (kouts zcfg zs0 z60)) = 120 * DPR.
Proof.
  split; [apply never_dissolvedb_ok; vm_compute; reflexivity|].
  split; [apply same_exposureb_ok; vm_compute; reflexivity|]. vm_compute. split; reflexivity.
Qed.

(** * C61: the span of an era is settled *)
(** Every era that can still be reported is in a span, and no step moves it to another,
    unless it dissolves the stash. *)
Theorem C61_settled cfg b p h op st era s s' out :
  sane cfg (kgenesis b p) h -> s = krun cfg (kgenesis b p) h -> kstep cfg s op = (s', out) ->
  (is_Some (s_bonded (k_stk s) !! st) -> is_Some (s_bonded (k_stk s') !! st)) ->
  window cfg s' <= era <= default 0 (active_era s) ->
  exists i, span_at cfg s st era = Some i /\ span_at cfg s' st era = Some i.
Proof.
  intros S -> H Nd He.
  destruct (run_covered cfg h (kgenesis b p) S) as [Ok Cov]; [intros st0; split; [exact I|apply genesis_covered]|].
  exact (step_settled cfg _ _ _ _ st era (sane_fits _ _ _ S) H Ok Cov Nd He).
Qed.
Print Assumptions C61_settled.
Example C61_settled_example :
  map (span_at zcfg (krun zcfg zs0 z60) 1) [0; 1; 2] = [Some 0; Some 0; Some 1] /\
  map (span_at zcfg (krun zcfg zs0 (z60 ++ zera 6)) 1) [0; 1; 2; 3] = [Some 0; Some 0; Some 1; Some 2].
Proof. vm_compute. split; reflexivity. Qed.
