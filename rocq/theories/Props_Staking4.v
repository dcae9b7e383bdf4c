(** Staking pallet, fourth part: the pay of validators and the points it depends on:
    properties C95 and C96. *)
From Verif Require Import Base Balances Model_StakingLedger Model_Staking Spec_Staking Spec_Staking2
  Proofs_Arith Proofs_StakingLedger Proofs_Staking Proofs_Staking2 Proofs_Staking6 Proofs_Staking12 Proofs_Staking15
  Proofs_Staking16 Proofs_Staking17 Props_Staking Props_Staking2 Props_Staking3.
From stdpp Require Import gmap.
Open Scope N_scope.

(** * C95: at the end of an era every elected validator is paid by its points *)
Theorem C95_pay cfg b p h s x i s' ev :
  sane cfg (kgenesis b p) h -> throughout cfg (small_points cfg) (kgenesis b p) h -> 0 < kc_ed cfg -> i + 1 < 2 ^ 32 ->
  s = krun cfg (kgenesis b p) h -> kstep cfg s (KEndSession x i) = (s', KDone ev) ->
  (forall e, ends_era s i e ->
     (forall v a, v ∈ elected s e -> payee_of s v = Some a -> kc_ed cfg <= free_of (k_bank s) a) ->
     (forall a, free_of (k_bank s) a + N.of_nat (length (elected s e)) * p_reward (k_par s) < 2 ^ 128) ->
     let pay := N.min (p_reward (k_par s)) (mining_pool cfg s) in
     exists w : N -> N,
       (forall v, if points_of s e v =? 0 then w v = 0 else fair pay (points_of s e v) (all_points s e) (w v)) /\
       (forall a, free_of (k_bank s') a =
          free_of (k_bank s) a + lsum (map (fun v => if bool_decide (payee_of s v = Some a) then w v else 0) (elected s e))) /\
       (forall st, stake_of s' st =
          grown (lsum (map (fun v => if (v =? st) && restakes s v then w v else 0) (elected s e))) <$> stake_of s st) /\
       mining_pool cfg s' = mining_pool cfg s - lsum (map w (elected s e))) /\
  ((forall e, ~ ends_era s i e) -> s' = s /\ ev = []).
Proof.
  intros S [A Z] H0 Hi -> H. cbn [kstep] in H. destruct (end_session _ _ _ _) as [s1 e1] eqn:E. cbn in H. injection H as <- <-.
  pose proof (run_linv cfg h _ S (genesis_linv b p)) as I. pose proof (run_tally cfg h _ (genesis_tally b p) A) as T.
  destruct (end_session_paid _ _ _ _ _ _ I (sane_fits _ _ _ S) H0 E Hi) as [P Q]. split; [|exact Q].
  intros e En He Hf. apply (P e En); auto.
  - destruct Z as [Z _]. unfold all_points. destruct (e_points _ !! e) as [[t m]|] eqn:Ep; cbn; [|discriminate].
    specialize (Z _ _ _ Ep). change (10 ^ 9) with PERBILL in Z. lia.
  - intros v. now apply tally_points.
Qed.
Print Assumptions C95_pay.
(** Era 1 has two elected validators; 1 restakes and authored one block, 3 is paid to
    its stash and authored two; 2 authored one although it was not elected. *)
Definition z95 : list kop :=
  zsetup ++ zera 0 ++ zera 2 ++ [KAuthor 1; KAuthor 3; KAuthor 2; KAuthor 3; KNewSession 4].
Lemma z95_ok :
  sane zcfg zs0 z95 /\ throughout zcfg (small_points zcfg) zs0 z95.
Proof.
  split; [apply saneb_ok; vm_compute; reflexivity|].
  split; [apply (alwaysb_ok _ _ _ (small_pointsb_ok zcfg))|apply small_pointsb_ok]; vm_compute; reflexivity.
Qed.
Example C95_example :
  let s := krun zcfg zs0 z95 in
  let s' := (kstep zcfg s (KEndSession zx 3)).1 in
  ends_era s 3 1 /\ elected s 1 = [3; 1] /\ map (payee_of s) [1; 3] = [Some 1; Some 3] /\ map (restakes s) [1; 3] = [true; false] /\
  map (free_of (k_bank s)) [1; 2; 3] = [1000 * DPR; 1000 * DPR; 1000 * DPR] /\
  map (points_of s 1) [1; 2; 3] = [20; 20; 40] /\ all_points s 1 = 80 /\ p_reward (k_par s) = 100 * DPR /\
  map (free_of (k_bank s')) [1; 2; 3] = [1025 * DPR; 1000 * DPR; 1050 * DPR] /\
  map (total_of s') [1; 3] = [525 * DPR; 400 * DPR] /\
  mining_pool zcfg s' + 75 * DPR = mining_pool zcfg s.
Proof. vm_compute. repeat split. Qed.

(** * C96: the points of an era count the blocks authored in it *)
Theorem C96_points cfg b p h0 s0 x i s1 ev e h s :
  sane cfg (kgenesis b p) h0 -> s0 = krun cfg (kgenesis b p) h0 ->
  kstep cfg s0 (KStartSession x i) = (s1, KDone ev) -> active_era s0 <> Some e -> active_era s1 = Some e ->
  sane cfg s1 h -> throughout cfg (working e) s1 h -> s = krun cfg s1 h -> 20 * blocks h < 2 ^ 32 ->
  all_points s e = 20 * blocks h /\ forall v, points_of s e v = 20 * authored v h.
Proof.
  intros S -> H N1 N2 S1 T -> B. pose proof (run_unscored cfg h0 _ S (genesis_unscored b p)) as U.
  destruct (start_scored _ _ _ _ _ _ _ H (sane_fits _ _ _ S) U N1 N2) as [A1 A2].
  destruct (working_run cfg e h s1 T S1) as [B1 B2]; [rewrite A1; exact B|intros v; rewrite A1, A2; lia|].
  rewrite A1 in B1. split; [exact B1|]. intros v. rewrite B2, A2. lia.
Qed.
Print Assumptions C96_points.
Definition z96 : list kop := [KFinal; KAuthor 1; KAuthor 3; zc 11 KChill; KAuthor 2; KNewSession 4; KAuthor 3; KEndSession zx 3].
Example C96_example :
  let s0 := krun zcfg zs0 (zsetup ++ zera 0 ++ [KAuthor 3; KNewSession 2]) in
  let s1 := (kstep zcfg s0 (KStartSession zx 2)).1 in
  let s := krun zcfg s1 z96 in
  active_era s0 = Some 0 /\ active_era s1 = Some 1 /\ sane zcfg s1 z96 /\ throughout zcfg (working 1) s1 z96 /\
  cur_era s1 = 1 /\ cur_era s = 2 /\ blocks z96 = 4 /\ authored 3 z96 = 2 /\
  all_points s 1 = 80 /\ map (points_of s 1) [1; 2; 3; 4] = [20; 20; 40; 0] /\ points_of s 0 3 = 20.
Proof.
  intros s0 s1 s. split; [vm_compute; reflexivity|]. split; [vm_compute; reflexivity|].
  split; [apply saneb_ok; vm_compute; reflexivity|]. split; [|vm_compute; repeat split].
  assert (F : forall s, bool_decide (active_era s = Some 1) && ((1 <=? cur_era s) && (cur_era s <=? 2)) &&
    ((2 <=? p_depth (k_par s)) && (p_depth (k_par s) <? 2 ^ 32 - 1)) = true -> working 1 s).
  { intros t. rewrite !andb_true_iff, bool_decide_eq_true, !N.leb_le, N.ltb_lt. unfold working. intros [[? [? ?]] [? ?]]. repeat split; auto. }
  split; [apply (alwaysb_ok _ _ _ F)|apply F]; vm_compute; reflexivity.
Qed.
