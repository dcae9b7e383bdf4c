(** Staking pallet: what the reporters of an offence get: property C186. *)
From Verif Require Import Base Balances Model_StakingLedger Model_Staking Spec_Staking Spec_Staking2 Spec_Reporter
  Proofs_Arith Proofs_StakingLedger Proofs_Staking Proofs_Staking2 Proofs_Staking6 Proofs_Staking14 Proofs_Staking15 Proofs_Reporter
  Props_Staking Props_Staking2 Props_Staking3.
From stdpp Require Import gmap.
Open Scope N_scope.

(** * C186: what reporters get *)
(** A report promises its reporters at most half the reward fraction of what the offence
    costs the offender's own stake. *)
Theorem C186_promise cfg s x os i s' ev e u :
  kc_defer cfg <> 0 -> kstep cfg s (KOffence x os i) = (s', KDone ev) -> u ∈ pending s' e ->
  u ∈ pending s e \/
  exists ex f, (u_val u, ex, u_reps u, f) ∈ os /\ 2 * u_pay u <= part (p_frac (k_par s)) (part f (x_own ex)).
Proof.
  intros D H Hu. cbn [kstep] in H. destruct (on_offence _ _ _ _ _) as [s1 e1] eqn:E. cbn in H. injection H as <- _.
  unfold on_offence in E. destruct (e_act _) as [[a b]|]; [|injection E as <- _; auto].
  destruct (slash_era _ _ _) as [era|]; [|injection E as <- _; auto].
  destruct (offenders_vow cfg x _ _ _ _ D _ _ _ _ _ eq_refl E e u Hu) as [A|A]; [left|right; exact A].
  revert A. unfold pending. now destruct (s_first _).
Qed.
Print Assumptions C186_promise.
(** Nobody but the treasury gets more from the slashes than was promised to them. *)
Theorem C186_most cfg b p h s x i s' ev a :
  sane cfg (kgenesis b p) h -> s = krun cfg (kgenesis b p) h ->
  kstep cfg s (KStartSession x i) = (s', KDone ev) -> a <> kc_treasury cfg ->
  s' = s \/
  free_of (k_bank s') a <= free_of (k_bank s) a +
    promised a (ripe cfg s (match active_era s with Some j => j + 1 | None => 0 end)).
Proof.
  intros S -> H Ht. cbn [kstep] in H. destruct (start_session _ _ _ _) as [s1 e1] eqn:E. cbn in H. injection H as <- <-.
  pose proof (run_linv cfg h _ S (genesis_linv b p)) as I.
  pose proof (run_qinv cfg h _ S (genesis_linv b p) (genesis_qinv b p)) as Q.
  destruct (start_parts _ _ _ _ _ _ (linv_pairs _ I) Q (fits_act _ _ (sane_fits _ _ _ S)) E)
    as [[A _]|(s0 & s2 & n & f & B1 & _ & P & B2 & B3 & B4)]; [auto|]. right.
  rewrite <- B1, B4, <- B2. exact (apply_eras_free cfg x a Ht _ _ _ _ _ P B3).
Qed.
Print Assumptions C186_most.
(** A slash that the offender can pay: the reporters share what was promised, or all that
    was taken if that is less, and the treasury gets the rest. *)
Theorem C186_shares cfg b p h s x i s' ev u v :
  sane cfg (kgenesis b p) h -> s = krun cfg (kgenesis b p) h ->
  kstep cfg s (KStartSession x i) = (s', KDone ev) -> s' <> s ->
  ripe cfg s (match active_era s with Some j => j + 1 | None => 0 end) = [u] -> slash_sum (u_val u) ev = v ->
  money (k_bank s) < two128 -> v + kc_ed cfg <= free_of (k_bank s) (u_val u) ->
  (forall a, a = kc_treasury cfg \/ a ∈ u_reps u -> living cfg (k_bank s) a /\ a <> u_val u) ->
  let each := share (N.min (u_pay u) v) (u_reps u) in
  forall a, free_of (k_bank s') a + (if a =? u_val u then v else 0) =
    free_of (k_bank s) a + times a (u_reps u) * each +
    (if a =? kc_treasury cfg then v - N.of_nat (length (u_reps u)) * each else 0).
Proof.
  intros S -> H Ne R V M F Li each. cbn [kstep] in H. destruct (start_session _ _ _ _) as [s1 e1] eqn:E. cbn in H. injection H as <- <-.
  pose proof (run_linv cfg h _ S (genesis_linv b p)) as I.
  pose proof (run_qinv cfg h _ S (genesis_linv b p) (genesis_qinv b p)) as Q.
  destruct (start_parts _ _ _ _ _ _ (linv_pairs _ I) Q (fits_act _ _ (sane_fits _ _ _ S)) E)
    as [[A _]|(s0 & s2 & n & f & B1 & _ & P & B2 & B3 & B4)]; [congruence|].
  rewrite R in B2. destruct (apply_eras_one _ _ _ _ _ _ _ _ P B3 B2) as (sa & sb & D1 & _ & D3 & D4 & D5).
  rewrite B4, D5, <- B1, <- D1. rewrite <- B1, <- D1 in M, F. apply (apply_slash_exact cfg x sa u sb e1 v); auto.
  intros a Ha. rewrite D1, B1. auto.
Qed.
Print Assumptions C186_shares.

(** An offence reported by two accounts, one of them named twice: it costs 50 DPR, a tenth
    of that is set aside and half of it promised; thirds are rounded down, and the treasury
    gets what is left. *)
Definition yoff : kop := KOffence zx [(1, Expo (500 * DPR) (500 * DPR) [], [2; 3; 2], 100000000)] 2.
Definition yh : list kop := zsetup ++ zera 0 ++ zera 2 ++ [yoff] ++ zera 4 ++ [KNewSession 6].
Definition ys : kstate := krun zcfg zs0 yh.
Lemma yh_sane : sane zcfg zs0 yh.
Proof. apply saneb_ok. vm_compute. reflexivity. Qed.
Example C186_example :
  sane zcfg zs0 yh /\
  let u := USlash 1 (50 * DPR) [] [2; 3; 2] (5 * DPR / 2) in
  ripe zcfg ys (match active_era ys with Some j => j + 1 | None => 0 end) = [u] /\
  let '(s', out) := kstep zcfg ys (KStartSession zx 6) in
  slash_sum 1 (events [out]) = 50 * DPR /\
  map (fun a => (free_of (k_bank ys) a, free_of (k_bank s') a)) [1; 2; 3; 99] =
  [(1000 * DPR, 950 * DPR); (1000 * DPR, 1000 * DPR + 1666666666666666666); (1000 * DPR, 1000 * DPR + 833333333333333333);
   (1000 * DPR, 1047 * DPR + 500000000000000001)] /\
  money (k_bank ys) = 4000 * DPR.
Proof. split; [exact yh_sane|]. vm_compute. repeat split. Qed.
Example C186_most_example :
  let s := krun zcfg zs0 (take 27 zh) in
  map (fun a => promised a (ripe zcfg s (match active_era s with Some j => j + 1 | None => 0 end))) [1; 2; 5] = [0; 0; 9500000000000000000].
Proof. vm_compute. reflexivity. Qed.
