(** Property C196 (pallets/staking, pallets/credit): credit levels paid for in parts. *)
From Verif Require Import Base Balances Model_UserPrivileges.
From Verif Require Model_Credit Spec_Credit.
From Verif Require Import Model_StakingLedger Model_Staking Model_Chain Spec_Chain2 Spec_Dollars Proofs_Dollars Proofs_Parts.
From Verif Require Import Props_Chain Props_Chain5.
From stdpp Require Import gmap.
Open Scope N_scope.
Local Notation D := Model_Credit.DPR.

(** C196, the full statement, false: a stake entered in two parts gives the level it gives when
    entered at once. Of the list 50, 200, 350, 400 dollars, 390 dollars pay for level 2. Entered
    as 150 and 240 they pay for level 1 only: what is left of the first part is not counted
    with the second, although the record says 390 dollars all the same. *)
Theorem C196_refuted :
  exists cfg b p settings data h x1 x2 x3 o w u1 u2 v1 v2,
  let j := jrun cfg (jgenesis b p settings data) h in
  let pay j x u v := jstep cfg j (x, JCall o (JOf (KUsdtDelegate w u v))) in
  let parts := pay (pay j x1 u1 v1).1 x2 u2 v2 in let once := pay j x3 (u1 + u2) (v1 + v2) in
  (exists ev, (pay j x1 u1 v1).2 = JDone ev) /\ (exists ev, parts.2 = JDone ev) /\ (exists ev, once.2 = JDone ev) /\
  dollars parts.1 w = dollars once.1 w /\ Spec_Credit.band (score_of parts.1 w) < Spec_Credit.band (score_of once.1 w).
Proof.
  exists jxcfg, jbank, jpars, jsettings, jdata, jusdt, (jx 26), (jx 27), (jx 26), (Signed 7), 8, 150, 240, 3, 4. cbv zeta.
  split; [eexists; vm_compute; reflexivity|]. split; [eexists; vm_compute; reflexivity|]. split; [eexists; vm_compute; reflexivity|].
  split; vm_compute; reflexivity.
Qed.
Print Assumptions C196_refuted.

(** What holds in dollars: parts never give more than the whole, they are recorded as the same
    stake, and they give the same level if the first part pays exactly for the level it
    reaches. Missing: the same level whatever the parts. *)
Theorem C196_dollars_partial cfg x1 x2 x3 j o1 o2 o3 w u1 u2 v1 v2 j1 j2 j3 e1 e2 e3 :
  Model_Credit.kc_step (jc_c cfg) <> Model_Credit.U64MAX ->
  score_of j w < 2 ^ 64 -> u1 + u2 < 2 ^ 128 -> v1 + v2 < 2 ^ 128 -> N.of_nat (length (usdt_prices j w)) <= 9 ->
  jstep cfg j (x1, JCall o1 (JOf (KUsdtDelegate w u1 v1))) = (j1, JDone e1) ->
  jstep cfg j1 (x2, JCall o2 (JOf (KUsdtDelegate w u2 v2))) = (j2, JDone e2) ->
  jstep cfg j (x3, JCall o3 (JOf (KUsdtDelegate w (u1 + u2) (v1 + v2)))) = (j3, JDone e3) ->
  dollars j2 w = dollars j3 w /\ score_of j2 w <= score_of j3 w /\
  (let price l := default 0 (usdt_prices j w !! N.to_nat l) in
   price (Spec_Credit.band (score_of j1 w)) =
     (if record_of j w then price (Spec_Credit.band (score_of j w)) else 0) + u1 ->
   score_of j2 w = score_of j3 w).
Proof.
  intros Hs H64 Hu Hv HL H1 H2 H3. pose proof (usdt_parts cfg x1 x2 x3 j o1 o2 o3 w u1 u2 v1 v2 j1 j2 j3 e1 e2 e3 H64 HL H1 H2 H3) as [P Q].
  split; [|split; [exact P|cbv zeta; intros E; apply Q; now destruct (record_of j w)]].
  destruct (step_dollars cfg Hs j (x1, JCall o1 (JOf (KUsdtDelegate w u1 v1))) w) as [D1 _].
  destruct (step_dollars cfg Hs j1 (x2, JCall o2 (JOf (KUsdtDelegate w u2 v2))) w) as [D2 _].
  destruct (step_dollars cfg Hs j (x3, JCall o3 (JOf (KUsdtDelegate w (u1 + u2) (v1 + v2)))) w) as [D3 _].
  rewrite H1 in D1. rewrite H2 in D2. rewrite H3 in D3. unfold entered in D1, D2, D3. cbn [fst snd] in D1, D2, D3. rewrite N.eqb_refl in D1, D2, D3.
  rewrite D2, D3, D1. destruct (dollars j w) as [[a b]|]; do 2 f_equal.
  - rewrite N.add_mod_idemp_l by discriminate. f_equal. lia.
  - rewrite N.add_mod_idemp_l by discriminate. f_equal. lia.
  - apply N.mod_small, Hu.
  - apply N.mod_small, Hv.
Qed.
Print Assumptions C196_dollars_partial.
(** 200 dollars pay exactly for level 1; with 190 more, or with 390 at once, it is level 2. *)
Example C196_dollars_example :
  let j := jrun jxcfg jg jusdt in
  let pay j n u v := jstep jxcfg j (jx n, JCall (Signed 7) (JOf (KUsdtDelegate 8 u v))) in
  let j1 := (pay j 26 200 3).1 in let j2 := (pay j1 27 190 4).1 in let j3 := (pay j 26 390 7).1 in
  (exists a b c, (pay j 26 200 3).2 = JDone a /\ (pay j1 27 190 4).2 = JDone b /\ (pay j 26 390 7).2 = JDone c) /\
  record_of j 8 = None /\ usdt_prices j 8 = [50; 200; 350; 400] /\
  (score_of j1 8, score_of j2 8, score_of j3 8) = (100, 200, 200) /\ dollars j2 8 = Some (390, 7).
Proof. cbv zeta. split; [do 3 eexists; vm_compute; repeat split|vm_compute; repeat split]. Qed.

(** What holds in DPR: two purchases give the record and the points of one. They never cost
    less, and they cost the same if the prices on the way do not fall. *)
Theorem C196_dpr_partial cfg x1 x2 x3 j w n1 n2 j1 j2 j3 e1 e2 e3 :
  w <> kc_account (jc_s cfg) -> n1 <= 8 -> n2 <= 8 ->
  jstep cfg j (x1, JCall (Signed w) (JOf (KStakeDelegate n1))) = (j1, JDone e1) ->
  jstep cfg j1 (x2, JCall (Signed w) (JOf (KStakeDelegate n2))) = (j2, JDone e2) ->
  jstep cfg j (x3, JCall (Signed w) (JOf (KStakeDelegate n2))) = (j3, JDone e3) ->
  record_of j2 w = record_of j3 w /\ bought j2 w = bought j3 w /\ purse j2 w <= purse j3 w /\
  (forall d, record_of j w = Some d ->
   let price l := default 0 (tariff (j_c j) (Model_Credit.cd_camp d) !! N.to_nat l) in
   price (Spec_Credit.band (Model_Credit.cd_credit d)) <= price n1 -> price n1 <= price n2 -> purse j2 w = purse j3 w).
Proof. apply dpr_parts. Qed.
Print Assumptions C196_dpr_partial.
(** Account 5 goes from level 1 to level 3 and then to level 6, or to level 6 at once. *)
Example C196_dpr_example :
  let j := jrun jxcfg jg (jsold 9) in
  let buy j n l := jstep jxcfg j (jx n, JCall (Signed 5) (JOf (KStakeDelegate l))) in
  let j1 := (buy j 26 3).1 in let j2 := (buy j1 27 6).1 in let j3 := (buy j 26 6).1 in
  (exists a b c, (buy j 26 3).2 = JDone a /\ (buy j1 27 6).2 = JDone b /\ (buy j 26 6).2 = JDone c) /\
  (purse j 5, purse j1 5, purse j2 5, purse j3 5) = (9000 * D, 8800 * D, 8500 * D, 8500 * D) /\
  (score_of j 5, score_of j2 5, score_of j3 5) = (150, 650, 650).
Proof. cbv zeta. split; [do 3 eexists; vm_compute; repeat split|vm_compute; repeat split]. Qed.
