(** Properties of pallets/credit and pallets/staking in one chain, continued. *)
From Verif Require Import Base Balances Model_UserPrivileges.
From Verif Require Model_Credit Spec_Credit.
From Verif Require Import Model_StakingLedger Model_Staking Model_Chain Spec_Staking Spec_Chain
  Proofs_Arith Proofs_Chain5 Proofs_Chain6 Props_Chain.
From stdpp Require Import gmap sorting.
Open Scope N_scope.
Local Notation D := Model_Credit.DPR.

(** * C143: no hook panics *)

(** The example chain of Props_Chain.v: in era 2 validators 1 and 2 are exposed with
    delegators 5 and 6. Validator 1 is reported in block 17; slashes wait one era. *)
Definition joffence : list jop := [jo 17 (JOffence [(1, Expo (500 * D) (500 * D) [5], [], 100000000)] 4)].
Definition junstake : list jop := [jo 18 (JCall (Signed 7) (JOf (KForceUnstakingDelegate 5)))].
Definition jprices (p : N) : list jop :=
  [jo 18 (JCredit (Signed 7) (Model_Credit.KSetPrice p)); jo 18 (JCredit (Signed 7) (Model_Credit.KSetPrice p));
   jo 18 (JEntry Model_Credit.KFinalize)].
Definition jlater : list jop := jblocks [20; 21; 22] ++ jera 25 6 ++ jera 35 8.
(** The same chain, but account 5 staked dollars. *)
Definition jdollar : list (N * Model_Credit.cdata) :=
  [(5, Model_Credit.CData 5 150 1 0 0 1 270); (6, Model_Credit.CData 4 205 2 9 0 2 270)].
Definition jsettings5 : list Model_Credit.setting := jsettings ++ [Model_Credit.Setting 5 1 (10000 * D) 39 10 5 0 0 0].
Definition jg5 : jstate := jgenesis jbank jpars jsettings5 jdollar.

Global Instance expo_dec : EqDecision expo.
Proof. solve_decision. Defined.
Definition storedb (j : jstate) (ex : expo) : bool :=
  existsb (fun p => bool_decide (p.2 = ex)) (map_to_list (e_stakers (k_era (j_s j)))).
Fixpoint reportsb (cfg : jcfg) (past : list jstate) (j : jstate) (h : list jop) : bool :=
  match h with
  | [] => true
  | op :: r =>
      match op.2 with
      | JOffence os _ => forallb (fun o => bool_decide (x_others o.1.1.2 = []) || existsb (fun q => storedb q o.1.1.2) (j :: past)) os
      | _ => true
      end && reportsb cfg (j :: past) (jstep cfg j op).1 r
  end.
Lemma reportsb_run cfg g h : forall past h0,
  Forall (fun q => exists h1, h1 `prefix_of` h0 /\ q = jrun cfg g h1) past ->
  reportsb cfg past (jrun cfg g h0) h = true ->
  forall h1 x os i h2 st ex reps f,
    h = h1 ++ (x, JOffence os i) :: h2 -> (st, ex, reps, f) ∈ os -> x_others ex <> [] ->
    exists h3 k, h3 `prefix_of` h0 ++ h1 /\ e_stakers (k_era (j_s (jrun cfg g h3))) !! k = Some ex.
Proof.
  induction h as [|op h IH]; intros past h0 Hp H h1 x os i h2 st ex reps f E Hin Hne; [now destruct h1|].
  cbn [reportsb] in H. apply andb_true_iff in H as [H1 H2]. destruct h1 as [|o h1].
  - cbn [app] in E. injection E as -> ->. cbn [snd] in H1. rewrite forallb_forall in H1. apply elem_of_list_In in Hin.
    pose proof (H1 _ Hin) as Hs. cbn [fst snd] in Hs. apply orb_true_iff in Hs as [Hs|Hs]; [apply bool_decide_eq_true in Hs; contradiction|].
    apply existsb_exists in Hs as (q & Hq & Hs). unfold storedb in Hs. apply existsb_exists in Hs as ([k e] & Hk & Hs).
    apply bool_decide_eq_true in Hs. cbn [snd] in Hs. subst e. apply elem_of_list_In, elem_of_map_to_list in Hk.
    rewrite app_nil_r. destruct Hq as [<-|Hq]; [now exists h0, k|].
    apply elem_of_list_In in Hq. destruct (proj1 (Forall_forall _ _) Hp q Hq) as (h3 & Hh & ->). now exists h3, k.
  - cbn [app] in E. injection E as <- E.
    assert (Er : (jstep cfg (jrun cfg g h0) op).1 = jrun cfg g (h0 ++ [op])) by now rewrite jrun_app.
    rewrite Er in H2.
    assert (Hp' : Forall (fun q => exists h1, h1 `prefix_of` h0 ++ [op] /\ q = jrun cfg g h1) (jrun cfg g h0 :: past)).
    { constructor; [exists h0; split; [now exists [op]|done]|]. eapply Forall_impl; [exact Hp|].
      intros q (h3 & Hh & ->). exists h3. split; [|done]. etransitivity; [exact Hh|]. now exists [op]. }
    destruct (IH _ _ Hp' H2 h1 x os i h2 st ex reps f E Hin Hne) as (h3 & k & H3 & Hk).
    exists h3, k. rewrite <- app_assoc in H3. auto.
Qed.
Lemma reportsb_ok cfg g h : reportsb cfg [] g h = true -> faithful_reports cfg g h.
Proof. intros H h1 x os i h2 st ex reps f. apply (reportsb_run cfg g h [] []); [constructor|exact H]. Qed.

(** A session fails to start exactly when an era begins in it in which a deferred
    slash falls due whose exposure names somebody without a credit record. *)
Theorem C143_cause cfg j x i :
  Model_Credit.kc_step (jc_c cfg) <> Model_Credit.U64MAX ->
  (jstep cfg j (x, JStartSession i)).2 = JPanic <->
  starts (j_s j) i /\ exists u d, due_slash (jc_s cfg) (j_s j) (next_era (j_s j)) u /\ d ∈ u_others u /\
    ~ has_record (j_c j) d.
Proof.
  intros Hs. destruct (start_result cfg x Hs (j_c j) (j_s j) i) as [H1 H2].
  assert (E : (jstep cfg j (x, JStartSession i)).2 = JPanic <-> jstart_session cfg x (j_c j) (j_s j) i = RPanic).
  { unfold jstep. cbn [fst snd jact_step]. destruct (jstart_session _ _ _ _ _) as [[[c s] ev]|e|] eqn:E.
    - split; discriminate.
    - now destruct (H2 e).
    - split; reflexivity. }
  rewrite E, H1. split; intros (A & u & d & B & C & F); (split; [exact A|]); exists u, d; (split; [exact B|]); (split; [exact C|]);
    unfold has_record in *; [rewrite F; intros [? ?]; discriminate|now apply eq_None_not_Some].
Qed.
Print Assumptions C143_cause.

(** An officer takes the stake of delegator 5 back with force_unstaking_delegate, which
    erases the credit record. Once the slash falls due no session can start any more:
    every attempt panics, whatever the session and the surroundings, and leaves the
    state as it was. *)
Theorem C143_refuted : exists cfg g h,
  orderly cfg 0 h /\ Model_Credit.kc_step (jc_c cfg) <> Model_Credit.U64MAX /\
  faithful_reports cfg g h /\ Forall (fun out => out <> JPanic) (jouts cfg g h) /\
  forall x i, 8 <= i -> jstep cfg (jrun cfg g h) (x, JStartSession i) = (jrun cfg g h, JPanic).
Proof.
  set (h := jsetup ++ joffence ++ junstake ++ jera 25 6 ++ [jo 35 (JNewSession 8)]).
  exists jxcfg, jg, h. split; [apply orderlyb_ok; vm_compute; reflexivity|]. split; [discriminate|].
  split; [apply reportsb_ok; vm_compute; reflexivity|].
  split.
  { match goal with |- Forall _ ?l => let v := eval vm_compute in l in replace l with v by (vm_compute; reflexivity) end.
    repeat (constructor; [discriminate|]). constructor. }
  intros x i Hi. assert (Hs : Model_Credit.kc_step (jc_c jxcfg) <> Model_Credit.U64MAX) by discriminate.
  assert (P : (jstep jxcfg (jrun jxcfg jg h) (x, JStartSession i)).2 = JPanic).
  { apply (C143_cause jxcfg (jrun jxcfg jg h) x i Hs). split.
    - exists 8. split; [vm_compute; reflexivity|exact Hi].
    - exists (USlash 1 (50 * D) [5] [] (25 * D / 10)), 5. split; [|split; [apply elem_of_list_singleton; reflexivity|]].
      + exists 2, 2. split; [vm_compute; reflexivity|]. split; [apply N.le_refl|]. split; [vm_compute; reflexivity|].
        match goal with |- _ ∈ ?l => let v := eval vm_compute in l in replace l with v by (vm_compute; reflexivity) end.
        apply elem_of_list_singleton. vm_compute. reflexivity.
      + unfold has_record. match goal with |- ~ is_Some ?l => replace l with (@None Model_Credit.cdata) by (vm_compute; reflexivity) end.
        intros [? ?]. discriminate. }
  revert P. unfold jstep. cbn [fst snd jact_step]. destruct (jstart_session _ _ _ _ _) as [[[c s] ev]|e|]; [discriminate|discriminate|].
  reflexivity.
Qed.
Print Assumptions C143_refuted.

(** Two officers submit a price of 2^127 in the same block: the sum wraps to zero, and
    the next payment to somebody who staked dollars divides by it. *)
Theorem C143_price_refuted : exists cfg g h,
  orderly cfg 0 h /\ (forall op, op ∈ h -> ~ erases op.2) /\
  Model_Credit.k_price (j_c (jrun cfg g h)) = Some 0 /\
  (jstep cfg (jrun cfg g h) (jo 21 JInit)).2 = JPanic.
Proof.
  exists jxcfg, jg5, (jsetup ++ jprices (2 ^ 127) ++ jblocks [20]).
  split; [apply orderlyb_ok; vm_compute; reflexivity|]. split; [|split; vm_compute; reflexivity].
  assert (A : Forall (fun op : jop => ~ erases op.2) (jsetup ++ jprices (2 ^ 127) ++ jblocks [20])).
  { unfold jsetup, jprices, jblocks, jera, jc, jo. cbn [app map]. repeat (constructor; [cbn; intros A; exact A|]). constructor. }
  intros op Hin. exact (proj1 (Forall_forall _ _) A op Hin).
Qed.
Print Assumptions C143_price_refuted.

(** Otherwise every hook of every block goes through: as long as no credit record is
    erased, offences are reported with exposures the chain stored, and the prices
    submitted in one block add up to less than 2^128. *)
Theorem C143_partial cfg b p settings data h j op out :
  Model_Credit.kc_step (jc_c cfg) <> Model_Credit.U64MAX -> Model_Credit.kc_bpe (jc_c cfg) <> 0 ->
  3 <= kc_bpe (jc_s cfg) < 2 ^ 32 ->
  Forall Spec_Credit.setting_typed settings -> orderly cfg 0 h ->
  (forall op', op' ∈ h -> ~ erases op'.2) ->
  faithful_reports cfg (jgenesis b p settings data) h ->
  (forall j' op' out', (j', op', out') ∈ visited cfg (jgenesis b p settings data) h ->
     lsum (Model_Credit.k_prices (j_c j')) < 2 ^ 128) ->
  (j, op, out) ∈ visited cfg (jgenesis b p settings data) h -> hook op.2 -> out <> JPanic.
Proof.
  intros Hs Hb [B1 B2] Hset Ho He Hf Hp. apply (hooks_ok cfg Hs Hb b p settings data h); eauto.
  unfold w32. rewrite N.mod_small by exact B2. rewrite sub32_exact by (unfold two32; lia). lia.
Qed.
Print Assumptions C143_partial.

(** With the record kept the slash is applied in session 8; prices are submitted and
    the payments of era 1 are made. *)
Example C143_example :
  let h := jsetup ++ joffence ++ jprices (3 * D) ++ jlater in
  orderly jxcfg 0 h /\ (forall op, op ∈ h -> ~ erases op.2) /\ faithful_reports jxcfg jg5 h /\
  (forall j op out, (j, op, out) ∈ visited jxcfg jg5 h -> lsum (Model_Credit.k_prices (j_c j)) < 2 ^ 128) /\
  List.filter (fun e => match e with KCreditSlash _ | KSlashed _ _ | KMint _ _ _ => true | _ => false end) (jevents (jouts jxcfg jg5 h)) =
    [KMint MDelegator 5 8904109589041095; KMint MDelegator 6 16438353032267886000; KSlashed 1 (50 * D); KCreditSlash 5] /\
  Model_Credit.k_price (j_c (jrun jxcfg jg5 h)) = Some (3 * D) /\
  Model_Credit.cd_credit <$> Model_Credit.k_uc (j_c (jrun jxcfg jg5 h)) !! 5 = Some 149.
Proof.
  cbv zeta. split; [apply orderlyb_ok; vm_compute; reflexivity|]. split.
  { assert (A : Forall (fun op : jop => ~ erases op.2) (jsetup ++ joffence ++ jprices (3 * D) ++ jlater)).
    { unfold jlater, joffence, jsetup, jprices, jblocks, jera, jc, jo. cbn [app map]. repeat (constructor; [cbn; intros A; exact A|]). constructor. }
    intros op Hin. exact (proj1 (Forall_forall _ _) A op Hin). }
  split; [apply reportsb_ok; vm_compute; reflexivity|]. split.
  { assert (A : forallb (fun q : jstate * jop * jout => lsum (Model_Credit.k_prices (j_c q.1.1)) <? 2 ^ 128) (visited jxcfg jg5 (jsetup ++ joffence ++ jprices (3 * D) ++ jlater)) = true) by (vm_compute; reflexivity).
    intros j op out Hin. rewrite forallb_forall in A. apply elem_of_list_In in Hin. apply A in Hin. now apply N.ltb_lt. }
  split; [vm_compute; reflexivity|]. split; vm_compute; reflexivity.
Qed.
Print Assumptions C143_example.
