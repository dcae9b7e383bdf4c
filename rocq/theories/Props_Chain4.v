(** Properties of pallets/credit and pallets/staking in one chain, continued. *)
From Verif Require Import Base Balances Model_UserPrivileges.
From Verif Require Model_Credit Spec_Credit.
From Verif Require Import Model_StakingLedger Model_Staking Model_Chain Spec_Staking Spec_Chain
  Proofs_Credit2 Proofs_Credit9 Proofs_Staking13 Proofs_Chain3 Proofs_Chain6 Proofs_Chain8 Proofs_Chain9 Props_Chain.
From stdpp Require Import gmap sorting.
Open Scope N_scope.

(** * C145: a campaign pays for a limited number of eras *)

(** Account 5 has a campaign of two eras. Having been paid for era 1 it leaves in era 2,
    joins again in the next block, and is paid for eras 2 and 3 as well. *)
Definition jshort : jstate := jgenesis jbank jpars jsettings [(5, Model_Credit.CData 4 150 1 0 0 1 2); (6, Model_Credit.CData 4 205 2 9 0 2 270)].
Definition jrest : list jop :=
  jera 27 6 ++ jblocks [30; 31; 32; 33; 34] ++ jera 37 8 ++ jblocks [40; 41; 42; 43; 44] ++ jera 47 10 ++ jblocks [50; 51; 52; 53; 54].
Definition jtwo : list jop := jsetup ++ jblocks [20; 21; 22; 23; 24].
Definition jrejoin : list jop := [jc 25 5 KUndelegate; jc 26 5 (KDelegate [1])].
Definition periodb (cfg : jcfg) (d n v : N) (q : jstate * jop * jout) : bool :=
  claimableb (j_c q.1.1) d &&
  match Model_Credit.k_uc (j_c q.1.1) !! d with Some r => Model_Credit.cd_eras r <=? n | None => true end &&
  bool_decide (Forall (fun p => Spec_Credit.daily (j_c q.1.1) d p.2 <= v) (default [] (Model_Credit.k_hist (j_c q.1.1) !! d))).
Lemma periodb_ok cfg d n v l : forallb (periodb cfg d n v) l = true ->
  forall j op out, (j, op, out) ∈ (l : list (jstate * jop * jout)) -> claimable (j_c j) d /\
    (forall r, Model_Credit.k_uc (j_c j) !! d = Some r -> Model_Credit.cd_eras r <= n) /\
    forall e a, Spec_Credit.era_pay (jc_c cfg) (j_c j) d e = Some a -> a <= v.
Proof.
  intros H j op out Hin. rewrite forallb_forall in H. apply elem_of_list_In in Hin. apply H in Hin. unfold periodb in Hin. cbn [fst snd] in Hin.
  rewrite !andb_true_iff, bool_decide_eq_true in Hin. destruct Hin as [[A B] C]. split; [now apply claimableb_ok|]. split.
  - intros r E. rewrite E in B. now apply N.leb_le.
  - intros e a. unfold Spec_Credit.era_pay, Spec_Credit.in_force.
    destruct (last _) as [[e1 r1]|] eqn:E; [|discriminate]. cbn. destruct (_ <=? _); [|discriminate]. intros [= <-].
    apply last_Some in E as [l' E]. assert (Hi : (e1, r1) ∈ filter (fun p : N * Model_Credit.cdata => p.1 <= e) (default [] (Model_Credit.k_hist (j_c j) !! d))).
    { rewrite E. apply elem_of_app. right. left. }
    apply elem_of_list_filter in Hi as [_ Hi]. exact (proj1 (Forall_forall _ _) C _ Hi).
Qed.
Theorem C145_refuted : exists cfg g h d n v,
  orderly cfg 0 h /\ Forall (fun op => ~ rewrites op d) h /\ Forall (fun out => exists ev, out = JDone ev) (jouts cfg g h) /\
  (forall j op out, (j, op, out) ∈ visited cfg g h -> claimable (j_c j) d /\
     (forall r, Model_Credit.k_uc (j_c j) !! d = Some r -> Model_Credit.cd_eras r <= n) /\
     forall e a, Spec_Credit.era_pay (jc_c cfg) (j_c j) d e = Some a -> a <= v) /\
  n * v < paid d (jevents (jouts cfg g h)).
Proof.
  exists jxcfg, jshort, (jtwo ++ jrejoin ++ jrest), 5, 2, 8219176516133943000. split; [apply orderlyb_ok; vm_compute; reflexivity|].
  split; [lazy [jtwo jrejoin jrest jsetup jera jblocks app map]; repeat (constructor; [intros H; exact H|]); constructor|].
  split.
  { match goal with |- Forall _ ?l => let v := eval vm_compute in l in replace l with v by (vm_compute; reflexivity) end.
    repeat (constructor; [eexists; reflexivity|]). constructor. }
  split; [apply periodb_ok; vm_compute; reflexivity|]. vm_compute. reflexivity.
Qed.
Print Assumptions C145_refuted.

(** Otherwise the limit holds: unless root or the EVM rewrites the credit history of [d],
    all pay of [d] together is at most the daily pay, times the length of the reward
    period, times the number of occasions on which [d] became a delegator. *)
Theorem C145_partial cfg b p settings data h d n v :
  let g := jgenesis b p settings data in
  Model_Credit.kc_step (jc_c cfg) <> Model_Credit.U64MAX -> Model_Credit.kc_bpe (jc_c cfg) <> 0 ->
  Forall Spec_Credit.setting_typed settings -> orderly cfg 0 h -> Forall (fun op => ~ rewrites op d) h ->
  (forall j op out, (j, op, out) ∈ visited cfg g h -> claimable (j_c j) d /\
     (forall r, Model_Credit.k_uc (j_c j) !! d = Some r -> Model_Credit.cd_eras r <= n) /\
     forall e a, Spec_Credit.era_pay (jc_c cfg) (j_c j) d e = Some a -> a <= v) ->
  paid d (jevents (jouts cfg g h)) <= entries cfg g h d * n * v.
Proof. apply jrun_limited. Qed.
Print Assumptions C145_partial.

(** Without the detour account 5 is paid for the two eras of its campaign and no more,
    though it goes on delegating; with it, for three. *)
Example C145_example :
  let outs h := jevents (jouts jxcfg jshort h) in let a := 8219176516133943000 in
  orderly jxcfg 0 (jtwo ++ jrest) /\ Forall (fun op => ~ rewrites op 5) (jtwo ++ jrest) /\
  forallb (periodb jxcfg 5 2 a) (visited jxcfg jshort (jtwo ++ jrest)) = true /\
  entries jxcfg jshort (jtwo ++ jrest) 5 = 1 /\ paid 5 (outs (jtwo ++ jrest)) = 1 * 2 * a /\
  delegating (j_s (jrun jxcfg jshort (jtwo ++ jrest))) 5 /\
  entries jxcfg jshort (jtwo ++ jrejoin ++ jrest) 5 = 2 /\ paid 5 (outs (jtwo ++ jrejoin ++ jrest)) = 3 * a.
Proof.
  cbv zeta. split; [apply orderlyb_ok; vm_compute; reflexivity|].
  split; [lazy [jtwo jrejoin jrest jsetup jera jblocks app map]; repeat (constructor; [intros H; exact H|]); constructor|].
  split; [vm_compute; reflexivity|]. split; [vm_compute; reflexivity|]. split; [vm_compute; reflexivity|].
  split; [eexists; split; vm_compute; reflexivity|]. split; vm_compute; reflexivity.
Qed.
Print Assumptions C145_example.

(** * C146: every era of a stay is paid for *)

(** Block 30 opens era 3, but the staking pallet still counts era 2. Account 5 has been
    paid for era 1 only; it leaves in that block and is never paid for era 2. *)
Definition jlate : list jop := jtwo ++ jblocks [30].
Theorem C146_refuted : exists cfg g h op h2 d f a,
  orderly cfg 0 (h ++ op :: h2) /\ Forall (fun out => exists ev, out = JDone ev) (jouts cfg g (h ++ op :: h2)) /\
  delegating (j_s (jrun cfg g h)) d /\ unpaid_from (jrun cfg g h) d = Some f /\ f < era_in cfg op /\
  Spec_Credit.era_pay (jc_c cfg) (j_c (jrun cfg g h)) d f = Some a /\ 0 < a /\ in_period (j_c (jrun cfg g h)) d f /\
  op.2 = JCall (Signed d) (JOf KUndelegate) /\ d_recs (k_del (j_s (jrun cfg g (h ++ [op])))) !! d = None /\
  asks d (jevents (jouts cfg (jrun cfg g h) (op :: h2))) = [] /\ asks 6 (jevents (jouts cfg (jrun cfg g h) (op :: h2))) <> [].
Proof.
  exists jxcfg, jg, jlate, (jc 30 5 KUndelegate), (jblocks [31; 32; 33; 34; 35; 36; 37; 38; 39; 40; 41; 42; 43; 44]), 5, 2, 8219176516133943000.
  split; [apply orderlyb_ok; vm_compute; reflexivity|].
  split.
  { match goal with |- Forall _ ?l => let v := eval vm_compute in l in replace l with v by (vm_compute; reflexivity) end.
    repeat (constructor; [eexists; reflexivity|]). constructor. }
  split; [eexists; split; vm_compute; reflexivity|]. split; [vm_compute; reflexivity|]. split; [vm_compute; reflexivity|].
  split; [vm_compute; reflexivity|]. split; [reflexivity|].
  split; [do 4 eexists; split; [vm_compute; reflexivity|]; split; [vm_compute; reflexivity|vm_compute; reflexivity]|].
  split; [reflexivity|]. split; [vm_compute; reflexivity|]. split; [vm_compute; reflexivity|]. vm_compute. discriminate.
Qed.
Print Assumptions C146_refuted.

(** Otherwise it holds. A step leaves the first unpaid era of a delegator as it is; or it
    is the round of payments, which asks for all eras from there up to the previous one,
    and only then lets go of those who left; or the account leaves while the staking
    pallet counts exactly that era, which is a loss if the clock is further on. *)
Theorem C146_partial cfg b p settings data h j op out d f :
  let g := jgenesis b p settings data in let j' := (jstep cfg j op).1 in
  Model_Credit.kc_step (jc_c cfg) <> Model_Credit.U64MAX -> Model_Credit.kc_bpe (jc_c cfg) <> 0 ->
  Forall Spec_Credit.setting_typed settings -> orderly cfg 0 h ->
  (j, op, out) ∈ visited cfg g h -> unpaid_from j d = Some f ->
  unpaid_from j' d = Some f /\ asks d (jevents [out]) = [] \/
  (op.2 = JInit /\ f < era_in cfg op /\ asks d (jevents [out]) = [(f, era_in cfg op - 1)] /\
   (delegating (j_s j) d /\ unpaid_from j' d = Some (era_in cfg op) \/
    ~ delegating (j_s j) d /\ d_recs (k_del (j_s j')) !! d = None)) \/
  (quits op d /\ f = default 0 (e_cur (k_era (j_s j))) /\ asks d (jevents [out]) = [] /\ d_recs (k_del (j_s j')) !! d = None).
Proof.
  intros g j' Hs Hb Hset Ho Hv Hf. unfold unpaid_from in Hf. destruct (d_recs (k_del (j_s j)) !! d) as [r|] eqn:Er; [|discriminate]. cbn in Hf.
  pose proof (genesis_sound b p settings data Hset) as G.
  assert (H0 : forall op r, h = op :: r -> 0 <= era_in cfg op) by (intros; lia).
  destruct (jrun_sound cfg Hs Hb h 0 g [] H0 (ex_intro _ 0 Ho) G) as [V _]. destruct (V _ _ _ Hv) as (e1 & ev1 & S1 & L1 & L2 & ->).
  destruct (jstep_dated cfg Hs Hb e1 j op ev1 d r f L1 L2 S1 Er Hf) as [(r1 & A1 & A2 & A3)|[(A1 & A2 & A3 & A4)|(A1 & A2 & A3 & A4)]].
  - left. split; [unfold unpaid_from, j'; rewrite A1; exact A2|exact A3].
  - right. right. auto.
  - right. left. split; [exact A1|]. split; [exact A2|]. split; [exact A3|]. destruct (dr_on r) eqn:On.
    + left. split; [now exists r|]. unfold unpaid_from, j'. rewrite A4. reflexivity.
    + right. split; [|exact A4]. intros (r2 & E1 & E2). congruence.
Qed.
Print Assumptions C146_partial.

(** So as long as an account is on the books, the eras asked for follow one another
    without gap or repetition from the first unpaid one up to the one unpaid now. *)
Theorem C146_stay cfg b p settings data h1 h2 d f :
  let g := jgenesis b p settings data in
  Model_Credit.kc_step (jc_c cfg) <> Model_Credit.U64MAX -> Model_Credit.kc_bpe (jc_c cfg) <> 0 ->
  Forall Spec_Credit.setting_typed settings -> orderly cfg 0 (h1 ++ h2) ->
  unpaid_from (jrun cfg g h1) d = Some f ->
  (forall h, h `prefix_of` h2 -> is_Some (d_recs (k_del (j_s (jrun cfg g (h1 ++ h)))) !! d)) ->
  exists f', unpaid_from (jrun cfg g (h1 ++ h2)) d = Some f' /\
    tiles f (asks d (jevents (jouts cfg (jrun cfg g h1) h2))) f'.
Proof.
  intros g Hs Hb Hset Ho Hf Hp. unfold unpaid_from in Hf. destruct (d_recs (k_del (j_s (jrun cfg g h1))) !! d) as [r|] eqn:Er; [|discriminate]. cbn in Hf.
  pose proof (genesis_sound b p settings data Hset) as G. fold g in G.
  destruct (run_tiles_from cfg Hs Hb d h1 h2 0 g [] r f ltac:(intros; lia) (ex_intro _ 0 Ho) G Er Hf Hp) as (r' & f' & E1 & E2 & E3).
  exists f'. split; [unfold unpaid_from; rewrite E1; exact E2|exact E3].
Qed.
Print Assumptions C146_stay.
Example C146_example :
  let h1 := jsetup in let h2 := jblocks [20; 21; 22; 23; 24] ++ jera 27 6 ++ jblocks [40; 41; 42; 43; 44] in
  orderly jxcfg 0 (h1 ++ h2) /\ unpaid_from (jrun jxcfg jg h1) 5 = Some 1 /\
  forallb (fun n => bool_decide (is_Some (d_recs (k_del (j_s (jrun jxcfg jg (h1 ++ take n h2)))) !! 5))) (seq 0 (S (length h2))) = true /\
  asks 5 (jevents (jouts jxcfg (jrun jxcfg jg h1) h2)) = [(1, 1); (2, 3)] /\ unpaid_from (jrun jxcfg jg (h1 ++ h2)) 5 = Some 4 /\
  (* leaving in block 28, with the staking pallet in era 3: the record waits for its pay *)
  let h3 := jtwo ++ jera 27 6 ++ [jc 28 5 KUndelegate] in
  ~ delegating (j_s (jrun jxcfg jg h3)) 5 /\ unpaid_from (jrun jxcfg jg h3) 5 = Some 2 /\
  asks 5 (jevents (jouts jxcfg (jrun jxcfg jg h3) (jblocks [30; 31; 32]))) = [(2, 2)] /\
  d_recs (k_del (j_s (jrun jxcfg jg (h3 ++ jblocks [30; 31; 32])))) !! 5 = None.
Proof.
  cbv zeta. split; [apply orderlyb_ok; vm_compute; reflexivity|]. split; [vm_compute; reflexivity|]. split; [vm_compute; reflexivity|].
  split; [vm_compute; reflexivity|]. split; [vm_compute; reflexivity|]. split.
  { intros (r & H1 & H2). match type of H1 with ?l = _ => let v := eval vm_compute in l in replace l with v in H1 by (vm_compute; reflexivity) end.
    injection H1 as <-. discriminate H2. }
  split; [vm_compute; reflexivity|]. split; vm_compute; reflexivity.
Qed.
Print Assumptions C146_example.

(** * C147: the credit history reaches back to the first unpaid era *)

(** Whenever the pay of an account is worked out, every era asked for has a credit record
    in force: none goes unpaid for want of a record, unless root or the EVM rewrote the
    history of this account. *)
Theorem C147_recorded cfg b p settings data h j op ev d f t e :
  let g := jgenesis b p settings data in
  Model_Credit.kc_step (jc_c cfg) <> Model_Credit.U64MAX -> Model_Credit.kc_bpe (jc_c cfg) <> 0 ->
  Forall Spec_Credit.setting_typed settings -> orderly cfg 0 h -> Forall (fun op => ~ rewrites op d) h ->
  (j, op, JDone ev) ∈ visited cfg g h -> KAsk d f t ∈ ev -> f <= e <= t ->
  exists r, Spec_Credit.in_force (default [] (Model_Credit.k_hist (j_c j) !! d)) e = Some r.
Proof.
  intros g Hs Hb Hset Ho Hw Hv Ha He.
  pose proof (genesis_sound b p settings data Hset) as G. fold g in G.
  assert (H0 : forall op r, h = op :: r -> 0 <= era_in cfg op) by (intros; lia).
  destruct (jrun_sound cfg Hs Hb h 0 g [] H0 (ex_intro _ 0 Ho) G) as [V _]. destruct (V _ _ _ Hv) as (e1 & ev1 & S1 & L1 & L2 & Eo).
  assert (R0 : reaches d g) by (intros r E; cbn in E; now rewrite lookup_empty in E).
  pose proof (visited_reaches cfg Hs Hb d h 0 g [] H0 (ex_intro _ 0 Ho) G Hw R0 _ _ _ Hv) as R.
  apply asks_elem in Ha.
  assert (Hq : (f, t) ∈ asks d (out_events (jstep cfg j op).2)) by (rewrite <- Eo; exact Ha).
  destruct (jstep_asks cfg Hs Hb e1 j op ev1 d f t L1 L2 S1 Hq) as (_ & _ & _ & r & R1 & R2).
  destruct (R r R1) as (f' & e0 & E1 & E2 & E3). rewrite R2 in E1. injection E1 as <-.
  unfold start, Model_Credit.hist_of in E2. destruct (default [] (Model_Credit.k_hist (j_c j) !! d)) as [|[e2 r2] l]; [discriminate|].
  cbn in E2. injection E2 as ->. apply force_from. lia.
Qed.
Print Assumptions C147_recorded.
(** In the example chain: the round of block 41 asks for eras 2 and 3 of account 5, and
    their records are those written when its credit rose in era 2 and in era 3. *)
Example C147_example :
  orderly jxcfg 0 jh /\ Forall (fun op => ~ rewrites op 5) jh /\
  List.filter (fun e => match e with KAsk 5 _ _ => true | _ => false end) (jevents (jouts jxcfg jg jh)) = [KAsk 5 1 1; KAsk 5 2 3] /\
  map (fun e => Model_Credit.cd_credit <$> Spec_Credit.in_force (default [] (Model_Credit.k_hist (j_c (jrun jxcfg jg jh)) !! 5)) e) [0; 1; 2; 3]
    = [None; Some 150; Some 151; Some 211].
Proof.
  split; [apply orderlyb_ok; vm_compute; reflexivity|].
  split; [lazy [jh jsetup jera jblocks app map]; repeat (constructor; [intros H; exact H|]); constructor|].
  split; vm_compute; reflexivity.
Qed.
Print Assumptions C147_example.
