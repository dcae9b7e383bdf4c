(** Staking pallet, seventh part: sessions and eras: properties C136-C141. *)
From Verif Require Import Base Balances Model_StakingLedger Model_Staking Spec_Staking Spec_Staking2 Spec_Staking4
  Proofs_Arith Proofs_StakingLedger Proofs_Staking Proofs_Staking2 Proofs_Staking6 Proofs_Staking12 Proofs_Staking16
  Proofs_Staking17 Proofs_Staking22 Proofs_Staking23 Proofs_Staking24 Proofs_Staking25 Props_Staking Props_Staking2 Props_Staking4.
From stdpp Require Import gmap.
Open Scope N_scope.

(** ** Histories that follow the order of the session pallet *)
(** The genesis, and the rotation from session [i] to the next. *)
Definition zboot : list kop := [KNewSession 0; KNewSession 1; KStartSession zx 0].
Definition zrot (i : N) : list kop := [KFinal; KEndSession zx i; KStartSession zx (i + 1); KNewSession (i + 2)].
Lemma keptb_ok s : (1 <=? p_depth (k_par s)) && (p_depth (k_par s) <? 2 ^ 32 - 1) = true -> kept s.
Proof. rewrite andb_true_iff, N.leb_le, N.ltb_lt. auto. Qed.
Ltac fine := split; [apply saneb_ok; vm_compute; reflexivity|
  split; [apply (alwaysb_ok _ _ _ keptb_ok)|apply keptb_ok]; vm_compute; reflexivity].

(** * C136: sessions and eras follow one another without gaps *)
Theorem C136_eras cfg b p h g :
  driven Setup h = Some g -> sane cfg (kgenesis b p) h -> throughout cfg kept (kgenesis b p) h ->
  let T := timeline cfg (kgenesis b p) h in
  map fst T = upto (started g) /\
  (forall e, (0, e) ∈ T -> e = 0) /\
  (forall j e e', (j, e) ∈ T -> (j + 1, e') ∈ T -> e' = e \/ e' = e + 1) /\
  active_era (krun cfg (kgenesis b p) h) = snd <$> last T.
Proof.
  intros D S K T. pose proof (run_timed cfg h _ _ _ _ D S K (timed_genesis cfg b p)) as [_ W].
  change ([] ++ timeline cfg (kgenesis b p) h) with T in W.
  assert (G : forall i f ahead, live cfg i f ahead T (krun cfg (kgenesis b p) h) -> started g = i + 1 ->
    map fst T = upto (started g) /\ (forall e, (0, e) ∈ T -> e = 0) /\
    (forall j e e', (j, e) ∈ T -> (j + 1, e') ∈ T -> e' = e \/ e' = e + 1) /\
    active_era (krun cfg (kgenesis b p) h) = snd <$> last T).
  { intros i f ahead (a & f' & sa & B & L1 & _ & _ & _ & (A1 & A2 & A3 & A4 & _) & _) ->. split; [exact A1|]. split; [exact A3|].
    split; [exact A4|]. unfold active_era. now rewrite L1, A2. }
  destruct g as [| | |i f|i|i]; cbn in W.
  1: destruct W as (_ & L & Et & _). 2: destruct W as (_ & _ & L & Et & _). 3: destruct W as (_ & _ & L & Et & _).
  1-3: rewrite Et; unfold active_era; rewrite L; split; [reflexivity|]; split; [intros e Q; now apply elem_of_nil in Q|];
    split; [intros j e e' Q; now apply elem_of_nil in Q|reflexivity].
  all: eapply G; [exact W|reflexivity].
Qed.
Print Assumptions C136_eras.
(** If nobody meddles, every era lasts the configured number of sessions. *)
Theorem C136_regular cfg b p h g j e :
  driven Setup h = Some g -> sane cfg (kgenesis b p) h -> throughout cfg kept (kgenesis b p) h ->
  Forall (fun op => ~ meddles op) h -> 0 < kc_sessions cfg ->
  (j, e) ∈ timeline cfg (kgenesis b p) h -> e = j / kc_sessions cfg.
Proof.
  intros D S K M Hl Hin. destruct (decide (j = 0)) as [->|Hj].
  - rewrite N.div_0_l by lia. exact (proj1 (proj2 (C136_eras _ _ _ _ _ D S K)) e Hin).
  - rewrite (run_plan_genesis cfg Hl _ _ _ D S K (timed_genesis cfg b p) eq_refl M _ _ Hin Hj). unfold scheduled.
    destruct (N.ltb_spec j (kc_sessions cfg)); [now rewrite N.div_small by lia|].
    replace j with (j - kc_sessions cfg + 1 * kc_sessions cfg) at 2 by lia. rewrite N.div_add by lia. lia.
Qed.
Print Assumptions C136_regular.
Definition z136 : list kop :=
  zsetup ++ zboot ++ zrot 0 ++ [KAuthor 1] ++ zrot 1 ++ [zc 11 (KUnbond (100 * DPR)); zoff 2 (300 * DPR) 100000000 2] ++ zrot 2 ++
  zrot 3 ++ [zc 12 KChill] ++ zrot 4.
Example C136_example :
  driven Setup z136 = Some (Running 5 false) /\ timeline zcfg zs0 z136 = [(0, 0); (1, 0); (2, 1); (3, 1); (4, 2); (5, 2)] /\
  (sane zcfg zs0 z136 /\ throughout zcfg kept zs0 z136) /\ Forall (fun op => ~ meddles op) z136.
Proof.
  split; [vm_compute; reflexivity|]. split; [vm_compute; reflexivity|]. split; [fine|].
  unfold z136. repeat (apply Forall_cons; split; [try (intros []; fail)|]); try apply Forall_nil_2.
  intros (st & ex & reps & f & _ & H). discriminate H.
Qed.

(** * C137: when eras begin, by the mode that Root and offences set *)
(** [cur_era] is the era of the session planned next, [i + 1]; with [NotForcing] [k] is the first
    session of that era. *)
Theorem C137_schedule cfg b p h1 h2 i f g s1 k j e :
  driven Setup h1 = Some (Running i f) -> driven (Running i f) h2 = Some g ->
  sane cfg (kgenesis b p) (h1 ++ h2) -> throughout cfg kept (kgenesis b p) (h1 ++ h2) -> 0 < kc_sessions cfg ->
  s1 = krun cfg (kgenesis b p) h1 -> Forall (fun op => ~ meddles op) h2 ->
  since (timeline cfg (kgenesis b p) h1 ++ [(i + 1, cur_era s1)]) (cur_era s1) k ->
  (j, e) ∈ timeline cfg s1 h2 ->
  e = match mode s1 with
      | ForceNone => cur_era s1
      | ForceAlways => cur_era s1 + (j - (i + 1))
      | ForceNew => scheduled (kc_sessions cfg) (cur_era s1) (i + 2) j
      | NotForcing => scheduled (kc_sessions cfg) (cur_era s1) (N.max (k + kc_sessions cfg) (i + 2)) j
      end.
Proof.
  intros D1 D2 S K Hl -> M Hs Hin. apply sane_app in S as [S1 S2]. apply throughout_app in K as [K1 K2].
  pose proof (run_timed cfg h1 _ _ _ _ D1 S1 K1 (timed_genesis cfg b p)) as W.
  change ([] ++ timeline cfg (kgenesis b p) h1) with (timeline cfg (kgenesis b p) h1) in W.
  set (s1 := krun cfg (kgenesis b p) h1) in *. set (T := timeline cfg (kgenesis b p) h1) in *. clearbody s1 T.
  destruct (live_since _ _ _ _ _ (proj2 W)) as (c & k' & Ec & Ek & Hk).
  assert (Hc : cur_era s1 = c) by (unfold cur_era; now rewrite Ec). rewrite Hc in *.
  assert (k' = k) as ->.
  { destruct Hs as [Q1 Q2]. destruct Hk as [P1 P2]. specialize (Q2 _ P1). specialize (P2 _ Q1). lia. }
  pose proof (timeline_later cfg h2 _ _ _ _ _ D2 S2 K2 W _ _ Hin) as Hj.
  assert (G : forall n0, plan cfg (mode s1) (Running i f) s1 c n0 -> e = by_plan cfg (mode s1) c n0 j).
  { intros n0 P. apply (run_plan cfg _ _ _ Hl _ _ _ _ _ D2 S2 K2 W P M); [exact Hin|lia]. }
  destruct (mode s1) eqn:Em.
  - apply (G (N.max (k + kc_sessions cfg) (i + 2))). exists c, (N.max (k + kc_sessions cfg) (i + 2)). split; [|auto].
    split; [exact Ec|]. rewrite Em. exists k. split; [exact Ek|]. cbn. lia.
  - apply (G (i + 2)). exists c, (i + 2). split; [|auto]. split; [exact Ec|]. rewrite Em. cbn. lia.
  - apply (G 0). split; [exact Em|exact Ec].
  - rewrite (G (i + 2)).
    + cbn. f_equal. lia.
    + split; [exact Em|]. cbn. split; [lia|]. rewrite Ec. f_equal. lia.
Qed.
Print Assumptions C137_schedule.
(** Only three things change the mode: Root, the era that [ForceNew] asked for, and a report about
    somebody whom the session pallet disables. *)
Theorem C137_mode cfg s op s' out :
  kstep cfg s op = (s', out) -> mode s' <> mode s ->
  (exists x, op = KCall x Root (KForce (mode s'))) \/
  ((exists i, op = KNewSession i) /\ mode s = ForceNew /\ mode s' = NotForcing) \/
  ((exists x os j, op = KOffence x os j /\ exists st ex reps f, (st, ex, reps, f) ∈ os /\ kx_disable x st = true) /\ mode s' = ForceNew).
Proof.
  intros H N. destruct op as [x o c|x| |i|x i|x i|a|x os i|b].
  4: destruct (step_mode cfg _ _ _ _ H (fun m => m)) as [E|(E1 & E2 & E3)]; [contradiction|auto].
  4: destruct (step_mode cfg _ _ _ _ H (fun m => m)) as [E|((? & [=]) & _)]; contradiction.
  all: destruct (bystander cfg _ _ _ _ H I) as (_ & _ & _ & _ & _ & [E|[M [E|(y & E)]]]); try contradiction; try (left; now exists y).
  - destruct o; try contradiction M. destruct c; try contradiction M. destruct (bystander cfg _ _ _ _ H I) as (_ & _ & _ & _ & _ & _).
    left. exists x. do 2 f_equal. eapply force_sets; eauto.
  - right. right. split; [|exact E]. exists x, os, i. auto.
Qed.
Print Assumptions C137_mode.
Definition z137 (f : forcing) : list kop := zsetup ++ zboot ++ zrot 0 ++ zrot 1 ++ [zroot (KForce f)].
Definition z137c : list kop := zrot 2 ++ zrot 3 ++ zrot 4 ++ zrot 5 ++ zrot 6.
Example C137_example :
  driven Setup (z137 ForceNew) = Some (Running 2 false) /\ driven (Running 2 false) z137c = Some (Running 7 false) /\
  (sane zcfg zs0 (z137 ForceNew ++ z137c) /\ throughout zcfg kept zs0 (z137 ForceNew ++ z137c)) /\
  Forall (fun op => ~ meddles op) z137c /\
  timeline zcfg zs0 (z137 ForceNew) ++ [(3, cur_era (krun zcfg zs0 (z137 ForceNew)))] = [(0, 0); (1, 0); (2, 1); (3, 1)] /\
  map (fun f => timeline zcfg (krun zcfg zs0 (z137 f)) z137c) [NotForcing; ForceNew; ForceNone; ForceAlways] =
    [ [(3, 1); (4, 2); (5, 2); (6, 3); (7, 3)]; [(3, 1); (4, 2); (5, 2); (6, 3); (7, 3)];
      [(3, 1); (4, 1); (5, 1); (6, 1); (7, 1)]; [(3, 1); (4, 2); (5, 3); (6, 4); (7, 5)] ] /\
  timeline zcfg (krun zcfg zs0 (z137 ForceNone ++ zrot 2 ++ zrot 3 ++ zrot 4 ++ [zroot (KForce ForceNew)])) (zrot 5 ++ zrot 6 ++ zrot 7 ++ zrot 8) =
    [(6, 1); (7, 2); (8, 2); (9, 3)].
Proof.
  split; [vm_compute; reflexivity|]. split; [vm_compute; reflexivity|]. split; [fine|]. split; [|split; [|split]; vm_compute; reflexivity].
  unfold z137c. repeat (apply Forall_cons; split; [intros []|]). apply Forall_nil_2.
Qed.

(** * C138: a report is put on the era in which its session ran *)
Theorem C138_era cfg b p h g j e :
  driven Setup h = Some g -> sane cfg (kgenesis b p) h -> throughout cfg kept (kgenesis b p) h ->
  (j, e) ∈ timeline cfg (kgenesis b p) h ->
  let s := krun cfg (kgenesis b p) h in
  report_era s j = (if window cfg s <=? e then Some e else None) /\
  forall x os s' ev, kstep cfg s (KOffence x os j) = (s', KDone ev) ->
    (forall v era i own d, KCharge v era i own d ∈ ev -> era = e /\ default 0 (active_era s) <= e + kc_bonding cfg) /\
    (e + kc_bonding cfg < default 0 (active_era s) -> s' = s /\ ev = []).
Proof.
  intros D S K Hin s. pose proof (run_timed cfg h _ _ _ _ D S K (timed_genesis cfg b p)) as W.
  destruct (timed_live _ _ _ _ _ _ W Hin) as (i & f & a & L). pose proof (live_report _ _ _ _ _ _ _ _ L Hin) as R. fold s in R.
  split; [exact R|]. intros x os s' ev H. cbn [kstep] in H. destruct (on_offence _ _ _ _ _) as [s1 ev1] eqn:E. cbn in H. injection H as <- <-.
  unfold window in R. split.
  - intros v era i' own d Hc. pose proof (on_offence_charges _ _ _ _ _ _ _ _ _ _ _ _ E Hc) as Q. rewrite R in Q.
    destruct (N.leb_spec (default 0 (active_era s) - kc_bonding cfg) e); [|discriminate]. injection Q as ->. split; [auto|lia].
  - intros Hl. rewrite (proj2 (N.leb_gt _ _)) in R by lia. rewrite on_offence_late in E by exact R. now injection E as <- <-.
Qed.
Print Assumptions C138_era.
Example C138_example :
  let h := z136 ++ zrot 5 ++ zrot 6 ++ zrot 7 in
  let s := krun zcfg zs0 h in
  driven Setup h = Some (Running 8 false) /\ (sane zcfg zs0 h /\ throughout zcfg kept zs0 h) /\
  timeline zcfg zs0 h = [(0, 0); (1, 0); (2, 1); (3, 1); (4, 2); (5, 2); (6, 3); (7, 3); (8, 4)] /\
  map (report_era s) [0; 1; 2; 3; 4; 7; 8] = [None; None; Some 1; Some 1; Some 2; Some 3; Some 4] /\
  (kstep zcfg s (zoff 3 (400 * DPR) 100000000 3)).2 = KDone [KCharge 3 1 0 (40 * DPR) (40 * DPR)] /\
  (kstep zcfg s (zoff 3 (400 * DPR) 100000000 1)).2 = KDone [].
Proof.
  intros h s. split; [vm_compute; reflexivity|]. split; [fine|]. split; [vm_compute; reflexivity|]. split; [vm_compute; reflexivity|].
  split; vm_compute; reflexivity.
Qed.

(** * C139: each era is paid once, when it ends, to those elected for it *)
Theorem C139_when cfg b p h i f j e :
  driven Setup h = Some (Running i f) -> sane cfg (kgenesis b p) h -> throughout cfg kept (kgenesis b p) h ->
  let T := timeline cfg (kgenesis b p) h in
  (exists t, payday cfg (kgenesis b p) h j e t) <-> (j, e) ∈ T /\ (j + 1, e + 1) ∈ T.
Proof.
  intros D S K T.
  assert (J0 : settled Setup [] [] (kgenesis b p)) by (intros ? ?; split; [intros Q; now apply elem_of_nil in Q|intros [Q _]; now apply elem_of_nil in Q]).
  pose proof (run_settled cfg _ _ _ _ _ _ D S K (timed_genesis cfg b p) J0) as J. cbn [app] in J.
  rewrite <- paylist_payday, (J j e). split; [intros [P [Q|[Q _]]]; [auto|discriminate]|]. intros [P Q]. auto.
Qed.
Print Assumptions C139_when.
Theorem C139_once cfg b p h g e h1 x i h2 h1' x' i' h2' :
  driven Setup h = Some g -> sane cfg (kgenesis b p) h -> throughout cfg kept (kgenesis b p) h ->
  h = h1 ++ KEndSession x i :: h2 -> ends_era (krun cfg (kgenesis b p) h1) i e ->
  h = h1' ++ KEndSession x' i' :: h2' -> ends_era (krun cfg (kgenesis b p) h1') i' e ->
  h1' = h1 /\ i' = i.
Proof.
  intros D S K E1 P1 E2 P2.
  assert (G : forall h1 x i h2 h1' x' i' h2', h = h1 ++ KEndSession x i :: h2 -> ends_era (krun cfg (kgenesis b p) h1) i e ->
    h = h1' ++ KEndSession x' i' :: h2' -> ends_era (krun cfg (kgenesis b p) h1') i' e -> ~ (length h1 < length h1')%nat).
  { clear h1 x i h2 h1' x' i' h2' E1 P1 E2 P2. intros h1 x i h2 h1' x' i' h2' E1 P1 E2 P2 L. rewrite E2 in D, S, K.
    apply driven_app in D as (g1 & D1 & D2). apply sane_app in S as [S _]. apply throughout_app in K as [K _].
    cbn in D2. destruct g1 as [| | |n []|n|n]; try discriminate D2. clear D2.
    assert (Q : exists k, h1' = h1 ++ KEndSession x i :: k).
    { rewrite E2 in E1. apply (f_equal (take (length h1'))) in E1. rewrite take_app in E1.
      rewrite take_app_ge in E1 by lia. replace (length h1' - length h1)%nat with (1 + (length h1' - length h1 - 1))%nat in E1 by lia.
      cbn in E1. eauto. }
    destruct Q as (k & Q). assert (Py : exists t, payday cfg (kgenesis b p) h1' i e t) by (exists (krun cfg (kgenesis b p) h1), h1, x, k; auto).
    apply (C139_when _ _ _ _ _ _ _ _ D1 S K) in Py as [_ Py].
    pose proof (run_timed cfg _ _ _ _ _ D1 S K (timed_genesis cfg b p)) as [_ (a & f & sa & B & L1 & _ & _ & _ & (_ & _ & _ & _ & A5 & _) & _)].
    destruct P2 as [P2 _]. rewrite L1 in P2. injection P2 as -> _. destruct (A5 _ _ Py). lia. }
  assert (El : length h1 = length h1') by (pose proof (G _ _ _ _ _ _ _ _ E1 P1 E2 P2); pose proof (G _ _ _ _ _ _ _ _ E2 P2 E1 P1); lia).
  rewrite E2 in E1. apply app_inj_1 in E1 as [-> E1]; [|auto]. injection E1 as _ -> _. auto.
Qed.
Print Assumptions C139_once.
Theorem C139_who cfg b p h g i e t :
  driven Setup h = Some g -> sane cfg (kgenesis b p) h -> throughout cfg kept (kgenesis b p) h ->
  payday cfg (kgenesis b p) h i e t ->
  (elections cfg (kgenesis b p) h e = [] /\ elected t e = []) \/
  (exists l, elections cfg (kgenesis b p) h e = [l] /\ elected t e = l).
Proof.
  intros D S K P. assert (D' : driven Setup h <> None) by congruence.
  rewrite (payday_elected cfg _ _ _ _ _ _ S K D' P). unfold elected. destruct (e_vals (k_era t) !! e) as [l|]; [right; eauto|left; auto].
Qed.
Print Assumptions C139_who.
Example C139_example :
  let T := timeline zcfg zs0 z136 in
  driven Setup z136 = Some (Running 5 false) /\ (sane zcfg zs0 z136 /\ throughout zcfg kept zs0 z136) /\
  paylist zcfg zs0 z136 = [(1, 0); (3, 1)] /\ T = [(0, 0); (1, 0); (2, 1); (3, 1); (4, 2); (5, 2)] /\
  map (elections zcfg zs0 z136) [0; 1; 2; 3] = [[[1; 2]]; [[3; 1]]; [[1; 3]]; [[1; 3]]].
Proof.
  intros T. split; [vm_compute; reflexivity|]. split; [fine|]. split; [vm_compute; reflexivity|]. split; vm_compute; reflexivity.
Qed.

(** * C140: whoever is elected for an era is paid for the blocks authored in it *)
(** What is missing: those who go on as validators because an election failed. *)
Theorem C140_partial cfg b p h i f j e l :
  driven Setup h = Some (Running i f) -> sane cfg (kgenesis b p) h -> throughout cfg kept (kgenesis b p) h ->
  throughout cfg (small_points cfg) (kgenesis b p) h -> 0 < kc_ed cfg -> i + 1 < 2 ^ 32 ->
  let T := timeline cfg (kgenesis b p) h in
  (j, e) ∈ T -> (j + 1, e + 1) ∈ T -> elections cfg (kgenesis b p) h e = [l] ->
  exists h1 x h2 ev,
    h = h1 ++ KEndSession x j :: h2 /\
    let t := krun cfg (kgenesis b p) h1 in
    let pay := N.min (p_reward (k_par t)) (mining_pool cfg t) in
    exists t', kstep cfg t (KEndSession x j) = (t', KDone ev) /\
      ((forall v a, v ∈ l -> payee_of t v = Some a -> kc_ed cfg <= free_of (k_bank t) a) ->
       (forall a, free_of (k_bank t) a + N.of_nat (length l) * p_reward (k_par t) < 2 ^ 128) ->
       exists w : N -> N,
         (forall v, if points_of t e v =? 0 then w v = 0 else fair pay (points_of t e v) (all_points t e) (w v)) /\
         (forall a, free_of (k_bank t') a =
            free_of (k_bank t) a + lsum (map (fun v => if bool_decide (payee_of t v = Some a) then w v else 0) l)) /\
         mining_pool cfg t' = mining_pool cfg t - lsum (map w l)).
Proof.
  intros D S K P He Hi T H1 H2 Hl. destruct (proj2 (C139_when _ _ _ _ _ _ j e D S K) (conj H1 H2)) as (t & Py).
  destruct (C139_who _ _ _ _ _ _ _ _ D S K Py) as [[Q _]|(l' & Q & Et)]; rewrite Hl in Q; [discriminate|injection Q as <-].
  assert (Hj : j <= i).
  { pose proof (run_timed cfg _ _ _ _ _ D S K (timed_genesis cfg b p)) as [_ (? & ? & ? & ? & _ & _ & _ & _ & (_ & _ & _ & _ & A5 & _) & _)].
    now destruct (A5 _ _ H1). }
  destruct Py as (h1 & x & h2 & -> & -> & En). apply sane_app in S as [S _]. apply throughout_app in P as [P _].
  destruct (kstep cfg (krun cfg (kgenesis b p) h1) (KEndSession x j)) as [t' out] eqn:E.
  assert (exists ev, out = KDone ev) as (ev & ->).
  { cbn [kstep] in E. destruct (end_session _ _ _ _) as [? ev]. exists ev. cbn in E. now injection E. }
  exists h1, x, h2, ev. split; [auto|]. intros t pay. exists t'. split; [exact E|]. intros A B.
  destruct (C95_pay cfg b p h1 _ x j t' ev S P He ltac:(lia) eq_refl E) as [C _]. specialize (C e En). rewrite Et in C.
  destruct (C A B) as (w & W1 & W2 & _ & W3). exists w. auto.
Qed.
Print Assumptions C140_partial.
(** Both validators of era 1 leave; the election for era 2 fails, so they go on, and validator 1
    authors a block in era 2. It earns points; nobody is paid. *)
Definition z140 : list kop :=
  zsetup ++ zboot ++ zrot 0 ++ zrot 1 ++ [KAuthor 1; zc 11 KChill; zc 12 KChill; zc 13 KChill] ++ zrot 2 ++ zrot 3 ++
  [KAuthor 1; zc 11 KValidate; zc 12 KValidate; zc 13 KValidate] ++ zrot 4 ++ [KFinal].
Theorem C140_refuted :
  exists h i e v,
    driven Setup (h ++ [KEndSession zx i]) <> None /\ (sane zcfg zs0 h /\ throughout zcfg kept zs0 h) /\
    (i, e) ∈ timeline zcfg zs0 h /\ ends_era (krun zcfg zs0 h) i e /\
    (* [v] was elected for the era before, and nobody for this one *)
    elections zcfg zs0 h (e - 1) = [[3; v]] /\ elections zcfg zs0 h e = [] /\
    0 < points_of (krun zcfg zs0 h) e v /\ 0 < mining_pool zcfg (krun zcfg zs0 h) /\
    0 < p_reward (k_par (krun zcfg zs0 h)) /\
    (kstep zcfg (krun zcfg zs0 h) (KEndSession zx i)).2 = KDone [].
Proof.
  exists z140, 5, 2, 1. split; [vm_compute; discriminate|]. split; [fine|].
  split; [apply elem_of_list_In; vm_compute; tauto|]. split; [split; vm_compute; reflexivity|].
  split; [vm_compute; reflexivity|]. split; [vm_compute; reflexivity|]. split; [vm_compute; reflexivity|].
  split; [vm_compute; reflexivity|]. split; vm_compute; reflexivity.
Qed.
Print Assumptions C140_refuted.
Example C140_example :
  let h := zsetup ++ zboot ++ zrot 0 ++ zrot 1 ++ [KAuthor 1; KAuthor 3; KAuthor 3] ++ zrot 2 ++ zrot 3 in
  let t := krun zcfg zs0 (zsetup ++ zboot ++ zrot 0 ++ zrot 1 ++ [KAuthor 1; KAuthor 3; KAuthor 3] ++ zrot 2 ++ [KFinal]) in
  let t' := (kstep zcfg t (KEndSession zx 3)).1 in
  driven Setup h = Some (Running 4 false) /\ (sane zcfg zs0 h /\ throughout zcfg kept zs0 h) /\
  throughout zcfg (small_points zcfg) zs0 h /\
  timeline zcfg zs0 h = [(0, 0); (1, 0); (2, 1); (3, 1); (4, 2)] /\ elections zcfg zs0 h 1 = [[3; 1]] /\
  map (points_of t 1) [1; 3] = [20; 40] /\
  map (fun a => free_of (k_bank t') a - free_of (k_bank t) a) [1; 3] = [33333333300000000000; 66666666600000000000].
Proof.
  intros h t t'. split; [vm_compute; reflexivity|]. split; [fine|].
  split; [split; [apply (alwaysb_ok _ _ _ (small_pointsb_ok zcfg))|apply small_pointsb_ok]; vm_compute; reflexivity|].
  split; [vm_compute; reflexivity|]. split; [vm_compute; reflexivity|]. split; vm_compute; reflexivity.
Qed.

(** * C141: when Root has stopped eras, none is planned before Root says so *)
Definition z141x : kctx :=
  KCtx 0 (fun _ => true) (fun _ _ _ => None) (fun _ => None) (fun _ => []) (fun _ => [])
       1 (fun _ => false) (fun _ => false) (fun w => w =? 7) (fun _ => false) (fun _ => true)
       (fun _ => 0) (fun _ => true) (fun _ => true) (fun _ => true) (fun _ => true).
Definition z141a : list kop := zsetup ++ zboot ++ zrot 0 ++ zrot 1 ++ [zroot (KForce ForceNone)].
Definition z141b : list kop := zrot 2 ++ zrot 3 ++ [KOffence z141x [(1, Expo (500 * DPR) (500 * DPR) [], [5], 100000000)] 4] ++ zrot 4 ++ zrot 5.
Theorem C141_refuted :
  ~ (forall cfg b p h1 h2 g,
       driven Setup (h1 ++ h2) = Some g -> sane cfg (kgenesis b p) (h1 ++ h2) -> throughout cfg kept (kgenesis b p) (h1 ++ h2) ->
       mode (krun cfg (kgenesis b p) h1) = ForceNone -> (forall x f, KCall x Root (KForce f) ∉ h2) ->
       cur_era (krun cfg (kgenesis b p) (h1 ++ h2)) = cur_era (krun cfg (kgenesis b p) h1)).
Proof.
  intros H. specialize (H zcfg zbank zpars z141a z141b (Running 6 false) ltac:(vm_compute; reflexivity)).
  assert (Q : sane zcfg zs0 (z141a ++ z141b) /\ throughout zcfg kept zs0 (z141a ++ z141b)) by fine. destruct Q as [Q1 Q2].
  specialize (H Q1 Q2 ltac:(vm_compute; reflexivity)).
  assert (X : forall x f, KCall x Root (KForce f) ∉ z141b).
  { intros x f Q. unfold z141b, zrot in Q. cbn [app] in Q. repeat (apply elem_of_cons in Q as [Q|Q]; [discriminate Q|]). now apply elem_of_nil in Q. }
  specialize (H X). vm_compute in H. discriminate H.
Qed.
Print Assumptions C141_refuted.
(** What holds: nothing else than a report about somebody who is then disabled plans an era. *)
Theorem C141_partial cfg s h :
  mode s = ForceNone -> Forall (fun op => ~ meddles op) h -> cur_era (krun cfg s h) = cur_era s /\ mode (krun cfg s h) = ForceNone.
Proof.
  revert s. induction h as [|op h IH]; intros s E M; cbn [krun]; [auto|]. apply Forall_cons in M as [M0 M].
  destruct (kstep cfg s op) as [s1 o] eqn:H. cbn [fst].
  destruct (step_mode cfg _ _ _ _ H M0) as [E1|(_ & Q & _)]; [|congruence].
  assert (Ec : cur_era s1 = cur_era s).
  { unfold cur_era. destruct op as [x u c|x| |i|x i|x i|a|x os i|b];
      try (destruct (bystander cfg _ _ _ _ H I) as (-> & _); reflexivity).
    - cbn [kstep] in H. destruct (new_session _ _ _) as [s2 ev] eqn:En. cbn in H. injection H as <- <-.
      destruct (new_session_spec cfg _ _ _ _ En) as (_ & _ & _ & [(-> & _)|(N1 & [[N2 _]|(c & _ & [[A _]|[[A _]|(A & _)]])] & _)]); try congruence; auto.
      rewrite N1, N2. unfold planned. now rewrite N2.
    - cbn [kstep] in H. destruct (start_session _ _ _ _) as [s2 ev] eqn:En. cbn in H. injection H as <- <-.
      apply start_session_spec in En. cbn zeta in En. destruct En as [[-> _]|[_ ->]]; reflexivity. }
  rewrite <- Ec. apply IH; [congruence|exact M].
Qed.
Print Assumptions C141_partial.
Example C141_example :
  mode (krun zcfg zs0 z141a) = ForceNone /\ Forall (fun op => ~ meddles op) (zrot 2 ++ zrot 3 ++ [zc 12 KChill]) /\
  cur_era (krun zcfg zs0 z141a) = 1 /\ cur_era (krun zcfg zs0 (z141a ++ zrot 2 ++ zrot 3 ++ [zc 12 KChill])) = 1 /\
  cur_era (krun zcfg zs0 (z141a ++ z141b)) = 2.
Proof.
  split; [vm_compute; reflexivity|]. split; [|split; [|split]; vm_compute; reflexivity].
  repeat (apply Forall_cons; split; [intros []|]). apply Forall_nil_2.
Qed.
