From Verif Require Import Base Balances Proofs_Balances Model_Adsc Spec_Adsc Proofs_Adsc Proofs_Adsc2 Proofs_Adsc3 Proofs_Adsc4
  Model_Assets Spec_Assets.
From stdpp Require Import gmap.
Open Scope N_scope.

(** ** One ledger *)
Lemma amint_mono l who v l' a : amint l who v = Some l' -> abal l a <= abal l' a.
Proof.
  unfold amint, abal. destruct (_ <=? _); [discriminate|]. destruct (v =? 0); [intros [= <-]; lia|].
  destruct (as_bal l !! who) as [b|] eqn:E.
  - destruct (_ <=? _); [discriminate|]. intros [= <-]. cbn [as_bal].
    destruct (decide (a = who)) as [->|H]; [rewrite lookup_insert, E; cbn; lia|rewrite lookup_insert_ne by congruence; lia].
  - destruct (_ <? _); [discriminate|]. intros [= <-]. cbn [as_bal].
    destruct (decide (a = who)) as [->|H]; [rewrite lookup_insert, E; cbn; lia|rewrite lookup_insert_ne by congruence; lia].
Qed.
Lemma aset_ne l who v a : a <> who -> aset l who v !! a = as_bal l !! a.
Proof.
  intros H. unfold aset.
  destruct (v =? 0); [now rewrite lookup_delete_ne by congruence|now rewrite lookup_insert_ne by congruence].
Qed.
Lemma aburn_other l who v l' a : aburn l who v = Some l' -> a <> who -> abal l' a = abal l a.
Proof.
  unfold aburn, abal. destruct (v =? 0); [intros [= <-]; reflexivity|].
  destruct (as_bal l !! who) as [b|]; [|discriminate]. destruct (_ || _); [discriminate|].
  intros [= <-] H. cbn [as_bal]. now rewrite aset_ne.
Qed.
Lemma atransfer_other l src dst v l' a : atransfer l src dst v = Some l' -> a <> src -> abal l a <= abal l' a.
Proof.
  unfold atransfer, abal. intros H Ha. destruct (as_bal l !! src) as [b|].
  2: { destruct (v =? 0); [|discriminate]. destruct (as_bal l !! dst); [|destruct (_ =? 0); [|discriminate]]; injection H as <-; lia. }
  destruct (_ || _); [discriminate|]. destruct (as_bal l !! dst) as [d|] eqn:Ed.
  - destruct (_ <=? _); [discriminate|]. destruct (_ || _); injection H as <-; [lia|]. cbn [as_bal].
    destruct (decide (a = dst)) as [->|Hn]; [rewrite lookup_insert, Ed; cbn; lia|].
    rewrite lookup_insert_ne, aset_ne by congruence. lia.
  - destruct (_ <? _); [discriminate|]. destruct (v =? 0); injection H as <-; [lia|]. cbn [as_bal].
    destruct (decide (a = dst)) as [->|Hn]; [rewrite Ed; cbn; lia|].
    rewrite lookup_insert_ne, aset_ne by congruence. lia.
Qed.

(** ** One operation of the ADSC pallet *)
Definition cause (op : aop) (evs : list aev) (a : N) : Prop := asked_by (fst op, inl (snd op)) evs a.

Lemma reward_led cfg s x s' evs l : adsc_reward cfg s x = (s', evs) -> a_ass s = Some l ->
  exists l', a_ass s' = Some l' /\ forall a, abal l a <= abal l' a.
Proof.
  intros H El.
  apply (adsc_reward_ind cfg x (fun s1 _ => exists l', a_ass s1 = Some l' /\ forall a, abal l a <= abal l' a) s s' evs); auto.
  - intros s1 w d s2 v ev (l1 & E1 & H1) _ P. destruct (pd_ass _ _ _ _ _ P) as (l2 & l3 & E2 & E3 & E4).
    exists l3. split; [exact E4|]. intros a. etransitivity; [apply H1|].
    replace l1 with l2 by congruence. eapply amint_mono, E3.
  - intros s1 s2 ev (_ & _ & _ & _ & E & _) H1. now rewrite E.
  - exists l. auto.
Qed.
Lemma call_led cfg s x o c s' r l : astep cfg s x o c = (s', r) -> a_ass s = Some l ->
  exists l', a_ass s' = Some l' /\
    forall a, abal l' a < abal l a -> cause (x, inl (o, c)) (match r with ROk evs => evs | _ => [] end) a.
Proof.
  intros H El.
  assert (G : a_ass s' = a_ass s -> exists l', a_ass s' = Some l' /\
    forall a, abal l' a < abal l a -> cause (x, inl (o, c)) (match r with ROk evs => evs | _ => [] end) a).
  { intros ->. exists l. split; [exact El|]. intros a Ha. lia. }
  unfold astep in H. destruct (aexec cfg s x o c) as [[s1 evs]|e|] eqn:E; injection H as <- <-; try (now apply G).
  destruct c; cbn [aexec] in E.
  6: { unfold do_bridge_burn, ensure_admin in E. rewrite El in E. destruct o as [|w|]; cbn [rbind] in E; try (injection E as <- <-; now apply G).
       all: try (destruct (ax_admin x _) eqn:Ea; cbn [rbind] in E; [|injection E as <- <-; now apply G]).
       all: destruct (aburn l who amount) as [l'|] eqn:Eb; injection E as <- <-; try (now apply G).
       all: exists l'; split; [reflexivity|]; intros a Ha; cbn; destruct (decide (a = who)) as [->|Hn];
         [auto|rewrite (aburn_other _ _ _ _ _ Eb Hn) in Ha; lia]. }
  6: { unfold do_bridge_mint, ensure_admin in E. rewrite El in E. destruct o as [|w|]; cbn [rbind] in E; try (injection E as <- <-; now apply G).
       all: try (destruct (ax_admin x _) eqn:Ea; cbn [rbind] in E; [|injection E as <- <-; now apply G]).
       all: destruct (amint l who amount) as [l'|] eqn:Eb; injection E as <- <-; try (now apply G).
       all: exists l'; split; [reflexivity|]; intros a Ha; pose proof (amint_mono _ _ _ _ a Eb); lia. }
  7: { unfold do_swap in E. destruct o; try discriminate. rewrite El in E.
       destruct (atransfer l who (ac_acct cfg) amount) as [l'|] eqn:Et; try discriminate.
       destruct (a_rate s) as [ar dr]. destruct (ar =? 0); try discriminate.
       destruct (transfer_allow _ _ _ _ _); try discriminate. injection E as <- <-.
       exists l'. split; [reflexivity|]. intros a Ha. cbn. destruct (decide (a = who)) as [->|Hn]; [reflexivity|].
       pose proof (atransfer_other _ _ _ _ _ _ Et Hn). lia. }
  all: unfold ensure_admin, do_add_nft, add_pool, rbind in E; break_match;
    repeat match goal with
    | H : ROk _ = ROk _ |- _ => injection H as <- <- || injection H as <-
    end; apply G; reflexivity.
Qed.
Lemma ado_led cfg s op s' evs l : ado cfg s op = (s', evs) -> a_ass s = Some l ->
  exists l', a_ass s' = Some l' /\ forall a, abal l' a < abal l a -> cause op evs a.
Proof.
  intros H El.
  assert (G : a_ass s' = a_ass s -> exists l', a_ass s' = Some l' /\ forall a, abal l' a < abal l a -> cause op evs a).
  { intros ->. exists l. split; [exact El|]. intros a Ha. lia. }
  destruct op as [x [[o c]|e]]; unfold ado in H; cbn [fst snd] in *.
  - destruct (astep cfg s x o c) as [s2 r2] eqn:Ec. injection H as <- <-. eapply call_led; eauto.
  - destruct e; cbn [aentry] in H.
    1: { unfold on_init in H. destruct (_ <? _); [injection H as <- <-; now apply G|].
         destruct (reward_led _ _ _ _ _ _ H El) as (l' & E1 & E2). exists l'. split; [exact E1|].
         intros a Ha. specialize (E2 a). lia. }
    1: { unfold on_upgrade in H. rewrite El in H. destruct (_ <? _); injection H as <- <-; now apply G. }
    8: { rewrite El in H. destruct (atransfer l src dst amount) as [l'|] eqn:Et; injection H as <- <-; [|now apply G].
         exists l'. split; [reflexivity|]. intros a Ha. cbn. destruct (decide (src = a)) as [->|Hn]; [reflexivity|].
         pose proof (atransfer_other _ _ _ _ _ a Et ltac:(congruence)). lia. }
    all: injection H as <- <-; apply G;
      repeat match goal with |- context [match ?x with _ => _ end] => destruct x end; reflexivity.
Qed.

(** No asset: nothing but an upgrade makes one. *)
Lemma ado_none cfg s op s' evs : ado cfg s op = (s', evs) -> a_ass s = None -> snd op <> inr AUpgrade ->
  a_ass s' = None /\ a_version s' = a_version s.
Proof.
  intros H El Hu.
  destruct op as [x [[o c]|e]]; unfold ado in H; cbn [fst snd] in *.
  - destruct (astep cfg s x o c) as [s2 r2] eqn:Ec. injection H as <- <-. unfold astep in Ec.
    destruct (aexec cfg s x o c) as [[s1 ev]|er|] eqn:E; injection Ec as <- <-; auto.
    destruct c; cbn [aexec] in E;
      unfold do_bridge_burn, do_bridge_mint, do_swap, ensure_admin, do_add_nft, add_pool, rbind in E; break_match;
      repeat match goal with
      | H : ROk _ = ROk _ |- _ => injection H as <- <- || injection H as <-
      end; auto; congruence.
  - destruct e; cbn [aentry] in H; try congruence.
    1: { unfold on_init in H. destruct (_ <? _); [injection H as <- <-; auto|].
         apply (adsc_reward_ind cfg x (fun s1 _ => a_ass s1 = None /\ a_version s1 = a_version s) s s' evs); auto.
         - intros s1 w d s2 v ev [H1 _] _ P. destruct (pd_ass _ _ _ _ _ P) as (l & l' & E1 & _). congruence.
         - intros s1 s2 ev P [H1 H2]. unfold pass_same in P. decompose [and] P. split; congruence. }
    all: rewrite ?El in H; injection H as <- <-;
      repeat match goal with |- context [match ?x with _ => _ end] => destruct x end; auto.
Qed.

(** ** Histories *)
Definition unmade (w : wst) : Prop := w_det w = None /\ a_ass (w_s w) = None /\ a_version (w_s w) < 2.

Lemma wado_made cfg w x i w' evs : pallet_made cfg w -> wado cfg w (x, i) = (w', evs) ->
  ado cfg (w_s w) (x, i) = (w_s w', evs) /\ w_det w' = w_det w /\ pallet_made cfg w' /\
  forall a, adsc_of (w_s w') a < adsc_of (w_s w) a -> asked_by (x, inl i) evs a.
Proof.
  intros [Hd [l Hl]] H.
  assert (Q : exists s', ado cfg (w_s w) (x, i) = (s', evs) /\ w' = WSt s' (w_det w)).
  { unfold wado in H. destruct (ado cfg (w_s w) (x, i)) as [s' ev] eqn:E.
    assert (R : refused w (x, i) = false).
    { unfold refused. rewrite Hd. cbn. destruct (debits (x, i)); reflexivity. }
    rewrite R in H. exists s'.
    assert (W : (WSt s' (w_det w), ev) = (w', evs)).
    { rewrite Hd in *. cbn [snd] in H. destruct i as [?|[]]; exact H. }
    injection W as <- <-. auto. }
  destruct Q as (s' & E & ->). cbn [w_s w_det].
  destruct (ado_led _ _ _ _ _ _ E Hl) as (l' & E1 & E2).
  split; [exact E|]. split; [reflexivity|]. split; [split; [exact Hd|]; cbn [w_s]; rewrite E1; eauto|].
  intros a. unfold adsc_of. rewrite E1, Hl. fold (abal l' a) (abal l a). apply E2.
Qed.

Lemma wcall_made cfg w x o c : pallet_made cfg w -> ordinary cfg (x, inr (o, c)) ->
  let w' := default w (wasset cfg w o c) in
  w_s w' = (arun cfg (w_s w) (plain (x, inr (o, c)))).1 /\
  (arun cfg (w_s w) (plain (x, inr (o, c)))).2 = [] /\ w_det w' = w_det w /\ pallet_made cfg w' /\
  forall a, adsc_of (w_s w') a < adsc_of (w_s w) a -> asked_by (x, inr (o, c)) [] a.
Proof.
  intros [Hd [l Hl]] Ho. cbv zeta.
  assert (M : pallet_made cfg w) by (split; eauto).
  assert (Z : default w (wasset cfg w o c) = w -> plain (x, inr (o, c)) = [] ->
    w_s (default w (wasset cfg w o c)) = (arun cfg (w_s w) (plain (x, inr (o, c)))).1 /\
    (arun cfg (w_s w) (plain (x, inr (o, c)))).2 = [] /\ w_det (default w (wasset cfg w o c)) = w_det w /\
    pallet_made cfg (default w (wasset cfg w o c)) /\
    forall a, adsc_of (w_s (default w (wasset cfg w o c))) a < adsc_of (w_s w) a -> asked_by (x, inr (o, c)) [] a).
  { intros E1 E2. rewrite E1, E2. do 3 (split; [reflexivity|]). split; [exact M|]. intros a Ha. lia. }
  unfold ordinary in Ho. cbn [snd] in Ho.
  destruct o as [|who|]; [contradiction| |now apply Z].
  assert (F : (who =? ac_acct cfg) = false) by now apply N.eqb_neq.
  destruct c; cbn [wasset wsigned] in *; unfold wcreate in *; rewrite ?Hd in *;
    cbn [d_team d_life d_stop d_dep t_owner t_issuer t_admin t_freezer is_live is_dying stopped existsb negb andb] in *;
    rewrite ?F in *; cbn [andb] in *; try (apply Z; reflexivity).
  - apply Z; [|reflexivity]. destruct (v =? 0); reflexivity.
  - unfold led. rewrite Hl. cbn [plain snd fst arun ado aentry]. rewrite Hl.
    destruct (atransfer l who dst v) as [l'|] eqn:Et.
    + do 2 (split; [reflexivity|]). split; [exact Hd|]. split; [split; [exact Hd|cbn; eauto]|]. intros a. unfold adsc_of. cbn. rewrite Hl. intros Ha.
      destruct (decide (a = who)) as [->|Hn]; [reflexivity|].
      pose proof (atransfer_other _ _ _ _ _ _ Et Hn) as G. unfold abal in G. lia.
    + do 2 (split; [reflexivity|]). split; [exact Hd|]. split; [exact M|]. intros a Ha. cbn in Ha. lia.
Qed.

Lemma arun_plain cfg s op r : plain op = [] ->
  arun cfg s (plain op ++ r) = arun cfg s r.
Proof. now intros ->. Qed.

Lemma step_made cfg w op w' evs : pallet_made cfg w -> ordinary cfg op -> wdo cfg w op = (w', evs) ->
  arun cfg (w_s w) (plain op) = (w_s w', map (fun e => (ax_time (fst op), e)) evs) /\
  pallet_made cfg w' /\ forall a, adsc_of (w_s w') a < adsc_of (w_s w) a -> asked_by op evs a.
Proof.
  intros M O H. destruct op as [x [i|[o c]]]; unfold wdo in H; cbn [fst snd] in *.
  - destruct (wado_made _ _ _ _ _ _ M H) as (E1 & _ & E3 & E4). split; [|auto].
    cbn [plain snd fst arun]. rewrite E1. now rewrite app_nil_r.
  - injection H as <- <-. destruct (wcall_made cfg w x o c M O) as (E1 & E2 & _ & E4 & E5).
    split; [|auto]. rewrite E1. cbn [map]. rewrite <- E2. now destruct (arun _ _ _).
Qed.

Lemma step_fresh cfg w op w' evs : unmade w -> ordinary cfg op -> (upgrades op = false -> ~ creates op) ->
  wdo cfg w op = (w', evs) ->
  arun cfg (w_s w) (plain op) = (w_s w', map (fun e => (ax_time (fst op), e)) evs) /\
  (if upgrades op then pallet_made cfg w' else unmade w').
Proof.
  intros (Hd & Hl & Hv) O C H. destruct op as [x [i|[o c]]]; unfold wdo in H; cbn [fst snd] in *.
  - cbn [plain snd fst arun]. unfold wado in H.
    destruct (ado cfg (w_s w) (x, i)) as [s' ev] eqn:E.
    assert (R : refused w (x, i) = false) by (unfold refused; now rewrite Hd). rewrite R in H. cbn [snd] in H.
    destruct (upgrades (x, inl i)) eqn:U.
    + destruct i as [?|[]]; try discriminate U. rewrite Hd in H.
      assert (V : (a_version (w_s w) <? 2) = true) by now apply N.ltb_lt. rewrite V in H. injection H as <- <-.
      cbn [w_s]. split; [now rewrite app_nil_r|]. split; [reflexivity|].
      unfold ado in E. cbn [snd aentry] in E. unfold on_upgrade in E. rewrite V, Hl in E. injection E as <- _. cbn. eauto.
    + assert (NU : snd (x, i) <> inr AUpgrade) by (intros Q; cbn in Q; subst i; discriminate U).
      destruct (ado_none _ _ _ _ _ E Hl NU) as [E1 E2].
      assert (W : (WSt s' (w_det w), ev) = (w', evs)) by (destruct i as [?|[]]; try exact H; discriminate U).
      injection W as <- <-. cbn [w_s w_det]. split; [now rewrite app_nil_r|]. repeat split; cbn; auto. now rewrite E2.
  - injection H as <- <-. cbn [map].
    assert (W : default w (wasset cfg w o c) = w).
    { unfold ordinary in O. cbn [snd] in O. destruct o as [|who|]; [contradiction| |reflexivity].
      specialize (C eq_refl). destruct c; cbn [wasset wsigned]; rewrite ?Hd; try reflexivity.
      exfalso. apply C. exact Logic.I. }
    rewrite W. assert (P : arun cfg (w_s w) (plain (x, inr (o, c))) = (w_s w, [])).
    { destruct o as [|who|]; try reflexivity. destruct c; try reflexivity.
      cbn [plain snd fst arun ado aentry]. now rewrite Hl. }
    rewrite P. split; [reflexivity|]. cbn [upgrades snd]. now repeat split.
Qed.

Lemma arun_app cfg : forall h1 s h2,
  arun cfg s (h1 ++ h2) =
  (let '(s1, o1) := arun cfg s h1 in let '(s2, o2) := arun cfg s1 h2 in (s2, o1 ++ o2)).
Proof.
  induction h1 as [|op r IH]; intros s h2; cbn [app arun].
  - now destruct (arun cfg s h2).
  - destruct (ado cfg s op) as [s1 evs]. rewrite IH. destruct (arun cfg s1 r) as [s2 o2].
    destruct (arun cfg s2 h2) as [s3 o3]. now rewrite app_assoc.
Qed.

Lemma run_made cfg : forall h w, pallet_made cfg w -> Forall (ordinary cfg) h ->
  pallet_made cfg (wrun cfg w h).1 /\
  arun cfg (w_s w) (flat_map plain h) = (w_s (wrun cfg w h).1, (wrun cfg w h).2).
Proof.
  induction h as [|op r IH]; intros w M O; [cbn; auto|].
  apply Forall_cons in O as [O1 O2]. cbn [wrun flat_map].
  destruct (wdo cfg w op) as [w1 evs] eqn:E.
  destruct (step_made _ _ _ _ _ M O1 E) as (E1 & M1 & _).
  destruct (IH w1 M1 O2) as [I1 I2]. destruct (wrun cfg w1 r) as [w2 out]. cbn [fst snd] in *.
  split; [exact I1|]. rewrite arun_app, E1, I2. reflexivity.
Qed.
Lemma run_fresh cfg : forall h w, unmade w -> Forall (ordinary cfg) h -> Forall (fun op => ~ creates op) (before_upgrade h) ->
  (if existsb upgrades h then pallet_made cfg (wrun cfg w h).1 else unmade (wrun cfg w h).1) /\
  arun cfg (w_s w) (flat_map plain h) = (w_s (wrun cfg w h).1, (wrun cfg w h).2).
Proof.
  induction h as [|op r IH]; intros w M O C; [cbn; auto|].
  apply Forall_cons in O as [O1 O2]. cbn [wrun flat_map existsb before_upgrade] in *.
  destruct (wdo cfg w op) as [w1 evs] eqn:E.
  assert (C1 : upgrades op = false -> ~ creates op).
  { intros U. rewrite U in C. now apply Forall_cons in C as [? _]. }
  destruct (step_fresh _ _ _ _ _ M O1 C1 E) as (E1 & M1).
  destruct (upgrades op); cbn [orb].
  - destruct (run_made cfg r w1 M1 O2) as [I1 I2]. destruct (wrun cfg w1 r) as [w2 out]. cbn [fst snd] in *.
    split; [exact I1|]. rewrite arun_app, E1, I2. reflexivity.
  - apply Forall_cons in C as [_ C2].
    destruct (IH w1 M1 O2 C2) as [I1 I2]. destruct (wrun cfg w1 r) as [w2 out]. cbn [fst snd] in *.
    split; [exact I1|]. rewrite arun_app, E1, I2. reflexivity.
Qed.

Lemma run_issued cfg b u v h : v < 2 -> Forall (ordinary cfg) h -> Forall (fun op => ~ creates op) (before_upgrade h) ->
  issued_only cfg (winit b u v) h.
Proof.
  intros V O C. assert (F : unmade (winit b u v)) by (split; [reflexivity|split; [reflexivity|exact V]]).
  destruct (run_fresh cfg h _ F O C) as [_ E]. unfold issued_only. destruct (wrun cfg (winit b u v) h) as [w out].
  cbn [fst snd] in E. destruct (run_supply cfg (flat_map plain h) (w_s (winit b u v)) Logic.I) as [H1 H2].
  rewrite E in H1, H2. cbn [fst snd] in H1, H2.
  unfold circulating, sup, ass_ok, led_ok, circ, ins in *. cbn [winit w_s set_a_version a_ass ainit] in H2.
  destruct (a_ass (w_s w)); lia.
Qed.

(** A holder can pay another holder. *)
Lemma run_usable cfg b u v h w x who dst amount :
  v < 2 -> Forall (ordinary cfg) h -> Forall (fun op => ~ creates op) (before_upgrade h) ->
  (wrun cfg (winit b u v) h).1 = w ->
  who <> dst -> amount <= adsc_of (w_s w) who -> 0 < adsc_of (w_s w) dst ->
  adsc_of (w_s w) dst + amount < 2 ^ 128 ->
  adsc_of (w_s (wdo cfg w (x, inr (Signed who, WTransfer dst amount))).1) dst = adsc_of (w_s w) dst + amount.
Proof.
  intros V O C E Hn Hb Hd Ht.
  assert (F : unmade (winit b u v)) by (split; [reflexivity|split; [reflexivity|exact V]]).
  destruct (run_fresh cfg h _ F O C) as [M R]. rewrite E in M, R.
  destruct (run_supply cfg (flat_map plain h) (w_s (winit b u v)) Logic.I) as [H1 _].
  rewrite R in H1. cbn [fst] in H1.
  destruct (existsb upgrades h).
  2: { destruct M as (_ & N0 & _). unfold adsc_of in Hd. rewrite N0 in Hd. lia. }
  destruct M as [Md [l Ml]]. unfold ass_ok in H1. rewrite Ml in H1. unfold led_ok in H1.
  unfold wdo. cbn [snd fst wasset wsigned]. rewrite Md.
  cbn [d_team d_life d_stop d_dep is_live stopped existsb negb andb]. unfold led. rewrite Ml.
  unfold adsc_of in *. rewrite Ml in *.
  destruct (as_bal l !! dst) as [d|] eqn:Ed; cbn in Hd; [|lia].
  unfold atransfer. rewrite Ed.
  destruct (as_bal l !! who) as [z|] eqn:Ew; cbn in Hb.
  - assert (Z : z <= as_supply l).
    { pose proof (msum_le (fun _ z : N => z) _ _ _ Ew) as Q. cbn beta in Q. unfold circ in H1. lia. }
    destruct (N.ltb_spec z amount); [lia|]. destruct (N.ltb_spec (as_supply l) amount); [lia|]. cbn [orb].
    destruct (N.leb_spec two128 (d + amount)) as [Q|Q].
    { unfold two128 in Q. change (2 ^ 128) with 340282366920938463463374607431768211456 in Ht. cbn in Ht. lia. }
    destruct (N.eqb_spec who dst); [congruence|]. cbn [orb].
    destruct (N.eqb_spec amount 0) as [->|].
    + cbn [from_option default set_led w_s set_a_ass a_ass]. rewrite Ml || idtac. cbn. rewrite ?Ed. cbn. lia.
    + cbn [from_option default set_led w_s set_a_ass a_ass as_bal]. cbn. rewrite lookup_insert. reflexivity.
  - assert (amount = 0) as -> by lia. cbn. rewrite Ed. cbn. lia.
Qed.
