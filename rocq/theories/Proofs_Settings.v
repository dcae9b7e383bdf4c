(** Credit settings: the tables rise with the level, and pay their yearly rate. *)
From Verif Require Import Base Balances Proofs_Balances Proofs_Arith Model_UserPrivileges Model_Credit
  Spec_Credit Proofs_Credit Proofs_Credit2 Proofs_Credit3 Proofs_Credit4 Model_Settings Spec_Settings.
From stdpp Require Import gmap.
Open Scope N_scope.

(** ** Tables follow the settings *)
Definition follows (s : kstate) : Prop :=
  forall k, k_poc s !! k = (fun st => (daily_base st, daily_bonus st)) <$> k_settings s !! k.
Definition key (st : setting) : N * N := (st_camp st, st_level st).
Lemma update_follows s st : follows s -> follows (update_setting s st).
Proof.
  intros H k. cbn [k_poc k_settings update_setting set_k_settings set_k_poc].
  destruct (decide (k = (st_camp st, st_level st))) as [->|Hk]; [now rewrite !lookup_insert|].
  rewrite !lookup_insert_ne by congruence. apply H.
Qed.
Lemma fold_follows l : forall s, follows s -> follows (fold_left update_setting l s).
Proof. induction l as [|st l IH]; intros s H; [done|]. cbn [fold_left]. apply IH. now apply update_follows. Qed.

Lemma fold_settings_other l : forall s k, k ∉ map key l -> k_settings (fold_left update_setting l s) !! k = k_settings s !! k.
Proof.
  induction l as [|st l IH]; intros s k Hk; [done|]. cbn [fold_left map] in *. apply not_elem_of_cons in Hk as [Hk Hl].
  rewrite IH by done. cbn [k_settings update_setting set_k_settings]. apply lookup_insert_ne. intros E. now destruct Hk.
Qed.
Lemma fold_settings_in l : forall s st, NoDup (map key l) -> st ∈ l -> k_settings (fold_left update_setting l s) !! key st = Some st.
Proof.
  induction l as [|a l IH]; intros s st Hn Hi; [now apply elem_of_nil in Hi|]. cbn [fold_left map] in *.
  apply NoDup_cons in Hn as [Ha Hn]. apply elem_of_cons in Hi as [->|Hi]; [|now apply IH].
  rewrite fold_settings_other by done. cbn [k_settings update_setting set_k_settings]. apply lookup_insert.
Qed.

(** A table for all levels of one campaign that rises. *)
Record rises (camp : N) (l : list setting) : Prop := {
  r_keys : map key l = map (fun i => (camp, i)) [0; 1; 2; 3; 4; 5; 6; 7; 8];
  r_more : forall a b, a ∈ l -> b ∈ l -> st_level a <= st_level b -> offers_more a b }.
Lemma fold_graded camp l s : rises camp l -> graded s -> graded (fold_left update_setting l s).
Proof.
  intros [Hk Hm] H c i j Hij Hj.
  assert (Hn : NoDup (map key l)).
  { rewrite Hk. apply NoDup_fmap_2; [intros ? ? [= ->]; reflexivity|]. apply (bool_decide_unpack _). vm_compute. exact I. }
  destruct (decide (c = camp)) as [->|Hc].
  - assert (F : forall i, i <= 8 -> exists st, st ∈ l /\ st_level st = i /\ the_setting (fold_left update_setting l s) camp i = st).
    { intros i' Hi. assert (K : (camp, i') ∈ map key l).
      { rewrite Hk. apply elem_of_list_In, in_map_iff. exists i'. split; [reflexivity|]. cbn. lia. }
      apply elem_of_list_In, in_map_iff in K as (st & Ek & Is). apply elem_of_list_In in Is. exists st.
      assert (Es : st_level st = i') by (unfold key in Ek; congruence). repeat split; [done|done|].
      unfold the_setting. rewrite <- Ek, (fold_settings_in l s st Hn Is). reflexivity. }
    destruct (F i) as (a & Ia & Ea & ->); [lia|]. destruct (F j) as (b & Ib & Eb & ->); [lia|]. apply Hm; [done|done|lia].
  - assert (F : forall i, the_setting (fold_left update_setting l s) c i = the_setting s c i).
    { intros i'. unfold the_setting. rewrite fold_settings_other; [reflexivity|]. rewrite Hk. intros K.
      apply elem_of_list_In, in_map_iff in K as (? & [= ? ?] & _). congruence. }
    rewrite !F. now apply H.
Qed.

Definition offers_moreb (a b : setting) : bool :=
  (st_bal a <=? st_bal b) && (st_apy a <=? st_apy b) && (st_perref b * st_maxref b <=? st_perref a * st_maxref a).
Definition risesb (l : list setting) : bool :=
  forallb (fun a => forallb (fun b => negb (st_level a <=? st_level b) || offers_moreb a b) l) l.
Lemma risesb_ok camp l : map key l = map (fun i => (camp, i)) [0; 1; 2; 3; 4; 5; 6; 7; 8] -> risesb l = true -> rises camp l.
Proof.
  intros Hk H. split; [exact Hk|]. intros a b Ia Ib Hl. unfold risesb in H. rewrite forallb_forall in H.
  apply elem_of_list_In in Ia, Ib. specialize (H a Ia). rewrite forallb_forall in H. specialize (H b Ib).
  apply N.leb_le in Hl. rewrite Hl in H. cbn in H. unfold offers_moreb in H.
  apply andb_true_iff in H as [[H1 H2]%andb_true_iff H3]. apply N.leb_le in H1, H2, H3. repeat split; assumption.
Qed.
Lemma rises_0 : rises 0 campaign_0.
Proof. apply risesb_ok; vm_compute; reflexivity. Qed.
Lemma rises_8 : rises 8 half_campaign8.
Proof. apply risesb_ok; vm_compute; reflexivity. Qed.
Definition zero_free : bool := forallb (fun a => negb (st_bal a =? 0) || (st_apy a =? 0)) half_campaign8.
Lemma rises_7 add : rises 7 (half_campaign7 add).
Proof.
  split.
  - unfold half_campaign7. rewrite map_map. exact (r_keys _ _ (risesb_ok 7 (half_campaign7 0) ltac:(vm_compute; reflexivity) ltac:(vm_compute; reflexivity))).
  - intros a b Ia Ib. unfold half_campaign7 in *. apply elem_of_list_In, in_map_iff in Ia as (a' & <- & Ia), Ib as (b' & <- & Ib).
    cbn [st_level]. intros Hl.
    assert (Z : zero_free = true) by (vm_compute; reflexivity). unfold zero_free in Z. rewrite forallb_forall in Z. specialize (Z a' Ia).
    apply elem_of_list_In in Ia, Ib. destruct (r_more _ _ rises_8 a' b' Ia Ib Hl) as (H1 & H2 & H3).
    unfold offers_more. cbn [st_bal st_apy st_perref st_maxref]. repeat split; [done| |done].
    destruct (N.eqb_spec (st_bal a') 0) as [Ea|Ea], (N.eqb_spec (st_bal b') 0) as [Eb|Eb]; cbn in Z; try apply N.eqb_eq in Z; lia.
Qed.
Lemma rises_sub k : 0 < k -> k <= 5 -> rises 7 (sub_genesis_apy k).
Proof.
  intros H0 H5. assert (k = 1 \/ k = 2 \/ k = 3 \/ k = 4 \/ k = 5) as D by lia.
  destruct D as [->|[->|[->|[->| ->]]]]; apply risesb_ok; vm_compute; reflexivity.
Qed.

(** ** Both survive every step *)
Definition tables (s : kstate) : gmap (N * N) setting * gmap (N * N) (N * N) := (k_settings s, k_poc s).
Lemma kdo_tables cfg s op : kc_step cfg <> U64MAX ->
  let s' := kdo cfg s op in
  tables s' = tables s \/ (exists x, s' = on_initialize cfg s x) \/ (exists x, s' = on_upgrade cfg s x) \/
  (exists st, op.2 = inl (Root, KUpdateSetting st) /\ s' = update_setting s st).
Proof.
  intros Hs. cbv zeta. destruct op as [x [[o c]|e]].
  - destruct (accepted cfg s (x, inl (o, c))) eqn:Ea; [|left; now rewrite (kdo_call_not _ _ _ _ _ Ea)].
    pose proof (kdo_call _ _ _ _ _ Ea) as E. generalize dependent (kdo cfg s (x, inl (o, c))). intros s' E.
    pose proof E as E0.
    apply kexec_rest in E. destruct c; cbv beta iota in E; open_all;
      try (left; unfold tables; rest_all s').
    right; right; right. exists st. cbn [kexec] in E0. destruct o; try discriminate. split; [reflexivity|done].
  - destruct (accepted cfg s (x, inr e)) eqn:Ea; [|left; now rewrite (kdo_entry_not _ _ _ _ Ea)].
    destruct (kdo_entry _ _ _ _ Ea) as [r E]. generalize dependent (kdo cfg s (x, inr e)). intros s' E.
    apply kentry_rest in E; [|done].
    destruct e; cbv beta iota in E; open_all;
      try match goal with H : s' = on_initialize _ _ _ |- _ => right; left; eauto end;
      try match goal with H : s' = on_upgrade _ _ _ |- _ => right; right; left; eauto end;
      left; unfold tables; frame_step s'.
Qed.

Lemma init_graded cfg s x : graded s -> graded (on_initialize cfg s x).
Proof.
  intros H. unfold on_initialize. destruct (_ =? 0); [|done]. destruct (_ =? 0); [done|]. cbv zeta.
  destruct (_ && _ && _) eqn:E; [|done]. apply andb_true_iff in E as [[_ E1%N.ltb_lt]%andb_true_iff E2%N.leb_le].
  eapply fold_graded; [now apply rises_sub|done].
Qed.
Lemma init_follows cfg s x : follows s -> follows (on_initialize cfg s x).
Proof.
  intros H. unfold on_initialize. destruct (_ =? 0); [|done]. destruct (_ =? 0); [done|]. cbv zeta.
  destruct (_ && _ && _) eqn:E; [|done]. now apply fold_follows.
Qed.
Lemma version_graded s v : graded s -> graded (set_k_version s v).
Proof. intros H. exact H. Qed.
Lemma version_follows s v : follows s -> follows (set_k_version s v).
Proof. intros H. exact H. Qed.
Lemma upgrade_graded cfg s x : graded s -> graded (on_upgrade cfg s x).
Proof.
  intros H. unfold on_upgrade. destruct (_ =? 4); [|done]. cbv zeta.
  apply version_graded.
  eapply fold_graded; [apply rises_7|]. eapply fold_graded; [apply rises_8|done].
Qed.
Lemma upgrade_follows cfg s x : follows s -> follows (on_upgrade cfg s x).
Proof.
  intros H. unfold on_upgrade. destruct (_ =? 4); [|done]. cbv zeta.
  apply version_follows. apply fold_follows. now apply fold_follows.
Qed.
Lemma tables_graded s s' : tables s' = tables s -> graded s -> graded s'.
Proof. intros [= E _] H. unfold graded, the_setting. rewrite E. exact H. Qed.
Lemma tables_follows s s' : tables s' = tables s -> follows s -> follows s'.
Proof. intros [= E E2] H. unfold follows. rewrite E, E2. exact H. Qed.

Lemma run_follows cfg h : kc_step cfg <> U64MAX -> forall s, follows s -> follows (krun cfg s h).
Proof.
  intros Hs. induction h as [|op h IH]; intros s H; [done|]. cbn [krun fold_left]. apply (IH (kdo cfg s op)).
  destruct (kdo_tables cfg s op Hs) as [E|[[x ->]|[[x ->]|(st & _ & ->)]]];
    [now apply (tables_follows s)|now apply init_follows|now apply upgrade_follows|now apply update_follows].
Qed.
Lemma run_graded cfg h : kc_step cfg <> U64MAX -> Forall (fun op => ~ sets_settings op) h ->
  forall s, graded s -> graded (krun cfg s h).
Proof.
  intros Hs. induction 1 as [|op h Ho Hh IH]; intros s H; [done|]. cbn [krun fold_left]. apply (IH (kdo cfg s op)).
  destruct (kdo_tables cfg s op Hs) as [E|[[x ->]|[[x ->]|(st & E & _)]]];
    [now apply (tables_graded s)|now apply init_graded|now apply upgrade_graded|].
  destruct Ho. unfold sets_settings. now rewrite E.
Qed.
Lemma start_follows b settings data : follows (kinit b settings data).
Proof. unfold kinit. apply (fold_follows settings). intros k. cbn. now rewrite !lookup_empty. Qed.

(** ** Records in histories carry their level *)
Definition all_levels (b : book) : Prop :=
  (forall who d, b.1 !! who = Some d -> level_ok d) /\ (forall who h, b.2 !! who = Some h -> Forall (fun p => level_ok p.2) h).
Lemma touch_all (P : Prop) era who b b' : P -> all_levels b -> touch P era who b b' -> all_levels b'.
Proof.
  intros HP [H1 H2] T. split; [now apply (touch_levels P era who b b')|].
  destruct T as [u h d d' Hd Hl|u h d Hd Hl|u h|u h d Hd]; intros w l; cbn.
  - unfold recorded. destruct (h !! who) as [hw|] eqn:Eh; cbn [default]; [|now apply H2].
    unfold id. destruct (last hw) as [[e dl]|]; [|now apply H2].
    intros [[-> <-]|[_ Hw]]%lookup_insert_Some; [|eapply H2; eassumption].
    pose proof (H2 _ _ Eh) as F. destruct (e =? era); apply Forall_app; (split; [|now constructor; auto]); [now apply Forall_take|done].
  - apply H2.
  - intros [_ Hw]%lookup_delete_Some. eapply H2; eassumption.
  - intros [[-> <-]|[_ Hw]]%lookup_insert_Some; [|eapply H2; eassumption]. constructor; [|constructor]. cbn. eapply H1; eassumption.
Qed.
Lemma touches_all (P : Prop) era who b b' : P -> all_levels b -> rtc (touch P era who) b b' -> all_levels b'.
Proof. intros HP H T. induction T; [done|]. apply IHT. eapply touch_all; [exact HP|eassumption..]. Qed.
Lemma restamp_levels h e h' : restamp h e = Some h' -> Forall (fun p : N * cdata => level_ok p.2) h -> Forall (fun p : N * cdata => level_ok p.2) h'.
Proof.
  induction h as [|[a d] r IH]; [discriminate|]. cbn [restamp]. intros H F. apply Forall_cons in F as [F1 F2].
  destruct (match r with [] => _ | _ => _ end); [injection H as <-; now constructor|auto].
Qed.
Lemma run_levels cfg h : kc_step cfg <> U64MAX -> forall s, all_levels (cr s) -> all_levels (cr (krun cfg s h)).
Proof.
  intros Hs. induction h as [|op h IH]; intros s H; [done|]. cbn [krun fold_left]. apply (IH (kdo cfg s op)).
  destruct (kdo_touches cfg s op Hs) as [[who T]|(who & e & hh & h' & _ & Eh & Er & ->)].
  - eapply (touches_all (levels_ok s) _ who (cr s)); [intros w d; apply H|done|exact T].
  - destruct H as [H1 H2]. split; [exact H1|]. intros w l. cbn.
    intros [[-> <-]|[_ Hw]]%lookup_insert_Some; [|eapply H2; eassumption]. eapply restamp_levels; [exact Er|eapply H2; exact Eh].
Qed.

(** ** C163 *)
Lemma daily_base_mono a b : offers_more a b -> daily_base a <= daily_base b.
Proof.
  intros (H1 & H2 & H3). unfold daily_base, smul128.
  assert (Hm : N.min (st_perref b * st_maxref b) (two128 - 1) <= N.min (st_perref a * st_maxref a) (two128 - 1)) by lia.
  etransitivity; [apply N.sub_le_mono_r|apply N.sub_le_mono_l, Hm].
  apply frac_mul_mono; [done|lia|]. apply frac_mul_mono; [done|lia|]. now apply frac_mul_mono.
Qed.
Lemma base_of_setting s camp l : follows s -> base_reward s camp l = daily_base (the_setting s camp l).
Proof.
  intros H. unfold base_reward, the_setting. rewrite H. destruct (k_settings s !! (camp, l)); [reflexivity|]. vm_compute. reflexivity.
Qed.
Lemma bonus_of_setting s camp l : follows s -> bonus_reward s camp l = daily_bonus (the_setting s camp l).
Proof.
  intros H. unfold bonus_reward, the_setting. rewrite H. destruct (k_settings s !! (camp, l)); [reflexivity|]. vm_compute. reflexivity.
Qed.
Lemma band_mono a b : a <= b -> band a <= band b.
Proof. intros H. unfold band. pose proof (N.div_le_mono a b 100 ltac:(done) H). lia. Qed.
Lemma pay_mono cfg s w w' e d d' : follows s -> graded s ->
  record s w e = Some d -> record s w' e = Some d' -> level_ok d -> level_ok d' ->
  cd_camp d = cd_camp d' -> cd_init d = cd_init d' -> cd_rank d = cd_rank d' ->
  (cd_camp d = 5 -> staked_dollars s w <= staked_dollars s w') -> cd_credit d <= cd_credit d' ->
  pay cfg s w e <= pay cfg s w' e.
Proof.
  intros Hf Hg R R' L L' Ec Ei Er Hd Hc. unfold pay, era_pay. unfold record in R, R'. rewrite R, R'.
  destruct (N.leb_spec (kc_min cfg) (cd_credit d)) as [H|H]; [|cbn; lia].
  destruct (N.leb_spec (kc_min cfg) (cd_credit d')) as [H'|H']; [|lia]. cbn [default from_option id].
  assert (Hl : cd_level d <= cd_level d') by (rewrite L, L'; now apply band_mono).
  assert (H8 : cd_level d' <= 8) by (rewrite L'; unfold band; lia).
  pose proof (Hg (cd_camp d) _ _ Hl H8) as M. unfold daily. rewrite <- Ec, <- Ei, <- Er.
  destruct (N.eqb_spec (cd_camp d) 5) as [E5|E5].
  - destruct (k_price s) as [p|]; [|lia]. rewrite E5 in M. destruct M as (_ & M & _).
    assert (staked_dollars s w * DPR / p <= staked_dollars s w' * DPR / p).
    { destruct (N.eq_dec p 0) as [->|Hp]; [now destruct (staked_dollars s w * DPR), (staked_dollars s w' * DPR)|].
      apply N.div_le_mono; [done|]. apply N.mul_le_mono_r. auto. }
    apply N.div_le_mono; [done|]. now apply frac_mul_mono.
  - rewrite !(base_of_setting s) by done. apply N.add_le_mono_r. now apply daily_base_mono.
Qed.

(** ** C164 *)
Lemma yearly_ok apy bal : yearly apy bal (frac_mul PB_1_270 PERBILL (frac_mul PB_270_365 PERBILL (frac_mul apy 100 bal))).
Proof.
  destruct (frac_mul_nearest apy 100 bal ltac:(done)) as [A1 A2]. set (y := frac_mul apy 100 bal) in *.
  destruct (frac_mul_nearest PB_270_365 PERBILL y ltac:(done)) as [B1 B2]. set (x := frac_mul PB_270_365 PERBILL y) in *.
  destruct (frac_mul_nearest PB_1_270 PERBILL x ltac:(done)) as [C1 C2]. set (z := frac_mul PB_1_270 PERBILL x) in *.
  clearbody x y z. unfold yearly, PB_1_270, PB_270_365, PERBILL in *.
  replace (2 * apy * bal) with (2 * (apy * bal)) in * by ring.
  generalize dependent (apy * bal). intros m A1 A2. pose proof (N.div_mod m 5000000 ltac:(done)) as Hm.
  pose proof (N.mod_lt m 5000000 ltac:(done)) as Hr. generalize dependent (m / 5000000). generalize dependent (m mod 5000000). intros r Hr q ->.
  split; lia.
Qed.
