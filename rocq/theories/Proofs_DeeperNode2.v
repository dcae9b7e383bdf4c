(** Proofs about deposits, heartbeats and reward address bindings. *)
From Verif Require Import Base Balances Proofs_Balances Model_DeeperNode Spec_DeeperNode.
From stdpp Require Import gmap strings.
From Coq Require Import Lia.
Open Scope N_scope.

(** Reserved balances. *)
Lemma put_rsv ed b who a w :
  rsv (acct_of (put ed b who a) w) = if w =? who then rsv a else rsv (acct_of b w).
Proof.
  destruct (N.eqb_spec w who) as [->|Hn]; [|now rewrite put_acct_ne].
  unfold put, acct_of. destruct ((free a <? ed) && (rsv a =? 0)) eqn:E; cbn.
  - rewrite lookup_delete. cbn. apply andb_prop in E as [_ E]. apply N.eqb_eq in E. now rewrite E.
  - rewrite lookup_insert. reflexivity.
Qed.

Lemma transfer_allow_rsv ed b src dst v b' w :
  transfer_allow ed b src dst v = Some b' -> rsv (acct_of b' w) = rsv (acct_of b w).
Proof.
  unfold transfer_allow. destruct ((v =? 0) || (src =? dst)) eqn:E0; [now intros [= ->]|].
  apply orb_false_elim in E0 as [_ E0]. apply N.eqb_neq in E0.
  destruct (_ <? v); [discriminate|]. destruct (_ <? v); [discriminate|].
  destruct (_ && negb _); [discriminate|]. destruct (_ <? ed); [discriminate|].
  destruct (two128 <=? _); [discriminate|]. intros [= <-].
  rewrite !put_rsv. cbn.
  destruct (N.eqb_spec w dst) as [->|]; [reflexivity|].
  destruct (N.eqb_spec w src) as [->|]; reflexivity.
Qed.

Lemma reserve_rsv ed b who v b' w :
  reserve ed b who v = Some b' ->
  rsv (acct_of b' w) = rsv (acct_of b w) + (if w =? who then v else 0).
Proof.
  unfold reserve. destruct (N.eqb_spec v 0) as [->|Hv].
  { intros [= ->]. destruct (w =? who); lia. }
  destruct (_ <? v); [discriminate|]. destruct (_ <? frz _); [discriminate|].
  destruct (_ <? ed); [discriminate|]. intros [= <-]. rewrite put_rsv. cbn.
  destruct (N.eqb_spec w who) as [->|]; lia.
Qed.

Lemma reserve_exact ed b who v b' :
  reserve ed b who v = Some b' ->
  v <= free_of b who /\
  acct_of b' who = Acct (free_of b who - v) (rsv (acct_of b who) + v) (frz (acct_of b who)) /\
  forall w, w <> who -> acct_of b' w = acct_of b w.
Proof.
  unfold reserve, free_of. destruct (N.eqb_spec v 0) as [->|Hv].
  { intros [= ->]. split; [lia|]. split; [|auto].
    rewrite N.sub_0_r, N.add_0_r. now destruct (acct_of b' who). }
  destruct (N.ltb_spec (free (acct_of b who)) v); [discriminate|].
  destruct (_ <? frz _); [discriminate|].
  destruct (N.ltb_spec (free (acct_of b who) - v) ed); [discriminate|]. intros [= <-].
  split; [assumption|]. split.
  - apply put_acct_eq. cbn. auto.
  - intros w Hw. now apply put_acct_ne.
Qed.

Lemma unreserve_rsv ed b who v w :
  v <= rsv (acct_of b who) ->
  rsv (acct_of (unreserve ed b who v) w) = rsv (acct_of b w) - (if w =? who then v else 0).
Proof.
  intros Hv. unfold unreserve. destruct (N.eqb_spec v 0) as [->|].
  { destruct (w =? who); lia. }
  rewrite put_rsv. cbn. destruct (N.eqb_spec w who) as [->|]; lia.
Qed.

Lemma unreserve_exact ed b who v :
  v <= rsv (acct_of b who) ->
  ed <= free_of b who + v \/ v < rsv (acct_of b who) \/ v = 0 ->
  acct_of (unreserve ed b who v) who =
    Acct (free_of b who + v) (rsv (acct_of b who) - v) (frz (acct_of b who)) /\
  forall w, w <> who -> acct_of (unreserve ed b who v) w = acct_of b w.
Proof.
  intros Hv Hed. unfold unreserve, free_of in *. destruct (N.eqb_spec v 0) as [->|].
  { split; [|auto]. rewrite N.sub_0_r, N.add_0_r. now destruct (acct_of b who). }
  split.
  - rewrite put_acct_eq; cbn; [f_equal; lia|]. lia.
  - intros w Hw. now apply put_acct_ne.
Qed.

(** What the server list helpers leave alone. *)
Definition frame (s s' : dstate) : Prop :=
  d_bank s' = d_bank s /\ d_proof s' = d_proof s /\ d_online s' = d_online s /\
  d_onboard s' = d_onboard s /\ d_onboarded s' = d_onboarded s /\
  d_e2d s' = d_e2d s /\ d_d2e s' = d_d2e s /\ d_other s' = d_other s.

Lemma frame_refl s : frame s s.
Proof. unfold frame. auto 10. Qed.

Section steps.
  Context (cfg : dcfg).

  Lemma remove_frame s now who : frame s (try_remove_server cfg s now who).
  Proof. unfold try_remove_server. destruct (d_dev s !! who); [|apply frame_refl]. unfold frame. cbn. auto 10. Qed.

  Lemma add_frame s now who d : frame s (try_add_server cfg s now who d).
  Proof.
    unfold try_add_server. cbv zeta.
    repeat match goal with |- frame _ (match ?e with Some _ => _ | None => _ end) => destruct e end;
      unfold frame; cbn; auto 10.
  Qed.

  Lemma remove_dom s now who w :
    d_dev (try_remove_server cfg s now who) !! w = None <-> d_dev s !! w = None.
  Proof.
    unfold try_remove_server. destruct (d_dev s !! who) eqn:E; [|tauto]. cbn.
    destruct (decide (who = w)) as [<-|Hn].
    - rewrite lookup_insert, E. split; discriminate.
    - rewrite lookup_insert_ne by exact Hn. tauto.
  Qed.

  Lemma add_dom s now who d w : is_Some (d_dev s !! who) ->
    d_dev (try_add_server cfg s now who d) !! w = None <-> d_dev s !! w = None.
  Proof.
    intros [n E]. unfold try_add_server. cbv zeta.
    repeat match goal with
    | |- context [d_dev (match ?e with Some _ => _ | None => _ end)] => destruct e end; cbn; try tauto.
    destruct (decide (who = w)) as [<-|Hn].
    - rewrite lookup_insert, E. split; discriminate.
    - rewrite lookup_insert_ne by exact Hn. tauto.
  Qed.

  (** Case analysis of one accepted call. *)
  Inductive moved (s s' : dstate) (x : dctx) (who : N) : dcall -> Prop :=
  | mv_reg_new country b : d_dev s !! who = None ->
      reserve (d_ed cfg) (d_bank s) who (d_minlock cfg) = Some b ->
      s' = with_dev (with_bank s b) (<[who := Node country (x_now x)]> (d_dev s)) ->
      moved s s' x who (DRegister country)
  | mv_reg_old country : is_Some (d_dev s !! who) -> frame s s' ->
      (forall w, d_dev s' !! w = None <-> d_dev s !! w = None) ->
      moved s s' x who (DRegister country)
  | mv_unreg s1 : is_Some (d_dev s !! who) -> frame s s1 ->
      (forall w, d_dev s1 !! w = None <-> w = who \/ d_dev s !! w = None) ->
      s' = with_bank s1 (unreserve (d_ed cfg) (d_bank s1) who (d_minlock cfg)) ->
      moved s s' x who DUnregister
  | mv_server c : frame s s' ->
      match c with DRegisterServer _ | DUpdateServer _ | DUnregisterServer => True | _ => False end ->
      is_Some (d_dev s !! who) ->
      (forall w, d_dev s' !! w = None <-> d_dev s !! w = None) ->
      moved s s' x who c
  | mv_online ev : im_online s (x_now x) who = ROk (s', ev) -> moved s s' x who DImOnline
  | mv_proof nonce sg t f u : x_verify x nonce sg who = true ->
      s' = DState (d_bank s) (d_dev s) (d_bycountry s) (d_byregion s)
           (<[who := (t, f, u)]> (d_proof s)) (d_online s)
           (d_onboard s) (d_onboarded s) (d_e2d s) (d_d2e s) (d_other s) ->
      moved s s' x who (DReportProof nonce sg t f u)
  | mv_map nonce sg evm : x_verify_new x nonce sg who = true -> d_e2d s !! evm = None ->
      (d_d2e s !! who <> Some evm ->
       s' = with_maps s (<[evm := who]> (d_e2d s)) (<[who := evm]> (d_d2e s))) ->
      (d_d2e s !! who = Some evm -> s' = s) ->
      moved s s' x who (DRewardMapping nonce sg evm)
  | mv_npow : s' = s -> is_Some (d_d2e s !! who) -> moved s s' x who DNpowReward
  | mv_transfer dest amount b : transfer_allow (d_ed cfg) (d_bank s) who dest amount = Some b ->
      s' = with_bank s b -> moved s s' x who (DTransfer dest amount)
  | mv_reserve amount b : reserve (d_ed cfg) (d_bank s) who amount = Some b ->
      s' = with_other s b (<[who := default 0 (d_other s !! who) + amount]> (d_other s)) ->
      moved s s' x who (DReserveOther amount)
  | mv_unreserve amount a : a = N.min (default 0 (d_other s !! who)) amount ->
      s' = with_other s (unreserve (d_ed cfg) (d_bank s) who a)
             (<[who := default 0 (d_other s !! who) - a]> (d_other s)) ->
      moved s s' x who (DUnreserveOther amount).

  Lemma exec_moved s x who c s' ev :
    dexec cfg s x (Signed who) c = ROk (s', ev) -> moved s s' x who c.
  Proof.
    unfold dexec.
    destruct c as [country| |eras|eras| | |nonce sg t f u|nonce sg evm| |dest amount|amount|amount].
    - unfold register_device. destruct (bool_decide _); cbn; [|discriminate].
      destruct (d_dev s !! who) as [n|] eqn:E.
      + intros [= <- <-]. apply mv_reg_old; [rewrite E; eauto| |].
        * case_bool_decide; cbn.
          -- unfold frame; cbn. auto 10.
          -- pose proof (remove_frame s (x_now x) who) as F. unfold frame in *; cbn. tauto.
        * intros w. cbn. case_bool_decide.
          -- destruct (decide (who = w)) as [<-|Hn].
             ++ rewrite lookup_insert, E. split; discriminate.
             ++ rewrite lookup_insert_ne by exact Hn. tauto.
          -- destruct (decide (who = w)) as [<-|Hn].
             ++ rewrite lookup_insert, E. split; discriminate.
             ++ rewrite lookup_insert_ne by exact Hn. apply remove_dom.
      + destruct (reserve _ _ _ _) as [b|] eqn:Er; [|discriminate]. intros [= <- <-].
        eapply mv_reg_new; eauto.
    - unfold unregister_device. destruct (d_dev s !! who) as [n|] eqn:E; [|discriminate].
      intros [= <- <-].
      apply (mv_unreg s _ x who (with_dev (try_remove_server cfg s (x_now x) who)
        (delete who (d_dev (try_remove_server cfg s (x_now x) who))))); [rewrite E; eauto| | |reflexivity].
      + pose proof (remove_frame s (x_now x) who) as F. unfold frame in *; cbn. tauto.
      + intros w. cbn. rewrite lookup_delete_None, remove_dom. split; intros [H|H]; auto.
    - unfold register_server. destruct (d_dev s !! who) as [n|] eqn:E; [|discriminate].
      destruct (_ <=? _); cbn; [|discriminate]. intros [= <- <-].
      apply mv_server; [apply add_frame|exact Logic.I|rewrite E; eauto|].
      intros w. apply add_dom. rewrite E; eauto.
    - unfold update_server. destruct (d_dev s !! who) as [n|] eqn:E; [|discriminate].
      destruct (_ <=? _); cbn; [|discriminate]. intros [= <- <-].
      apply mv_server; [unfold frame; cbn; auto 10|exact Logic.I|rewrite E; eauto|].
      intros w. cbn. destruct (decide (who = w)) as [<-|Hn].
      + rewrite lookup_insert, E. split; discriminate.
      + rewrite lookup_insert_ne by exact Hn. tauto.
    - unfold unregister_server. destruct (d_dev s !! who) as [n|] eqn:E; [|discriminate].
      intros [= <- <-]. apply mv_server; [apply remove_frame|exact Logic.I|rewrite E; eauto|].
      intros w. apply remove_dom.
    - intros H. eapply mv_online. exact H.
    - unfold report_credit_proof. destruct (x_verify _ _ _ _) eqn:V; cbn; [|discriminate].
      intros [= <- <-]. now apply mv_proof.
    - unfold reward_mapping. destruct (x_verify_new _ _ _ _) eqn:V; cbn; [|discriminate].
      destruct (bool_decide _) eqn:B; cbn; [|discriminate]. apply bool_decide_eq_true in B.
      destruct (d_d2e s !! who) as [old|] eqn:E.
      + destruct (N.eqb_spec evm old) as [->|Hn]; intros [= <- <-]; apply mv_map; auto; congruence.
      + intros [= <- <-]. apply mv_map; auto; congruence.
    - unfold get_npow_reward. destruct (d_d2e s !! who) eqn:E; [|discriminate]. intros [= <- <-].
      apply mv_npow; [reflexivity|rewrite E; eauto].
    - unfold env_transfer. destruct (transfer_allow _ _ _ _ _) eqn:E; [|discriminate].
      intros [= <- <-]. eapply mv_transfer; eauto.
    - unfold env_reserve. destruct (reserve _ _ _ _) eqn:E; [|discriminate].
      intros [= <- <-]. eapply mv_reserve; eauto.
    - unfold env_unreserve. intros [= <- <-]. eapply mv_unreserve; reflexivity.
  Qed.

  Lemma ddo_cases s o :
    (ddo cfg s o = s /\ is_ok (snd (dstep cfg s o.1.1 o.1.2 o.2)) = false) \/
    exists who, o.1.2 = Signed who /\ is_ok (snd (dstep cfg s o.1.1 o.1.2 o.2)) = true /\
      moved s (ddo cfg s o) o.1.1 who o.2.
  Proof.
    unfold ddo, dstep. destruct (dexec cfg s o.1.1 o.1.2 o.2) as [[s' ev]|e|] eqn:E; [|left; auto|left; auto].
    destruct o as [[x o] c]; cbn [fst snd] in *.
    destruct o as [|who|]; cbn in E; try discriminate.
    right. exists who. split; [reflexivity|]. split; [reflexivity|]. eapply exec_moved. exact E.
  Qed.

  (** C13. *)
  Definition dep_inv (s : dstate) : Prop := forall who,
    rsv (acct_of (d_bank s) who) =
      default 0 (d_other s !! who) + (if decide (d_dev s !! who = None) then 0 else d_minlock cfg).

  Lemma step_dep s o : dep_inv s -> dep_inv (ddo cfg s o).
  Proof.
    intros I. destruct (ddo_cases s o) as [[-> _]|(who & _ & _ & M)]; [exact I|].
    generalize dependent (ddo cfg s o). destruct o as [[x og] c]. cbn [fst snd]. intros s' M w. pose proof (I w) as Iw. pose proof (I who) as Ih.
    assert (Hframe : frame s s' -> (forall w, d_dev s' !! w = None <-> d_dev s !! w = None) ->
      rsv (acct_of (d_bank s') w) =
      default 0 (d_other s' !! w) + (if decide (d_dev s' !! w = None) then 0 else d_minlock cfg)).
    { intros (Eb & _ & _ & _ & _ & _ & _ & Eo) Hd. rewrite Eb, Eo, Iw. specialize (Hd w).
      repeat destruct (decide _); tauto. }
    inversion M; subst; auto; cbn [d_bank d_other d_dev with_bank with_dev with_other].
    - rewrite (reserve_rsv _ _ _ _ _ w H0), Iw. destruct (N.eqb_spec w who) as [->|Hn].
      + rewrite lookup_insert, H. rewrite decide_True by reflexivity. rewrite decide_False by discriminate. lia.
      + rewrite lookup_insert_ne by congruence. lia.
    - destruct H0 as (Eb & _ & _ & _ & _ & _ & _ & Eo). cbn. rewrite Eb, Eo.
      destruct H as [n En]. rewrite En in Ih. rewrite decide_False in Ih by discriminate.
      rewrite unreserve_rsv by lia. specialize (H1 w).
      destruct (N.eqb_spec w who) as [->|Hn].
      + rewrite decide_True by tauto. lia.
      + rewrite Iw. repeat destruct (decide _); try lia; exfalso; tauto.
    - unfold im_online in H. injection H as <- _. exact Iw.
    - destruct (decide (d_d2e s !! who = Some evm)) as [Hd|Hd].
      + rewrite (H2 Hd). exact Iw.
      + rewrite (H1 Hd). exact Iw.
    - rewrite (transfer_allow_rsv _ _ _ _ _ _ w H). exact Iw.
    - rewrite (reserve_rsv _ _ _ _ _ w H), Iw. destruct (N.eqb_spec w who) as [->|Hn].
      + rewrite lookup_insert. cbn. lia.
      + rewrite lookup_insert_ne by congruence. lia.
    - rewrite unreserve_rsv by lia. destruct (N.eqb_spec w who) as [->|Hn].
      + rewrite lookup_insert. cbn. lia.
      + rewrite lookup_insert_ne by congruence. lia.
  Qed.

  Lemma run_ind (P : dstate -> Prop) :
    (forall s o, P s -> P (ddo cfg s o)) -> forall h s, P s -> P (drun cfg s h).
  Proof.
    intros Hs. induction h as [|o h IH]; intros s H; [exact H|].
    change (drun cfg s (o :: h)) with (drun cfg (ddo cfg s o) h). auto.
  Qed.

  Lemma drun_app s h1 h2 : drun cfg s (h1 ++ h2) = drun cfg (drun cfg s h1) h2.
  Proof. unfold drun. apply fold_left_app. Qed.

  Lemma init_dep b st : dep_inv (dinit b st).
  Proof.
    intros who. unfold dinit, acct_of; cbn. rewrite lookup_empty, lookup_fmap.
    rewrite decide_True by reflexivity. destruct (accts b !! who); cbn; lia.
  Qed.

  (** C14, C17: heartbeats. *)
  Definition beat (o : dop) (who : N) : bool :=
    match o.1.2, o.2 with Signed a, DImOnline => a =? who | _, _ => false end.

  Lemma heartbeats_cons who o h :
    heartbeats who (o :: h) = (if beat o who then [x_now o.1.1] else []) ++ heartbeats who h.
  Proof.
    unfold beat. cbn [heartbeats]. destruct (o.1.2); try reflexivity. destruct (o.2); reflexivity.
  Qed.

  Lemma heartbeats_app who h1 h2 : heartbeats who (h1 ++ h2) = heartbeats who h1 ++ heartbeats who h2.
  Proof. induction h1 as [|o h1 IH]; [reflexivity|]. cbn [app]. rewrite !heartbeats_cons, IH. now rewrite app_assoc. Qed.

  Lemma step_online s o w :
    d_online (ddo cfg s o) !! w = (if beat o w then Some (x_now o.1.1) else d_online s !! w) /\
    d_onboard (ddo cfg s o) !! w =
      (if beat o w then Some (default (x_now o.1.1) (d_onboard s !! w)) else d_onboard s !! w) /\
    exists l, d_onboarded (ddo cfg s o) = d_onboarded s ++ l /\
      (w ∈ l <-> beat o w = true /\ d_onboard s !! w = None) /\ NoDup l.
  Proof.
    destruct (ddo_cases s o) as [[-> Hno]|(who & Eo & _ & M)].
    - assert (Hb : beat o w = false).
      { destruct o as [[x [|a|]] c]; try reflexivity. destruct c; try reflexivity.
        unfold dstep in Hno; cbn in Hno. discriminate. }
      rewrite Hb. split; [auto|]. split; [auto|]. exists []. rewrite app_nil_r. split; [auto|].
      split; [|constructor]. split; [intros H; now apply elem_of_nil in H|]. intros [H _]; discriminate.
    - destruct o as [[x o] c]. cbn [fst snd] in Eo, M |- *. subst o.
      generalize dependent (ddo cfg s (x, Signed who, c)). intros s' M.
      assert (Hother : beat (x, Signed who, c) w = false ->
        d_online s' = d_online s -> d_onboard s' = d_onboard s -> d_onboarded s' = d_onboarded s ->
        d_online s' !! w = (if beat (x, Signed who, c) w then Some (x_now x) else d_online s !! w) /\
        d_onboard s' !! w =
          (if beat (x, Signed who, c) w then Some (default (x_now x) (d_onboard s !! w)) else d_onboard s !! w) /\
        exists l, d_onboarded s' = d_onboarded s ++ l /\
          (w ∈ l <-> beat (x, Signed who, c) w = true /\ d_onboard s !! w = None) /\ NoDup l).
      { intros Hb E1 E2 E3. rewrite Hb, E1, E2, E3. split; [auto|]. split; [auto|].
        exists []. rewrite app_nil_r. split; [auto|].
        split; [|constructor]. split; [intros H; now apply elem_of_nil in H|]. intros [H _]; discriminate. }
      inversion M; subst; try (apply Hother; reflexivity).
      + destruct H0 as (_ & _ & E1 & E2 & E3 & _). apply Hother; auto.
      + destruct H0 as (_ & _ & E1 & E2 & E3 & _). apply Hother; auto.
      + destruct H as (_ & _ & E1 & E2 & E3 & _). apply Hother; auto.
        destruct c; try reflexivity; contradiction.
      + unfold im_online in H. injection H as <- _. unfold beat; cbn.
        destruct (N.eqb_spec who w) as [->|Hn].
        * rewrite lookup_insert. split; [reflexivity|]. case_bool_decide as Hf.
          -- rewrite lookup_insert, Hf. split; [reflexivity|]. exists [w]. split; [reflexivity|].
             split; [rewrite elem_of_list_singleton; tauto|apply NoDup_singleton].
          -- split; [destruct (d_onboard s !! w); [reflexivity|congruence]|].
             exists []. rewrite app_nil_r. split; [reflexivity|].
             split; [|constructor]. split; [intros H; now apply elem_of_nil in H|tauto].
        * rewrite lookup_insert_ne by exact Hn. split; [reflexivity|]. case_bool_decide as Hf.
          -- rewrite lookup_insert_ne by exact Hn. split; [reflexivity|]. exists [who].
             split; [reflexivity|]. split; [|apply NoDup_singleton].
             rewrite elem_of_list_singleton. split; [congruence|]. intros [H _]; discriminate.
          -- split; [reflexivity|]. exists []. rewrite app_nil_r. split; [reflexivity|].
             split; [|constructor]. split; [intros H; now apply elem_of_nil in H|]. intros [H _]; discriminate.
      + destruct (decide (d_d2e s !! who = Some evm)) as [Hd|Hd].
        * rewrite (H2 Hd) in *. apply Hother; auto.
        * rewrite (H1 Hd) in *. apply Hother; auto.
  Qed.

  Lemma run_online h : forall s w,
    d_online (drun cfg s h) !! w =
      (match last (heartbeats w h) with Some b => Some b | None => d_online s !! w end) /\
    d_onboard (drun cfg s h) !! w =
      (match d_onboard s !! w with Some t => Some t | None => head (heartbeats w h) end).
  Proof.
    induction h as [|o h IH]; intros s w.
    { cbn. split; [reflexivity|]. now destruct (d_onboard s !! w). }
    change (drun cfg s (o :: h)) with (drun cfg (ddo cfg s o) h).
    destruct (IH (ddo cfg s o) w) as [I1 I2]. destruct (step_online s o w) as (S1 & S2 & _).
    rewrite I1, I2, S1, S2, heartbeats_cons. destruct (beat o w); cbn [app].
    - split.
      + rewrite last_cons. now destruct (last (heartbeats w h)).
      + now destruct (d_onboard s !! w).
    - auto.
  Qed.

  Definition onb_inv (s : dstate) : Prop :=
    NoDup (d_onboarded s) /\ forall w, w ∈ d_onboarded s <-> is_Some (d_onboard s !! w).

  Lemma step_onb s o : onb_inv s -> onb_inv (ddo cfg s o).
  Proof.
    intros [HN HM]. split.
    - destruct (step_online s o 0) as (_ & _ & l & El & _ & Hl). rewrite El.
      apply NoDup_app. split; [exact HN|]. split; [|exact Hl]. intros w Hw Hin.
      destruct (step_online s o w) as (_ & _ & l' & El' & Hm & _).
      rewrite El in El'. apply app_inv_head in El'. subst l'.
      apply Hm in Hin as [_ Hnone]. apply HM in Hw. rewrite Hnone in Hw. destruct Hw; discriminate.
    - intros w. destruct (step_online s o w) as (_ & S2 & l & El & Hm & _).
      rewrite El, elem_of_app, HM, Hm, S2. destruct (beat o w) eqn:B.
      + split; [eauto|]. intros _. destruct (d_onboard s !! w); eauto.
      + split; [intros [H|[H _]]; [exact H|discriminate]|auto].
  Qed.

  (** The blocks of a history do not exceed [now]. *)
  Lemma heartbeats_le who h now b :
    Forall (fun o => x_now o.1.1 <= now) h -> last (heartbeats who h) = Some b -> b <= now.
  Proof.
    intros HF Hl. assert (Hall : Forall (fun b => b <= now) (heartbeats who h)).
    { clear Hl. induction HF as [|o h Ho HF IH]; [constructor|]. rewrite heartbeats_cons.
      destruct (beat o who); [constructor; auto|exact IH]. }
    rewrite Forall_forall in Hall. apply Hall. eapply last_Some_elem_of. exact Hl.
  Qed.

  (** C15. *)
  Lemma step_binding s o e a : d_e2d s !! e = Some a -> d_e2d (ddo cfg s o) !! e = Some a.
  Proof.
    intros He. destruct (ddo_cases s o) as [[-> _]|(who & _ & _ & M)]; [exact He|].
    generalize dependent (ddo cfg s o). destruct o as [[x og] c]. cbn [fst snd]. intros s' M.
    inversion M; subst; auto.
    - destruct H0 as (_ & _ & _ & _ & _ & E & _). now rewrite E.
    - destruct H0 as (_ & _ & _ & _ & _ & E & _). cbn. now rewrite E.
    - destruct H as (_ & _ & _ & _ & _ & E & _). now rewrite E.
    - unfold im_online in H. injection H as <- _. exact He.
    - destruct (decide (d_d2e s !! who = Some evm)) as [Hd|Hd].
      + now rewrite (H2 Hd).
      + rewrite (H1 Hd). cbn. rewrite lookup_insert_ne; [exact He|congruence].
  Qed.

  Lemma step_maps s o :
    (d_e2d (ddo cfg s o) = d_e2d s /\ d_d2e (ddo cfg s o) = d_d2e s) \/
    exists x who nonce sg evm, o = (x, Signed who, DRewardMapping nonce sg evm) /\
      x_verify_new x nonce sg who = true /\ d_e2d s !! evm = None /\
      is_ok (snd (dstep cfg s o.1.1 o.1.2 o.2)) = true /\
      d_e2d (ddo cfg s o) = <[evm := who]> (d_e2d s) /\
      d_d2e (ddo cfg s o) = <[who := evm]> (d_d2e s).
  Proof.
    destruct (ddo_cases s o) as [[-> _]|(who & Eo & Hok & M)]; [left; auto|].
    destruct o as [[x o] c]. cbn [fst snd] in *. subst o.
    generalize dependent (ddo cfg s (x, Signed who, c)). intros s' M.
    inversion M; subst; try (left; split; reflexivity).
    - destruct H0 as (_ & _ & _ & _ & _ & E & E' & _). auto.
    - destruct H0 as (_ & _ & _ & _ & _ & E & E' & _). auto.
    - destruct H as (_ & _ & _ & _ & _ & E & E' & _). auto.
    - unfold im_online in H. injection H as <- _. auto.
    - destruct (decide (d_d2e s !! who = Some evm)) as [Hd|Hd].
      + rewrite (H2 Hd). auto.
      + right. exists x, who, nonce, sg, evm. rewrite (H1 Hd). cbn. auto 10.
  Qed.

  Definition back_inv (s : dstate) : Prop :=
    forall a e, d_d2e s !! a = Some e -> d_e2d s !! e = Some a.

  Lemma step_back s o : back_inv s -> back_inv (ddo cfg s o).
  Proof.
    intros I a e H.
    destruct (step_maps s o) as [[E1 E2]|(x & who & nonce & sg & evm & _ & _ & Hnone & _ & E1 & E2)].
    - rewrite E1. rewrite E2 in H. auto.
    - rewrite E2 in H. rewrite E1. destruct (decide (who = a)) as [<-|Hn].
      + rewrite lookup_insert in H. injection H as <-. apply lookup_insert.
      + rewrite lookup_insert_ne in H by exact Hn. apply I in H.
        rewrite lookup_insert_ne; [exact H|]. congruence.
  Qed.

  Lemma init_maps st : NoDup (snd <$> st) ->
    forall a e,
      (fold_left (fun m ae => <[ae.1 := ae.2]> m) st (∅ : gmap N N)) !! a = Some e ->
      (fold_left (fun m ae => <[ae.2 := ae.1]> m) st (∅ : gmap N N)) !! e = Some a.
  Proof.
    induction st as [|[a0 e0] st IH] using rev_ind; intros HN a e.
    { cbn. rewrite lookup_empty. discriminate. }
    rewrite !fold_left_app. cbn. rewrite fmap_app in HN. apply NoDup_app in HN as (HN & Hd & _).
    destruct (decide (a0 = a)) as [->|Hn].
    - rewrite lookup_insert. intros [= ->]. apply lookup_insert.
    - rewrite lookup_insert_ne by exact Hn. intros H.
      rewrite lookup_insert_ne; [now apply IH|]. intros ->.
      assert (Hin : e ∈ snd <$> st).
      { clear -H. induction st as [|[a1 e1] st IH] using rev_ind.
        - cbn in H. rewrite lookup_empty in H. discriminate.
        - rewrite fold_left_app in H. cbn in H. rewrite fmap_app, elem_of_app.
          destruct (decide (a1 = a)) as [->|Hn].
          + rewrite lookup_insert in H. injection H as ->. right. cbn. rewrite elem_of_list_singleton. reflexivity.
          + rewrite lookup_insert_ne in H by exact Hn. left. auto. }
      apply (Hd e Hin). cbn. rewrite elem_of_list_singleton. reflexivity.
  Qed.

  Lemma init_e2d st e a :
    (fold_left (fun m ae => <[ae.2 := ae.1]> m) st (∅ : gmap N N)) !! e = Some a -> (a, e) ∈ st.
  Proof.
    induction st as [|[a0 e0] st IH] using rev_ind.
    { cbn. rewrite lookup_empty. discriminate. }
    rewrite fold_left_app. cbn. rewrite elem_of_app. destruct (decide (e0 = e)) as [->|Hn].
    - rewrite lookup_insert. intros [= ->]. right. rewrite elem_of_list_singleton. reflexivity.
    - rewrite lookup_insert_ne by exact Hn. auto.
  Qed.

  (** Every binding comes from the start or from an accepted, signed call of the
      account itself. *)
  Lemma binding_origin h : forall s e a,
    d_e2d (drun cfg s h) !! e = Some a ->
    d_e2d s !! e = Some a \/
    exists h1 x nonce sg h2, h = h1 ++ (x, Signed a, DRewardMapping nonce sg e) :: h2 /\
      x_verify_new x nonce sg a = true /\
      is_ok (snd (dstep cfg (drun cfg s h1) x (Signed a) (DRewardMapping nonce sg e))) = true.
  Proof.
    induction h as [|o h IH]; intros s e a H; [auto|].
    change (drun cfg s (o :: h)) with (drun cfg (ddo cfg s o) h) in H.
    destruct (IH _ _ _ H) as [H1|(h1 & x & nonce & sg & h2 & -> & V & Hok)].
    - destruct (step_maps s o) as [[E1 E2]|(x & who & nonce & sg & evm & Eo & V & Hnone & Hok & E1 & E2)].
      + rewrite E1 in H1. auto.
      + rewrite E1 in H1. destruct (decide (evm = e)) as [->|Hn].
        * rewrite lookup_insert in H1. injection H1 as ->. right.
          exists [], x, nonce, sg, h. subst o. auto.
        * rewrite lookup_insert_ne in H1 by exact Hn. auto.
    - right. exists (o :: h1), x, nonce, sg, h2. auto.
  Qed.

  Lemma run_binding h s e a : d_e2d s !! e = Some a -> d_e2d (drun cfg s h) !! e = Some a.
  Proof. apply (run_ind (fun s => d_e2d s !! e = Some a)). intros. now apply step_binding. Qed.
End steps.
