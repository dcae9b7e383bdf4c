(** Panics; reasons and deposits. *)
From Verif Require Import Base Balances Proofs_Balances Proofs_DeeperNode2 Model_Tips Spec_Tips Proofs_Tips Proofs_Tips2.
From stdpp Require Import gmap sorting.
Open Scope N_scope.

Section panic.
  Context (cfg : tcfg).

  Lemma exec_panic x o c s : texec cfg x s o c = RPanic <->
    exists ch h t n w, c = (match ch with Coin => TClose h | Cred => TCreditClose h end) /\ o = Signed w /\
      t_tips s !! h = Some t /\ ot_closes t = Some n /\ n <= tx_block x /\ middle (tx_members x) (votes ch t) = None.
  Proof.
    split.
    - destruct c; cbn [texec].
      + destruct (signed o) as [w| |] eqn:Ew; cbn; try discriminate; [|destruct o; discriminate]. unfold report, ensure.
        destruct (_ <=? _); cbn; [|discriminate]. destruct (negb _); cbn; [|discriminate].
        destruct (negb _); cbn; [|discriminate]. destruct (reserve _ _ _ _); discriminate.
      + destruct (signed o) as [w| |] eqn:Ew; cbn; try discriminate; [|destruct o; discriminate].
        unfold retract, find_tip, ensure. destruct (t_tips s !! h); cbn; [|discriminate]. destruct (_ =? _); discriminate.
      + unfold tipper, ensure. destruct (signed o) as [w| |] eqn:Ew; cbn; try discriminate; [|destruct o; discriminate].
        destruct (bool_decide _); cbn; [|discriminate]. unfold tip_new, ensure. destruct (negb _); discriminate.
      + unfold tipper, ensure. destruct (signed o) as [w| |] eqn:Ew; cbn; try discriminate; [|destruct o; discriminate].
        destruct (bool_decide _); cbn; [|discriminate]. unfold do_tip, find_tip. destruct (t_tips s !! h); cbn; [|discriminate].
        destruct (check_closing _ _ _ _); discriminate.
      + destruct (signed o) as [w| |] eqn:Ew; cbn; try discriminate; [|destruct o; discriminate]. apply signed_ok in Ew.
        unfold close, find_tip. destruct (t_tips s !! h) as [t|] eqn:Et; cbn; [|discriminate]. unfold ripe.
        destruct (ot_closes t) as [n|] eqn:En; cbn; [|discriminate]. unfold ensure.
        destruct (N.leb_spec n (tx_block x)); cbn; [|discriminate]. unfold payout_tip.
        destruct (middle _ _) eqn:Em; [discriminate|]. intros _. exists Coin, h, t, n, w. auto 10.
      + unfold ensure. destruct (tx_reject x); cbn; [|discriminate]. unfold slash, find_tip.
        destruct (t_tips s !! h); cbn; [|discriminate]. destruct (slash_reserved _ _ _ _). discriminate.
      + unfold tipper, ensure. destruct (signed o) as [w| |] eqn:Ew; cbn; try discriminate; [|destruct o; discriminate].
        destruct (bool_decide _); cbn; [|discriminate]. unfold credit_new, ensure. destruct (negb _); discriminate.
      + unfold tipper, ensure. destruct (signed o) as [w| |] eqn:Ew; cbn; try discriminate; [|destruct o; discriminate].
        destruct (bool_decide _); cbn; [|discriminate]. unfold do_credit_tip, find_tip. destruct (t_tips s !! h); cbn; [|discriminate].
        destruct (check_closing _ _ _ _); discriminate.
      + destruct (signed o) as [w| |] eqn:Ew; cbn; try discriminate; [|destruct o; discriminate]. apply signed_ok in Ew.
        unfold credit_close, find_tip. destruct (t_tips s !! h) as [t|] eqn:Et; cbn; [|discriminate]. unfold ripe.
        destruct (ot_closes t) as [n|] eqn:En; cbn; [|discriminate]. unfold ensure.
        destruct (N.leb_spec n (tx_block x)); cbn; [|discriminate].
        destruct (middle _ _) eqn:Em; [discriminate|]. intros _. exists Cred, h, t, n, w. auto 10.
      + destruct o; discriminate.
    - intros (ch & h & t & n & w & -> & -> & Ht & Hn & Hle & Hm). apply N.leb_le in Hle.
      destruct ch; cbn; unfold close, credit_close, find_tip; rewrite Ht; cbn; unfold ripe; rewrite Hn, Hle; cbn;
        unfold payout_tip; cbn in Hm; now rewrite Hm.
  Qed.
End panic.

(** Balance operations and reserves. *)
Lemma transfer_keep_rsv ed b src dst v b' w :
  transfer_keep ed b src dst v = Some b' -> rsv_of b' w = rsv_of b w.
Proof.
  unfold transfer_keep, rsv_of. destruct ((v =? 0) || (src =? dst)) eqn:E0; [now intros [= ->]|].
  apply orb_false_elim in E0 as [_ E0]. apply N.eqb_neq in E0.
  destruct (_ <? v); [discriminate|]. destruct (_ <? v); [discriminate|].
  destruct (_ <? ed); [discriminate|]. destruct (two128 <=? _); [discriminate|]. intros [= <-].
  rewrite !put_rsv. cbn. destruct (N.eqb_spec w dst) as [E1|], (N.eqb_spec w src) as [E2|]; subst; auto; rewrite N.eqb_refl in *; congruence.
Qed.
Lemma try_pay_rsv cfg b src dst v w : rsv_of (try_pay cfg b src dst v) w = rsv_of b w.
Proof.
  unfold try_pay. destruct (transfer_keep _ _ _ _ _) eqn:E; [|reflexivity]. cbn. eapply transfer_keep_rsv; exact E.
Qed.
Lemma reserve_rsv ed b who v b' w : reserve ed b who v = Some b' -> rsv_of b' w = rsv_of b w + (if w =? who then v else 0).
Proof.
  unfold reserve, rsv_of. destruct (N.eqb_spec v 0) as [->|].
  { intros [= <-]. destruct (w =? who); lia. }
  destruct (_ <? v); [discriminate|]. destruct (_ <? _); [discriminate|]. destruct (_ <? ed); [discriminate|].
  intros [= <-]. rewrite put_rsv. cbn. destruct (N.eqb_spec w who) as [->|]; lia.
Qed.
Lemma unreserve_rsv ed b who v w : rsv_of (unreserve ed b who v) w = rsv_of b w - (if w =? who then v else 0).
Proof.
  unfold unreserve, rsv_of. destruct (N.eqb_spec v 0) as [->|].
  { destruct (w =? who); lia. }
  rewrite put_rsv. cbn. destruct (N.eqb_spec w who) as [->|]; lia.
Qed.
Lemma slash_rsv ed b who v w : rsv_of (slash_reserved ed b who v).1 w = rsv_of b w - (if w =? who then v else 0).
Proof.
  unfold slash_reserved, rsv_of. destruct (N.eqb_spec v 0) as [->|]; cbn [fst].
  { destruct (w =? who); lia. }
  rewrite put_rsv. cbn. destruct (N.eqb_spec w who) as [->|]; lia.
Qed.
Lemma give_back_rsv cfg s t w :
  rsv_of (t_bank (give_back cfg s t)) w = rsv_of (t_bank s) w - (if w =? ot_finder t then ot_deposit t else 0).
Proof.
  unfold give_back. destruct (N.eqb_spec (ot_deposit t) 0) as [E|E]; cbn; [rewrite E; destruct (_ =? _); lia|].
  apply unreserve_rsv.
Qed.

Section reasons.
  Context (cfg : tcfg) (Hinj : hash_inj (tc_thash cfg)).

  Definition rinv (s : tstate) : Prop :=
    (forall h t, t_tips s !! h = Some t -> h = tc_thash cfg (ot_reason t) (ot_who t) /\
       exists txt, t_reasons s !! ot_reason t = Some txt /\ tc_rhash cfg txt = ot_reason t) /\
    (forall h1 h2 t1 t2, t_tips s !! h1 = Some t1 -> t_tips s !! h2 = Some t2 -> ot_reason t1 = ot_reason t2 -> h1 = h2) /\
    (forall r, is_Some (t_reasons s !! r) -> exists h t, t_tips s !! h = Some t /\ ot_reason t = r).

  Lemma open_fresh s reason w : rinv s -> t_reasons s !! reason = None -> t_tips s !! tc_thash cfg reason w = None.
  Proof.
    intros (R1 & _ & _) H. destruct (t_tips s !! _) as [t|] eqn:E; [|reflexivity]. exfalso.
    destruct (R1 _ _ E) as (H1 & txt & H2 & _). apply Hinj in H1 as [H1 _]. congruence.
  Qed.

  Lemma check_same x n t : ot_reason (check_closing cfg x n t).1 = ot_reason t /\ ot_who (check_closing cfg x n t).1 = ot_who t /\
    ot_finder (check_closing cfg x n t).1 = ot_finder t /\ ot_deposit (check_closing cfg x n t).1 = ot_deposit t /\
    ot_fee (check_closing cfg x n t).1 = ot_fee t.
  Proof. unfold check_closing. destruct (_ && _); cbn; auto. Qed.

  Lemma vote_same (x : tctx) c (t t' : otip) w v b h :
      match c with
      | TTip k u => k = h /\ u = v /\
          (t', b) = check_closing cfg x (length (retain (tx_members x) (vote w v (ot_tips t))))
                      (set_tips t (retain (tx_members x) (vote w v (ot_tips t))))
      | TCreditTip k u => k = h /\ u = v /\
          (t', b) = check_closing cfg x (length (retain (tx_members x) (vote w v (ot_credits t))))
                      (set_credits t (retain (tx_members x) (vote w v (ot_credits t))))
      | _ => False
      end -> ot_reason t' = ot_reason t /\ ot_who t' = ot_who t /\ ot_finder t' = ot_finder t /\ ot_deposit t' = ot_deposit t /\
             ot_fee t' = ot_fee t.
  Proof.
    intros H. destruct c; try contradiction; destruct H as (_ & _ & H); change t' with (t', b).1; rewrite H;
      match goal with |- context [check_closing cfg x ?n ?u] => pose proof (check_same x n u) as K end; cbn in K; exact K.
  Qed.

  Lemma step_rinv s op : rinv s -> rinv (tstep cfg s op).1.
  Proof.
    intros R. pose proof R as (R1 & R2 & R3). destruct op as [x o c|b]; [|exact R].
    cbn [tstep]. destruct (texec cfg x s o c) as [[s' ev]| |] eqn:E; cbn [fst]; try exact R.
    destruct (exec_change cfg _ _ _ _ _ _ E) as [reason k t0 w Hk Hr Hnn Ho Hf Hc Ht0 Hrs Hw Hm Hev|k t0 t' w v b0 Hk Ho Hw Hm Hs Hev|k t0 Hk Hm Ht0 Hr Hw Hev|who Hc Ho Hs Hev].
    - assert (Fr : t_tips s !! k = None) by (rewrite Hk; now apply open_fresh).
      unfold rinv. rewrite Ht0, Hrs. split; [|split].
      + intros h t. destruct (decide (h = k)) as [->|]; [rewrite lookup_insert|rewrite lookup_insert_ne by auto].
        * intros [= <-]. split; [exact Hk|]. exists reason. rewrite lookup_insert. auto.
        * intros H. destruct (R1 _ _ H) as (H1 & txt & H2 & H3). split; [exact H1|]. exists txt. split; [|exact H3].
          rewrite lookup_insert_ne; [exact H2|]. intros Eq. rewrite Eq in Hnn. congruence.
      + intros h1 h2 t1 t2 H1 H2 Eq. apply lookup_insert_Some in H1 as [[<- <-]|[Hn1 H1]], H2 as [[<- <-]|[Hn2 H2]]; auto.
        * destruct (R1 _ _ H2) as (_ & txt & H3 & _). congruence.
        * destruct (R1 _ _ H1) as (_ & txt & H3 & _). congruence.
        * eapply R2; eauto.
      + intros r. destruct (decide (r = ot_reason t0)) as [->|].
        * intros _. exists k, t0. rewrite lookup_insert. auto.
        * rewrite lookup_insert_ne by auto. intros H. destruct (R3 _ H) as (h & t & H1 & H2).
          exists h, t. rewrite lookup_insert_ne; [auto|]. congruence.
    - subst s'. apply vote_same in Hm as (E1 & E2 & _). unfold rinv. cbn. split; [|split].
      + intros h t. destruct (decide (h = k)) as [->|]; [rewrite lookup_insert|rewrite lookup_insert_ne by auto; apply R1].
        intros [= <-]. rewrite E1, E2. now apply R1.
      + intros h1 h2 t1 t2 H1 H2 Eq. apply lookup_insert_Some in H1 as [[<- <-]|[Hn1 H1]], H2 as [[<- <-]|[Hn2 H2]]; auto;
          rewrite ?E1 in Eq; eapply R2; eauto.
      + intros r H. destruct (R3 _ H) as (h & t & H1 & H2). destruct (decide (h = k)) as [->|].
        * exists k, t'. rewrite lookup_insert. split; [reflexivity|]. congruence.
        * exists h, t. rewrite lookup_insert_ne by auto. auto.
    - unfold rinv. rewrite Ht0, Hr. split; [|split].
      + intros h t H. apply lookup_delete_Some in H as [Hn H]. destruct (R1 _ _ H) as (H1 & txt & H2 & H3).
        split; [exact H1|]. exists txt. split; [|exact H3]. rewrite lookup_delete_ne; [exact H2|].
        intros Eq. apply Hn. eapply R2; eauto.
      + intros h1 h2 t1 t2 H1 H2. apply lookup_delete_Some in H1 as [_ H1], H2 as [_ H2]. eapply R2; eauto.
      + intros r [txt H]. apply lookup_delete_Some in H as [Hn H]. destruct (R3 r ltac:(eauto)) as (h & t & H1 & H2).
        exists h, t. rewrite lookup_delete_ne; [auto|]. congruence.
    - subst. exact R.
  Qed.
  Lemma run_rinv hist : forall s, rinv s -> rinv (trun cfg s hist).
  Proof. induction hist as [|op r IH]; intros s R; [exact R|]. cbn. apply IH. now apply step_rinv. Qed.
  Lemma genesis_rinv b : rinv (tgenesis b).
  Proof. split; [|split]; cbn; intros *; try discriminate. intros [? H]. discriminate H. Qed.

  Definition backed (s : tstate) : Prop := forall a, held s a <= rsv_of (t_bank s) a.

  Lemma held_open s s' h t a : t_tips s !! h = None -> t_tips s' = <[h := t]> (t_tips s) ->
    held s' a = held s a + (if a =? ot_finder t then ot_deposit t else 0).
  Proof. intros H E. unfold held. rewrite E, msum_insert by exact H. rewrite (N.eqb_sym a). lia. Qed.
  Lemma held_drop s s' h t a : t_tips s !! h = Some t -> t_tips s' = delete h (t_tips s) ->
    held s a = held s' a + (if a =? ot_finder t then ot_deposit t else 0).
  Proof. intros H E. unfold held. rewrite E, (msum_delete _ _ _ _ H). rewrite (N.eqb_sym a). lia. Qed.
  Lemma held_same s s' h t t' a : t_tips s !! h = Some t -> t_tips s' = <[h := t']> (t_tips s) ->
    ot_finder t' = ot_finder t -> ot_deposit t' = ot_deposit t -> held s' a = held s a.
  Proof.
    intros H E E1 E2. unfold held. rewrite E.
    pose proof (msum_insert_over (fun _ t => if ot_finder t =? a then ot_deposit t else 0) _ _ _ t' H) as K. cbn in K.
    rewrite E1, E2 in K. lia.
  Qed.

  (** Dropping a tip lowers the finder's reserve by the deposit. *)
  Lemma drop_rsv x o c s s' ev h t a : texec cfg x s o c = ROk (s', ev) -> t_tips s !! h = Some t ->
    match c with TRetract k | TClose k | TSlash k | TCreditClose k => k = h | _ => False end ->
    rsv_of (t_bank s') a = rsv_of (t_bank s) a - (if a =? ot_finder t then ot_deposit t else 0).
  Proof.
    intros E Ht Hc. destruct c; try contradiction; subst h; cbn [texec] in E.
    - destruct (signed o) as [w| |]; cbn in E; try discriminate. unfold retract, find_tip, ensure in E. rewrite Ht in E. cbn in E.
      destruct (_ =? _); cbn in E; [|discriminate]. injection E as <- <-. apply (give_back_rsv cfg (drop_tip s h0 t)).
    - destruct (signed o) as [w| |]; cbn in E; try discriminate. unfold close, find_tip in E. rewrite Ht in E. cbn in E.
      destruct (ripe x t); cbn in E; try discriminate. unfold payout_tip in E. destruct (middle _ _); [|discriminate].
      injection E as <- <-. cbn. rewrite try_pay_rsv. destruct (_ && _); rewrite ?try_pay_rsv; apply (give_back_rsv cfg (drop_tip s h0 t)).
    - unfold ensure in E. destruct (tx_reject x); cbn in E; [|discriminate]. unfold slash, find_tip in E. rewrite Ht in E. cbn in E.
      destruct (slash_reserved _ _ _ _) as [b got] eqn:Es. injection E as <- <-.
      destruct (N.eqb_spec (ot_deposit t) 0) as [E0|E0]; cbn; [rewrite E0; destruct (_ =? _); lia|].
      pose proof (slash_rsv (tc_ed cfg) (t_bank s) (ot_finder t) (ot_deposit t) a) as K. rewrite Es in K. exact K.
    - destruct (signed o) as [w| |]; cbn in E; try discriminate. unfold credit_close, find_tip in E. rewrite Ht in E. cbn in E.
      destruct (ripe x t); cbn in E; try discriminate. destruct (middle _ _); [|discriminate].
      injection E as <- <-. apply (give_back_rsv cfg (drop_tip s h0 t)).
  Qed.

  Lemma call_deposits s x o c a : rinv s -> backed s ->
    let s' := (tstep cfg s (TCall x o c)).1 in
    rsv_of (t_bank s') a + held s a = rsv_of (t_bank s) a + held s' a.
  Proof.
    intros R B. cbn [tstep]. destruct (texec cfg x s o c) as [[s' ev]| |] eqn:E; cbn [fst]; try lia.
    destruct (exec_change cfg _ _ _ _ _ _ E) as [reason k t0 w Hk Hr Hnn Ho Hf Hc Ht0 Hrs Hw Hm Hev|k t0 t' w v b0 Hk Ho Hw Hm Hs Hev|k t0 Hk Hm Ht0 Hr Hw Hev|who Hc Ho Hs Hev].
    - assert (Fr : t_tips s !! k = None) by (rewrite Hk; now apply open_fresh).
      rewrite (held_open _ _ _ _ a Fr Ht0).
      assert (Q : rsv_of (t_bank s') a = rsv_of (t_bank s) a + (if a =? ot_finder t0 then ot_deposit t0 else 0)); [|lia].
      destruct c; try contradiction.
      + destruct Hm as (_ & _ & _ & _ & _ & _ & _ & Hm). rewrite (reserve_rsv _ _ _ _ _ a Hm). now rewrite Hf.
      + destruct Hm as (_ & _ & _ & _ & -> & _ & -> & _). destruct (_ =? _); lia.
      + destruct Hm as (_ & _ & _ & _ & -> & _ & -> & _). destruct (_ =? _); lia.
    - subst s'. apply vote_same in Hm as (_ & _ & E1 & E2 & _).
      rewrite (held_same s (put_tip s k t') k t0 t' a Hk eq_refl E1 E2). reflexivity.
    - pose proof (drop_rsv _ _ _ _ _ _ k t0 a E Hk Hm) as Q. pose proof (held_drop s s' k t0 a Hk Ht0) as K. specialize (B a). lia.
    - subst. reflexivity.
  Qed.

  Lemma run_backed hist : forall s, rinv s -> backed s -> respects cfg s hist -> backed (trun cfg s hist).
  Proof.
    induction hist as [|op r IH]; intros s R B H; [exact B|]. destruct H as [Hb Hr]. cbn [trun].
    apply IH; [now apply step_rinv| |exact Hr]. intros a. destruct op as [x o c|b].
    - pose proof (call_deposits s x o c a R B) as K. specialize (B a). cbv zeta in K. lia.
    - exact (Hb a).
  Qed.
  Lemma genesis_backed b : backed (tgenesis b).
  Proof. intros a. unfold held. cbn. rewrite msum_empty. lia. Qed.
End reasons.
