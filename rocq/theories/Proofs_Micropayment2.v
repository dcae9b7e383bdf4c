(** Proofs about the micropayment model, continued: replay, books, authority. *)
From Verif Require Import Base Balances Proofs_Balances Model_Micropayment Spec_Micropayment
  Proofs_Micropayment.
From stdpp Require Import gmap.
Open Scope N_scope.

Global Instance chan_eq_dec : EqDecision chan.
Proof. solve_decision. Defined.

Section proofs.
  Variable cfg : mcfg.
  Variable verify : N -> list N -> list N -> bool.
  Notation mexec := (mexec cfg verify).
  Notation mstep := (mstep cfg verify).
  Notation mdo := (mdo cfg verify).
  Notation mrun := (mrun cfg verify).
  Notation mevents := (mevents cfg verify).
  Notation pays := (pays cfg verify).
  Notation atom := (atom cfg verify).
  Notation atoms := (atoms cfg verify).
  Notation deposit_into_account := (deposit_into_account cfg).

  (** ** Nonces of open channels *)
  Definition nonces_ok (s : mstate) : Prop :=
    (forall c v ch, m_chan s !! (c, v) = Some ch ->
       c_nonce ch = nonce_get s c v /\ c_client ch = c /\ c_server ch = v) /\
    (forall c v, is_Some (m_sess s !! (c, v)) -> is_Some (m_chan s !! (c, v))) /\
    (forall c v, nonce_get s c v < two64).

  Lemma atom_nonces x caller call s e s' :
    nonces_ok s -> atom x caller call s e s' -> nonces_ok s'.
  Proof.
    intros (H1 & H2 & H3) Ha. unfold nonces_ok, nonce_get.
    destruct Ha as [v' a d b Hcall Hn Hne Hw|v' a ch b Hcall Hch Hw
                   |c' v' ch s1 Hch Hwho Hd|c' k a sg ch s1 Hcall Hch Hexp Hs Hv Hb Hd|dst a b Hcall Ht0]; simpl.
    - split; [|split]; [| |exact H3].
      + intros c v ch0. rewrite lookup_insert_Some. intros [[[= <- <-] <-]|[_ Hl]]; [done|].
        now apply H1.
      + intros c v Hs. rewrite lookup_insert_is_Some. right. split; [|now apply H2].
        intros [= <- <-]. apply H2 in Hs as [? Hs]. congruence.
    - split; [|split]; [| |exact H3].
      + intros c v ch0. rewrite lookup_insert_Some. intros [[[= <- <-] <-]|[_ Hl]]; [|now apply H1].
        simpl. now apply H1.
      + intros c v Hs. rewrite lookup_insert_is_Some. 
        destruct (pair_dec caller v' c v); [now left|right; auto].
    - apply deposit_into_account_inv in Hd as (b & _ & ->). simpl. unfold nonce_get. simpl.
      split; [|split].
      + intros c v ch0. rewrite lookup_delete_Some. intros [Hn Hl].
        rewrite lookup_insert_ne by done. now apply H1.
      + intros c v. rewrite !lookup_delete_is_Some. intros [Hn Hs]. auto.
      + intros c v. destruct (pair_dec c' v' c v) as [[= <- <-]|Hn].
        * rewrite lookup_insert. apply w64_lt.
        * rewrite lookup_insert_ne by done. apply H3.
    - apply deposit_into_account_inv in Hd as (b & _ & ->). simpl.
      split; [|split]; [| |exact H3].
      + intros c v ch0. rewrite lookup_insert_Some. intros [[[= <- <-] <-]|[_ Hl]]; [|now apply H1].
        simpl. now apply H1.
      + intros c v. rewrite !lookup_insert_is_Some. intros [?|[? ?]]; [now left|right; auto].
    - split; [|split]; assumption.
  Qed.

  Lemma nonces_init b : nonces_ok (minit b).
  Proof.
    unfold nonces_ok, minit, nonce_get; simpl. split; [|split].
    - intros c v ch. now rewrite lookup_empty.
    - intros c v. rewrite lookup_empty. now intros [? ?].
    - intros c v. rewrite lookup_empty. reflexivity.
  Qed.

  Lemma nonces_run b h : nonces_ok (mrun (minit b) h).
  Proof. apply mrun_inv; [apply atom_nonces|apply nonces_init]. Qed.

  (** ** No replay *)
  Definition progress (s : mstate) (c v n0 k0 : N) (m : N) : Prop :=
    (view s c v = (Some n0, n0, Some (w32 k0)) /\ m = 0) \/
    (exists j, j <= m /\ view s c v = (Some n0, n0, Some (w32 (k0 + j)))) \/
    (exists j, 1 <= j <= m /\ nonce_get s c v = w64 (n0 + j)).

  Lemma mdo_view s o c v :
    view (mdo s o) c v = view s c v \/
    (exists ev, mstep s o.1.1 o.1.2 o.2 = (mdo s o, ROk ev) /\ step_view s (mdo s o) ev o.1.2 o.2 c v).
  Proof.
    destruct o as [[x caller] call]. unfold Model_Micropayment.mdo. simpl.
    destruct (mstep_cases cfg verify s x caller call) as [[-> _]|(ev & s' & E & _)]; [now left|].
    right. exists ev. rewrite E. simpl. split; [done|]. now apply (mstep_view cfg verify s x).
  Qed.

  Lemma w64_succ n : add64 (w64 n) 1 = w64 (n + 1).
  Proof. unfold add64, w64. now rewrite N.add_mod_idemp_l. Qed.
  Lemma w32_succ n : add32 (w32 n) 1 = w32 (n + 1).
  Proof. unfold add32, w32. now rewrite N.add_mod_idemp_l. Qed.

  Lemma mdo_progress s o c v n0 k0 m :
    n0 < two64 ->
    (exists j, j <= m /\ view s c v = (Some n0, n0, Some (w32 (k0 + j)))) \/
    (exists j, 1 <= j <= m /\ nonce_get s c v = w64 (n0 + j)) ->
    (exists j, j <= m + 1 /\ view (mdo s o) c v = (Some n0, n0, Some (w32 (k0 + j)))) \/
    (exists j, 1 <= j <= m + 1 /\ nonce_get (mdo s o) c v = w64 (n0 + j)).
  Proof.
    intros Hn0 HP.
    destruct (mdo_view s o c v) as [Hv|(ev & _ & Hsv)].
    { destruct HP as [(j & Hj & E)|(j & Hj & E)].
      - left. exists j. rewrite Hv. split; [lia|done].
      - right. exists j. split; [lia|]. rewrite <- E. unfold view in Hv. congruence. }
    destruct HP as [(j & Hj & E)|(j & Hj & E)].
    - assert (En : nonce_get s c v = n0) by (unfold view in E; congruence).
      assert (Es : m_sess s !! (c, v) = Some (w32 (k0 + j))) by (unfold view in E; congruence).
      destruct Hsv as [(Hv & _)|[(Hc & Hv)|[(n & k & a & sg & _ & _ & _ & Hn & Hl & Hv)|(_ & Hc & Hv)]]].
      + left. exists j. rewrite Hv. split; [lia|done].
      + unfold view in E. rewrite Hc in E. discriminate.
      + left. exists (j + 1). split; [lia|]. rewrite Hv.
        assert (n = n0) as -> by (unfold view in E; congruence).
        rewrite (Hl _ Es), w32_succ, En. now replace (k0 + j + 1) with (k0 + (j + 1)) by lia.
      + right. exists 1. split; [lia|].
        assert (En' : nonce_get (mdo s o) c v = add64 (nonce_get s c v) 1) by (unfold view in Hv; congruence).
        rewrite En', En. rewrite <- (w64_small n0) at 1 by done. apply w64_succ.
    - right.
      destruct Hsv as [(Hv & _)|[(Hc & Hv)|[(n & k & a & sg & _ & _ & _ & Hn & Hl & Hv)|(_ & Hc & Hv)]]].
      + exists j. split; [lia|]. unfold view in Hv. rewrite <- E. congruence.
      + exists j. split; [lia|]. unfold view in Hv. rewrite <- E. congruence.
      + exists j. split; [lia|]. unfold view in Hv. rewrite <- E. congruence.
      + exists (j + 1). split; [lia|].
        assert (En' : nonce_get (mdo s o) c v = add64 (nonce_get s c v) 1) by (unfold view in Hv; congruence).
        rewrite En', E, w64_succ. now replace (n0 + j + 1) with (n0 + (j + 1)) by lia.
  Qed.

  Lemma mrun_progress h : forall s c v n0 k0 m,
    n0 < two64 ->
    (exists j, j <= m /\ view s c v = (Some n0, n0, Some (w32 (k0 + j)))) \/
    (exists j, 1 <= j <= m /\ nonce_get s c v = w64 (n0 + j)) ->
    (exists j, j <= m + N.of_nat (length h) /\ view (mrun s h) c v = (Some n0, n0, Some (w32 (k0 + j)))) \/
    (exists j, 1 <= j <= m + N.of_nat (length h) /\ nonce_get (mrun s h) c v = w64 (n0 + j)).
  Proof.
    induction h as [|o h IH]; intros s c v n0 k0 m Hn HP; simpl.
    - destruct HP as [(j & ? & ?)|(j & ? & ?)]; [left|right]; exists j; split; auto; lia.
    - apply (mdo_progress s o) in HP; [|done]. apply (IH (mdo s o)) in HP; [|done].
      simpl in HP.
      replace (m + N.pos (Pos.of_succ_nat (length h))) with (m + 1 + N.of_nat (length h)) by lia.
      exact HP.
  Qed.

  (** What a paying claim means for the pair. *)
  Lemma pays_view s o c v n k :
    pays s o c v n k ->
    o.1.2 = v /\ c_nonce <$> m_chan s !! (c, v) = Some n /\
    (forall last, m_sess s !! (c, v) = Some last -> k = add32 last 1) /\
    view (mdo s o) c v = (Some n, nonce_get s c v, Some k).
  Proof.
    intros (a & sg & ch & Hv & Hc & Hch & Hn & Hs).
    split; [done|]. rewrite Hch. simpl. rewrite Hn. split; [done|].
    destruct (mstep s o.1.1 o.1.2 o.2) as [s' r] eqn:E. simpl in Hs. subst r.
    assert (Hd : mdo s o = s') by (unfold Model_Micropayment.mdo; now rewrite E).
    rewrite Hd. apply (mstep_view cfg verify _ _ _ _ _ _ c v) in E.
    destruct E as [(_ & Hcl & _)|[(Hc2 & _)|[(n' & k' & a' & sg' & Hev & Hcall & _ & Hn' & Hl & Hv')|((t & Ht) & _)]]].
    - now destruct (Hcl a (or_introl eq_refl)).
    - congruence.
    - rewrite Hcall in Hc. simplify_eq. rewrite Hch in Hn'. simpl in Hn'. simplify_eq. done.
    - destruct Ht as [Ht|[]]. discriminate.
  Qed.

  Lemma no_replay b h1 o1 h2 o2 c v n k :
    k < two32 ->
    let s1 := mrun (minit b) h1 in
    pays s1 o1 c v n k ->
    pays (mrun s1 (o1 :: h2)) o2 c v n k ->
    two32 <= N.of_nat (S (length h2)).
  Proof.
    intros Hk s1 Hp1 Hp2. pose proof (nonces_run b h1) as (Hok & _ & Hlt). fold s1 in Hok, Hlt.
    apply pays_view in Hp1 as (_ & Hn1 & _ & Hv1).
    assert (n = nonce_get s1 c v) as Hn.
    { destruct (m_chan s1 !! (c, v)) as [ch|] eqn:E; [|discriminate].
      simpl in Hn1. simplify_eq. now apply Hok. }
    rewrite <- Hn in Hv1. specialize (Hlt c v). rewrite <- Hn in Hlt.
    assert (Hok2 : nonces_ok (mrun s1 (o1 :: h2))).
    { unfold s1. rewrite <- mrun_app. apply nonces_run. }
    destruct Hok2 as (Hok2 & _ & _).
    apply pays_view in Hp2 as (_ & Hn2 & Hl2 & _).
    destruct (mrun_progress h2 (mdo s1 o1) c v n k 0 Hlt) as [(j & Hj & E)|(j & Hj & E)].
    { left. exists 0. split; [lia|]. rewrite N.add_0_r, w32_small; done. }
    - change (mrun (mdo s1 o1) h2) with (mrun s1 (o1 :: h2)) in E.
      assert (Es : m_sess (mrun s1 (o1 :: h2)) !! (c, v) = Some (w32 (k + j))) by (unfold view in E; congruence).
      apply Hl2 in Es. rewrite w32_succ in Es.
      assert (two32 <= j + 1); [|lia].
      destruct (N.le_gt_cases two32 (j + 1)) as [|Hc]; [done|exfalso].
      unfold w32 in Es.
      destruct (N.lt_ge_cases (k + (j + 1)) two32) as [Hs|Hs].
      + rewrite N.mod_small in Es by lia. lia.
      + assert (Hm : (k + j + 1) mod two32 = k + j + 1 - two32).
        { symmetry. apply (N.mod_unique _ _ 1); unfold two32 in *; lia. }
        rewrite Hm in Es. lia.
    - change (mrun (mdo s1 o1) h2) with (mrun s1 (o1 :: h2)) in E.
      assert (n = nonce_get (mrun s1 (o1 :: h2)) c v) as Hn'.
      { destruct (m_chan (mrun s1 (o1 :: h2)) !! (c, v)) as [ch|] eqn:E2; [|discriminate].
        simpl in Hn2. injection Hn2 as <-. now apply Hok2. }
      rewrite <- Hn' in E.
      assert (two64 <= j).
      { destruct (N.le_gt_cases two64 j) as [|Hc]; [done|exfalso]. unfold w64 in E.
        destruct (N.lt_ge_cases (n + j) two64) as [Hs|Hs].
        - rewrite N.mod_small in E by lia. lia.
        - assert (Hm : (n + j) mod two64 = n + j - two64).
          { symmetry. apply (N.mod_unique _ _ 1); unfold two64 in *; lia. }
          rewrite Hm in E. lia. }
      unfold two64, two32 in *. lia.
  Qed.

  (** ** Consecutive sessions *)
  Lemma quiet_view h : forall s c v,
    is_Some (m_chan s !! (c, v)) ->
    (forall a, ~ In (ClaimPayment c v a) (mevents s h)) ->
    (forall t, ~ In (ChannelClosed c v t) (mevents s h)) ->
    view (mrun s h) c v = view s c v.
  Proof.
    induction h as [|o h IH]; intros s c v Hc Hq1 Hq2; simpl; [done|].
    simpl in Hq1, Hq2.
    assert (Hv : view (mdo s o) c v = view s c v).
    { destruct (mdo_view s o c v) as [Hv|(ev & Es & Hsv)]; [done|].
      rewrite Es in Hq1, Hq2. simpl in Hq1, Hq2.
      destruct Hsv as [(Hv & _)|[(Hn & _)|[(n & k & a & sg & Hev & _)|((t & Ht) & _)]]].
      - done.
      - destruct Hc. congruence.
      - destruct (Hq1 a). rewrite Hev. now left.
      - destruct (Hq2 t). apply in_or_app. now left. }
    rewrite <- Hv. apply IH.
    - unfold view in Hv.
      assert (E : c_nonce <$> m_chan (mdo s o) !! (c, v) = c_nonce <$> m_chan s !! (c, v)) by congruence.
      destruct Hc as [ch Hc]. rewrite Hc in E. destruct (m_chan (mdo s o) !! (c, v)); [eauto|discriminate].
    - intros a Ha. apply (Hq1 a), in_or_app. now right.
    - intros t Ht. apply (Hq2 t), in_or_app. now right.
  Qed.

  Lemma consecutive s o1 h o2 c v n1 k1 n2 k2 :
    pays s o1 c v n1 k1 ->
    (forall a, ~ In (ClaimPayment c v a) (mevents (mdo s o1) h)) ->
    (forall t, ~ In (ChannelClosed c v t) (mevents (mdo s o1) h)) ->
    pays (mrun s (o1 :: h)) o2 c v n2 k2 ->
    k2 = add32 k1 1 /\ n2 = n1.
  Proof.
    intros Hp1 Hq1 Hq2 Hp2.
    apply pays_view in Hp1 as (_ & Hn1 & _ & Hv1).
    apply pays_view in Hp2 as (_ & Hn2 & Hl2 & _).
    change (mrun s (o1 :: h)) with (mrun (mdo s o1) h) in *.
    assert (Hv : view (mrun (mdo s o1) h) c v = view (mdo s o1) c v).
    { apply quiet_view; [|done|done]. unfold view in Hv1.
      destruct (m_chan (mdo s o1) !! (c, v)); [eauto|discriminate]. }
    rewrite Hv1 in Hv. unfold view in Hv. split.
    - apply Hl2. congruence.
    - congruence.
  Qed.

  (** ** Books *)
  Definition book_ok (c v : N) (acc : option (N * N)) (s : mstate) : Prop :=
    match acc, m_chan s !! (c, v) with
    | None, None => True
    | Some (l, p), Some ch => c_balance ch + p = l
    | _, _ => False
    end.

  Lemma atom_book x caller call s e s' c v acc :
    fits s -> book_ok c v acc s -> atom x caller call s e s' -> book_ok c v (book c v acc e) s'.
  Proof.
    intros Hf Hb Ha. unfold fits in Hf. rewrite all_money_eq in Hf.
    destruct Ha as [v' a d b Hcall Hn Hne Hw|v' a ch b Hcall Hch Hw
                   |c' v' ch s1 Hch Hwho Hd|c' k a sg ch s1 Hcall Hch Hexp Hs Hv Hle Hd|dst a b Hcall Ht0];
      unfold book_ok in *; simpl.
    - destruct (pair_dec c v caller v') as [[= -> ->]|Hneq].
      + rewrite !N.eqb_refl, lookup_insert. simpl. lia.
      + rewrite lookup_insert_ne by congruence.
        destruct (N.eqb_spec c caller), (N.eqb_spec v v'); subst; simpl; congruence.
    - destruct (pair_dec c v caller v') as [[= -> ->]|Hneq].
      + rewrite !N.eqb_refl, lookup_insert. rewrite Hch in Hb. simpl.
        destruct acc as [[l p]|]; [|done]. simpl.
        apply withdraw_money in Hw. pose proof (chan_le_sum s _ _ Hch).
        rewrite add128_small by lia. lia.
      + rewrite lookup_insert_ne by congruence.
        destruct (N.eqb_spec c caller), (N.eqb_spec v v'); subst; simpl; congruence.
    - apply deposit_into_account_inv in Hd as (b & _ & ->). simpl.
      destruct (pair_dec c v c' v') as [[= -> ->]|Hneq].
      + now rewrite !N.eqb_refl, lookup_delete.
      + rewrite lookup_delete_ne by congruence.
        destruct (N.eqb_spec c c'), (N.eqb_spec v v'); subst; simpl; congruence.
    - apply deposit_into_account_inv in Hd as (b & _ & ->). simpl.
      destruct (pair_dec c v c' caller) as [[= -> ->]|Hneq].
      + rewrite !N.eqb_refl, lookup_insert. rewrite Hch in Hb. simpl.
        destruct acc as [[l p]|]; [|done]. simpl. lia.
      + rewrite lookup_insert_ne by congruence.
        destruct (N.eqb_spec c c'), (N.eqb_spec v caller); subst; simpl; congruence.
    - exact Hb.
  Qed.

  Lemma atoms_book x caller call s ev s' c v : forall acc,
    atoms x caller call s ev s' ->
    fits s -> book_ok c v acc s -> book_ok c v (fold_left (book c v) ev acc) s' /\ fits s'.
  Proof.
    intros acc H. revert acc. induction H; intros acc Hf Hb; simpl; [done|].
    apply IHatoms; [|eapply atom_book; eauto].
    unfold fits. now rewrite (atom_money cfg verify _ _ _ _ _ _ Hf H).
  Qed.

  Lemma run_book h : forall s c v acc,
    fits s -> book_ok c v acc s ->
    book_ok c v (fold_left (book c v) (mevents s h) acc) (mrun s h).
  Proof.
    induction h as [|[[x caller] call] h IH]; intros s c v acc Hf Hb; simpl; [done|].
    rewrite fold_left_app. unfold Model_Micropayment.mdo at 2. unfold Model_Micropayment.mdo at 1. simpl.
    destruct (mstep_cases cfg verify s x caller call) as [[E Hn]|(ev & s' & E & Ha & _)].
    - rewrite E. destruct (mstep s x caller call) as [s1 [ev| |]]; simpl; [now destruct (Hn ev)| |]; now apply IH.
    - rewrite E. simpl. apply (atoms_book _ _ _ _ _ _ c v acc) in Ha as [Hb' Hf']; [|done|done].
      now apply IH.
  Qed.

  Lemma books b h c v :
    money b < two128 ->
    book_ok c v (channel_book c v (mevents (minit b) h)) (mrun (minit b) h).
  Proof.
    intros Hm. apply run_book.
    - unfold fits. now rewrite all_money_init.
    - unfold book_ok, minit; simpl. now rewrite lookup_empty.
  Qed.

  (** ** Authority *)
  Lemma atom_chan_frame x caller call s e s' c v :
    atom x caller call s e s' -> m_chan s' !! (c, v) <> m_chan s !! (c, v) ->
    (caller = c /\ exists a d, call = MOpen v a d /\ m_chan s !! (c, v) = None) \/
    (caller = c /\ exists a ch ch', call = MAdd v a /\ m_chan s !! (c, v) = Some ch /\
       m_chan s' !! (c, v) = Some ch' /\ c_balance ch' = add128 (c_balance ch) a) \/
    (caller = v /\ exists k a sg ch ch', call = MClaim c k a sg /\ m_chan s !! (c, v) = Some ch /\
       m_chan s' !! (c, v) = Some ch' /\ x_now x <= c_expiration ch /\
       a <= c_balance ch /\ c_balance ch' = c_balance ch - a /\
       verify c (voucher_bytes v (c_nonce ch) k a) sg = true) \/
    (exists ch, m_chan s !! (c, v) = Some ch /\ m_chan s' !! (c, v) = None /\
       ((caller = v /\ call = MClose c) \/
        (caller = v /\ (exists k a sg, call = MClaim c k a sg) /\ c_expiration ch < x_now x) \/
        (caller = c /\ (call = MCloseExpired \/ call = MClose v) /\ c_expiration ch < x_now x) \/
        (caller = c /\ call = MClose v /\ 1 <= x_offline x (c_server ch)))).
  Proof.
    intros Ha Hne.
    destruct Ha as [v' a d b Hcall Hn Hne2 Hw|v' a ch b Hcall Hch Hw
                   |c' v' ch s1 Hch Hwho Hd|c' k a sg ch s1 Hcall Hch Hexp Hs Hv Hle Hd|dst a b Hcall Ht0]; simpl in *.
    - destruct (pair_dec c v caller v') as [[= -> ->]|Hneq].
      + left. eauto 10.
      + rewrite lookup_insert_ne in Hne by congruence. congruence.
    - destruct (pair_dec c v caller v') as [[= -> ->]|Hneq].
      + right; left. rewrite lookup_insert. split; [done|]. eexists a, ch, _. eauto.
      + rewrite lookup_insert_ne in Hne by congruence. congruence.
    - apply deposit_into_account_inv in Hd as (b & _ & ->). simpl in *.
      destruct (pair_dec c v c' v') as [[= -> ->]|Hneq].
      + right; right; right. exists ch. rewrite lookup_delete. auto.
      + rewrite lookup_delete_ne in Hne by congruence. congruence.
    - apply deposit_into_account_inv in Hd as (b & _ & ->). simpl in *.
      destruct (pair_dec c v c' caller) as [[= -> ->]|Hneq].
      + right; right; left. rewrite lookup_insert. split; [done|].
        eexists k, a, sg, ch, _. repeat split; eauto.
      + rewrite lookup_insert_ne in Hne by congruence. congruence.
    - congruence.
  Qed.

  (** Same for a whole operation: for the multi-close call each pair is touched
      at most once, starting from its value before the call. *)
  Lemma close_atoms_chan x caller s ev s' c v :
    atoms x caller MCloseExpired s ev s' ->
    m_chan s' !! (c, v) = m_chan s !! (c, v) \/
    (exists ch, m_chan s !! (c, v) = Some ch /\ m_chan s' !! (c, v) = None /\
                caller = c /\ c_expiration ch < x_now x).
  Proof.
    intros H. remember MCloseExpired as call eqn:Ecall. induction H; subst; [now left|].
    destruct (decide (m_chan s1 !! (c, v) = m_chan s !! (c, v))) as [E|Hne].
    - rewrite <- E. exact IHatoms.
    - eapply atom_chan_frame in H; [|exact Hne].
      destruct H as [(_ & a & d & Hc & _)|[(_ & a & ch & ch' & Hc & _)|
        [(_ & k & a & sg & ch & ch' & Hc & _)|(ch & Hs & Hs1 & Hwho)]]]; try discriminate.
      right. exists ch.
      assert (caller = c /\ c_expiration ch < x_now x) as [-> ?].
      { destruct Hwho as [[_ ?]|[(_ & (k & a & sg & ?) & _)|[(-> & _ & ?)|(_ & ? & _)]]]; try discriminate. done. }
      split; [done|]. split; [|done].
      destruct IHatoms as [->|(ch' & Hc' & _)]; [done|congruence].
  Qed.

  Lemma mstep_chan_frame s x caller call c v :
    let s' := fst (mstep s x caller call) in
    m_chan s' !! (c, v) <> m_chan s !! (c, v) ->
    (caller = c /\ exists a d, call = MOpen v a d /\ m_chan s !! (c, v) = None) \/
    (caller = c /\ exists a ch ch', call = MAdd v a /\ m_chan s !! (c, v) = Some ch /\
       m_chan s' !! (c, v) = Some ch' /\ c_balance ch' = add128 (c_balance ch) a) \/
    (caller = v /\ exists k a sg ch ch', call = MClaim c k a sg /\ m_chan s !! (c, v) = Some ch /\
       m_chan s' !! (c, v) = Some ch' /\ x_now x <= c_expiration ch /\
       a <= c_balance ch /\ c_balance ch' = c_balance ch - a /\
       verify c (voucher_bytes v (c_nonce ch) k a) sg = true) \/
    (exists ch, m_chan s !! (c, v) = Some ch /\ m_chan s' !! (c, v) = None /\
       ((caller = v /\ call = MClose c) \/
        (caller = v /\ (exists k a sg, call = MClaim c k a sg) /\ c_expiration ch < x_now x) \/
        (caller = c /\ (call = MCloseExpired \/ call = MClose v) /\ c_expiration ch < x_now x) \/
        (caller = c /\ call = MClose v /\ 1 <= x_offline x (c_server ch)))).
  Proof.
    intros s' Hne. subst s'.
    destruct (mstep_cases cfg verify s x caller call) as [[E _]|(ev & s' & E & Ha & Hone)].
    { rewrite E in Hne. congruence. }
    rewrite E in *. simpl in *. destruct Hone as [->|[e ->]].
    - apply (close_atoms_chan _ _ _ _ _ c v) in Ha as [?|(ch & H1 & H2 & -> & H4)]; [congruence|].
      right; right; right. exists ch. split; [done|]. split; [done|]. right; right; left. auto.
    - inversion Ha as [|? ? s1 ? ? H1 H2]; subst. inversion H2; subst.
      eapply atom_chan_frame in H1; eauto.
  Qed.
End proofs.
