(** Accounts controlled through proxies only. *)
From Verif Require Import Base Model_Runtime Spec_Runtime Proofs_Runtime.
From stdpp Require Import gmap strings.
Local Open Scope string_scope.
Open Scope N_scope.

Section confine.
  Context (derive : N -> N -> N) (pure_of : N -> ptype -> N -> N -> N) (multi : list N -> N).
  Local Notation body := (body derive pure_of multi).
  Local Notation dispatch := (dispatch derive pure_of multi).
  Local Notation apply_xt := (apply_xt derive pure_of multi).
  Local Notation run := (run derive pure_of multi).
  Local Notation loop := (loop derive pure_of multi).
  Context (a : N) (t : ptype).
  Context (Hd : forall w i, derive w i <> a) (Hm : forall l, multi l <> a)
    (Hp : forall w x i e, pure_of w x i e = a -> narrower x t).

  Definition safe (s : rstate) : Prop := capped s a t /\ unclaimed s a.
  Definition kept (tr : list entry) : Prop := forall n, did tr a n -> permits t n.
  Definition cr : cname := ("Recovery", "create_recovery").
  Definition fine (tr : list entry) : Prop := unforced tr /\ (permits t cr -> ~ did tr a cr).
  Definition bounded (o : rorigin) : Prop :=
    o_caller o = CSigned a -> exists k, In k (o_kinds o) /\ narrower k t.

  Lemma kept_nil : kept [].
  Proof. intros n []. Qed.
  Lemma kept_app x y : kept x -> kept y -> kept (x ++ y)%list.
  Proof. intros H1 H2 n Hn. apply in_app_or in Hn as [?|?]; auto. Qed.
  Lemma kept_cons e x : kept [e] -> kept x -> kept (e :: x).
  Proof. intros H1 H2. by apply (kept_app [e] x). Qed.
  Lemma fine_app x y : fine (x ++ y)%list -> fine x /\ fine y.
  Proof.
    intros [H1 H2]. split; split.
    - intros e He. apply H1, in_or_app. by left.
    - intros X Y. apply (H2 X), in_or_app. by left.
    - intros e He. apply H1, in_or_app. by right.
    - intros X Y. apply (H2 X), in_or_app. by right.
  Qed.
  Lemma fine_cons e x : fine (e :: x) -> fine x.
  Proof. intros H. by apply (fine_app [e] x). Qed.
  Lemma fine_head e x : fine (e :: x) -> fine [e].
  Proof. intros H. by apply (fine_app [e] x). Qed.

  Lemma kept_me s o c : bounded o -> passes s o c = true -> kept [(o_caller o, call_name c)].
  Proof.
    intros Hb Hpass n [E|[]]. injection E as E1 E2. subst n.
    destruct (Hb E1) as (k & Hk & Hn). apply Hn.
    apply passes_spec in Hpass as [_ Hf]; [|congruence].
    apply proxy_filter_permits. by apply Hf.
  Qed.
  Lemma bounded_other w ks b : w <> a -> bounded (ROrigin (CSigned w) ks b).
  Proof. intros Hw E'. cbn in E'. congruence. Qed.
  Lemma signer_caller o w : signer o = Some w -> o_caller o = CSigned w.
  Proof. unfold signer. destruct (o_caller o); try discriminate. by intros [= ->]. Qed.

  (** Changing the proxies of one account. *)
  Lemma safe_proxies s m : safe s ->
    (forall l, m !! a = Some l -> forall d x e, In (d, x, e) l -> narrower x t) -> safe (set_proxies s m).
  Proof. intros [_ [H2 H3]] Hm'. split; [exact Hm'|]. split; [exact H2|exact H3]. Qed.
  Lemma safe_active s m : safe s -> safe (set_active s m).
  Proof. intros H. exact H. Qed.

  Lemma confine c : forall s o s' tr, safe s -> bounded o -> passes s o c = true ->
    body s o c = Some (s', tr) -> fine tr -> safe s' /\ kept tr.
  Proof.
    induction c as [k l IH|i c IH|r f c IH|c IH|w c IH|l c IH|l c IH|c Hc] using rcall_ind';
      intros s o s' tr Hs Hb Hpass He Hf.
    - rewrite body_batch in He.
      assert (Hl : forall s' tr, loop (batch_origin k o) (bool_decide (o_caller o = CRoot)) k s l = Some (s', tr) ->
        fine tr -> safe s' /\ kept tr).
      { intros s1 tr1. apply (loop_keeps derive pure_of multi safe kept fine kept_nil kept_app fine_app).
        - rewrite batch_caller. apply bool_decide_eq_true.
        - eapply Forall_impl; [exact IH|]. intros x Hx s2 s3 tr2 Hs2 Hp2 Hb2 Hf2.
          apply (Hx s2 (batch_origin k o) s3 tr2); auto.
          intros E. rewrite batch_caller in E. rewrite batch_kinds. by apply Hb.
        - exact Hs. }
      assert (Hme := kept_me s o _ Hb Hpass).
      destruct (o_caller o) eqn:Eo; try discriminate He;
        destruct (loop _ _ _ _ _) as [[s1 t1]|] eqn:El; try discriminate He; injection He as <- <-;
        (destruct (Hl _ _ eq_refl (fine_cons _ _ Hf)) as [? ?];
         split; [assumption|by apply kept_cons]).
    - cbn [Model_Runtime.body] in He. destruct (signer o) as [w|] eqn:Ew; [|discriminate].
      destruct (passes s _ c) eqn:Ep; [|discriminate].
      destruct (body s _ c) as [[s1 t1]|] eqn:Eb; [|discriminate]. injection He as <- <-.
      destruct (IH _ _ _ _ Hs (bounded_other _ _ _ (Hd w i)) Ep Eb (fine_cons _ _ Hf)) as [? ?].
      split; [assumption|]. apply kept_cons; [by apply (kept_me s o (AsDerivative i c))|assumption].
    - cbn [Model_Runtime.body] in He. destruct (signer o) as [w|] eqn:Ew; [|discriminate].
      destruct (find_proxy s r w f) as [[x d]|] eqn:Ef; [|discriminate].
      destruct (d =? 0); [|discriminate].
      assert (Hme := kept_me s o _ Hb Hpass).
      destruct (passes s _ c) eqn:Ep.
      + destruct (body s _ c) as [[s1 t1]|] eqn:Eb.
        * injection He as <- <-.
          assert (Hb' : bounded (ROrigin (CSigned r) [x] false)).
          { intros [= ->]. exists x. split; [by left|].
            apply find_proxy_in in Ef as (l & El & Hin). destruct Hs as [Hcap _]. by apply (Hcap l El w x d). }
          destruct (IH _ _ _ _ Hs Hb' Ep Eb (fine_cons _ _ Hf)) as [? ?].
          split; [assumption|]. by apply kept_cons.
        * by injection He as <- <-.
      + by injection He as <- <-.
    - cbn [Model_Runtime.body] in He. destruct (signer o) as [w|]; [|discriminate].
      destruct (bool_decide _); [|discriminate]. exfalso.
      assert (X : exists tr', tr = (o_caller o, call_name (SudoCall c)) :: tr')
        by (destruct (body s _ c) as [[s1 t1]|]; injection He as <- <-; eauto).
      destruct X as [tr' ->]. destruct Hf as [Hu _].
      destruct (Hu _ (or_introl eq_refl)) as [X _]. by apply X.
    - cbn [Model_Runtime.body] in He. destruct (signer o) as [w'|]; [|discriminate].
      destruct (bool_decide _); [|discriminate]. exfalso.
      assert (X : exists tr', tr = (o_caller o, call_name (SudoAs w c)) :: tr')
        by (destruct (body s _ c) as [[s1 t1]|]; injection He as <- <-; eauto).
      destruct X as [tr' ->]. destruct Hf as [Hu _].
      destruct (Hu _ (or_introl eq_refl)) as [X _]. by apply X.
    - cbn [Model_Runtime.body] in He. destruct (signer o) as [w|] eqn:Ew; [|discriminate].
      destruct (_ || _); [discriminate|]. cbv zeta in He.
      destruct (passes s _ c) eqn:Ep; [|discriminate].
      destruct (body s _ c) as [[s1 t1]|] eqn:Eb; [|discriminate]. injection He as <- <-.
      destruct (IH _ _ _ _ Hs (bounded_other _ _ _ (Hm _)) Ep Eb (fine_cons _ _ Hf)) as [? ?].
      split; [assumption|]. apply kept_cons; [by apply (kept_me s o (AsMulti1 l c))|assumption].
    - cbn [Model_Runtime.body] in He. destruct (signer o) as [w|] eqn:Ew; [|discriminate].
      destruct (bool_decide _) eqn:Ed; [|discriminate]. cbv zeta in He.
      apply bool_decide_eq_true in Ed.
      destruct (passes s _ c) eqn:Ep; [|discriminate].
      destruct (body s _ c) as [[s1 t1]|] eqn:Eb; [|discriminate]. injection He as <- <-.
      assert (Hl : l <> a) by (intros ->; destruct Hs as [_ [_ Hr]]; by apply (Hr w)).
      destruct (IH _ _ _ _ Hs (bounded_other _ _ _ Hl) Ep Eb (fine_cons _ _ Hf)) as [? ?].
      split; [assumption|]. apply kept_cons; [by apply (kept_me s o (AsRecovered l c))|assumption].
    - assert (Hme := kept_me s o _ Hb Hpass).
      assert (Hfilt : forall w, signer o = Some w -> w = a -> exists k, In k (o_kinds o) /\ narrower k t /\ proxy_filter k c = true).
      { intros w Hw ->. apply signer_caller in Hw. destruct (Hb Hw) as (k & Hk & Hn).
        apply passes_spec in Hpass as [_ Hf']; [|congruence]. eauto. }
      destruct c; try contradiction Hc; cbn [Model_Runtime.body] in He.
      + destruct ok; [|discriminate]. injection He as <- <-. auto.
      + destruct (signer o) as [w|] eqn:Ew; [|discriminate]. cbv zeta in He.
        destruct (_ || _); [discriminate|]. injection He as <- <-. split; [|exact Hme].
        apply safe_proxies; [exact Hs|]. intros l Hl d x e Hin.
        destruct (decide (w = a)) as [->|Hne].
        * rewrite lookup_insert in Hl. injection Hl as <-. apply in_pins in Hin as [E|Hin].
          -- injection E as -> -> ->. destruct (Hfilt a eq_refl eq_refl) as (k & _ & Hn & Hpf).
             intros n Hn'. apply Hn. by apply (proxy_filter_add _ _ _ _ Hpf).
          -- destruct (r_proxies s !! a) as [l0|] eqn:E0; cbn in Hin; [|contradiction].
             by apply (proj1 Hs l0 E0 d x e).
        * rewrite lookup_insert_ne in Hl by congruence. by apply (proj1 Hs l Hl d x e).
      + destruct (signer o) as [w|] eqn:Ew; [|discriminate]. cbv zeta in He.
        destruct (bool_decide _); [|discriminate]. injection He as <- <-. split; [|exact Hme].
        apply safe_proxies; [exact Hs|]. intros l Hl d x e Hin.
        destruct (decide (w = a)) as [->|Hne].
        * destruct (bool_decide _); [by rewrite lookup_delete in Hl|].
          rewrite lookup_insert in Hl. injection Hl as <-.
          apply elem_of_list_In, elem_of_list_filter in Hin as [_ Hin]. apply elem_of_list_In in Hin.
          destruct (r_proxies s !! a) as [l0|] eqn:E0; cbn in Hin; [|contradiction].
          by apply (proj1 Hs l0 E0 d x e).
        * destruct (bool_decide _); [rewrite lookup_delete_ne in Hl by congruence|rewrite lookup_insert_ne in Hl by congruence];
            by apply (proj1 Hs l Hl d x e).
      + destruct (signer o) as [w|] eqn:Ew; [|discriminate]. injection He as <- <-. split; [|exact Hme].
        apply safe_proxies; [exact Hs|]. intros l Hl. apply lookup_delete_Some in Hl as [_ Hl]. by apply (proj1 Hs l Hl).
      + destruct (signer o) as [w|] eqn:Ew; [|discriminate]. cbv zeta in He.
        destruct (bool_decide _) eqn:Ed; [discriminate|]. injection He as <- <-. split; [|exact Hme].
        apply safe_proxies; [exact Hs|]. intros l Hl d x e Hin.
        destruct (decide (pure_of w t0 index salt = a)) as [E|Hne].
        * rewrite E, lookup_insert in Hl. injection Hl as <-. destruct Hin as [X|[]]. injection X as <- <- <-.
          by apply (Hp _ _ _ _ E).
        * rewrite lookup_insert_ne in Hl by congruence. by apply (proj1 Hs l Hl d x e).
      + destruct (signer o) as [w|] eqn:Ew; [|discriminate]. destruct (_ =? _); [|discriminate].
        injection He as <- <-. split; [|exact Hme].
        apply safe_proxies; [exact Hs|]. intros l Hl. apply lookup_delete_Some in Hl as [_ Hl]. by apply (proj1 Hs l Hl).
      + destruct (signer o) as [w|] eqn:Ew; [|discriminate]. destruct (bool_decide _); [|discriminate].
        injection He as <- <-. split; [exact Hs|exact Hme].
      + destruct (o_caller o) eqn:Eo; try discriminate He. injection He as <- <-. exfalso.
        destruct Hf as [Hu _]. destruct (Hu _ (or_introl eq_refl)) as [_ X]. by apply X.
      + destruct (signer o) as [w|] eqn:Ew; [|discriminate]. destruct (_ || _); [discriminate|].
        injection He as <- <-. split; [|exact Hme].
        destruct Hs as [Hcap [Hcf Hr]]. split; [exact Hcap|]. split; [|exact Hr]. cbn.
        rewrite lookup_insert_ne; [exact Hcf|]. intros ->.
        assert (Hdid : did [(o_caller o, call_name (CreateRecovery friends threshold delay))] a cr).
        { left. by rewrite (signer_caller _ _ Ew). }
        apply (proj2 Hf); [|exact Hdid]. by apply (Hme cr).
      + destruct (signer o) as [w|] eqn:Ew; [|discriminate]. destruct (_ && _); [|discriminate].
        injection He as <- <-. split; [exact Hs|exact Hme].
      + destruct (signer o) as [w|] eqn:Ew; [|discriminate].
        destruct (r_config s !! lost) as [[[fr th] dl]|]; [|discriminate].
        destruct (r_active s !! _) as [[cd vs]|]; [|discriminate].
        destruct (_ && _); [|discriminate]. injection He as <- <-. split; [exact Hs|exact Hme].
      + destruct (signer o) as [w|] eqn:Ew; [|discriminate].
        destruct (r_config s !! lost) as [[[fr th] dl]|] eqn:Ec; [|discriminate].
        destruct (r_active s !! _) as [[cd vs]|]; [|discriminate].
        destruct (_ || _); [discriminate|]. injection He as <- <-. split; [|exact Hme].
        destruct Hs as [Hcap [Hcf Hr]]. split; [exact Hcap|]. split; [exact Hcf|]. cbn. intros w'.
        destruct (decide (w' = w)) as [->|Hne].
        * rewrite lookup_insert. intros [= ->]. congruence.
        * rewrite lookup_insert_ne by congruence. apply Hr.
      + destruct (signer o) as [w|] eqn:Ew; [|discriminate]. destruct (bool_decide _); [|discriminate].
        injection He as <- <-. split; [exact Hs|exact Hme].
      + destruct (signer o) as [w|] eqn:Ew; [|discriminate]. destruct (_ && _); [|discriminate].
        injection He as <- <-. split; [|exact Hme].
        destruct Hs as [Hcap [Hcf Hr]]. split; [exact Hcap|]. split; [|exact Hr]. cbn.
        destruct (decide (w = a)) as [->|Hne]; [by rewrite lookup_delete|by rewrite lookup_delete_ne by congruence].
      + destruct (signer o) as [w|] eqn:Ew; [|discriminate]. destruct (bool_decide _); [|discriminate].
        injection He as <- <-. split; [|exact Hme].
        destruct Hs as [Hcap [Hcf Hr]]. split; [exact Hcap|]. split; [exact Hcf|]. cbn. intros w' X.
        apply lookup_delete_Some in X as [_ X]. by apply (Hr w').
      + destruct (o_caller o) eqn:Eo; try discriminate He. destruct (_ || _); [discriminate|].
        injection He as <- <-. split; [exact Hs|exact Hme].
      + destruct (o_caller o) eqn:Eo; try discriminate He. destruct (is_paused s n); [|discriminate].
        injection He as <- <-. split; [exact Hs|exact Hme].
  Qed.

  Lemma apply_confine s x s' tr : safe s -> not_by a x -> apply_xt s x = (s', tr) -> fine tr -> safe s' /\ kept tr.
  Proof.
    intros Hs Hn He Hf.
    assert (G : forall o c, bounded o -> default (s, []) (dispatch s o c) = (s', tr) -> safe s' /\ kept tr).
    { intros o c Hb. unfold Model_Runtime.dispatch. destruct (passes s o c) eqn:Ep.
      - destruct (body s o c) as [[s1 t1]|] eqn:Eb; cbn; intros [= <- <-]; [by apply (confine c s o)|].
        split; [exact Hs|apply kept_nil].
      - cbn. intros [= <- <-]. split; [exact Hs|apply kept_nil]. }
    destruct x as [w c|f|c]; cbn [Model_Runtime.apply_xt] in He.
    - apply (G (new_origin (CSigned w)) c); [|exact He]. intros [= ->]. by destruct (Hn c).
    - eapply (G (new_origin (CEth f))); [|exact He]. by intros [=].
    - apply (G (new_origin CRoot) c); [|exact He]. by intros [=].
  Qed.
  Lemma run_confine l : forall s s' tr, safe s -> (forall x, In x l -> not_by a x) ->
    run s l = (s', tr) -> fine tr -> safe s' /\ kept tr.
  Proof.
    induction l as [|x l IH]; intros s s' tr Hs Hn He Hf; cbn [Model_Runtime.run] in He.
    { injection He as <- <-. split; [exact Hs|apply kept_nil]. }
    destruct (apply_xt s x) as [s1 t1] eqn:E1. destruct (run s1 l) as [s2 t2] eqn:E2. injection He as <- <-.
    apply fine_app in Hf as [Hf1 Hf2].
    destruct (apply_confine s x s1 t1 Hs (Hn x (or_introl eq_refl)) E1 Hf1) as [Hs1 Hk1].
    destruct (IH s1 s2 t2 Hs1 (fun y Hy => Hn y (or_intror Hy)) E2 Hf2) as [Hs2 Hk2].
    split; [exact Hs2|by apply kept_app].
  Qed.
End confine.

(** A proxied call that does not act for yet another account stays within the proxy's kind. *)
Section direct.
  Context (derive : N -> N -> N) (pure_of : N -> ptype -> N -> N -> N) (multi : list N -> N).
  Local Notation body := (body derive pure_of multi).
  Local Notation loop := (loop derive pure_of multi).
  Context (t : ptype).
  Definition all_permitted (tr : list entry) : Prop := forall e, In e tr -> permits t e.2.
  Lemma direct_confined c : forall s o s' tr, direct c -> o_caller o <> CRoot -> In t (o_kinds o) ->
    passes s o c = true -> body s o c = Some (s', tr) -> all_permitted tr.
  Proof.
    induction c as [k l IH|i c IH|r f c IH|c IH|w c IH|l c IH|l c IH|c Hc] using rcall_ind';
      intros s o s' tr Hdir Hroot Hk Hpass He; try contradiction Hdir.
    - assert (Hme : permits t (call_name (Batch k l))).
      { apply passes_spec in Hpass as [_ Hf]; [|exact Hroot]. apply proxy_filter_permits. by apply Hf. }
      rewrite body_batch in He.
      assert (Hl : forall s' tr, loop (batch_origin k o) false k s l = Some (s', tr) -> all_permitted tr).
      { intros s1 tr1 E1.
        eapply (loop_keeps derive pure_of multi (fun _ => True) all_permitted (fun _ => True));
          [| | | | |exact I|exact E1|exact I].
        - intros e [].
        - intros x y H1 H2 e He'. apply in_app_or in He' as [?|?]; auto.
        - auto.
        - discriminate.
        - clear -IH Hdir Hroot Hk. cbn [direct] in Hdir.
          induction IH as [|x l Hx _ IHl]; constructor.
          + intros s s' tr _ Hp He _. split; [exact I|].
            destruct Hdir as [Hd1 _]. apply (Hx s (batch_origin k o) s' tr); auto.
            * rewrite batch_caller. exact Hroot.
            * rewrite batch_kinds. exact Hk.
          + apply IHl. by destruct Hdir. }
      assert (G : forall x, x = (o_caller o, call_name (Batch k l)) -> forall t1, all_permitted t1 -> all_permitted (x :: t1)).
      { intros x -> t1 H1 e [<-|He']; [exact Hme|by apply H1]. }
      destruct (o_caller o) eqn:Eo; try discriminate He; try congruence;
        (destruct (loop _ _ _ _ _) as [[s1 t1]|] eqn:El; [|discriminate He]); injection He as <- <-;
        (apply G; [reflexivity|]; apply (Hl s1 t1); reflexivity).
    - assert (Hme : permits t (call_name (AsDerivative i c))).
      { apply passes_spec in Hpass as [_ Hf]; [|exact Hroot]. apply proxy_filter_permits. by apply Hf. }
      cbn [Model_Runtime.body] in He. destruct (signer o) as [w|] eqn:Ew; [|discriminate].
      destruct (passes s _ c) eqn:Ep; [|discriminate].
      destruct (body s _ c) as [[s1 t1]|] eqn:Eb; [|discriminate]. injection He as <- <-.
      intros e [<-|Hin]; [exact Hme|]. eapply (IH _ _ _ _ Hdir); [| |exact Ep|exact Eb|exact Hin].
      + discriminate.
      + exact Hk.
    - assert (Hme : permits t (call_name c)).
      { apply passes_spec in Hpass as [_ Hf]; [|exact Hroot]. apply proxy_filter_permits. by apply Hf. }
      assert (X : tr = [(o_caller o, call_name c)]).
      { destruct c; try contradiction Hdir; try contradiction Hc; cbn [Model_Runtime.body] in He.
        - destruct ok; [|discriminate]. by injection He as <- <-.
        - destruct (signer o); [|discriminate]. cbv zeta in He. destruct (_ || _); [discriminate|]. by injection He as <- <-.
        - destruct (signer o); [|discriminate]. cbv zeta in He. destruct (bool_decide _); [|discriminate]. by injection He as <- <-.
        - destruct (signer o); [|discriminate]. by injection He as <- <-. }
      subst tr. intros e [<-|[]]. exact Hme.
  Qed.
End direct.
