(** Pausing. *)
From Verif Require Import Base Model_Runtime Spec_Runtime Proofs_Runtime.
From stdpp Require Import gmap strings.
Local Open Scope string_scope.
Open Scope N_scope.

Lemma whitelisted_iff n : whitelisted n = true <-> n.1 = "Sudo" \/ n.1 = "System".
Proof.
  unfold whitelisted. rewrite orb_true_iff.
  destruct (String.eqb_spec n.1 "Sudo"), (String.eqb_spec n.1 "System"); intuition congruence.
Qed.
Lemma is_paused_in s n : is_paused s n = true -> n ∈ r_paused s.
Proof. unfold is_paused. destruct (whitelisted n); [discriminate|]. apply bool_decide_eq_true. Qed.

Section pausing.
  Context (derive : N -> N -> N) (pure_of : N -> ptype -> N -> N -> N) (multi : list N -> N).
  Local Notation body := (body derive pure_of multi).
  Local Notation dispatch := (dispatch derive pure_of multi).
  Local Notation apply_xt := (apply_xt derive pure_of multi).
  Local Notation run := (run derive pure_of multi).
  Local Notation make_block := (make_block derive pure_of multi).
  Local Notation loop := (loop derive pure_of multi).

  (** Without Root and sudo: the pauses stay as they are and nothing paused is executed. *)
  Section obeys.
    Context (P : gset cname).
    Definition same (s : rstate) : Prop := r_paused s = P.
    Definition obeyed (tr : list entry) : Prop :=
      forall e, In e tr -> e.2 ∈ P -> e.2.1 = "Sudo" \/ e.2.1 = "System".
    Definition unsudo (tr : list entry) : Prop := forall e, In e tr -> e.2.1 <> "Sudo".
    Lemma obeyed_app x y : obeyed x -> obeyed y -> obeyed (x ++ y)%list.
    Proof. intros H1 H2 e He. apply in_app_or in He as [?|?]; auto. Qed.
    Lemma obeyed_cons e x : obeyed [e] -> obeyed x -> obeyed (e :: x).
    Proof. intros. by apply (obeyed_app [e] x). Qed.
    Lemma unsudo_app x y : unsudo (x ++ y)%list -> unsudo x /\ unsudo y.
    Proof. intros H. split; intros e He; apply H, in_or_app; auto. Qed.
    Lemma unsudo_cons e x : unsudo (e :: x) -> unsudo x.
    Proof. intros H. by apply (unsudo_app [e] x). Qed.
    Lemma obeyed_me s o c : same s -> o_caller o <> CRoot -> passes s o c = true -> obeyed [(o_caller o, call_name c)].
    Proof.
      intros Hs Hr Hp e [<-|[]] Hin. cbn in *. apply passes_spec in Hp as [Hp _]; [|exact Hr].
      unfold is_paused in Hp. destruct (whitelisted (call_name c)) eqn:Ew; [exact (proj1 (whitelisted_iff _) Ew)|].
      apply bool_decide_eq_false in Hp. unfold same in Hs. subst P. contradiction.
    Qed.
    Lemma obeys c : forall s o s' tr, same s -> o_caller o <> CRoot -> passes s o c = true ->
      body s o c = Some (s', tr) -> unsudo tr -> same s' /\ obeyed tr.
    Proof.
      induction c as [k l IH|i c IH|r f c IH|c IH|w c IH|l c IH|l c IH|c Hc] using rcall_ind';
        intros s o s' tr Hs Hr Hpass He Hf; assert (Hme := obeyed_me s o _ Hs Hr Hpass).
      - rewrite body_batch in He.
        assert (Hl : forall s' tr, loop (batch_origin k o) (bool_decide (o_caller o = CRoot)) k s l = Some (s', tr) ->
          unsudo tr -> same s' /\ obeyed tr).
        { intros s1 tr1. apply (loop_keeps derive pure_of multi same obeyed unsudo).
          - intros e [].
          - exact obeyed_app.
          - exact unsudo_app.
          - rewrite batch_caller. apply bool_decide_eq_true.
          - eapply Forall_impl; [exact IH|]. intros x Hx s2 s3 tr2 Hs2 Hp2 Hb2 Hf2.
            apply (Hx s2 (batch_origin k o) s3 tr2); auto. by rewrite batch_caller.
          - exact Hs. }
        destruct (o_caller o) eqn:Eo; try discriminate He;
          destruct (loop _ _ _ _ _) as [[s1 t1]|] eqn:El; try discriminate He; injection He as <- <-;
          (destruct (Hl _ _ eq_refl (unsudo_cons _ _ Hf)) as [? ?]; split; [assumption|by apply obeyed_cons]).
      - cbn [Model_Runtime.body] in He. destruct (signer o) as [w|] eqn:Ew; [|discriminate].
        destruct (passes s _ c) eqn:Ep; [|discriminate].
        destruct (body s _ c) as [[s1 t1]|] eqn:Eb; [|discriminate]. injection He as <- <-.
        destruct (IH _ (ROrigin (CSigned (derive w i)) (o_kinds o) (o_nested o)) _ _ Hs ltac:(discriminate) Ep Eb (unsudo_cons _ _ Hf)) as [? ?].
        split; [assumption|by apply obeyed_cons].
      - cbn [Model_Runtime.body] in He. destruct (signer o) as [w|] eqn:Ew; [|discriminate].
        destruct (find_proxy s r w f) as [[x d]|] eqn:Ef; [|discriminate].
        destruct (d =? 0); [|discriminate].
        destruct (passes s _ c) eqn:Ep.
        + destruct (body s _ c) as [[s1 t1]|] eqn:Eb.
          * injection He as <- <-.
            destruct (IH _ (ROrigin (CSigned r) [x] false) _ _ Hs ltac:(discriminate) Ep Eb (unsudo_cons _ _ Hf)) as [? ?].
            split; [assumption|by apply obeyed_cons].
          * by injection He as <- <-.
        + by injection He as <- <-.
      - cbn [Model_Runtime.body] in He. destruct (signer o) as [w|]; [|discriminate].
        destruct (bool_decide _); [|discriminate]. exfalso.
        assert (X : exists tr', tr = (o_caller o, call_name (SudoCall c)) :: tr')
          by (destruct (body s _ c) as [[s1 t1]|]; injection He as <- <-; eauto).
        destruct X as [tr' ->]. by apply (Hf _ (or_introl eq_refl)).
      - cbn [Model_Runtime.body] in He. destruct (signer o) as [w'|]; [|discriminate].
        destruct (bool_decide _); [|discriminate]. exfalso.
        assert (X : exists tr', tr = (o_caller o, call_name (SudoAs w c)) :: tr')
          by (destruct (body s _ c) as [[s1 t1]|]; injection He as <- <-; eauto).
        destruct X as [tr' ->]. by apply (Hf _ (or_introl eq_refl)).
      - cbn [Model_Runtime.body] in He. destruct (signer o) as [w|] eqn:Ew; [|discriminate].
        destruct (_ || _); [discriminate|]. cbv zeta in He.
        destruct (passes s _ c) eqn:Ep; [|discriminate].
        destruct (body s _ c) as [[s1 t1]|] eqn:Eb; [|discriminate]. injection He as <- <-.
        destruct (IH _ (new_origin (CSigned (multi (nins w l)))) _ _ Hs ltac:(discriminate) Ep Eb (unsudo_cons _ _ Hf)) as [? ?].
        split; [assumption|by apply obeyed_cons].
      - cbn [Model_Runtime.body] in He. destruct (signer o) as [w|] eqn:Ew; [|discriminate].
        destruct (bool_decide _) eqn:Ed; [|discriminate]. cbv zeta in He.
        destruct (passes s _ c) eqn:Ep; [|discriminate].
        destruct (body s _ c) as [[s1 t1]|] eqn:Eb; [|discriminate]. injection He as <- <-.
        destruct (IH _ (new_origin (CSigned l)) _ _ Hs ltac:(discriminate) Ep Eb (unsudo_cons _ _ Hf)) as [? ?].
        split; [assumption|by apply obeyed_cons].
      - assert (X : r_paused s' = r_paused s /\ tr = [(o_caller o, call_name c)]).
        { destruct c; try contradiction Hc; cbn [Model_Runtime.body] in He; cbv zeta in He;
            try (destruct (signer o) as [w|] eqn:Ew; [|discriminate]);
            repeat match type of He with
              | (if ?b then _ else _) = Some _ => destruct b; try discriminate He
              | match ?x with Some _ => _ | None => _ end = Some _ => destruct x; try discriminate He
              | match ?x with pair _ _ => _ end = Some _ => destruct x
              | match o_caller o with _ => _ end = Some _ => destruct (o_caller o) eqn:?; try discriminate He; try congruence
              end;
            injection He as <- <-; auto. }
        destruct X as [X1 ->]. split; [unfold same in *; congruence|exact Hme].
    Qed.
    Lemma apply_obeys s x s' tr : same s -> not_root x -> apply_xt s x = (s', tr) -> unsudo tr -> same s' /\ obeyed tr.
    Proof.
      intros Hs Hn He Hf.
      assert (G : forall o c, o_caller o <> CRoot -> default (s, []) (dispatch s o c) = (s', tr) -> same s' /\ obeyed tr).
      { intros o c Hb. unfold Model_Runtime.dispatch. destruct (passes s o c) eqn:Ep.
        - destruct (body s o c) as [[s1 t1]|] eqn:Eb; cbn; intros [= <- <-]; [by apply (obeys c s o)|].
          split; [exact Hs|intros e []].
        - cbn. intros [= <- <-]. split; [exact Hs|intros e []]. }
      destruct x as [w c|f|c]; cbn [Model_Runtime.apply_xt] in He.
      - eapply (G (new_origin (CSigned w))); [discriminate|exact He].
      - eapply (G (new_origin (CEth f))); [discriminate|exact He].
      - by destruct (Hn c).
    Qed.
    Lemma run_obeys l : forall s s' tr, same s -> (forall x, In x l -> not_root x) ->
      run s l = (s', tr) -> unsudo tr -> same s' /\ obeyed tr.
    Proof.
      induction l as [|x l IH]; intros s s' tr Hs Hn He Hf; cbn [Model_Runtime.run] in He.
      { injection He as <- <-. split; [exact Hs|intros e []]. }
      destruct (apply_xt s x) as [s1 t1] eqn:E1. destruct (run s1 l) as [s2 t2] eqn:E2. injection He as <- <-.
      apply unsudo_app in Hf as [Hf1 Hf2].
      destruct (apply_obeys s x s1 t1 Hs (Hn x (or_introl eq_refl)) E1 Hf1) as [Hs1 Hk1].
      destruct (IH s1 s2 t2 Hs1 (fun y Hy => Hn y (or_intror Hy)) E2 Hf2) as [Hs2 Hk2].
      split; [exact Hs2|by apply obeyed_app].
    Qed.
  End obeys.

  (** Whatever happens, the protected names stay out of the pauses. *)
  Definition sound (s : rstate) : Prop := forall n, n ∈ r_paused s -> ~ protected n.
  Lemma sound_body c : forall s o s' tr, sound s -> body s o c = Some (s', tr) -> sound s'.
  Proof.
    induction c as [k l IH|i c IH|r f c IH|c IH|w c IH|l c IH|l c IH|c Hc] using rcall_ind';
      intros s o s' tr Hs He.
    - rewrite body_batch in He.
      assert (Hl : forall s' tr, loop (batch_origin k o) (bool_decide (o_caller o = CRoot)) k s l = Some (s', tr) -> sound s').
      { intros s1 tr1 E1.
        eapply (loop_keeps derive pure_of multi sound (fun _ => True) (fun _ => True));
          [exact I|auto|auto| | |exact Hs|exact E1|exact I].
        - rewrite batch_caller. apply bool_decide_eq_true.
        - eapply Forall_impl; [exact IH|]. intros x Hx s2 s3 tr2 Hs2 _ Hb2 _. split; [|exact I].
          by apply (Hx s2 (batch_origin k o) s3 tr2). }
      destruct (o_caller o) eqn:Eo; try discriminate He;
        destruct (loop _ _ _ _ _) as [[s1 t1]|] eqn:El; try discriminate He; injection He as <- <-;
        by apply (Hl _ _ eq_refl).
    - cbn [Model_Runtime.body] in He. destruct (signer o); [|discriminate].
      destruct (passes s _ c); [|discriminate].
      destruct (body s _ c) as [[s1 t1]|] eqn:Eb; [|discriminate]. injection He as <- <-. by apply (IH _ _ _ _ Hs Eb).
    - cbn [Model_Runtime.body] in He. destruct (signer o) as [w|] eqn:Ew; [|discriminate].
      destruct (find_proxy s r w f) as [[x d]|] eqn:Ef; [|discriminate].
      destruct (d =? 0); [|discriminate].
      destruct (passes s _ c); [|by injection He as <- <-].
      destruct (body s _ c) as [[s1 t1]|] eqn:Eb; injection He as <- <-; [by apply (IH _ _ _ _ Hs Eb)|exact Hs].
    - cbn [Model_Runtime.body] in He. destruct (signer o) as [w|]; [|discriminate].
      destruct (bool_decide _); [|discriminate].
      destruct (body s _ c) as [[s1 t1]|] eqn:Eb; injection He as <- <-; [by apply (IH _ _ _ _ Hs Eb)|exact Hs].
    - cbn [Model_Runtime.body] in He. destruct (signer o) as [w'|]; [|discriminate].
      destruct (bool_decide _); [|discriminate].
      destruct (body s _ c) as [[s1 t1]|] eqn:Eb; injection He as <- <-; [by apply (IH _ _ _ _ Hs Eb)|exact Hs].
    - cbn [Model_Runtime.body] in He. destruct (signer o) as [w|] eqn:Ew; [|discriminate].
      destruct (_ || _); [discriminate|]. cbv zeta in He.
      destruct (passes s _ c); [|discriminate].
      destruct (body s _ c) as [[s1 t1]|] eqn:Eb; [|discriminate]. injection He as <- <-. by apply (IH _ _ _ _ Hs Eb).
    - cbn [Model_Runtime.body] in He. destruct (signer o) as [w|] eqn:Ew; [|discriminate].
      destruct (bool_decide _) eqn:Ed; [|discriminate]. cbv zeta in He.
      destruct (passes s _ c); [|discriminate].
      destruct (body s _ c) as [[s1 t1]|] eqn:Eb; [|discriminate]. injection He as <- <-. by apply (IH _ _ _ _ Hs Eb).
    - assert (X : r_paused s' = r_paused s \/ (exists n, r_paused s' = r_paused s ∖ {[n]}) \/
        exists n, r_paused s' = {[n]} ∪ r_paused s /\ ~ protected n).
      { destruct c; try contradiction Hc; cbn [Model_Runtime.body] in He; cbv zeta in He.
        all: try (destruct (signer o) as [w|] eqn:Ew; [|discriminate]).
        all: try (left;
          repeat match type of He with
              | (if ?b then _ else _) = Some _ => destruct b; try discriminate He
              | match ?x with Some _ => _ | None => _ end = Some _ => destruct x; try discriminate He
              | match ?x with pair _ _ => _ end = Some _ => destruct x
              | match ?x with CRoot => _ | CSigned _ => _ | CNone => _ | CEth _ => _ end = Some _ => destruct x; try discriminate He
              end;
          injection He as <- <-; reflexivity).
        - destruct (o_caller o); try discriminate He.
          destruct (String.eqb_spec n.1 "TxPause") as [|Hn]; [discriminate He|].
          destruct (whitelisted n) eqn:Ew; [discriminate He|].
          destruct (is_paused s n); [discriminate He|]. injection He as <- <-. right. right. exists n. split; [reflexivity|].
          intros [X|[X|X]]; [| |congruence];
            (assert (Y : whitelisted n = true) by (apply whitelisted_iff; auto); congruence).
        - destruct (o_caller o); try discriminate He.
          destruct (is_paused s n); [|discriminate He]. injection He as <- <-. right. left. by exists n. }
      destruct X as [X|[[n X]|(n & X & Hn)]]; intros m Hm; rewrite X in Hm.
      + by apply Hs.
      + apply Hs. set_solver.
      + apply elem_of_union in Hm as [Hm|Hm]; [apply elem_of_singleton in Hm; by subst|by apply Hs].
  Qed.
  Lemma sound_apply s x s' tr : sound s -> apply_xt s x = (s', tr) -> sound s'.
  Proof.
    intros Hs He.
    assert (G : forall o c, default (s, []) (dispatch s o c) = (s', tr) -> sound s').
    { intros o c. unfold Model_Runtime.dispatch. destruct (passes s o c) eqn:Ep.
      - destruct (body s o c) as [[s1 t1]|] eqn:Eb; cbn; intros [= <- <-]; [by eapply sound_body|exact Hs].
      - cbn. by intros [= <- <-]. }
    destruct x as [w c|f|c]; cbn [Model_Runtime.apply_xt] in He; by eapply G.
  Qed.
  Lemma sound_run l : forall s s' tr, sound s -> run s l = (s', tr) -> sound s'.
  Proof.
    induction l as [|x l IH]; intros s s' tr Hs He; cbn [Model_Runtime.run] in He.
    { by injection He as <- <-. }
    destruct (apply_xt s x) as [s1 t1] eqn:E1. destruct (run s1 l) as [s2 t2] eqn:E2. injection He as <- <-.
    eapply IH; [|exact E2]. by eapply sound_apply.
  Qed.
  Lemma run_app l1 : forall l2 s, (run s (l1 ++ l2)%list).1 = (run (run s l1).1 l2).1.
  Proof.
    induction l1 as [|x l1 IH]; intros l2 s; cbn [Model_Runtime.run app]; [reflexivity|].
    destruct (apply_xt s x) as [s1 t1]. specialize (IH l2 s1).
    destruct (run s1 (l1 ++ l2)%list) as [s2 t2]. destruct (run s1 l1) as [s3 t3]. exact IH.
  Qed.

  (** The sudo key lifts any pause. *)
  Lemma sudo_unpause s k n : sound s -> r_key s = Some k -> n ∈ r_paused s ->
    apply_xt s (XSigned k (SudoCall (Unpause n))) =
    (set_paused s (r_paused s ∖ {[n]}), [(CSigned k, ("Sudo", "sudo")); (CRoot, ("TxPause", "unpause"))]).
  Proof.
    intros Hs Hk Hn. cbn [Model_Runtime.apply_xt]. unfold Model_Runtime.dispatch, passes, is_paused. cbn.
    rewrite bool_decide_true by exact Hk.
    assert (Hw : whitelisted n = false).
    { destruct (whitelisted n) eqn:E; [|reflexivity]. apply whitelisted_iff in E. destruct (Hs n Hn).
      unfold protected. tauto. }
    unfold is_paused. rewrite Hw, bool_decide_true by exact Hn. reflexivity.
  Qed.
  Lemma block_unpause s k n : sound s -> r_key s = Some k -> n ∈ r_paused s -> ("Timestamp", "set") ∉ r_paused s ->
    exists s' tr, make_block s [] [XSigned k (SudoCall (Unpause n))] = Some (s', tr) /\ r_paused s' = r_paused s ∖ {[n]}.
  Proof.
    intros Hs Hk Hn Ht.
    assert (Ed : dispatch (set_now s (r_now s + 1)) (new_origin CNone) (Leaf PTimestamp "set" true) =
      Some (set_now s (r_now s + 1), [(CNone, ("Timestamp", "set"))])).
    { unfold Model_Runtime.dispatch, passes, is_paused. cbn. by rewrite bool_decide_false by exact Ht. }
    unfold Model_Runtime.make_block. cbn [fmap list_fmap Model_Runtime.run]. rewrite Ed.
    rewrite (sudo_unpause (set_now s (r_now s + 1)) k n Hs Hk Hn).
    eexists _, _. split; reflexivity.
  Qed.
  (** With the timestamp inherent paused and nothing scheduled there is no further block. *)
  Lemma dead_block s l : ("Timestamp", "set") ∈ r_paused s -> make_block s [] l = None.
  Proof.
    intros Ht. unfold Model_Runtime.make_block. cbn [fmap list_fmap Model_Runtime.run].
    unfold Model_Runtime.dispatch, passes, is_paused. cbn. by rewrite bool_decide_true by exact Ht.
  Qed.
End pausing.
