(** Proofs about the proxies of accounts. *)
From Verif Require Import Base Model_Runtime Spec_Runtime Proofs_Runtime Spec_Proxy.
From stdpp Require Import gmap strings sorting.
From Coq Require Import ZifyBool Lia.
Local Open Scope string_scope.
Open Scope N_scope.

(** Calls that dispatch no other call. *)
Definition plain (c : rcall) : Prop :=
  match c with
  | Batch _ _ | AsDerivative _ _ | ProxyFor _ _ _ | SudoCall _ | SudoAs _ _ | AsMulti1 _ _
  | AsRecovered _ _ => False
  | _ => True
  end.

(** The order of the entries. *)
Definition bef (x y : N * ptype * N) : Prop := before x y = true.
Lemma rank_inj t t' : rank t = rank t' -> t = t'.
Proof. destruct t, t'; cbn; congruence. Qed.
Lemma bef_spec d t l d' t' l' : bef (d, t, l) (d', t', l') <->
  d < d' \/ (d = d' /\ (rank t < rank t' \/ (t = t' /\ l < l'))).
Proof.
  unfold bef, before. split.
  - intros H. destruct (N.lt_trichotomy d d') as [?|[?|?]]; [by left|right|lia]. split; [assumption|].
    destruct (N.lt_trichotomy (rank t) (rank t')) as [?|[E|?]]; [by left|right|lia].
    split; [by apply rank_inj|lia].
  - intros [H|[-> [H|[-> H]]]]; lia.
Qed.
Lemma bef_trans x y z : bef x y -> bef y z -> bef x z.
Proof.
  destruct x as [[d t] l], y as [[d1 t1] l1], z as [[d2 t2] l2]. rewrite !bef_spec.
  intros [H|[-> [H|[-> H]]]] [H'|[-> [H'|[-> H']]]]; try (left; lia); right; (split; [lia|]);
    try (left; lia); right; split; [reflexivity|lia].
Qed.
Lemma bef_irr x : ~ bef x x.
Proof. destruct x as [[d t] l]. rewrite bef_spec. intros [H|[_ [H|[_ H]]]]; lia. Qed.
Lemma bef_total x y : bef x y \/ x = y \/ bef y x.
Proof.
  destruct x as [[d t] l], y as [[d1 t1] l1]. rewrite !bef_spec.
  destruct (N.lt_trichotomy d d1) as [H|[->|H]]; [auto| |auto].
  destruct (N.lt_trichotomy (rank t) (rank t1)) as [H|[H|H]]; [auto 6| |auto 8].
  apply rank_inj in H as ->. destruct (N.lt_trichotomy l l1) as [H|[->|H]]; auto 8.
Qed.

Definition in_order (l : list (N * ptype * N)) : Prop := StronglySorted bef l.
Lemma pins_order x l : in_order l -> ~ In x l -> in_order (pins x l).
Proof.
  induction 1 as [|y l Hs IH Hy]; cbn; intros Hn; [repeat constructor|].
  destruct (before x y) eqn:E.
  - constructor; [by constructor|]. constructor; [exact E|].
    eapply Forall_impl; [exact Hy|]. intros z. by apply bef_trans.
  - assert (Hyx : bef y x).
    { destruct (bef_total x y) as [H|[H|H]]; [unfold bef in H; congruence|subst; tauto|exact H]. }
    constructor; [apply IH; tauto|]. apply List.Forall_forall. intros z Hz. apply in_pins in Hz as [->|Hz]; [exact Hyx|].
    by apply (proj1 (List.Forall_forall _ _) Hy).
Qed.
Lemma pins_length x l : length (pins x l) = S (length l).
Proof. induction l as [|y l IH]; cbn; [done|]. destruct (before x y); cbn; congruence. Qed.
Lemma order_nodup l : in_order l -> NoDup l.
Proof.
  induction 1 as [|y l Hs IH Hy]; constructor; [|exact IH].
  intros Hin. apply elem_of_list_In in Hin. apply (bef_irr y). by apply (proj1 (List.Forall_forall _ _) Hy).
Qed.
Lemma order_filter (P : N * ptype * N -> Prop) `{!forall x, Decision (P x)} l : in_order l -> in_order (filter P l).
Proof.
  induction 1 as [|y l Hs IH Hy]; [constructor|]. rewrite filter_cons. destruct (decide (P y)); [|exact IH].
  constructor; [exact IH|]. apply List.Forall_forall. intros z Hz.
  apply (proj1 (List.Forall_forall _ _) Hy). apply elem_of_list_In, elem_of_list_filter in Hz as [_ Hz].
  by apply elem_of_list_In.
Qed.
Lemma filter_length_le (P : N * ptype * N -> Prop) `{!forall x, Decision (P x)} l : (length (filter P l) <= length l)%nat.
Proof. induction l as [|y l IH]; [done|]. rewrite filter_cons. destruct (decide (P y)); cbn; lia. Qed.

Section proxy.
  Context (derive : N -> N -> N) (pure_of : N -> ptype -> N -> N -> N) (multi : list N -> N).
  Local Notation body := (body derive pure_of multi).
  Local Notation dispatch := (dispatch derive pure_of multi).
  Local Notation apply_xt := (apply_xt derive pure_of multi).
  Local Notation run := (run derive pure_of multi).
  Local Notation loop := (loop derive pure_of multi).

  (** What composes and holds of the plain calls holds of every call. *)
  Section compose.
    Context (J : rstate -> list entry -> rstate -> Prop).
    Context (Jnil : forall s, J s [] s).
    Context (Jskip : forall s e tr s', J s tr s' -> J s (e :: tr) s').
    Context (Japp : forall s a s1 b s2, J s a s1 -> J s1 b s2 -> J s (a ++ b)%list s2).
    Context (Jplain : forall c s o s' tr, plain c -> body s o c = Some (s', tr) -> J s tr s').
    Lemma loop_J o root k l :
      Forall (fun c => forall s o s' tr, body s o c = Some (s', tr) -> J s tr s') l ->
      forall s s' tr, loop o root k s l = Some (s', tr) -> J s tr s'.
    Proof.
      induction 1 as [|x l Hx _ IH]; intros s s' tr He; cbn [Proofs_Runtime.loop] in He.
      { injection He as <- <-. apply Jnil. }
      destruct (if (if root then true else passes s o x) then body s o x else None) as [[s1 t1]|] eqn:E.
      - destruct (loop o root k s1 l) as [[s2 t2]|] eqn:E2; [|discriminate]. injection He as <- <-.
        apply Japp with s1; [|by apply IH]. apply (Hx s o).
        destruct (if root then true else passes s o x); [exact E|discriminate].
      - destruct k; [injection He as <- <-; apply Jnil|discriminate|by apply IH].
    Qed.
    Lemma body_J c : forall s o s' tr, body s o c = Some (s', tr) -> J s tr s'.
    Proof.
      induction c as [k l IH|i c IH|r f c IH|c IH|w c IH|l c IH|l c IH|c Hc] using rcall_ind';
        intros s o s' tr He.
      1: { rewrite body_batch in He.
           destruct (o_caller o) eqn:Eo; try discriminate He;
             destruct (loop _ _ _ _ _) as [[s1 t1]|] eqn:El; try discriminate He; injection He as <- <-;
             apply Jskip; eapply loop_J; eauto. }
      7: { eapply Jplain; [|exact He]. exact Hc. }
      all: cbn [Model_Runtime.body] in He; destruct (signer o) as [w'|]; [|discriminate]; cbv zeta in He.
      - destruct (passes s _ c); [|discriminate].
        destruct (body s _ c) as [[s1 t1]|] eqn:Eb; [|discriminate]. injection He as <- <-. eauto.
      - destruct (find_proxy s r w' f) as [[x d]|]; [|discriminate]. destruct (d =? 0); [|discriminate].
        destruct (passes s _ c); [|injection He as <- <-; auto].
        destruct (body s _ c) as [[s1 t1]|] eqn:Eb; injection He as <- <-; eauto.
      - destruct (bool_decide _); [|discriminate].
        destruct (body s _ c) as [[s1 t1]|] eqn:Eb; injection He as <- <-; eauto.
      - destruct (bool_decide _); [|discriminate].
        destruct (body s _ c) as [[s1 t1]|] eqn:Eb; injection He as <- <-; eauto.
      - destruct (_ || _); [discriminate|]. destruct (passes s _ c); [|discriminate].
        destruct (body s _ c) as [[s1 t1]|] eqn:Eb; [|discriminate]. injection He as <- <-. eauto.
      - destruct (bool_decide _); [|discriminate]. destruct (passes s _ c); [|discriminate].
        destruct (body s _ c) as [[s1 t1]|] eqn:Eb; [|discriminate]. injection He as <- <-. eauto.
    Qed.
    Lemma apply_J s x s' tr : apply_xt s x = (s', tr) -> J s tr s'.
    Proof.
      assert (G : forall o c, default (s, []) (dispatch s o c) = (s', tr) -> J s tr s').
      { intros o c. unfold Model_Runtime.dispatch. destruct (passes s o c); [|intros [= <- <-]; apply Jnil].
        destruct (body s o c) as [[s1 t1]|] eqn:Eb; cbn; intros [= <- <-]; [by eapply body_J|apply Jnil]. }
      destruct x; apply G.
    Qed.
    Lemma run_J l : forall s s' tr, run s l = (s', tr) -> J s tr s'.
    Proof.
      induction l as [|x l IH]; intros s s' tr He; cbn [Model_Runtime.run] in He.
      { injection He as <- <-. apply Jnil. }
      destruct (apply_xt s x) as [s1 t1] eqn:E1. destruct (run s1 l) as [s2 t2] eqn:E2. injection He as <- <-.
      eapply Japp; [by apply apply_J with x|by apply IH].
    Qed.
  End compose.

  (** What the plain calls do to the proxies. *)
  Inductive edit (s : rstate) (tr : list entry) (s' : rstate) : Prop :=
  | ESame : r_proxies s' = r_proxies s -> edit s tr s'
  | EAdd w d t e : d <> w -> ~ In (d, t, e) (proxies s w) -> (length (proxies s w) < 32)%nat ->
      r_proxies s' = <[w := pins (d, t, e) (proxies s w)]> (r_proxies s) ->
      In (CSigned w, ("Proxy", "add_proxy")) tr -> edit s tr s'
  | ERemove w d t e :
      r_proxies s' = (if bool_decide (filter (fun x => x <> (d, t, e)) (proxies s w) = []) then delete w (r_proxies s)
                      else <[w := filter (fun x => x <> (d, t, e)) (proxies s w)]> (r_proxies s)) ->
      In (CSigned w, ("Proxy", "remove_proxy")) tr -> edit s tr s'
  | EClear w n : manages n -> r_proxies s' = delete w (r_proxies s) -> In (CSigned w, n) tr -> edit s tr s'
  | EPure w t i e salt : r_proxies s !! pure_of w t i salt = None ->
      r_proxies s' = <[pure_of w t i salt := [(w, t, e)]]> (r_proxies s) ->
      In (CSigned w, ("Proxy", "create_pure")) tr -> edit s tr s'.
  Lemma signer_caller o w : signer o = Some w -> o_caller o = CSigned w.
  Proof. unfold signer. destruct (o_caller o); congruence. Qed.
  Lemma plain_edit c s o s' tr : plain c -> body s o c = Some (s', tr) -> edit s tr s'.
  Proof.
    intros Hc He. destruct c; try contradiction Hc; cbn [Model_Runtime.body] in He; cbv zeta in He;
      try (destruct (signer o) as [w|] eqn:Ew; [|discriminate]; apply signer_caller in Ew; rewrite ?Ew in He).
    all: try (apply ESame;
      repeat match type of He with
        | (if ?b then _ else _) = Some _ => destruct b; try discriminate He
        | match ?x with Some _ => _ | None => _ end = Some _ => destruct x; try discriminate He
        | match ?x with pair _ _ => _ end = Some _ => destruct x
        | match ?x with CRoot => _ | _ => _ end = Some _ => destruct x; try discriminate He
        end; injection He as <- <-; reflexivity).
    - destruct ((delegate =? w) || _ || _) eqn:E; [discriminate|]. injection He as <- <-.
      apply orb_false_iff in E as [E E3]. apply orb_false_iff in E as [E1 E2].
      apply bool_decide_eq_false in E2. eapply (EAdd _ _ _ w delegate t delay).
      + by apply N.eqb_neq.
      + intros Hin. apply E2. by apply elem_of_list_In.
      + change (length (proxies s w) < MaxProxies)%nat. unfold proxies. apply Nat.leb_gt. exact E3.
      + reflexivity.
      + by left.
    - destruct (bool_decide (_ ∈ _)); [|discriminate]. injection He as <- <-.
      eapply (ERemove _ _ _ w delegate t delay); [reflexivity|by left].
    - injection He as <- <-. eapply (EClear _ _ _ w ("Proxy", "remove_proxies")); [|reflexivity|by left].
      right; right; by left.
    - destruct (bool_decide _) eqn:E; [discriminate|]. injection He as <- <-.
      apply bool_decide_eq_false in E.
      eapply (EPure _ _ _ w t index delay salt); [|reflexivity|by left].
      destruct (r_proxies s !! _) eqn:E2; [|reflexivity]. by destruct E.
    - destruct (_ =? w); [|discriminate]. injection He as <- <-.
      eapply (EClear _ _ _ w ("Proxy", "kill_pure")); [|reflexivity|by left]. right; right; right; by left.
  Qed.

  (** Who changes an account's proxies. *)
  Definition owned (a : N) (s : rstate) (tr : list entry) (s' : rstate) : Prop :=
    r_proxies s' !! a <> r_proxies s !! a ->
    (exists n, manages n /\ In (CSigned a, n) tr) \/
    (exists w t i salt, pure_of w t i salt = a /\ In (CSigned w, ("Proxy", "create_pure")) tr).
  Lemma run_owned a l s s' tr : run s l = (s', tr) -> owned a s tr s'.
  Proof.
    apply (run_J (owned a)).
    - intros s0 H. congruence.
    - intros s0 e t s1 H Hne. destruct (H Hne) as [(n & ? & ?)|(w & x & i & z & ? & ?)].
      + left. exists n. split; [assumption|by right].
      + right. exists w, x, i, z. split; [assumption|by right].
    - intros s0 x s1 y s2 H1 H2 Hne. destruct (decide (r_proxies s1 !! a = r_proxies s0 !! a)) as [E|E].
      + rewrite <- E in Hne. destruct (H2 Hne) as [(n & ? & ?)|(w & t & i & z & ? & ?)].
        * left. exists n. split; [assumption|apply in_or_app; by right].
        * right. exists w, t, i, z. split; [assumption|apply in_or_app; by right].
      + destruct (H1 E) as [(n & ? & ?)|(w & t & i & z & ? & ?)].
        * left. exists n. split; [assumption|apply in_or_app; by left].
        * right. exists w, t, i, z. split; [assumption|apply in_or_app; by left].
    - intros c s0 o s1 t Hc He Hne.
      destruct (plain_edit c s0 o s1 t Hc He) as [E|w d x e _ _ _ E Hin|w d x e E Hin|w n Hn E Hin|w x i e z _ E Hin];
        rewrite E in Hne.
      + congruence.
      + destruct (decide (w = a)) as [->|Hw]; [|by rewrite lookup_insert_ne in Hne].
        left. eexists. split; [|exact Hin]. by left.
      + destruct (decide (w = a)) as [->|Hw].
        * left. eexists. split; [|exact Hin]. right; by left.
        * destruct (bool_decide _); [by rewrite lookup_delete_ne in Hne|by rewrite lookup_insert_ne in Hne].
      + destruct (decide (w = a)) as [->|Hw]; [|by rewrite lookup_delete_ne in Hne]. eauto.
      + destruct (decide (pure_of w x i z = a)) as [Hw|Hw]; [|by rewrite lookup_insert_ne in Hne].
        right. eauto 8.
  Qed.

  (** The shape of the lists. *)
  Definition shaped (s : rstate) : Prop :=
    forall a, (length (proxies s a) <= 32)%nat /\ in_order (proxies s a) /\
      forall d t e, In (d, t, e) (proxies s a) -> d <> a.
  Lemma shaped_at s s' w (l : list (N * ptype * N)) :
    shaped s -> (length l <= 32)%nat -> in_order l -> (forall d t e, In (d, t, e) l -> d <> w) ->
    (forall a, a <> w -> proxies s' a = proxies s a) -> proxies s' w = l -> shaped s'.
  Proof.
    intros H H1 H2 H3 Ho Hw a. destruct (decide (a = w)) as [->|Ha]; [by rewrite Hw|rewrite (Ho a Ha); apply H].
  Qed.
  Lemma run_shaped l s s' tr : (forall w t i salt, pure_of w t i salt <> w) ->
    run s l = (s', tr) -> shaped s -> shaped s'.
  Proof.
    intros Hpure. apply (run_J (fun s _ s' => shaped s -> shaped s')); [tauto|tauto|tauto|].
    intros c s0 o s1 t Hc He Hs.
    destruct (plain_edit c s0 o s1 t Hc He) as [E|w d x e Hd Hn Hlen E _|w d x e E _|w n _ E _|w x i e z _ E _].
    - intros a. unfold proxies. rewrite E. apply Hs.
    - destruct (Hs w) as (_ & Ho & Hself). apply (shaped_at s0 s1 w (pins (d, x, e) (proxies s0 w))); [exact Hs|..].
      + rewrite pins_length. lia.
      + by apply pins_order.
      + intros d' t' e' Hin. apply in_pins in Hin as [[= -> -> ->]|Hin]; [exact Hd|by eapply Hself].
      + intros a Ha. unfold proxies. by rewrite E, lookup_insert_ne by congruence.
      + unfold proxies at 1. by rewrite E, lookup_insert.
    - destruct (Hs w) as (Hlen & Ho & Hself).
      apply (shaped_at s0 s1 w (filter (fun y => y <> (d, x, e)) (proxies s0 w))); [exact Hs|..].
      + etransitivity; [apply filter_length_le|exact Hlen].
      + by apply order_filter.
      + intros d' t' e' Hin. apply elem_of_list_In, elem_of_list_filter in Hin as [_ Hin].
        apply elem_of_list_In in Hin. by eapply Hself.
      + intros a Ha. unfold proxies. rewrite E.
        destruct (bool_decide _); [by rewrite lookup_delete_ne by congruence|by rewrite lookup_insert_ne by congruence].
      + unfold proxies at 1. rewrite E. destruct (bool_decide _) eqn:Ed.
        * apply bool_decide_eq_true in Ed. by rewrite lookup_delete, Ed.
        * by rewrite lookup_insert.
    - apply (shaped_at s0 s1 w []); [exact Hs|cbn; lia|constructor|by intros ? ? ? []|..].
      + intros a Ha. unfold proxies. by rewrite E, lookup_delete_ne by congruence.
      + unfold proxies. by rewrite E, lookup_delete.
    - apply (shaped_at s0 s1 (pure_of w x i z) [(w, x, e)]); [exact Hs|cbn; lia|repeat constructor|..].
      + intros d' t' e' [[= <- <- <-]|[]]. intros H. exact (Hpure w x i z (eq_sym H)).
      + intros a Ha. unfold proxies. by rewrite E, lookup_insert_ne by congruence.
      + unfold proxies. by rewrite E, lookup_insert.
  Qed.
  Lemma shaped_proper s : shaped s -> proper s.
  Proof. intros H a. destruct (H a) as (H1 & H2 & H3). auto using order_nodup. Qed.
  Lemma reachable_shaped s : (forall w t i salt, pure_of w t i salt <> w) ->
    proxy_reachable derive pure_of multi s -> shaped s.
  Proof.
    intros Hp (s0 & l & E & <-). eapply (run_shaped l s0); [exact Hp|apply surjective_pairing|].
    intros a. unfold proxies. rewrite E, lookup_empty. cbn. split; [lia|split; [constructor|by intros ? ? ? []]].
  Qed.

  (** A call of one's own that is not paused passes. *)
  Lemma signed_passes s w c : call_name c ∉ r_paused s -> passes s (new_origin (CSigned w)) c = true.
  Proof.
    intros H. unfold passes. cbn [new_origin o_caller o_kinds o_nested forallb].
    unfold is_paused. rewrite (bool_decide_eq_false_2 _ H). by destruct (whitelisted _).
  Qed.

  Lemma proxies_insert s w l m : proxies (set_proxies s (<[w := l]> m)) w = l.
  Proof. unfold proxies. cbn. by rewrite lookup_insert. Qed.
  Lemma proxies_delete s w m : proxies (set_proxies s (delete w m)) w = [].
  Proof. unfold proxies. cbn. by rewrite lookup_delete. Qed.
  Lemma proxies_insert_ne s w l a : a <> w -> proxies (set_proxies s (<[w := l]> (r_proxies s))) a = proxies s a.
  Proof. intros H. unfold proxies. cbn. by rewrite lookup_insert_ne by congruence. Qed.
  Lemma proxies_delete_ne s w a : a <> w -> proxies (set_proxies s (delete w (r_proxies s))) a = proxies s a.
  Proof. intros H. unfold proxies. cbn. by rewrite lookup_delete_ne by congruence. Qed.

  Lemma add_spec s w d t e : ("Proxy", "add_proxy") ∉ r_paused s ->
    let s' := (apply_xt s (XSigned w (AddProxy d t e))).1 in
    let tr := (apply_xt s (XSigned w (AddProxy d t e))).2 in
    let allowed := d <> w /\ ~ In (d, t, e) (proxies s w) /\ (length (proxies s w) < 32)%nat in
    (tr = [] /\ s' = s /\ ~ allowed) \/
    (tr = [(CSigned w, ("Proxy", "add_proxy"))] /\ allowed /\
      (forall x, In x (proxies s' w) <-> x = (d, t, e) \/ In x (proxies s w)) /\
      forall a, a <> w -> proxies s' a = proxies s a).
  Proof.
    intros Hp. cbn [Model_Runtime.apply_xt]. unfold Model_Runtime.dispatch. rewrite signed_passes by exact Hp.
    cbn [Model_Runtime.body signer new_origin o_caller]. cbv zeta. change (default [] (r_proxies s !! w)) with (proxies s w).
    destruct ((d =? w) || _ || _) eqn:E; cbn [from_option id fst snd]; [left|right].
    - split; [reflexivity|]. split; [reflexivity|]. intros (H1 & H2 & H3).
      apply orb_true_iff in E as [E|E]; [apply orb_true_iff in E as [E|E]|].
      + lia.
      + apply bool_decide_eq_true in E. by apply H2, elem_of_list_In.
      + apply Nat.leb_le in E. unfold MaxProxies in E. lia.
    - split; [reflexivity|]. split.
      { apply orb_false_iff in E as [E E3]. apply orb_false_iff in E as [E1 E2].
        apply bool_decide_eq_false in E2. apply Nat.leb_gt in E3. unfold MaxProxies in E3. repeat split.
        - lia.
        - intros Hin. by apply E2, elem_of_list_In.
        - lia. }
      split.
      + intros x. rewrite proxies_insert. apply in_pins.
      + intros a Ha. by apply proxies_insert_ne.
  Qed.
  Lemma remove_spec s w d t e : ("Proxy", "remove_proxy") ∉ r_paused s ->
    let s' := (apply_xt s (XSigned w (RemoveProxy d t e))).1 in
    let tr := (apply_xt s (XSigned w (RemoveProxy d t e))).2 in
    (tr = [] /\ s' = s /\ ~ In (d, t, e) (proxies s w)) \/
    (tr = [(CSigned w, ("Proxy", "remove_proxy"))] /\ In (d, t, e) (proxies s w) /\
      (forall x, In x (proxies s' w) <-> x <> (d, t, e) /\ In x (proxies s w)) /\
      forall a, a <> w -> proxies s' a = proxies s a).
  Proof.
    intros Hp. cbn [Model_Runtime.apply_xt]. unfold Model_Runtime.dispatch. rewrite signed_passes by exact Hp.
    cbn [Model_Runtime.body signer new_origin o_caller]. cbv zeta. change (default [] (r_proxies s !! w)) with (proxies s w).
    destruct (bool_decide (_ ∈ _)) eqn:E; cbn [from_option id fst snd].
    - right. apply bool_decide_eq_true, elem_of_list_In in E. split; [reflexivity|]. split; [exact E|].
      assert (G : forall x, In x (filter (fun y => y <> (d, t, e)) (proxies s w)) <-> x <> (d, t, e) /\ In x (proxies s w)).
      { intros x. rewrite <- !elem_of_list_In, elem_of_list_filter. reflexivity. }
      split.
      + intros x. rewrite <- G. destruct (bool_decide (_ = [])) eqn:Ed.
        * apply bool_decide_eq_true in Ed. by rewrite proxies_delete, Ed.
        * by rewrite proxies_insert.
      + intros a Ha. destruct (bool_decide (_ = [])); [by apply proxies_delete_ne|by apply proxies_insert_ne].
    - left. apply bool_decide_eq_false in E. repeat split. intros Hin. by apply E, elem_of_list_In.
  Qed.
  Lemma clear_spec s w : ("Proxy", "remove_proxies") ∉ r_paused s ->
    let s' := (apply_xt s (XSigned w RemoveProxies)).1 in
    proxies s' w = [] /\ forall a, a <> w -> proxies s' a = proxies s a.
  Proof.
    intros Hp. cbn [Model_Runtime.apply_xt]. unfold Model_Runtime.dispatch. rewrite signed_passes by exact Hp.
    cbn. unfold proxies. cbn. rewrite lookup_delete. split; [done|].
    intros a Ha. by rewrite lookup_delete_ne by congruence.
  Qed.

  (** The entry found: the first that fits. *)
  Lemma find_first (P : N * ptype * N -> bool) l y : in_order l -> In y l -> P y = true ->
    exists x, List.find P l = Some x /\ In x l /\ P x = true /\ (x = y \/ bef x y).
  Proof.
    induction 1 as [|z l Hs IH Hz]; intros Hin Hy; [destruct Hin|]. cbn.
    destruct (P z) eqn:Ez.
    - exists z. repeat split; [by left|exact Ez|]. destruct Hin as [->|Hin]; [by left|right].
      by apply (proj1 (List.Forall_forall _ _) Hz).
    - destruct Hin as [->|Hin]; [congruence|]. destruct (IH Hin Hy) as (x & H1 & H2 & H3 & H4).
      exists x. repeat split; try assumption. by right.
  Qed.
  Lemma find_named s real who t e : shaped s -> In (who, t, e) (proxies s real) ->
    exists e', find_proxy s real who (Some t) = Some (t, e') /\ e' <= e.
  Proof.
    intros Hs Hin. destruct (Hs real) as (_ & Ho & _).
    destruct (find_first (fun x => (x.1.1 =? who) && bool_decide (x.1.2 = t)) _ _ Ho Hin) as (x & H1 & H2 & H3 & H4).
    { cbn. rewrite N.eqb_refl. by apply bool_decide_eq_true. }
    destruct x as [[d' t'] e']. apply andb_prop in H3 as [H3 H5]. cbn in H3, H5.
    apply bool_decide_eq_true in H5. subst t'. apply N.eqb_eq in H3. subst d'.
    exists e'. unfold find_proxy. change (default [] (r_proxies s !! real)) with (proxies s real). rewrite H1.
    split; [reflexivity|]. destruct H4 as [[= ->]|H4]; [lia|]. apply bef_spec in H4. lia.
  Qed.
  Lemma find_any s real who t e : shaped s -> In (who, t, e) (proxies s real) ->
    exists t' e', find_proxy s real who None = Some (t', e') /\ In (who, t', e') (proxies s real) /\
      forall t2 e2, In (who, t2, e2) (proxies s real) -> rank t' < rank t2 \/ (t' = t2 /\ e' <= e2).
  Proof.
    intros Hs Hin. destruct (Hs real) as (_ & Ho & _).
    set (P := fun x : N * ptype * N => (x.1.1 =? who) && true).
    assert (G : exists x, List.find P (proxies s real) = Some x /\ In x (proxies s real) /\ P x = true).
    { destruct (find_first P _ _ Ho Hin) as (x & H1 & H2 & H3 & _); [unfold P; cbn; by rewrite N.eqb_refl|eauto]. }
    destruct G as ([[d' t'] e'] & H1 & H2 & H3). unfold P in H3. cbn in H3. rewrite andb_true_r in H3.
    apply N.eqb_eq in H3. subst d'. exists t', e'.
    unfold find_proxy. change (default [] (r_proxies s !! real)) with (proxies s real).
    change (List.find _ (proxies s real)) with (List.find P (proxies s real)). rewrite H1. split; [reflexivity|].
    split; [exact H2|]. intros t2 e2 Hin2.
    destruct (find_first P _ _ Ho Hin2) as (x & G1 & _ & _ & G4); [unfold P; cbn; by rewrite N.eqb_refl|].
    rewrite H1 in G1. injection G1 as <-. destruct G4 as [[= -> ->]|G4]; [right; split; [done|lia]|].
    apply bef_spec in G4 as [?|[_ [?|[-> ?]]]]; [lia|by left|right; split; [done|lia]].
  Qed.

  (** A leaf passed through a proxy of kind [t]. *)
  Lemma via_proxy s p a force t (pl : pallet) f :
    ("Proxy", "proxy") ∉ r_paused s -> (pallet_name pl, f) ∉ r_paused s ->
    find_proxy s a p force = Some (t, 0) ->
    (apply_xt s (XSigned p (ProxyFor a force (Leaf pl f true)))).2 =
      (CSigned p, ("Proxy", "proxy")) ::
      (if kind_filter t (Leaf pl f true) then [(CSigned a, (pallet_name pl, f))] else []).
  Proof.
    intros H1 H2 Hf. cbn [Model_Runtime.apply_xt]. unfold Model_Runtime.dispatch. rewrite signed_passes by exact H1.
    cbn [Model_Runtime.body signer new_origin o_caller]. rewrite Hf. cbn [N.eqb]. cbv zeta.
    assert (E : passes s (ROrigin (CSigned a) [t] false) (Leaf pl f true) = kind_filter t (Leaf pl f true)).
    { unfold passes. cbn [o_caller o_kinds o_nested forallb]. unfold is_paused.
      change (call_name (Leaf pl f true)) with (pallet_name pl, f). rewrite (bool_decide_eq_false_2 _ H2).
      change (proxy_filter t (Leaf pl f true)) with (kind_filter t (Leaf pl f true)).
      destruct (whitelisted _), (kind_filter t _); reflexivity. }
    rewrite E. destruct (kind_filter t _); reflexivity.
  Qed.
End proxy.
