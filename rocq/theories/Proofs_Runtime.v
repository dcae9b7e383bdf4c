(** Proofs about the runtime's call filters. *)
From Verif Require Import Base Model_Runtime Spec_Runtime.
From stdpp Require Import gmap strings.
Local Open Scope string_scope.
Open Scope N_scope.

(** Induction over calls that hold lists of calls. *)
Section ind.
  Context (P : rcall -> Prop).
  Context (HBatch : forall k l, Forall P l -> P (Batch k l)).
  Context (HDer : forall i c, P c -> P (AsDerivative i c)).
  Context (HProxy : forall r f c, P c -> P (ProxyFor r f c)).
  Context (HSudo : forall c, P c -> P (SudoCall c)).
  Context (HSudoAs : forall w c, P c -> P (SudoAs w c)).
  Context (HMulti : forall l c, P c -> P (AsMulti1 l c)).
  Context (HRec : forall l c, P c -> P (AsRecovered l c)).
  Context (HRest : forall c,
    match c with
    | Batch _ _ | AsDerivative _ _ | ProxyFor _ _ _ | SudoCall _ | SudoAs _ _ | AsMulti1 _ _
    | AsRecovered _ _ => False
    | _ => True
    end -> P c).
  Fixpoint rcall_ind' (c : rcall) : P c.
  Proof.
    destruct c; try (apply HRest; exact I).
    - apply HBatch. induction l as [|x l IH]; constructor; [apply rcall_ind' | exact IH].
    - apply HDer, rcall_ind'.
    - apply HProxy, rcall_ind'.
    - apply HSudo, rcall_ind'.
    - apply HSudoAs, rcall_ind'.
    - apply HMulti, rcall_ind'.
    - apply HRec, rcall_ind'.
  Qed.
End ind.

(** The kinds. *)
Lemma kind_filter_iff t c : kind_filter t c = true <-> permits t (call_name c).
Proof.
  destruct t; cbn [kind_filter permits].
  - tauto.
  - unfold call_name. cbn [fst].
    destruct (call_pallet c) eqn:E; cbn; split; intros H; try discriminate H;
      try (repeat split; intros X; congruence); try reflexivity;
      try (exfalso; tauto).
    + destruct (String.eqb_spec (call_fun c) "transfer"); [discriminate|].
      repeat split; intros X; congruence.
    + destruct H as (_ & _ & H). destruct (String.eqb_spec (call_fun c) "transfer"); [congruence|reflexivity].
    + destruct (String.eqb_spec (call_fun c) "vested_transfer"); [discriminate|].
      repeat split; intros X; congruence.
    + destruct H as (_ & H & _). destruct (String.eqb_spec (call_fun c) "vested_transfer"); [congruence|reflexivity].
  - unfold call_name. cbn [fst].
    destruct (call_pallet c); cbn; split; intros H; try discriminate H; try reflexivity;
      try tauto; repeat destruct H as [H|H]; try discriminate H; try contradiction.
  - unfold call_name. cbn [fst].
    destruct (call_pallet c); cbn; split; intros H; try discriminate H; reflexivity.
Qed.

Lemma superset_iff x y : is_superset x y = true <-> narrower y x.
Proof.
  unfold is_superset, narrower.
  destruct x, y; cbn; split; intros H; try discriminate H; try reflexivity; try (intros n Hn; cbn in *; tauto).
  - exfalso. specialize (H ("Balances", "transfer") I). cbn in H. tauto.
  - intros n Hn. cbn in Hn. cbn.
    split; [intros E; rewrite E in Hn; repeat destruct Hn as [Hn|Hn]; try discriminate Hn; exact Hn|].
    split; intros ->; cbn in Hn; repeat destruct Hn as [Hn|Hn]; try discriminate Hn; exact Hn.
  - intros n Hn. cbn in Hn. cbn.
    split; [intros E; congruence|].
    split; intros ->; cbn in Hn; discriminate Hn.
  - exfalso. specialize (H ("Balances", "transfer") I). cbn in H.
    repeat destruct H as [H|H]; try discriminate H; exact H.
  - exfalso. assert (X : permits KNonTransfer ("Staking", "bond")) by (cbn; repeat split; discriminate).
    specialize (H _ X). cbn in H. repeat destruct H as [H|H]; try discriminate H; exact H.
  - exfalso. specialize (H ("Staking", "bond") eq_refl). cbn in H.
    repeat destruct H as [H|H]; try discriminate H; exact H.
  - exfalso. specialize (H ("Balances", "transfer") I). cbn in H. discriminate H.
  - exfalso. assert (X : permits KNonTransfer ("Assets", "mint")) by (cbn; repeat split; discriminate).
    specialize (H _ X). cbn in H. discriminate H.
  - exfalso. assert (X : permits KGovernance ("Council", "vote")) by (cbn; tauto).
    specialize (H _ X). cbn in H. discriminate H.
Qed.

Lemma proxy_filter_permits t c : proxy_filter t c = true -> permits t (call_name c).
Proof.
  intros H. apply kind_filter_iff. unfold proxy_filter in H.
  destruct c; try exact H; try (destruct (is_superset _ _); [exact H|discriminate]);
    destruct (bool_decide _); try exact H; discriminate.
Qed.
Lemma proxy_filter_add t d t' e : proxy_filter t (AddProxy d t' e) = true -> narrower t' t.
Proof. cbn [proxy_filter]. destruct (is_superset t t') eqn:E; [intros _; by apply superset_iff|discriminate]. Qed.

Lemma passes_spec s o c : passes s o c = true -> o_caller o <> CRoot ->
  is_paused s (call_name c) = false /\ forall t, In t (o_kinds o) -> proxy_filter t c = true.
Proof.
  unfold passes. intros H Hr.
  assert (G : negb (is_paused s (call_name c)) && forallb (fun t => proxy_filter t c) (o_kinds o) &&
    negb (o_nested o && match c with Batch BAll _ => true | _ => false end) = true)
    by (destruct (o_caller o); [congruence|exact H..]).
  apply andb_prop in G as [G _]. apply andb_prop in G as [G1 G2].
  split; [by apply negb_true_iff|]. intros t Ht. by apply (proj1 (forallb_forall _ _) G2).
Qed.

Lemma in_pins x y l : In x (pins y l) <-> x = y \/ In x l.
Proof.
  induction l as [|z l IH]; cbn; [intuition congruence|].
  destruct (before y z); cbn; [intuition congruence|]. rewrite IH. tauto.
Qed.
Lemma find_proxy_in s real w f t d : find_proxy s real w f = Some (t, d) ->
  exists l, r_proxies s !! real = Some l /\ In (w, t, d) l.
Proof.
  unfold find_proxy. destruct (List.find _ _) as [[[w' t'] d']|] eqn:E; [|discriminate].
  intros [= <- <-]. apply List.find_some in E as [Hin Hb].
  apply andb_prop in Hb as [Hb _]. apply N.eqb_eq in Hb. cbn in Hb. subst w'.
  destruct (r_proxies s !! real) as [l|] eqn:El; cbn in Hin; [|contradiction].
  eauto.
Qed.

Section proofs.
  Context (derive : N -> N -> N) (pure_of : N -> ptype -> N -> N -> N) (multi : list N -> N).
  Local Notation body := (body derive pure_of multi).
  Local Notation dispatch := (dispatch derive pure_of multi).
  Local Notation apply_xt := (apply_xt derive pure_of multi).
  Local Notation run := (run derive pure_of multi).
  Local Notation make_block := (make_block derive pure_of multi).

  (** The loop of a batch, as a function of its own. *)
  Fixpoint loop (o' : rorigin) (root : bool) (k : bkind) (s : rstate) (l : list rcall) : option (rstate * list entry) :=
    match l with
    | [] => Some (s, [])
    | x :: r =>
        match (if (if root then true else passes s o' x) then body s o' x else None) with
        | Some (s1, t1) =>
            match loop o' root k s1 r with
            | Some (s2, t2) => Some (s2, (t1 ++ t2)%list)
            | None => None
            end
        | None =>
            match k with
            | BStop => Some (s, [])
            | BAll => None
            | BForce => loop o' root k s r
            end
        end
    end.
  Definition batch_origin (k : bkind) (o : rorigin) : rorigin :=
    match k, o_caller o with
    | BAll, CRoot => o
    | BAll, who => ROrigin who (o_kinds o) true
    | _, _ => o
    end.
  Lemma body_batch s o k l : body s o (Batch k l) =
    match o_caller o with
    | CNone => None
    | who =>
        match loop (batch_origin k o) (bool_decide (who = CRoot)) k s l with
        | Some (s', t) => Some (s', (o_caller o, call_name (Batch k l)) :: t)
        | None => None
        end
    end.
  Proof.
    assert (E : forall who o' s,
      (fix go (s : rstate) (l : list rcall) : option (rstate * list entry) :=
              match l with
              | [] => Some (s, [])
              | x :: r =>
                  match (if match who with CRoot => true | _ => passes s o' x end
                         then body s o' x else None) with
                  | Some (s1, t1) =>
                      match go s1 r with
                      | Some (s2, t2) => Some (s2, (t1 ++ t2)%list)
                      | None => None
                      end
                  | None =>
                      match k with
                      | BStop => Some (s, [])
                      | BAll => None
                      | BForce => go s r
                      end
                  end
              end) s l = loop o' (bool_decide (who = CRoot)) k s l).
    { intros who o'. induction l as [|x l IH]; intros s'; [reflexivity|].
      cbn [loop].
      replace (if bool_decide (who = CRoot) then true else passes s' o' x)
        with (match who with CRoot => true | _ => passes s' o' x end) by (destruct who; reflexivity).
      destruct (if match who with CRoot => true | _ => passes s' o' x end then body s' o' x else None)
        as [[s1 t1]|].
      - rewrite IH. reflexivity.
      - destruct k; [reflexivity..|]. apply IH. }
    cbn [Model_Runtime.body]. destruct (o_caller o) eqn:Eo; try reflexivity; unfold batch_origin; rewrite Eo;
      rewrite <- E; destruct k; reflexivity.
  Qed.
  Lemma batch_caller k o : o_caller (batch_origin k o) = o_caller o.
  Proof. unfold batch_origin. destruct k, (o_caller o) eqn:E; cbn; auto. Qed.
  Lemma batch_kinds k o : o_kinds (batch_origin k o) = o_kinds o.
  Proof. unfold batch_origin. destruct k, (o_caller o) eqn:E; cbn; auto. Qed.
  Lemma root_passes s o c : o_caller o = CRoot -> passes s o c = true.
  Proof. unfold passes. by intros ->. Qed.

  (** A generic induction: [I] is kept and [Q] holds of what is executed. *)
  Section loops.
    Context (I : rstate -> Prop) (Q : list entry -> Prop) (ok : list entry -> Prop).
    Context (Qnil : Q []) (Qapp : forall a b, Q a -> Q b -> Q (a ++ b)%list).
    Context (okl : forall a b, ok (a ++ b)%list -> ok a /\ ok b).
    Lemma loop_keeps o' root k l :
      (root = true -> o_caller o' = CRoot) ->
      Forall (fun c => forall s s' tr, I s -> passes s o' c = true -> body s o' c = Some (s', tr) -> ok tr ->
        I s' /\ Q tr) l ->
      forall s s' tr, I s -> loop o' root k s l = Some (s', tr) -> ok tr -> I s' /\ Q tr.
    Proof.
      intros Hroot. induction 1 as [|x l Hx _ IH]; intros s s' tr Hi He Hok; cbn [loop] in He.
      { by injection He as <- <-. }
      destruct (if (if root then true else passes s o' x) then body s o' x else None) as [[s1 t1]|] eqn:E.
      - destruct (loop o' root k s1 l) as [[s2 t2]|] eqn:E2; [|discriminate]. injection He as <- <-.
        apply okl in Hok as [H1 H2].
        assert (Hp : passes s o' x = true)
          by (destruct root; [by apply root_passes, Hroot|]; destruct (passes s o' x); [done|discriminate]).
        assert (Hb : body s o' x = Some (s1, t1))
          by (destruct root; [exact E|]; rewrite Hp in E; exact E).
        destruct (Hx s s1 t1 Hi Hp Hb H1) as [Hi1 Hq1].
        destruct (IH s1 s2 t2 Hi1 E2 H2) as [Hi2 Hq2]. auto.
      - destruct k; [by injection He as <- <-|discriminate|]. by apply (IH s).
    Qed.
  End loops.
End proofs.
