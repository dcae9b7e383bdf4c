(** Properties of the runtime's call filters. *)
From Verif Require Import Base Model_Runtime Spec_Runtime Proofs_Runtime Proofs_Runtime2 Proofs_Runtime3.
From stdpp Require Import gmap strings.
Local Open Scope string_scope.
Open Scope N_scope.

(** Concrete surroundings: derived, pure and multisig accounts are large numbers, each apart. *)
Definition xderive (w i : N) : N := 1000000 + w * 1000 + i.
Definition xpure (w : N) (t : ptype) (i e : N) : N := 2000000 + w * 1000 + i * 10 + rank t.
Definition xmulti (l : list N) : N := 3000000 + lsum l.
Definition xrun := run xderive xpure xmulti.
Definition x0 : rstate := RState ∅ ∅ (Some 9) ∅ ∅ ∅ 0.
Definition transfer : rcall := Leaf PBalances "transfer_allow_death" true.
Definition bond : rcall := Leaf PStaking "bond" true.
Definition mint : rcall := Leaf PAssets "mint" true.

(** C121. A kind's filter lets through exactly the calls the kind is for, and the declared order
    of the kinds is the order of what they let through. *)
Theorem C121_kinds : forall t c, kind_filter t c = true <-> permits t (call_name c).
Proof. exact kind_filter_iff. Qed.
Theorem C121_order : forall x y, is_superset x y = true <-> narrower y x.
Proof. exact superset_iff. Qed.
Example C121_example :
  kind_filter KNonTransfer transfer = false /\ kind_filter KNonTransfer bond = true /\
  kind_filter KStaking bond = true /\ kind_filter KStaking mint = false /\
  kind_filter KGovernance (Leaf PTreasury "propose_spend" true) = true /\
  kind_filter KNonTransfer (Leaf PVesting "vested_transfer" true) = false /\
  kind_filter KNonTransfer (Leaf PVesting "vest" true) = true /\
  is_superset KNonTransfer KStaking = true /\ is_superset KStaking KNonTransfer = false /\
  is_superset KGovernance KAny = false.
Proof. vm_compute. tauto. Qed.
Print Assumptions C121_kinds.
Print Assumptions C121_order.

(** C122. An account that signs nothing itself and whose proxies are all of kinds within [t]
    executes only calls that [t] is for, whatever is submitted and however it is nested. *)
Definition C122_claim : Prop :=
  forall derive pure_of multi a t,
    (forall w i, derive w i <> a) -> (forall l, multi l <> a) ->
    (forall w x i e, pure_of w x i e = a -> narrower x t) ->
    forall s l s' tr, capped s a t -> unclaimed s a -> (forall x, In x l -> not_by a x) ->
      run derive pure_of multi s l = (s', tr) -> unforced tr ->
      forall n, did tr a n -> permits t n.

(** It fails for the kind NonTransfer: its filter lets the proxy appoint friends who recover the
    account; the rescuer then acts for the account without any filter. Account 1 has a single
    proxy, 2, of kind NonTransfer. *)
Definition xheld : rstate := RState {[1 := [(2, KNonTransfer, 0)]]} ∅ None ∅ ∅ ∅ 0.
Definition xtheft : list xt :=
  [XSigned 2 (ProxyFor 1 None (CreateRecovery [3] 1 0)); XSigned 4 (InitiateRecovery 1);
   XSigned 3 (VouchRecovery 1 4); XSigned 4 (ClaimRecovery 1); XSigned 4 (AsRecovered 1 transfer)].
Lemma capped_one s a d x e t : r_proxies s !! a = Some [(d, x, e)] -> narrower x t -> capped s a t.
Proof.
  intros E Hn l El d' x' e' Hin. rewrite E in El. injection El as <-.
  destruct Hin as [X|[]]. by injection X as <- <- <-.
Qed.
Lemma xhashes w i l x e : xderive w i <> 1 /\ xmulti l <> 1 /\ xpure w x i e <> 1.
Proof. unfold xderive, xmulti, xpure. repeat split; lia. Qed.
Lemma unforced_all tr :
  List.Forall (fun e : entry => e.2.1 <> "Sudo" /\ e.2 <> ("Recovery", "set_recovered")) tr -> unforced tr.
Proof. intros H e He. exact (proj1 (List.Forall_forall _ _) H e He). Qed.
Theorem C122_refuted : ~ C122_claim.
Proof.
  intros H.
  assert (D : did (xrun xheld xtheft).2 1 ("Balances", "transfer_allow_death")).
  { vm_compute. tauto. }
  assert (P : permits KNonTransfer ("Balances", "transfer_allow_death")).
  { eapply (H xderive xpure xmulti 1 KNonTransfer) with (s := xheld) (l := xtheft); [| | | | | | | |exact D].
    - intros w i. apply (xhashes w i [] KAny 0).
    - intros l. apply (xhashes 0 0 l KAny 0).
    - intros w x i e E. by destruct (xhashes w i [] x e) as (_ & _ & X).
    - eapply (capped_one xheld 1 2 KNonTransfer 0); [reflexivity|by intros n].
    - split; [reflexivity|]. intros w. discriminate.
    - apply (List.Forall_forall (fun x => not_by 1 x)). repeat constructor; intros c; discriminate.
    - apply surjective_pairing.
    - apply unforced_all.
      vm_compute. repeat constructor; discriminate. }
  by destruct P.
Qed.
Print Assumptions C122_refuted.

(** It holds as long as the account sets up no recovery (missing: NonTransfer proxies can make it
    do so). The cap on its proxies is kept as well. *)
Theorem C122_partial :
  forall derive pure_of multi a t,
    (forall w i, derive w i <> a) -> (forall l, multi l <> a) ->
    (forall w x i e, pure_of w x i e = a -> narrower x t) ->
    forall s l s' tr, capped s a t -> unclaimed s a -> (forall x, In x l -> not_by a x) ->
      run derive pure_of multi s l = (s', tr) -> unforced tr ->
      ~ did tr a ("Recovery", "create_recovery") ->
      (forall n, did tr a n -> permits t n) /\ capped s' a t /\ unclaimed s' a.
Proof.
  intros derive pure_of multi a t Hd Hm Hp s l s' tr Hc Hu Hn He Hf Hcr.
  destruct (run_confine derive pure_of multi a t Hd Hm Hp l s s' tr (conj Hc Hu) Hn He) as [[H1 H2] H3]; [by split|].
  auto.
Qed.
(** For every kind that is not for setting up a recovery (Governance, Staking) it holds as
    claimed. *)
Theorem C122_narrow :
  forall derive pure_of multi a t, ~ permits t ("Recovery", "create_recovery") ->
    (forall w i, derive w i <> a) -> (forall l, multi l <> a) ->
    (forall w x i e, pure_of w x i e = a -> narrower x t) ->
    forall s l s' tr, capped s a t -> unclaimed s a -> (forall x, In x l -> not_by a x) ->
      run derive pure_of multi s l = (s', tr) -> unforced tr ->
      (forall n, did tr a n -> permits t n) /\ capped s' a t /\ unclaimed s' a.
Proof.
  intros derive pure_of multi a t Hnp Hd Hm Hp s l s' tr Hc Hu Hn He Hf.
  destruct (run_confine derive pure_of multi a t Hd Hm Hp l s s' tr (conj Hc Hu) Hn He) as [[H1 H2] H3];
    [by split|]. auto.
Qed.
Example C122_example :
  let s := RState {[1 := [(2, KStaking, 0)]]} ∅ None ∅ ∅ ∅ 0 in
  let r := xrun s
    [XSigned 2 (ProxyFor 1 None bond); XSigned 2 (ProxyFor 1 None transfer);
     XSigned 2 (ProxyFor 1 None (Batch BForce [bond; transfer]));
     XSigned 2 (ProxyFor 1 None (AddProxy 3 KAny 0)); XSigned 3 (ProxyFor 1 None transfer)] in
  ~ permits KStaking ("Recovery", "create_recovery") /\
  r.2 = [(CSigned 2, ("Proxy", "proxy")); (CSigned 1, ("Staking", "bond"));
         (CSigned 2, ("Proxy", "proxy")); (CSigned 2, ("Proxy", "proxy"));
         (CSigned 2, ("Proxy", "proxy"))] /\
  (** a NonTransfer proxy may batch, and may appoint a Staking proxy, which stays one *)
  (xrun xheld [XSigned 2 (ProxyFor 1 None (Batch BForce [bond; transfer; AddProxy 3 KStaking 0; AddProxy 3 KAny 0]));
              XSigned 3 (ProxyFor 1 None bond); XSigned 3 (ProxyFor 1 None mint)]).2 =
    [(CSigned 2, ("Proxy", "proxy")); (CSigned 1, ("Utility", "force_batch")); (CSigned 1, ("Staking", "bond"));
     (CSigned 1, ("Proxy", "add_proxy")); (CSigned 3, ("Proxy", "proxy")); (CSigned 1, ("Staking", "bond"));
     (CSigned 3, ("Proxy", "proxy"))].
Proof. split; [cbn; discriminate|]. vm_compute. auto. Qed.
Print Assumptions C122_partial.
Print Assumptions C122_narrow.

(** C123. What a proxy of kind [t] makes its principal do, [t] is for. *)
Definition C123_claim : Prop :=
  forall derive pure_of multi s p a t c s' tr,
    apply_xt derive pure_of multi s (XSigned p (ProxyFor a (Some t) c)) = (s', tr) -> p <> a ->
    unforced tr -> unclaimed s a ->
    forall n, did tr a n -> permits t n.
(** It fails when the principal is itself a proxy: 1 and 5 are proxies of each other without
    limits, 2 is a NonTransfer proxy of 1, and sends 1's transfer around through 5. *)
Definition xcycle : rstate :=
  RState {[1 := [(2, KNonTransfer, 0); (5, KAny, 0)]; 5 := [(1, KAny, 0)]]} ∅ None ∅ ∅ ∅ 0.
Theorem C123_refuted : ~ C123_claim.
Proof.
  intros H.
  set (c := ProxyFor 5 None (ProxyFor 1 None transfer)).
  assert (D : did (apply_xt xderive xpure xmulti xcycle (XSigned 2 (ProxyFor 1 (Some KNonTransfer) c))).2 1 ("Balances", "transfer_allow_death")).
  { vm_compute. tauto. }
  assert (P : permits KNonTransfer ("Balances", "transfer_allow_death")).
  { eapply (H xderive xpure xmulti xcycle 2 1 KNonTransfer c); [apply surjective_pairing|discriminate| | |exact D].
    - apply unforced_all.
      vm_compute. repeat constructor; discriminate.
    - split; [reflexivity|]. intros w. discriminate. }
  by destruct P.
Qed.
Print Assumptions C123_refuted.
(** It holds of calls that do not pass through a further account's proxies, multisigs or
    recoveries: leaves, batches, derived accounts and the management of proxies, nested at will
    (missing: the detours). Then even everything executed on the way is of the kind. *)
Theorem C123_partial :
  forall derive pure_of multi s p a t c s' tr,
    apply_xt derive pure_of multi s (XSigned p (ProxyFor a (Some t) c)) = (s', tr) -> direct c ->
    tr = [] \/ exists tr', tr = (CSigned p, ("Proxy", "proxy")) :: tr' /\ forall e, In e tr' -> permits t e.2.
Proof.
  intros derive pure_of multi s p a t c s' tr He Hdir. cbn [apply_xt] in He. unfold dispatch in He.
  destruct (passes s _ (ProxyFor a (Some t) c)); [|cbn in He; injection He as <- <-; by left].
  cbn [body signer new_origin o_caller] in He.
  destruct (find_proxy s a p (Some t)) as [[x d]|] eqn:Ef; [|cbn in He; injection He as <- <-; by left].
  assert (Ex : x = t).
  { unfold find_proxy in Ef. destruct (List.find _ _) as [[[w' t'] d']|] eqn:E; [|discriminate].
    injection Ef as -> ->. apply List.find_some in E as [_ E]. apply andb_prop in E as [_ E].
    by apply bool_decide_eq_true in E. }
  subst x. destruct (d =? 0); [|cbn in He; injection He as <- <-; by left].
  right. destruct (passes s (ROrigin (CSigned a) [t] false) c) eqn:Ep.
  - destruct (body derive pure_of multi s (ROrigin (CSigned a) [t] false) c) as [[s1 t1]|] eqn:Eb;
      cbn in He; injection He as <- <-.
    + eexists. split; [reflexivity|]. intros e Hin.
      eapply (direct_confined derive pure_of multi t c s (ROrigin (CSigned a) [t] false));
        [exact Hdir|discriminate|by left|exact Ep|exact Eb|exact Hin].
    + eexists. split; [reflexivity|]. by intros e [].
  - cbn in He. injection He as <- <-. eexists. split; [reflexivity|]. by intros e [].
Qed.
Example C123_example :
  let c := Batch BForce [AsDerivative 7 bond; Batch BAll [mint; AddProxy 8 KGovernance 0]; transfer] in
  direct c /\
  (apply_xt xderive xpure xmulti xcycle (XSigned 2 (ProxyFor 1 (Some KNonTransfer) c))).2 =
    [(CSigned 2, ("Proxy", "proxy")); (CSigned 1, ("Utility", "force_batch"));
     (CSigned 1, ("Utility", "as_derivative")); (CSigned 1001007, ("Staking", "bond"));
     (CSigned 1, ("Utility", "batch_all")); (CSigned 1, ("Assets", "mint")); (CSigned 1, ("Proxy", "add_proxy"))].
Proof. split; [cbn; tauto|]. vm_compute. reflexivity. Qed.
Print Assumptions C123_partial.

(** C124. A paused call is executed by nobody, at no depth, and nobody changes what is paused,
    unless Root acts or the sudo key is used; the calls of Sudo and System never count as
    paused. *)
Theorem C124_paused :
  forall derive pure_of multi s l s' tr,
    run derive pure_of multi s l = (s', tr) -> (forall x, In x l -> not_root x) ->
    (forall e, In e tr -> e.2.1 <> "Sudo") ->
    r_paused s' = r_paused s /\
    forall who n, In (who, n) tr -> n ∈ r_paused s -> n.1 = "System".
Proof.
  intros derive pure_of multi s l s' tr He Hn Hs.
  destruct (run_obeys derive pure_of multi (r_paused s) l s s' tr eq_refl Hn He Hs) as [H1 H2].
  split; [exact H1|]. intros who n Hin Hp. destruct (H2 (who, n) Hin Hp) as [X|X]; [|exact X].
  by destruct (Hs _ Hin).
Qed.
(** No pause ever touches Sudo, System or TxPause itself, so the holder of the sudo key can lift
    any pause: the extrinsic succeeds and does just that. *)
Theorem C124_protected :
  forall derive pure_of multi s l, (forall n, n ∈ r_paused s -> ~ protected n) ->
    let s' := (run derive pure_of multi s l).1 in
    (forall n, n ∈ r_paused s' -> ~ protected n) /\
    forall k n, r_key s' = Some k -> n ∈ r_paused s' ->
      r_paused (apply_xt derive pure_of multi s' (XSigned k (SudoCall (Unpause n)))).1 = r_paused s' ∖ {[n]}.
Proof.
  intros derive pure_of multi s l Hs s'.
  assert (G : sound s') by (eapply (sound_run derive pure_of multi l s); [exact Hs|apply surjective_pairing]).
  split; [exact G|]. intros k n Hk Hn. by rewrite (sudo_unpause derive pure_of multi s' k n G Hk Hn).
Qed.
Definition xpaused : rstate :=
  (xrun x0 [XSigned 9 (SudoCall (Pause ("Staking", "bond"))); XSigned 9 (SudoCall (Pause ("System", "remark")));
            XSigned 9 (SudoCall (Pause ("TxPause", "unpause"))); XSigned 2 (Pause ("Assets", "mint"))]).1.
Example C124_example :
  bool_decide (("Staking", "bond") ∈ r_paused xpaused) = true /\ size (r_paused xpaused) = 1%nat /\
  (xrun xpaused [XSigned 1 bond; XSigned 1 mint; XSigned 1 (Batch BForce [mint; bond; Batch BStop [bond; mint]]);
                 XSigned 1 (AddProxy 2 KAny 0); XSigned 2 (ProxyFor 1 None bond); XSigned 1 (AsDerivative 0 bond);
                 XSigned 1 (Unpause ("Staking", "bond"))]).2 =
    [(CSigned 1, ("Assets", "mint")); (CSigned 1, ("Utility", "force_batch")); (CSigned 1, ("Assets", "mint"));
     (CSigned 1, ("Utility", "batch")); (CSigned 1, ("Proxy", "add_proxy")); (CSigned 2, ("Proxy", "proxy"))] /\
  (** with the sudo key it can still be executed *)
  (xrun xpaused [XSigned 9 (SudoAs 1 bond)]).2 = [(CSigned 9, ("Sudo", "sudo_as")); (CSigned 1, ("Staking", "bond"))].
Proof. vm_compute. auto. Qed.
Print Assumptions C124_paused.
Print Assumptions C124_protected.

(** C125. Whatever is paused, the holder of the sudo key can lift it in a further block. *)
Definition C125_claim : Prop :=
  forall derive pure_of multi s sched l s' tr k n,
    (forall n, n ∈ r_paused s -> ~ protected n) ->
    make_block derive pure_of multi s sched l = Some (s', tr) -> r_key s' = Some k -> n ∈ r_paused s' ->
    exists l2 s2 tr2, make_block derive pure_of multi s' [] l2 = Some (s2, tr2) /\ n ∉ r_paused s2.
(** It fails: the timestamp inherent can be paused, and then no further block exists at all. *)
Definition xstop : list xt := [XSigned 9 (SudoCall (Pause ("Timestamp", "set")))].
Theorem C125_refuted : ~ C125_claim.
Proof.
  intros H.
  assert (E : exists s' tr, make_block xderive xpure xmulti x0 [] xstop = Some (s', tr) /\ r_key s' = Some 9 /\
    ("Timestamp", "set") ∈ r_paused s').
  { eexists _, _. split; [reflexivity|]. split; [reflexivity|]. apply (bool_decide_unpack _). vm_compute. exact I. }
  destruct E as (s' & tr & E & Hk & Hp).
  destruct (H xderive xpure xmulti x0 [] xstop s' tr 9 ("Timestamp", "set")) as (l2 & s2 & tr2 & E2 & _).
  - intros n Hn. by apply elem_of_empty in Hn.
  - exact E.
  - exact Hk.
  - exact Hp.
  - by rewrite (dead_block _ _ _ _ _ Hp) in E2.
Qed.
Print Assumptions C125_refuted.
(** It holds while the timestamp inherent is not paused (missing: the filter protects no
    inherent). *)
Theorem C125_partial :
  forall derive pure_of multi s sched l s' tr k n,
    (forall n, n ∈ r_paused s -> ~ protected n) ->
    make_block derive pure_of multi s sched l = Some (s', tr) -> r_key s' = Some k -> n ∈ r_paused s' ->
    ("Timestamp", "set") ∉ r_paused s' ->
    exists l2 s2 tr2, make_block derive pure_of multi s' [] l2 = Some (s2, tr2) /\ r_paused s2 = r_paused s' ∖ {[n]}.
Proof.
  intros derive pure_of multi s sched l s' tr k n Hs He Hk Hn Ht.
  assert (G : sound s').
  { unfold make_block in He. destruct (run _ _ _ (set_now s _) _) as [s0 t0] eqn:E0.
    destruct (dispatch _ _ _ s0 _ _) as [[s1 t1]|] eqn:E1; [|discriminate].
    destruct (run _ _ _ s1 l) as [s2 t2] eqn:E2. injection He as <- <-.
    eapply sound_run; [|exact E2]. unfold dispatch in E1. destruct (passes _ _ _); [|discriminate].
    eapply sound_body; [|exact E1]. eapply sound_run; [|exact E0]. exact Hs. }
  destruct (block_unpause derive pure_of multi s' k n G Hk Hn Ht) as (s2 & tr2 & E & Hp).
  exists [XSigned k (SudoCall (Unpause n))], s2, tr2. auto.
Qed.
Example C125_example :
  match make_block xderive xpure xmulti x0 [] [XSigned 9 (SudoCall (Pause ("Balances", "transfer_allow_death")));
                                          XSigned 1 transfer] with
  | Some (s', tr) => size (r_paused s') = 1%nat /\ tr =
      [(CNone, ("Timestamp", "set")); (CSigned 9, ("Sudo", "sudo")); (CRoot, ("TxPause", "pause"))]
  | None => False
  end /\
  (** a pause of the inherent is lifted only by a call already scheduled *)
  match make_block xderive xpure xmulti x0 [] xstop with
  | Some (s', _) => make_block xderive xpure xmulti s' [] [XSigned 9 (SudoCall (Unpause ("Timestamp", "set")))] = None /\
      match make_block xderive xpure xmulti s' [Unpause ("Timestamp", "set")] [] with
      | Some (s2, _) => size (r_paused s2) = 0%nat | None => False end
  | None => False
  end.
Proof. vm_compute. auto. Qed.
Print Assumptions C125_partial.

(** C126. "Whitelist [Balances::transfer_keep_alive]": the call cannot be paused. *)
Definition C126_claim : Prop :=
  forall derive pure_of multi s l, (forall n, n ∈ r_paused s -> ~ protected n) ->
    is_paused s ("Balances", "transfer_keep_alive") = false ->
    is_paused (run derive pure_of multi s l).1 ("Balances", "transfer_keep_alive") = false.
Theorem C126_refuted : ~ C126_claim.
Proof.
  intros H. specialize (H xderive xpure xmulti x0 [XSigned 9 (SudoCall (Pause ("Balances", "transfer_keep_alive")))]).
  assert (X : (true = false)); [|discriminate X].
  rewrite <- H; [reflexivity| |reflexivity]. intros n Hn. by apply elem_of_empty in Hn.
Qed.
Print Assumptions C126_refuted.
(** What the whitelist does: a call is beyond pausing exactly when it is of Sudo, System or
    TxPause (missing: the call the comment names). *)
Theorem C126_partial :
  forall derive pure_of multi n,
    (forall s l, (forall n, n ∈ r_paused s -> ~ protected n) -> is_paused (run derive pure_of multi s l).1 n = false) <->
    protected n.
Proof.
  intros derive pure_of multi n. split.
  - intros H.
    destruct (decide (n.1 = "Sudo")) as [|H1]; [by left|].
    destruct (decide (n.1 = "System")) as [|H2]; [right; by left|].
    destruct (decide (n.1 = "TxPause")) as [|H3]; [right; by right|]. exfalso.
    specialize (H (RState ∅ ∅ None ∅ ∅ ∅ 0) [XRoot (Pause n)]).
    assert (X : forall n : cname, n ∈ (∅ : gset cname) -> ~ protected n)
      by (intros m Hm; by apply elem_of_empty in Hm).
    specialize (H X). clear X.
    assert (W : whitelisted n = false).
    { destruct (whitelisted n) eqn:E; [|reflexivity]. apply whitelisted_iff in E. tauto. }
    cbn [run apply_xt] in H. unfold dispatch, passes in H. cbn [new_origin o_caller body] in H.
    destruct (String.eqb_spec n.1 "TxPause") as [|_]; [contradiction|].
    unfold is_paused in H. rewrite W in H. cbn [orb] in H.
    assert (X : forall D, @bool_decide (n ∈ (∅ : gset cname)) D = false)
      by (intros D; apply bool_decide_eq_false; apply not_elem_of_empty).
    cbn [r_paused] in H. rewrite X in H. cbn [default run r_paused set_paused fst] in H.
    apply bool_decide_eq_false in H. apply H. set_solver.
  - intros Hp s l Hs.
    assert (G : sound (run derive pure_of multi s l).1)
      by (eapply (sound_run derive pure_of multi l s); [exact Hs|apply surjective_pairing]).
    destruct (is_paused _ n) eqn:E; [|reflexivity]. apply is_paused_in in E. by destruct (G n E).
Qed.
Example C126_example :
  protected ("System", "remark") /\ ~ protected ("Balances", "transfer_keep_alive").
Proof. split; [right; by left|]. intros [X|[X|X]]; discriminate X. Qed.
Print Assumptions C126_partial.
