(** Properties of the proxies of accounts. *)
From Verif Require Import Base Model_Runtime Spec_Runtime Proofs_Runtime Spec_Proxy Proofs_Proxy Props_Runtime.
From stdpp Require Import gmap strings.
Local Open Scope string_scope.
Open Scope N_scope.

(** C184. In every history an account has at most 32 proxies, none twice and not itself (a pure
    account is never its spawner). *)
Theorem C184_list : forall derive pure_of multi s,
  (forall w t i salt, pure_of w t i salt <> w) -> proxy_reachable derive pure_of multi s -> proper s.
Proof. intros derive pure_of multi s Hp Hs. eapply shaped_proper, reachable_shaped; [exact Hp|exact Hs]. Qed.
Print Assumptions C184_list.

(** They change only through a call that the account itself executes, or by its creation as a
    pure account. *)
Theorem C184_changes : forall derive pure_of multi s l s' tr a,
  run derive pure_of multi s l = (s', tr) -> r_proxies s' !! a <> r_proxies s !! a ->
  (exists n, manages n /\ did tr a n) \/
  (exists w t i salt, pure_of w t i salt = a /\ did tr w ("Proxy", "create_pure")).
Proof. intros derive pure_of multi s l s' tr a H. exact (run_owned derive pure_of multi a l s s' tr H). Qed.
Print Assumptions C184_changes.

(** Adding a proxy succeeds exactly when it is another account, not yet there, and there is room;
    it adds that entry and nothing else. *)
Theorem C184_add : forall derive pure_of multi s w d t e, ("Proxy", "add_proxy") ∉ r_paused s ->
  let s' := (apply_xt derive pure_of multi s (XSigned w (AddProxy d t e))).1 in
  let tr := (apply_xt derive pure_of multi s (XSigned w (AddProxy d t e))).2 in
  let allowed := d <> w /\ ~ In (d, t, e) (proxies s w) /\ (length (proxies s w) < 32)%nat in
  (tr = [] /\ s' = s /\ ~ allowed) \/
  (tr = [(CSigned w, ("Proxy", "add_proxy"))] /\ allowed /\
    (forall x, In x (proxies s' w) <-> x = (d, t, e) \/ In x (proxies s w)) /\
    forall a, a <> w -> proxies s' a = proxies s a).
Proof. intros derive pure_of multi s w d t e Hp. exact (add_spec derive pure_of multi s w d t e Hp). Qed.
Print Assumptions C184_add.

(** Removing a proxy succeeds exactly when it is there; it removes that entry and nothing else.
    Removing all leaves none. *)
Theorem C184_remove : forall derive pure_of multi s w d t e, ("Proxy", "remove_proxy") ∉ r_paused s ->
  let s' := (apply_xt derive pure_of multi s (XSigned w (RemoveProxy d t e))).1 in
  let tr := (apply_xt derive pure_of multi s (XSigned w (RemoveProxy d t e))).2 in
  (tr = [] /\ s' = s /\ ~ In (d, t, e) (proxies s w)) \/
  (tr = [(CSigned w, ("Proxy", "remove_proxy"))] /\ In (d, t, e) (proxies s w) /\
    (forall x, In x (proxies s' w) <-> x <> (d, t, e) /\ In x (proxies s w)) /\
    forall a, a <> w -> proxies s' a = proxies s a).
Proof. intros derive pure_of multi s w d t e Hp. exact (remove_spec derive pure_of multi s w d t e Hp). Qed.
Print Assumptions C184_remove.
Theorem C184_clear : forall derive pure_of multi s w, ("Proxy", "remove_proxies") ∉ r_paused s ->
  let s' := (apply_xt derive pure_of multi s (XSigned w RemoveProxies)).1 in
  proxies s' w = [] /\ forall a, a <> w -> proxies s' a = proxies s a.
Proof. intros derive pure_of multi s w Hp. exact (clear_spec derive pure_of multi s w Hp). Qed.
Print Assumptions C184_clear.

(** Account 1 names 2 for two kinds and 3 for one, drops one of them, and may not name itself or
    name 2 twice for the same; its proxy 2 names a further one for it. *)
Definition xnames : list xt :=
  [XSigned 1 (AddProxy 3 KStaking 0); XSigned 1 (AddProxy 2 KNonTransfer 0); XSigned 1 (AddProxy 2 KStaking 7);
   XSigned 1 (AddProxy 1 KAny 0); XSigned 1 (AddProxy 2 KNonTransfer 0); XSigned 3 (AddProxy 1 KAny 0);
   XSigned 2 (ProxyFor 1 None (AddProxy 4 KGovernance 0)); XSigned 1 (RemoveProxy 2 KStaking 7);
   XSigned 5 (CreatePure KAny 0 0 0)].
Example C184_example :
  let s := (xrun x0 xnames).1 in
  (forall w t i salt, xpure w t i salt <> w) /\
  proxies s 1 = [(2, KNonTransfer, 0); (3, KStaking, 0); (4, KGovernance, 0)] /\
  proxies s 3 = [(1, KAny, 0)] /\ proxies s 2 = [] /\ proxies s (xpure 5 KAny 0 0) = [(5, KAny, 0)] /\
  proxies (xrun s [XSigned 1 RemoveProxies]).1 1 = [] /\
  (xrun s [XSigned 1 (AddProxy 1 KAny 0)]).2 = [] /\ (xrun s [XSigned 1 (RemoveProxy 2 KAny 0)]).2 = [].
Proof. split; [intros w t i salt; unfold xpure; lia|]. vm_compute. auto 10. Qed.

(** C185. Who has been named for a kind, with no delay, can make the account execute whatever the
    kind is for, naming a kind or not. *)
Definition C185_claim : Prop :=
  forall derive pure_of multi s p a t force (pl : pallet) f,
    (forall w x i salt, pure_of w x i salt <> w) -> proxy_reachable derive pure_of multi s ->
    ("Proxy", "proxy") ∉ r_paused s -> (pallet_name pl, f) ∉ r_paused s ->
    In (p, t, 0) (proxies s a) -> force = None \/ force = Some t -> permits t (pallet_name pl, f) ->
    did (apply_xt derive pure_of multi s (XSigned p (ProxyFor a force (Leaf pl f true)))).2 a (pallet_name pl, f).
(** It fails when no kind is named: 2 is named by 1 for Governance and for Staking; without a
    name the first of them counts, and what Staking is for is refused. *)
Definition xtwo : list xt := [XSigned 1 (AddProxy 2 KStaking 0); XSigned 1 (AddProxy 2 KGovernance 0)].
Theorem C185_refuted : ~ C185_claim.
Proof.
  intros H. specialize (H xderive xpure xmulti (xrun x0 xtwo).1 2 1 KStaking None PStaking "bond").
  assert (G : did (apply_xt xderive xpure xmulti (xrun x0 xtwo).1 (XSigned 2 (ProxyFor 1 None (Leaf PStaking "bond" true)))).2
    1 ("Staking", "bond")).
  { apply H.
    - intros w t i salt. unfold xpure. lia.
    - exists x0, xtwo. split; reflexivity.
    - vm_compute. discriminate.
    - vm_compute. discriminate.
    - vm_compute. auto.
    - by left.
    - reflexivity. }
  vm_compute in G. destruct G as [G|[]]. discriminate G.
Qed.
Print Assumptions C185_refuted.
(** It also fails for one who is named without limits but with a delay: then the other, immediate
    proxy is of no use without a name. *)
Theorem C185_delay_refuted :
  let s := (xrun x0 [XSigned 1 (AddProxy 2 KStaking 0); XSigned 1 (AddProxy 2 KAny 10)]).1 in
  In (2, KStaking, 0) (proxies s 1) /\ (xrun s [XSigned 2 (ProxyFor 1 None bond)]).2 = [] /\
  (xrun s [XSigned 2 (ProxyFor 1 (Some KStaking) bond)]).2 =
    [(CSigned 2, ("Proxy", "proxy")); (CSigned 1, ("Staking", "bond"))].
Proof. vm_compute. auto. Qed.
Print Assumptions C185_delay_refuted.
(** It holds when the kind is named, and nothing else is executed (missing: a call that names
    none). *)
Theorem C185_partial : forall derive pure_of multi s p a t (pl : pallet) f,
  (forall w x i salt, pure_of w x i salt <> w) -> proxy_reachable derive pure_of multi s ->
  ("Proxy", "proxy") ∉ r_paused s -> (pallet_name pl, f) ∉ r_paused s ->
  In (p, t, 0) (proxies s a) -> permits t (pallet_name pl, f) ->
  (apply_xt derive pure_of multi s (XSigned p (ProxyFor a (Some t) (Leaf pl f true)))).2 =
    [(CSigned p, ("Proxy", "proxy")); (CSigned a, (pallet_name pl, f))].
Proof.
  intros derive pure_of multi s p a t pl f Hpure Hs H1 H2 Hin Hp.
  destruct (find_named s a p t 0) as (e & Hf & He); [by eapply reachable_shaped|exact Hin|].
  assert (e = 0) as -> by lia. rewrite (via_proxy derive pure_of multi s p a (Some t) t pl f H1 H2 Hf).
  by rewrite (proj2 (kind_filter_iff t (Leaf pl f true)) Hp).
Qed.
Print Assumptions C185_partial.
(** Without a name the kind that is declared first counts, and of its entries the one with the
    shortest delay: Any before NonTransfer before Governance before Staking. *)
Definition earlier (x y : ptype) : Prop :=
  match x, y with
  | KAny, KAny => False
  | KAny, _ => True
  | KNonTransfer, KGovernance | KNonTransfer, KStaking => True
  | KGovernance, KStaking => True
  | _, _ => False
  end.
Theorem C185_first : forall derive pure_of multi s p a t (pl : pallet) f,
  (forall w x i salt, pure_of w x i salt <> w) -> proxy_reachable derive pure_of multi s ->
  ("Proxy", "proxy") ∉ r_paused s -> (pallet_name pl, f) ∉ r_paused s ->
  In (p, t, 0) (proxies s a) -> (forall x e, In (p, x, e) (proxies s a) -> x = t \/ earlier t x) ->
  (apply_xt derive pure_of multi s (XSigned p (ProxyFor a None (Leaf pl f true)))).2 =
    (apply_xt derive pure_of multi s (XSigned p (ProxyFor a (Some t) (Leaf pl f true)))).2.
Proof.
  intros derive pure_of multi s p a t pl f Hpure Hs H1 H2 Hin Hfirst.
  assert (Hsh : shaped s) by (by eapply reachable_shaped).
  destruct (find_named s a p t 0 Hsh Hin) as (e & Hf & He). assert (e = 0) as -> by lia.
  destruct (find_any s a p t 0 Hsh Hin) as (t' & e' & Hf' & Hin' & Hmin).
  assert (X : t' = t /\ e' = 0).
  { destruct (Hmin t 0 Hin) as [Hlt|[-> ?]]; [|split; [done|lia]].
    destruct (Hfirst t' e' Hin') as [->|Hlt']; [lia|]. exfalso.
    destruct t, t'; cbn in Hlt, Hlt'; try lia; try contradiction. }
  destruct X as [-> ->].
  by rewrite (via_proxy derive pure_of multi s p a None t pl f H1 H2 Hf'),
             (via_proxy derive pure_of multi s p a (Some t) t pl f H1 H2 Hf).
Qed.
Print Assumptions C185_first.
Example C185_example :
  let s := (xrun x0 xtwo).1 in
  (xrun s [XSigned 2 (ProxyFor 1 (Some KStaking) bond)]).2 =
    [(CSigned 2, ("Proxy", "proxy")); (CSigned 1, ("Staking", "bond"))] /\
  (xrun s [XSigned 2 (ProxyFor 1 None (Leaf PTreasury "propose_spend" true))]).2 =
    [(CSigned 2, ("Proxy", "proxy")); (CSigned 1, ("Treasury", "propose_spend"))] /\
  In (2, KGovernance, 0) (proxies s 1) /\ earlier KGovernance KStaking.
Proof. vm_compute. auto 10. Qed.
