(** Proofs about server lists: binary search on sorted lists and the registry
    invariant. *)
From Verif Require Import Base Balances Proofs_Balances Model_Regions Model_DeeperNode Spec_DeeperNode.
From stdpp Require Import gmap strings.
From Coq Require Import Lia.
Open Scope N_scope.

(** Binary search. *)
Lemma nth_look (l : list N) (i : nat) : (i < length l)%nat -> l !! i = Some (nth i l 0).
Proof. intros H. apply nth_lookup_Some with (d := 0) in H || (rewrite nth_lookup; destruct (l !! i) eqn:E; [reflexivity|apply lookup_ge_None in E; lia]). Qed.

Definition search_post (l : list N) (x : N) (r : nat + nat) : Prop :=
  match r with
  | inl i => l !! i = Some x
  | inr i => (i <= length l)%nat /\
      (forall j v, (j < i)%nat -> l !! j = Some v -> v < x) /\
      (forall j v, (i <= j)%nat -> l !! j = Some v -> x < v)
  end.

Lemma bsearch_loop_post l x : increasing l -> forall fuel left right,
  (right - left < fuel)%nat -> (left <= right)%nat -> (right <= length l)%nat ->
  (forall j v, (j < left)%nat -> l !! j = Some v -> v < x) ->
  (forall j v, (right <= j)%nat -> l !! j = Some v -> x < v) ->
  search_post l x (bsearch_loop fuel l x left right).
Proof.
  intros Hs. induction fuel as [|f IH]; intros left right Hf Hlr Hr Hlo Hhi; [lia|].
  cbn [bsearch_loop]. destruct (Nat.leb_spec right left) as [Hle|Hlt].
  { assert (right = left) by lia. subst. cbn. auto. }
  cbv zeta.
  assert (Hd : (0 <= (right - left) / 2 < right - left)%nat).
  { split; [lia|]. apply Nat.div_lt; lia. }
  set (mid := (left + (right - left) / 2)%nat) in *.
  assert (Hm : (left <= mid < right)%nat) by lia.
  assert (El : l !! mid = Some (nth mid l 0)) by (apply nth_look; lia).
  destruct (N.eqb_spec (nth mid l 0) x) as [E|E].
  { cbn. now rewrite El, E. }
  destruct (N.ltb_spec (nth mid l 0) x) as [Hv|Hv].
  - apply IH; try lia; [|assumption].
    intros j v Hj Ej. destruct (decide (j = mid)) as [->|Hne].
    + rewrite El in Ej. injection Ej as <-. exact Hv.
    + assert (v < nth mid l 0) by (eapply (Hs j mid); eauto; lia). lia.
  - apply IH; try lia; [assumption|].
    intros j v Hj Ej. destruct (decide (j = mid)) as [->|Hne].
    + rewrite El in Ej. injection Ej as <-. lia.
    + assert (nth mid l 0 < v) by (eapply (Hs mid j); eauto; lia). lia.
Qed.

Lemma bsearch_post l x : increasing l -> search_post l x (bsearch l x).
Proof.
  intros Hs. apply bsearch_loop_post; auto; try lia.
  intros j v Hj Ej. apply lookup_lt_Some in Ej. lia.
Qed.

Lemma bsearch_in l x : increasing l ->
  (exists i, bsearch l x = inl i) <-> x ∈ l.
Proof.
  intros Hs. pose proof (bsearch_post l x Hs) as P. split.
  - intros [i E]. rewrite E in P. cbn in P. now apply elem_of_list_lookup_2 in P.
  - intros Hin. destruct (bsearch l x) as [i|i]; [eauto|]. exfalso. destruct P as (_ & Hlo & Hhi).
    apply elem_of_list_lookup in Hin as [j Ej]. destruct (Nat.lt_ge_cases j i) as [H|H].
    + specialize (Hlo _ _ H Ej). lia.
    + specialize (Hhi _ _ H Ej). lia.
Qed.

Lemma increasing_nil : increasing [].
Proof. intros i j x y _ E. rewrite lookup_nil in E. discriminate. Qed.

Lemma increasing_cons x l :
  increasing (x :: l) <-> increasing l /\ forall y, y ∈ l -> x < y.
Proof.
  split.
  - intros H. split.
    + intros i j a b Hij Ei Ej. apply (H (S i) (S j)); auto. lia.
    + intros y Hy. apply elem_of_list_lookup in Hy as [j Ej]. apply (H 0%nat (S j)); auto. lia.
  - intros [H1 H2] i j a b Hij Ei Ej. destruct j as [|j]; [lia|]. cbn in Ej.
    destruct i as [|i]; cbn in Ei.
    + injection Ei as <-. apply H2. now apply elem_of_list_lookup_2 in Ej.
    + apply (H1 i j); auto. lia.
Qed.

Lemma increasing_app l1 l2 :
  increasing (l1 ++ l2) <->
  increasing l1 /\ increasing l2 /\ forall x y, x ∈ l1 -> y ∈ l2 -> x < y.
Proof.
  induction l1 as [|a l1 IH]; cbn [app].
  - split.
    + intros H. split; [apply increasing_nil|]. split; [exact H|]. intros x y Hx. now apply elem_of_nil in Hx.
    + tauto.
  - rewrite !increasing_cons, IH. setoid_rewrite elem_of_app. setoid_rewrite elem_of_cons. split.
    + intros ((H1 & H2 & H3) & H4). repeat split; auto. intros x y [->|Hx] Hy; auto.
    + intros ((H1 & H2) & H3 & H4). repeat split; auto.
      intros y [Hy|Hy]; auto.
Qed.

Lemma increasing_nodup l : increasing l -> NoDup l.
Proof.
  induction l as [|x l IH]; [constructor|]. rewrite increasing_cons. intros [H1 H2].
  constructor; auto. intros Hin. specialize (H2 _ Hin). lia.
Qed.

(** Insertion and removal keep the order and change membership by one. *)
Lemma slist_insert_spec l who : increasing l ->
  match slist_insert l who with
  | None => who ∈ l
  | Some l' => who ∉ l /\ increasing l' /\ forall x, x ∈ l' <-> x = who \/ x ∈ l
  end.
Proof.
  intros Hs. unfold slist_insert. pose proof (bsearch_post l who Hs) as P.
  destruct (bsearch l who) as [i|i]; cbn in P.
  - now apply elem_of_list_lookup_2 in P.
  - destruct P as (Hi & Hlo & Hhi).
    assert (Hlo' : forall x, x ∈ take i l -> x < who).
    { intros x Hx. apply elem_of_take in Hx as (j & Ej & Hj). eauto. }
    assert (Hhi' : forall x, x ∈ drop i l -> who < x).
    { intros x Hx. apply elem_of_list_lookup in Hx as [j Ej]. rewrite lookup_drop in Ej.
      eapply Hhi; [|exact Ej]. lia. }
    assert (Hmem : forall x, x ∈ l <-> x ∈ take i l \/ x ∈ drop i l).
    { intros x. rewrite <- elem_of_app. now rewrite take_drop. }
    rewrite <- (take_drop i l) in Hs. apply increasing_app in Hs as (S1 & S2 & S12).
    split; [|split].
    + rewrite Hmem. intros [H|H]; [apply Hlo' in H|apply Hhi' in H]; lia.
    + apply increasing_app. split; [exact S1|]. split.
      * apply increasing_cons. auto.
      * intros x y Hx. rewrite elem_of_cons. intros [->|Hy]; auto.
    + intros x. rewrite Hmem, elem_of_app, elem_of_cons. tauto.
Qed.

Lemma slist_remove_spec l who : increasing l ->
  match slist_remove l who with
  | None => who ∉ l
  | Some l' => who ∈ l /\ increasing l' /\ forall x, x ∈ l' <-> x <> who /\ x ∈ l
  end.
Proof.
  intros Hs. unfold slist_remove. pose proof (bsearch_post l who Hs) as P.
  destruct (bsearch l who) as [i|i] eqn:EB; cbn in P.
  - assert (Hin : who ∈ l) by now apply elem_of_list_lookup_2 in P.
    pose proof (take_drop_middle l i who P) as Hl.
    assert (Hs' : increasing (take i l ++ who :: drop (S i) l)) by now rewrite Hl.
    apply increasing_app in Hs' as (S1 & S2 & S12).
    apply increasing_cons in S2 as [S2 S3].
    split; [exact Hin|]. split.
    + apply increasing_app. repeat split; auto. intros x y Hx Hy. apply S12; auto.
      rewrite elem_of_cons. auto.
    + intros x. rewrite <- Hl at 3. rewrite !elem_of_app, elem_of_cons. split.
      * intros [Hx|Hx].
        -- assert (x < who) by (apply S12; [auto|rewrite elem_of_cons; auto]). split; [lia|auto].
        -- specialize (S3 _ Hx). split; [lia|auto].
      * intros [Hne [Hx|[Hx|Hx]]]; auto. congruence.
  - destruct P as (_ & Hlo & Hhi). intros Hin. apply elem_of_list_lookup in Hin as [j Ej].
    destruct (Nat.lt_ge_cases j i) as [H|H].
    + specialize (Hlo _ _ H Ej). lia.
    + specialize (Hhi _ _ H Ej). lia.
Qed.

Lemma get_list_insert m k l k' :
  get_list (<[k := l]> m) k' = if decide (k = k') then l else get_list m k'.
Proof.
  unfold get_list. destruct (decide (k = k')) as [->|H].
  - now rewrite lookup_insert.
  - now rewrite lookup_insert_ne.
Qed.

Lemma map_remove_spec m k who : (forall k, increasing (get_list m k)) ->
  (forall k', increasing (get_list (map_remove m k who) k')) /\
  (forall k' x, x ∈ get_list (map_remove m k who) k' <->
                x ∈ get_list m k' /\ ~ (k' = k /\ x = who)).
Proof.
  intros Hs. unfold map_remove. pose proof (slist_remove_spec (get_list m k) who (Hs k)) as P.
  destruct (slist_remove (get_list m k) who) as [l|].
  - destruct P as (Hin & Hl & Hm). split; intros k'.
    + rewrite get_list_insert. destruct (decide _); auto.
    + intros x. rewrite get_list_insert. destruct (decide (k = k')) as [->|Hk].
      * rewrite Hm. tauto.
      * split; [|tauto]. intros H. split; [exact H|]. intros [-> _]. congruence.
  - split; [exact Hs|]. intros k' x. split; [|tauto]. intros H. split; [exact H|].
    intros [-> ->]. contradiction.
Qed.

Section reg.
  Context (cfg : dcfg).
  (** The two regions of a registered code differ. *)
  Context (Hlevels : forall c, is_Some (d_regions cfg !! c) -> region_of cfg c <> region_of cfg (region_of cfg c)).

(** Registry invariant. *)
Definition reg_inv (s : dstate) (r : registry) : Prop :=
  (forall k, increasing (get_list (d_bycountry s) k)) /\
  (forall k, increasing (get_list (d_byregion s) k)) /\
  (forall who c sv, r !! who = Some (c, sv) ->
     (exists n, d_dev s !! who = Some n /\ n_country n = c) /\ is_Some (d_regions cfg !! c)) /\
  (forall who, r !! who = None -> d_dev s !! who = None) /\
  (forall who k, who ∈ get_list (d_bycountry s) k <-> serves r who k) /\
  (forall who k, who ∈ get_list (d_byregion s) k <->
     exists c, serves r who c /\ (k = region_of cfg c \/ k = region_of cfg (region_of cfg c))).

Lemma remove_inv s r now who n :
  reg_inv s r -> d_dev s !! who = Some n ->
  let s' := try_remove_server cfg s now who in
  (forall k, increasing (get_list (d_bycountry s') k)) /\
  (forall k, increasing (get_list (d_byregion s') k)) /\
  (forall a k, a ∈ get_list (d_bycountry s') k <-> a <> who /\ serves r a k) /\
  (forall a k, a ∈ get_list (d_byregion s') k <-> a <> who /\
     exists c, serves r a c /\ (k = region_of cfg c \/ k = region_of cfg (region_of cfg c))) /\
  d_dev s' = <[who := Node (n_country n) now]> (d_dev s) /\
  d_bank s' = d_bank s.
Proof.
  intros (HC & HR & HD & HN & MC & MR) En s'. unfold s', try_remove_server. rewrite En.
  cbn [d_bycountry d_byregion d_dev d_bank with_dev with_lists].
  destruct (map_remove_spec (d_bycountry s) (n_country n) who HC) as [C1 C2].
  destruct (map_remove_spec (d_byregion s) (region_of cfg (n_country n)) who HR) as [R1 R2].
  destruct (map_remove_spec _ (region_of cfg (region_of cfg (n_country n))) who R1) as [R3 R4].
  assert (Hreg : forall c, serves r who c -> c = n_country n).
  { intros c Hc. destruct (HD _ _ _ Hc) as [(n' & En' & <-) _]. congruence. }
  split; [exact C1|]. split; [exact R3|]. split; [|split; [|auto]].
  - intros a k. rewrite C2, MC. split.
    + intros [Hs Hne]. split; [|exact Hs]. intros ->. apply Hne. split; auto.
    + intros [Hne Hs]. split; [exact Hs|]. tauto.
  - intros a k. rewrite R4, R2, MR. split.
    + intros [[(c & Hs & Hk) Hn1] Hn2]. split; [|eauto]. intros ->.
      rewrite (Hreg _ Hs) in Hk. destruct Hk; [apply Hn1|apply Hn2]; auto.
    + intros [Hne H]. split; [|tauto]. split; [exact H|tauto].
Qed.

Lemma add_inv s r now who d c sv :
  reg_inv s r -> r !! who = Some (c, sv) ->
  let s' := try_add_server cfg s now who d in
  reg_inv s' (<[who := (c, true)]> r) /\ d_bank s' = d_bank s.
Proof.
  intros I Er. pose proof I as (HC & HR & HD & HN & MC & MR).
  destruct (HD _ _ _ Er) as [(n & En & Ec) Hreg].
  unfold try_add_server. rewrite En.
  change (default (Node EmptyString 0) (Some n)) with n. cbv zeta. rewrite Ec.
  pose proof (slist_insert_spec (get_list (d_bycountry s) c) who (HC c)) as P1.
  destruct (slist_insert (get_list (d_bycountry s) c) who) as [lc|].
  2:{ (* already serving *)
      apply MC in P1. unfold serves in P1. rewrite Er in P1. injection P1 as ->.
      rewrite insert_id by exact Er. auto. }
  destruct P1 as (Nin & Ilc & Mlc).
  assert (Hsv : sv = false).
  { destruct sv; [|reflexivity]. exfalso. apply Nin. apply MC. exact Er. }
  subst sv.
  assert (Hnot : forall c', ~ serves r who c') by (intros c'; unfold serves; rewrite Er; congruence).
  pose proof (slist_insert_spec (get_list (d_byregion s) (region_of cfg c)) who (HR _)) as P2.
  destruct (slist_insert (get_list (d_byregion s) (region_of cfg c)) who) as [l1|].
  2:{ exfalso. apply MR in P2 as (c' & Hs & _). exact (Hnot _ Hs). }
  destruct P2 as (Nin1 & Il1 & Ml1).
  pose proof (Hlevels c Hreg) as Hlev.
  rewrite get_list_insert. rewrite decide_False by exact Hlev.
  pose proof (slist_insert_spec (get_list (d_byregion s) (region_of cfg (region_of cfg c))) who (HR _)) as P3.
  destruct (slist_insert (get_list (d_byregion s) (region_of cfg (region_of cfg c))) who) as [l2|].
  2:{ exfalso. apply MR in P3 as (c' & Hs & _). exact (Hnot _ Hs). }
  destruct P3 as (Nin2 & Il2 & Ml2).
  split; [|reflexivity].
  assert (Hserves : forall a k, serves (<[who := (c, true)]> r) a k <-> (a = who /\ k = c) \/ (a <> who /\ serves r a k)).
  { intros a k. unfold serves. destruct (decide (a = who)) as [->|Ha].
    - rewrite lookup_insert. split; [intros [= ->]; auto|]. intros [[_ ->]|[H _]]; [reflexivity|congruence].
    - rewrite lookup_insert_ne by congruence. split; [auto|]. intros [[H _]|[_ H]]; [congruence|exact H]. }
  repeat split; cbn [d_bycountry d_byregion d_dev with_dev with_lists].
  - intros k. rewrite get_list_insert. destruct (decide _); auto.
  - intros k. rewrite !get_list_insert. repeat destruct (decide _); auto.
  - destruct (decide (who = who0)) as [<-|Ha].
    + rewrite lookup_insert in H. injection H as <- <-. rewrite lookup_insert. eexists. split; reflexivity.
    + rewrite lookup_insert_ne in H by exact Ha. rewrite lookup_insert_ne by exact Ha.
      exact (proj1 (HD _ _ _ H)).
  - destruct (decide (who = who0)) as [<-|Ha].
    + rewrite lookup_insert in H. injection H as <- <-. exact Hreg.
    + rewrite lookup_insert_ne in H by exact Ha. exact (proj2 (HD _ _ _ H)).
  - intros a Ha. destruct (decide (who = a)) as [<-|Hne].
    + rewrite lookup_insert in Ha. discriminate.
    + rewrite lookup_insert_ne in Ha by exact Hne. rewrite lookup_insert_ne by exact Hne. auto.
  - rewrite get_list_insert. rewrite Hserves. destruct (decide (c = k)) as [<-|Hk].
    + rewrite Mlc, MC. destruct (decide (who0 = who)) as [->|]; tauto.
    + rewrite MC. intros Hs. right. split; [|exact Hs]. intros ->. exact (Hnot _ Hs).
  - rewrite get_list_insert. rewrite Hserves. destruct (decide (c = k)) as [<-|Hk].
    + rewrite Mlc, MC. destruct (decide (who0 = who)) as [->|]; tauto.
    + rewrite MC. intros [[_ E]|[_ E]]; [congruence|exact E].
  - rewrite !get_list_insert. intros Hin. setoid_rewrite Hserves.
    destruct (decide (region_of cfg (region_of cfg c) = k)) as [E2|N2].
    + rewrite Ml2 in Hin. destruct Hin as [->|Hin].
      * exists c. split; [left; split; reflexivity|right; symmetry; exact E2].
      * apply MR in Hin as (c' & Hs & Hk). exists c'. split; [|rewrite <- E2 in *; exact Hk].
        right. split; [|exact Hs]. intros ->. exact (Hnot _ Hs).
    + destruct (decide (region_of cfg c = k)) as [E1|N1].
      * rewrite Ml1 in Hin. destruct Hin as [->|Hin].
        -- exists c. split; [left; split; reflexivity|left; symmetry; exact E1].
        -- apply MR in Hin as (c' & Hs & Hk). exists c'. split; [|rewrite <- E1 in *; exact Hk].
           right. split; [|exact Hs]. intros ->. exact (Hnot _ Hs).
      * apply MR in Hin as (c' & Hs & Hk). exists c'. split; [|exact Hk].
        right. split; [|exact Hs]. intros ->. exact (Hnot _ Hs).
  - rewrite !get_list_insert. intros (c' & Hs & Hk). apply Hserves in Hs.
    destruct (decide (region_of cfg (region_of cfg c) = k)) as [E2|N2].
    + rewrite Ml2. destruct Hs as [[-> ->]|[Hne Hs]]; [left; reflexivity|]. right. apply MR.
      exists c'. split; [exact Hs|]. rewrite <- E2 in Hk. exact Hk.
    + destruct (decide (region_of cfg c = k)) as [E1|N1].
      * rewrite Ml1. destruct Hs as [[-> ->]|[Hne Hs]]; [left; reflexivity|]. right. apply MR.
        exists c'. split; [exact Hs|]. rewrite <- E1 in Hk. exact Hk.
      * destruct Hs as [[-> ->]|[Hne Hs]].
        -- destruct Hk; congruence.
        -- apply MR. eauto.
Qed.

(** A step that leaves devices and lists alone keeps the invariant. *)
Lemma inv_ext s s' r :
  d_dev s' = d_dev s -> d_bycountry s' = d_bycountry s -> d_byregion s' = d_byregion s ->
  reg_inv s r -> reg_inv s' r.
Proof. intros E1 E2 E3. unfold reg_inv. now rewrite E1, E2, E3. Qed.

(** Replace the record of one account after a removal. *)
Lemma removed_inv s r now who n c' :
  reg_inv s r -> d_dev s !! who = Some n -> is_Some (d_regions cfg !! c') ->
  let s1 := try_remove_server cfg s now who in
  forall s2, d_bycountry s2 = d_bycountry s1 -> d_byregion s2 = d_byregion s1 ->
  (exists m, d_dev s2 = <[who := m]> (d_dev s) /\ n_country m = c') ->
  reg_inv s2 (<[who := (c', false)]> r).
Proof.
  intros I En Hreg s1 s2 E1 E2 (m & Em & Ec).
  destruct (remove_inv s r now who n I En) as (C & R & MC' & MR' & _ & _). fold s1 in C, R, MC', MR'.
  destruct I as (HC & HR & HD & HN & MC & MR).
  assert (Hserves : forall a k, serves (<[who := (c', false)]> r) a k <-> a <> who /\ serves r a k).
  { intros a k. unfold serves. destruct (decide (a = who)) as [->|Ha].
    - rewrite lookup_insert. split; [discriminate|tauto].
    - rewrite lookup_insert_ne by congruence. tauto. }
  unfold reg_inv. rewrite E1, E2, Em. split; [exact C|]. split; [exact R|].
  split; [|split; [|split]].
  - intros a c sv Ha. destruct (decide (who = a)) as [<-|Hne].
    + rewrite lookup_insert in Ha. injection Ha as <- <-. rewrite lookup_insert.
      split; [exists m; auto|exact Hreg].
    + rewrite lookup_insert_ne in Ha by exact Hne. rewrite lookup_insert_ne by exact Hne. eauto.
  - intros a Ha. destruct (decide (who = a)) as [<-|Hne].
    + rewrite lookup_insert in Ha. discriminate.
    + rewrite lookup_insert_ne in Ha by exact Hne. rewrite lookup_insert_ne by exact Hne. auto.
  - intros a k. rewrite MC', Hserves. reflexivity.
  - intros a k. rewrite MR'. setoid_rewrite Hserves. split.
    + intros (Hne & c & Hs & Hk). eauto.
    + intros (c & (Hne & Hs) & Hk). eauto.
Qed.


  Lemma step_reg s r o :
    reg_inv s r ->
    reg_inv (ddo cfg s o)
      (match o.1.2 with
       | Signed who =>
           if is_ok (snd (dstep cfg s o.1.1 o.1.2 o.2)) then reg_call r who o.2 else r
       | _ => r
       end).
  Proof.
    intros I. destruct o as [[x [|who|]] c]; unfold ddo, dstep; cbn [fst snd]; [exact I| |exact I].
    unfold dexec.
    pose proof I as (HC & HR & HD & HN & MC & MR).
    assert (Hdev : forall n, d_dev s !! who = Some n ->
      exists sv, r !! who = Some (n_country n, sv) /\ is_Some (d_regions cfg !! n_country n)).
    { intros n En. destruct (r !! who) as [[c0 sv]|] eqn:Er.
      - destruct (HD _ _ _ Er) as [(n' & En' & Ec) Hr]. rewrite En in En'. injection En' as ->.
        subst c0. eauto.
      - apply HN in Er. congruence. }
    destruct c as [country| |eras|eras| | |nonce sg t f u|nonce sg evm| |dest amount|amount|amount].
    - (* register *)
      unfold register_device. destruct (bool_decide (is_Some (d_regions cfg !! country))) eqn:Eb; cbn; [|exact I].
      apply bool_decide_eq_true in Eb.
      destruct (d_dev s !! who) as [n|] eqn:En.
      + destruct (Hdev n eq_refl) as (sv & Er & Hreg). cbn. rewrite Er.
        case_bool_decide as Hc.
        * (* same country *) subst country.
          assert (Ereg : <[who := (n_country n, sv)]> r = r) by now apply insert_id.
          rewrite Ereg.
          unfold reg_inv; cbn. split; [exact HC|]. split; [exact HR|]. split; [|split; [|auto]].
          -- intros a c0 sv0 Ha. destruct (decide (who = a)) as [<-|Hne].
             ++ rewrite lookup_insert. rewrite Er in Ha. injection Ha as <- <-. split; [eexists; split; reflexivity|exact Hreg].
             ++ rewrite lookup_insert_ne by exact Hne. eauto.
          -- intros a Ha. destruct (decide (who = a)) as [<-|Hne]; [congruence|].
             rewrite lookup_insert_ne by exact Hne. auto.
        * apply (removed_inv s r (x_now x) who n country I En Eb); try reflexivity.
          destruct (remove_inv s r (x_now x) who n I En) as (_ & _ & _ & _ & Ed & _).
          exists (Node country (x_now x)). cbn. split; [|reflexivity].
          rewrite Ed. now rewrite insert_insert.
      + destruct (reserve (d_ed cfg) (d_bank s) who (d_minlock cfg)) as [b|]; cbn; [|exact I].
        assert (Er : r !! who = None).
        { destruct (r !! who) as [[c0 sv]|] eqn:Er; [|reflexivity].
          destruct (HD _ _ _ Er) as [(n' & En' & _) _]. congruence. }
        rewrite Er.
        assert (Hserves : forall a k, serves (<[who := (country, false)]> r) a k <-> serves r a k).
        { intros a k. unfold serves. destruct (decide (a = who)) as [->|Ha].
          - rewrite lookup_insert, Er. split; discriminate.
          - rewrite lookup_insert_ne by congruence. tauto. }
        unfold reg_inv; cbn. split; [exact HC|]. split; [exact HR|]. split; [|split; [|split]].
        * intros a c0 sv0 Ha. destruct (decide (who = a)) as [<-|Hne].
          -- rewrite lookup_insert in Ha. rewrite lookup_insert. injection Ha as <- <-. split; [eexists; split; reflexivity|exact Eb].
          -- rewrite lookup_insert_ne in Ha by exact Hne. rewrite lookup_insert_ne by exact Hne. eauto.
        * intros a Ha. destruct (decide (who = a)) as [<-|Hne].
          -- rewrite lookup_insert in Ha. discriminate.
          -- rewrite lookup_insert_ne in Ha by exact Hne. rewrite lookup_insert_ne by exact Hne. auto.
        * intros a k. rewrite Hserves. apply MC.
        * intros a k. setoid_rewrite Hserves. apply MR.
    - (* unregister *)
      unfold unregister_device. destruct (d_dev s !! who) as [n|] eqn:En; cbn; [|exact I].
      destruct (remove_inv s r (x_now x) who n I En) as (C & R & MC' & MR' & Ed & _).
      assert (Hserves : forall a k, serves (delete who r) a k <-> a <> who /\ serves r a k).
      { intros a k. unfold serves. rewrite lookup_delete_Some. split; intros [H1 H2]; split; auto. }
      unfold reg_inv; cbn. split; [exact C|]. split; [exact R|]. rewrite Ed, delete_insert_delete.
      split; [|split; [|split]].
      + intros a c0 sv0 Ha. apply lookup_delete_Some in Ha as [Hne Ha].
        rewrite lookup_delete_ne by exact Hne. eauto.
      + intros a Ha. destruct (decide (who = a)) as [<-|Hne]; [apply lookup_delete|].
        rewrite lookup_delete_ne in Ha by exact Hne. rewrite lookup_delete_ne by exact Hne. auto.
      + intros a k. rewrite MC', Hserves. reflexivity.
      + intros a k. rewrite MR'. setoid_rewrite Hserves. split.
        * intros (Hne & c & Hs & Hk). eauto.
        * intros (c & (Hne & Hs) & Hk). eauto.
    - (* register server *)
      unfold register_server. destruct (d_dev s !! who) as [n|] eqn:En; cbn; [|exact I].
      destruct (eras <=? d_maxeras cfg); cbn; [|exact I].
      destruct (Hdev n eq_refl) as (sv & Er & Hreg). rewrite Er.
      exact (proj1 (add_inv s r (x_now x) who _ _ _ I Er)).
    - (* update server *)
      unfold update_server. destruct (d_dev s !! who) as [n|] eqn:En; cbn; [|exact I].
      destruct (eras <=? d_maxeras cfg); cbn; [|exact I].
      destruct (Hdev n eq_refl) as (sv & Er & Hreg).
      unfold reg_inv; cbn. split; [exact HC|]. split; [exact HR|]. split; [|split; [|auto]].
      + intros a c0 sv0 Ha. destruct (decide (who = a)) as [<-|Hne].
        * rewrite lookup_insert. rewrite Er in Ha. injection Ha as <- <-. split; [eexists; split; reflexivity|exact Hreg].
        * rewrite lookup_insert_ne by exact Hne. eauto.
      + intros a Ha. destruct (decide (who = a)) as [<-|Hne]; [congruence|].
        rewrite lookup_insert_ne by exact Hne. auto.
    - (* unregister server *)
      unfold unregister_server. destruct (d_dev s !! who) as [n|] eqn:En; cbn; [|exact I].
      destruct (Hdev n eq_refl) as (sv & Er & Hreg). rewrite Er.
      apply (removed_inv s r (x_now x) who n (n_country n) I En Hreg); try reflexivity.
      destruct (remove_inv s r (x_now x) who n I En) as (_ & _ & _ & _ & Ed & _).
      exists (Node (n_country n) (x_now x)). rewrite Ed. auto.
    - now apply (inv_ext s).
    - unfold report_credit_proof. destruct (x_verify x nonce sg who); cbn; [|exact I].
      now apply (inv_ext s).
    - unfold reward_mapping. destruct (x_verify_new x nonce sg who); cbn; [|exact I].
      destruct (bool_decide _); cbn; [|exact I].
      destruct (d_d2e s !! who) as [old|]; [destruct (evm =? old)|]; cbn; now apply (inv_ext s).
    - unfold get_npow_reward. destruct (d_d2e s !! who); exact I.
    - unfold env_transfer. destruct (transfer_allow _ _ _ _ _); cbn; [now apply (inv_ext s)|exact I].
    - unfold env_reserve. destruct (reserve _ _ _ _); cbn; [now apply (inv_ext s)|exact I].
    - cbn. now apply (inv_ext s).
  Qed.

  Lemma run_reg h : forall s r, reg_inv s r -> reg_inv (drun cfg s h) (registry_after cfg s r h).
  Proof.
    induction h as [|o h IH]; intros s r I; [exact I|].
    change (drun cfg s (o :: h)) with (drun cfg (ddo cfg s o) h). cbn [registry_after].
    apply IH. now apply step_reg.
  Qed.

  Lemma init_reg b st : reg_inv (dinit b st) ∅.
  Proof.
    unfold reg_inv, dinit, serves, get_list; cbn. repeat split.
    - intros k. rewrite lookup_empty. apply increasing_nil.
    - intros k. rewrite lookup_empty. apply increasing_nil.
    - rewrite lookup_empty in H. discriminate.
    - rewrite lookup_empty in H. discriminate.
    - rewrite lookup_empty. cbn. intros H. now apply elem_of_nil in H.
    - rewrite lookup_empty. discriminate.
    - rewrite lookup_empty. cbn. intros H. now apply elem_of_nil in H.
    - intros (c & H & _). rewrite lookup_empty in H. discriminate.
  Qed.
End reg.
