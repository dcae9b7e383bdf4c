(** Cancelling deferred slashes, and elections. *)
From Verif Require Import Base Balances Model_StakingLedger Model_Staking Spec_Staking
  Proofs_Arith Proofs_StakingLedger Proofs_Staking.
From stdpp Require Import gmap sorting.
Open Scope N_scope.

(** ** Cancelling *)

Lemma without_app {A} idx (a b : list A) : forall i,
  without i idx (a ++ b) = without i idx a ++ without (i + N.of_nat (length a)) idx b.
Proof.
  induction a as [|x a IH]; intros i; cbn [without app length]; [f_equal; lia|].
  rewrite IH. replace (i + 1 + N.of_nat (length a)) with (i + N.of_nat (S (length a))) by lia.
  now destruct (bool_decide _).
Qed.
Lemma without_none {A} idx (l : list A) : forall i,
  (forall j, j ∈ idx -> j < i \/ i + N.of_nat (length l) <= j) -> without i idx l = l.
Proof.
  induction l as [|x l IH]; intros i H; cbn [without length] in *; [auto|].
  rewrite bool_decide_false; [|intros E; apply H in E; lia].
  f_equal. apply IH. intros j Hj. apply H in Hj. lia.
Qed.
Lemma without_head {A} k idx (l : list A) : forall i, k < i -> without i (k :: idx) l = without i idx l.
Proof.
  induction l as [|x l IH]; intros i H; cbn [without]; [auto|]. rewrite IH by lia.
  assert (E : bool_decide (i ∈ k :: idx) = bool_decide (i ∈ idx)).
  { apply bool_decide_ext. rewrite elem_of_cons. split; [intros [->|?]; [lia|auto]|auto]. }
  now rewrite E.
Qed.
Lemma sorted_ascending l : sorted_unique l = true <-> ascending l.
Proof.
  induction l as [|a l IH]; [now cbn|]. destruct l as [|b l]; [now cbn|].
  change (sorted_unique (a :: b :: l)) with ((a <? b) && sorted_unique (b :: l)).
  change (ascending (a :: b :: l)) with (a < b /\ ascending (b :: l)).
  rewrite andb_true_iff, N.ltb_lt, IH. reflexivity.
Qed.
Lemma ascending_tail a l : ascending (a :: l) -> ascending l /\ forall j, j ∈ l -> a < j.
Proof.
  revert a. induction l as [|b l IH]; intros a H; [split; [auto|intros j Hj; inversion Hj]|].
  destruct H as [H1 H2]. split; [auto|]. intros j Hj. apply elem_of_cons in Hj as [->|Hj]; [auto|].
  apply IH in H2 as [_ H2]. specialize (H2 j Hj). lia.
Qed.
Lemma last_max l d : ascending l -> forall j, j ∈ l -> j <= List.last l d.
Proof.
  induction l as [|a l IH]; intros H j Hj; [inversion Hj|].
  destruct l as [|b l]; [apply elem_of_list_singleton in Hj as ->; cbn; lia|].
  change (List.last (a :: b :: l) d) with (List.last (b :: l) d).
  destruct (ascending_tail _ _ H) as [H1 H2]. specialize (IH H1).
  apply elem_of_cons in Hj as [->|Hj]; [|auto].
  specialize (IH b ltac:(left)). specialize (H2 b ltac:(left)). lia.
Qed.
Lemma remove_at_spec : forall idx l k,
  ascending idx -> (forall j, j ∈ idx -> k <= j /\ j < k + N.of_nat (length l) /\ j < two64) ->
  remove_at l idx k = Some (without k idx l).
Proof.
  induction idx as [|i idx IH]; intros l k Hs Hb; cbn [remove_at].
  - f_equal. symmetry. apply without_none. intros j Hj. inversion Hj.
  - destruct (ascending_tail _ _ Hs) as [Hs' Hi].
    destruct (Hb i ltac:(left)) as (B1 & B2 & B3).
    rewrite sub64_exact by lia. rewrite (proj2 (N.ltb_lt _ _)) by lia.
    set (n := N.to_nat (i - k)).
    destruct (l !! n) as [y|] eqn:Ey; [|apply lookup_ge_None in Ey; lia].
    pose proof (take_drop_middle l n y Ey) as El.
    assert (Ln : length (take n l) = n) by (rewrite take_length; apply lookup_lt_Some in Ey; lia).
    rewrite IH; [|auto|].
    + f_equal. rewrite <- El at 3. rewrite !without_app, Ln.
      rewrite !without_none with (l := take n l).
      * cbn [without]. rewrite bool_decide_true; [|replace (k + N.of_nat n) with i by lia; left].
        rewrite without_head by lia. do 2 f_equal. lia.
      * intros j Hj. rewrite Ln. apply elem_of_cons in Hj as [->|Hj]; [lia|]. apply Hi in Hj. lia.
      * intros j Hj. rewrite Ln. apply Hi in Hj. lia.
    + intros j Hj. destruct (Hb j ltac:(now right)) as (C1 & C2 & C3). specialize (Hi j Hj).
      rewrite app_length, Ln, drop_length. apply lookup_lt_Some in Ey. lia.
Qed.

(** Exactly when a cancellation succeeds, and what it leaves. *)
Lemma cancel_spec k era idx :
  Forall (fun i => i < two32) idx ->
  (idx <> [] /\ ascending idx /\ (forall i, i ∈ idx -> i < N.of_nat (length (default [] (s_unapp k !! era)))) ->
   Model_Staking.cancel k era idx = ROk (set_s_unapp k (<[era := without 0 idx (default [] (s_unapp k !! era))]> (s_unapp k)))) /\
  (forall k', Model_Staking.cancel k era idx = ROk k' ->
   idx <> [] /\ ascending idx /\ (forall i, i ∈ idx -> i < N.of_nat (length (default [] (s_unapp k !! era))))) /\
  Model_Staking.cancel k era idx <> RPanic.
Proof.
  intros Ty. rewrite Forall_forall in Ty. unfold Model_Staking.cancel.
  set (l := default [] _).
  assert (Rm : ascending idx -> (forall i, i ∈ idx -> i < N.of_nat (length l)) ->
    remove_at l idx 0 = Some (without 0 idx l)).
  { intros A B. apply remove_at_spec; [auto|]. intros j Hj. specialize (B j Hj). specialize (Ty j Hj).
    assert (two32 < two64) by reflexivity. lia. }
  assert (La : idx <> [] -> ascending idx -> (List.last idx 0 <? N.of_nat (length l)) = true <->
     forall i, i ∈ idx -> i < N.of_nat (length l)).
  { intros Hne Ha. rewrite N.ltb_lt. split.
    - intros H i Hi. pose proof (last_max _ 0 Ha i Hi). lia.
    - intros H. apply H. destruct (exists_last Hne) as (r & a & ->). rewrite last_last. apply elem_of_app. right. left. }
  unfold ensure. destruct (bool_decide_reflect (idx = [])) as [E|E]; cbn [negb rbind].
  { split; [tauto|]. split; [discriminate|discriminate]. }
  destruct (sorted_unique idx) eqn:Es; cbn [rbind].
  2: { split; [intros (_ & A & _); apply sorted_ascending in A; congruence|]. split; discriminate. }
  apply sorted_ascending in Es.
  destruct (List.last idx 0 <? N.of_nat (length l)) eqn:Ei; cbn [rbind].
  2: { split; [intros (_ & _ & A); apply La in A; auto; congruence|]. split; discriminate. }
  pose proof (proj1 (La E Es) eq_refl) as Hb. rewrite Rm by auto. split; [auto|]. split; [auto|discriminate].
Qed.

(** ** Elections *)

Section elect.
  Context (cfg : kcfg).

  (** The order including ties. *)
  Definition tie_le (a b : rank) : Prop :=
    a.2 < b.2 \/ (a.2 = b.2 /\ (b.1.2 < a.1.2 \/ (b.1.2 = a.1.2 /\ kc_vkey cfg a.1.1 <= kc_vkey cfg b.1.1))).
  Lemma rins_perm a l : rins a l ≡ₚ a :: l.
  Proof. induction l as [|b l IH]; cbn; [auto|]. destruct (decide _); [auto|]. rewrite IH. apply perm_swap. Qed.
  Lemma rsort_perm l : rsort l ≡ₚ l.
  Proof. induction l as [|a l IH]; cbn; [auto|]. now rewrite rins_perm, IH. Qed.
  Lemma rins_sorted a l :
    StronglySorted tie_le l -> (forall b, b ∈ l -> kc_vkey cfg a.1.1 <= kc_vkey cfg b.1.1) ->
    StronglySorted tie_le (rins a l).
  Proof.
    induction l as [|b l IH]; intros S H; cbn; [repeat constructor|].
    inversion S as [|? ? S1 S2]; subst. rewrite Forall_forall in S2. destruct (decide (rank_le a b)) as [R|R].
    - constructor; [auto|]. rewrite Forall_forall. intros c Hc.
      assert (Hab : tie_le a b). { specialize (H b ltac:(left)). unfold rank_le in R. unfold tie_le. lia. }
      apply elem_of_cons in Hc as [->|Hc]; [auto|]. specialize (S2 c Hc). unfold tie_le in *. lia.
    - constructor; [apply IH; [auto|intros; apply H; now right]|]. rewrite Forall_forall. intros c Hc.
      rewrite rins_perm in Hc. apply elem_of_cons in Hc as [->|Hc]; [|auto].
      unfold rank_le in R. unfold tie_le. lia.
  Qed.
  Lemma rsort_sorted l :
    StronglySorted (fun a b : rank => kc_vkey cfg a.1.1 <= kc_vkey cfg b.1.1) l -> StronglySorted tie_le (rsort l).
  Proof.
    induction 1 as [|a l S IH H]; cbn; [constructor|]. apply rins_sorted; [auto|].
    intros b Hb. rewrite rsort_perm in Hb. rewrite Forall_forall in H. auto.
  Qed.

  Lemma sorted_split (l : list rank) n a b :
    StronglySorted tie_le l -> a ∈ take n l -> b ∈ drop n l -> tie_le a b.
  Proof.
    intros S Ha Hb. rewrite <- (take_drop n l) in S. revert S Ha Hb.
    generalize (take n l), (drop n l). induction l0 as [|x l0 IH]; intros l1 S Ha Hb; [inversion Ha|].
    cbn in S. inversion S as [|? ? S1 S2]; subst. apply elem_of_cons in Ha as [->|Ha].
    - rewrite Forall_forall in S2. apply S2. apply elem_of_app. auto.
    - eapply IH; eauto.
  Qed.
  Lemma validators_elem k v : v ∈ validators_in_order cfg k <-> v ∈ s_valid k.
  Proof. unfold validators_in_order. rewrite (merge_sort_Permutation _ _). apply elem_of_elements. Qed.
  Lemma validators_nodup k : NoDup (validators_in_order cfg k).
  Proof. unfold validators_in_order. rewrite (merge_sort_Permutation _ _). apply NoDup_elements. Qed.

  Lemma elect_fair s era s' l :
    (forall v, backing s v < two32) -> elect cfg s era = (s', Some l) ->
    fair_election cfg s l /\
    N.max (p_min (k_par s)) 1 <= N.of_nat (length (List.filter (trusted (k_par s)) (validators_in_order cfg (k_stk s)))) /\
    (forall v, last_elected s' v = if bool_decide (v ∈ l) then add32 era 1 else last_elected s v) /\
    (forall v, backing s' v = backing s v).
  Proof.
    intros Hb H. unfold elect in H. cbn zeta in H.
    set (ok := List.filter (trusted (k_par s)) (validators_in_order cfg (k_stk s))) in *.
    set (vs := map (rank_of (k_del s)) ok) in *.
    destruct (N.ltb_spec (N.of_nat (length vs)) (N.max (p_min (k_par s)) 1)) as [Hl|Hl]; [discriminate|].
    set (so := rsort vs) in *.
    set (n := N.to_nat (p_count (k_par s))) in *.
    remember (map (fun r : N * N * N => r.1.1) (take n so)) as el eqn:Hel.
    injection H as Es' El'. subst l s'.
    assert (Perm : so ≡ₚ vs) by apply rsort_perm.
    assert (El : forall v, eligible s v <-> v ∈ ok).
    { intros v. unfold ok. rewrite elem_of_list_In, filter_In, <- elem_of_list_In, validators_elem.
      unfold eligible, trusted. rewrite orb_true_iff, !bool_decide_eq_true. tauto. }
    assert (Fst : map (fun r : rank => r.1.1) vs = ok).
    { unfold vs. rewrite map_map. cbn. apply map_id. }
    assert (Nd : NoDup (map (fun r : rank => r.1.1) so)).
    { rewrite Perm, Fst. unfold ok. apply NoDup_ListNoDup, List.NoDup_filter, NoDup_ListNoDup, validators_nodup. }
    assert (In_so : forall v, v ∈ ok -> rank_of (k_del s) v ∈ so).
    { intros v Hv. rewrite Perm. unfold vs. apply elem_of_list_fmap. eauto. }
    assert (Of_so : forall r, r ∈ so -> r = rank_of (k_del s) r.1.1 /\ r.1.1 ∈ ok).
    { intros r Hr. rewrite Perm in Hr. unfold vs in Hr. apply elem_of_list_fmap in Hr as (v & -> & Hv). auto. }
    assert (Rk : forall v, (rank_of (k_del s) v).2 = last_elected s v /\ (rank_of (k_del s) v).1.2 = backing s v).
    { intros v. specialize (Hb v). unfold rank_of, last_elected, backing, cand_of in *. cbn.
      destruct (d_cand (k_del s) !! v) as [c|]; cbn; [|now rewrite size_empty].
      split; [auto|]. unfold w32. now apply N.mod_small. }
    assert (Ss : StronglySorted tie_le so).
    { unfold so. apply rsort_sorted. unfold vs.
      assert (So : StronglySorted (vkey_le cfg) ok).
      { unfold ok, validators_in_order.
        assert (Tt : Total (vkey_le cfg)) by (intros a b; unfold vkey_le; lia).
        assert (Tr : Transitive (vkey_le cfg)) by (intros a b c; unfold vkey_le; lia).
        pose proof (StronglySorted_merge_sort (vkey_le cfg) (elements (s_valid (k_stk s)))) as Q.
        revert Q. generalize (merge_sort (vkey_le cfg) (elements (s_valid (k_stk s)))). clear.
        induction 1 as [|a l S IH H]; cbn; [constructor|]. destruct (trusted _ a); [|auto].
        constructor; [auto|]. rewrite Forall_forall in *. intros b Hb. apply H.
        apply elem_of_list_In, filter_In in Hb as [Hb _]. now apply elem_of_list_In. }
      clear - So. induction So as [|a l S IH H]; cbn; [constructor|]. constructor; [auto|].
      rewrite Forall_forall in H. apply Forall_forall. intros b Hb. apply elem_of_list_fmap in Hb as (v & -> & Hv). exact (H v Hv). }
    assert (Len : length so = length vs) by now rewrite Perm.
    split; [|split; [|split]].
    - rewrite Hel. split; [|split; [|split; [|split]]].
      + rewrite <- (take_drop n so), map_app in Nd. apply NoDup_app in Nd. tauto.
      + rewrite map_length, take_length. lia.
      + intros v Hv. apply elem_of_list_fmap in Hv as (r & -> & Hr).
        apply El. apply Of_so. apply elem_of_take in Hr as (i & Hr & _). now apply elem_of_list_lookup_2 in Hr.
      + intros v w Hv Hw Hnw. apply elem_of_list_fmap in Hv as (r & -> & Hr).
        assert (Hr0 : r ∈ so) by (apply elem_of_take in Hr as (i & Hr & _); now apply elem_of_list_lookup_2 in Hr).
        apply El, In_so in Hw. rewrite <- (take_drop n so) in Hw. apply elem_of_app in Hw as [Hw|Hw].
        { exfalso. apply Hnw. apply elem_of_list_fmap. eexists. split; [|exact Hw]. reflexivity. }
        pose proof (sorted_split so n _ _ Ss Hr Hw) as R. destruct (Of_so r Hr0) as [Er _].
        unfold tie_le in R. rewrite Er in R. destruct (Rk r.1.1) as [R1 R2]. destruct (Rk w) as [R3 R4].
        rewrite R1, R2, R3, R4 in R. rewrite <- Er in R. exact R.
      + intros w Hw Hnw. apply El, In_so in Hw. rewrite <- (take_drop n so) in Hw. apply elem_of_app in Hw as [Hw|Hw].
        { exfalso. apply Hnw. apply elem_of_list_fmap. eexists. split; [|exact Hw]. reflexivity. }
        rewrite map_length, take_length. assert (Hn : (n < length so)%nat).
        { destruct (decide (n < length so)%nat); [auto|]. rewrite drop_ge in Hw by lia. inversion Hw. }
        rewrite Nat.min_l by exact (Nat.lt_le_incl _ _ Hn). unfold n. apply N2Nat.id.
    - unfold vs in Hl. rewrite map_length in Hl. exact Hl.
    - intros v. unfold last_elected. cbn [k_del set_k_era set_k_del d_cand set_d_cand].
      clear Hel. generalize (d_cand (k_del s)). clear.
      induction el as [|a l IH]; intros m; cbn [fold_left]; [now rewrite bool_decide_false by (intros H; inversion H)|].
      rewrite IH. destruct (decide (v ∈ l)) as [Hv|Hv].
      { rewrite !bool_decide_true; auto. now right. }
      rewrite (bool_decide_false (v ∈ l)) by auto. destruct (decide (a = v)) as [->|Hn].
      + rewrite lookup_insert. rewrite bool_decide_true by left. reflexivity.
      + rewrite lookup_insert_ne by auto. rewrite bool_decide_false; [reflexivity|].
        intros H. apply elem_of_cons in H as [H|H]; congruence.
    - intros v. unfold backing. cbn [k_del set_k_era set_k_del d_cand set_d_cand].
      clear Hel. generalize (d_cand (k_del s)). clear.
      induction el as [|a l IH]; intros m; cbn [fold_left]; [auto|].
      rewrite IH. destruct (decide (a = v)) as [->|Hn].
      + rewrite lookup_insert. destruct (m !! v); reflexivity.
      + now rewrite lookup_insert_ne by auto.
  Qed.

  (** A session that elects. *)
  Lemma new_session_fair s i s' ev era l :
    (forall v, backing s v < two32) -> new_session cfg s i = (s', ev) -> KElected era l ∈ ev ->
    fair_election cfg s l /\ e_cur (k_era s') = Some era /\ e_vals (k_era s') !! era = Some l /\
    era = (match e_cur (k_era s) with Some e => add32 e 1 | None => 0 end) /\
    (forall v, last_elected s' v = if bool_decide (v ∈ l) then add32 era 1 else last_elected s v).
  Proof.
    intros Hb H Hin.
    assert (G : forall s0, k_del s0 = k_del s -> k_stk s0 = k_stk s -> k_par s0 = k_par s -> e_cur (k_era s0) = e_cur (k_era s) ->
      new_era cfg s0 i = (s', ev) ->
      fair_election cfg s l /\ e_cur (k_era s') = Some era /\ e_vals (k_era s') !! era = Some l /\
      era = (match e_cur (k_era s) with Some e => add32 e 1 | None => 0 end) /\
      (forall v, last_elected s' v = if bool_decide (v ∈ l) then add32 era 1 else last_elected s v)).
    { intros s0 Ed Es Ep Ec E. unfold new_era in E. cbn zeta in E.
      set (er := match e_cur (k_era s0) with Some e => add32 e 1 | None => 0 end) in E.
      set (e2 := if _ <=? er then _ else _) in E.
      destruct (elect cfg (set_k_era s0 e2) er) as [s1 [l1|]] eqn:El.
      2: { injection E as <- <-. inversion Hin. }
      assert (C2 : e_cur e2 = Some er) by (unfold e2; now destruct (_ <=? er)).
      assert (C1 : e_cur (k_era s1) = Some er).
      { unfold elect in El. cbn zeta in El. destruct (_ <? _); [discriminate|]. injection El as <- _. exact C2. }
      apply elect_fair in El; [|unfold backing in *; cbn; now rewrite Ed].
      destruct El as (A & _ & B & _). injection E as <- <-.
      apply elem_of_list_singleton in Hin. injection Hin as -> ->.
      unfold fair_election, eligible, before, last_elected, backing in *. cbn in A, B |- *. rewrite Ed, Es, Ep in A. rewrite Ed in B.
      split; [exact A|]. split; [exact C1|]. split; [apply lookup_insert|]. split; [unfold er; now rewrite Ec|exact B]. }
    unfold new_session in H. destruct (e_cur (k_era s)) as [e|] eqn:Ec; [|apply (G s); auto].
    destruct (e_force (k_era s)).
    - destruct (_ <=? _); [apply (G s); auto|injection H as <- <-; inversion Hin].
    - revert H. apply G; auto.
    - injection H as <- <-. inversion Hin.
    - apply (G s); auto.
  Qed.
End elect.
