(** Votes: the lists of a tip hold what the tippers declared; the middle is the median. *)
From Verif Require Import Base Balances Model_Tips Spec_Tips.
From stdpp Require Import gmap sorting.
Open Scope N_scope.

Fixpoint look (a : N) (l : list (N * N)) : option N :=
  match l with [] => None | (b, v) :: r => if a =? b then Some v else look a r end.
Definition ordered (l : list (N * N)) : Prop := StronglySorted (fun p q => p.1 < q.1) l.

Lemma look_none l a : Forall (fun q => a < q.1) l -> look a l = None.
Proof.
  induction l as [|[b w] r IH]; intros F; [reflexivity|]. inversion F; subst. cbn in *.
  destruct (N.eqb_spec a b); [lia|]. auto.
Qed.

Lemma skip_spec a m : StronglySorted N.lt m ->
  (skip a m).1 = bool_decide (a ∈ m) /\ StronglySorted N.lt (skip a m).2 /\
  (forall b, a < b -> b ∈ (skip a m).2 <-> b ∈ m).
Proof.
  induction m as [|c r IH]; intros S; cbn.
  { split; [reflexivity|]. split; [constructor|]. tauto. }
  inversion S as [|? ? Sr F]; subst. rewrite Forall_forall in F.
  destruct (N.ltb_spec a c); cbn.
  - split. { symmetry. apply bool_decide_eq_false. rewrite elem_of_cons. intros [->|H1]; [lia|]. apply F in H1. lia. }
    split; [exact S|tauto].
  - destruct (N.ltb_spec c a).
    + destruct (IH Sr) as (H1 & H2 & H3). split; [|split; [exact H2|]].
      * rewrite H1. apply bool_decide_ext. rewrite elem_of_cons. split; [auto|intros [->|]; [lia|auto]].
      * intros b Hb. rewrite H3 by exact Hb. rewrite elem_of_cons. split; [auto|intros [->|]; [lia|auto]].
    + assert (a = c) as -> by lia. cbn. split; [symmetry; apply bool_decide_eq_true; left|].
      split; [exact Sr|]. intros b Hb. rewrite elem_of_cons. split; [auto|intros [->|]; [lia|auto]].
Qed.

Lemma filter_iff' {A} (P Q : A -> Prop) `{forall x, Decision (P x)} `{forall x, Decision (Q x)} (l : list A) :
  Forall (fun x => P x <-> Q x) l -> filter P l = filter Q l.
Proof.
  induction 1 as [|x r Hx _ IH]; [reflexivity|]. rewrite !filter_cons, IH.
  destruct (decide (P x)), (decide (Q x)); tauto.
Qed.

Lemma retain_filter l : forall m, StronglySorted N.lt m -> ordered l ->
  retain m l = filter (fun p => p.1 ∈ m) l.
Proof.
  induction l as [|[a v] r IH]; intros m Sm So; [reflexivity|]. inversion So as [|? ? Sr F]; subst.
  cbn [retain]. pose proof (skip_spec a m Sm) as (H1 & H2 & H3). destruct (skip a m) as [k m']; cbn [fst snd] in *.
  assert (E : retain m' r = filter (fun p => p.1 ∈ m) r).
  { rewrite IH by auto. apply filter_iff'. eapply Forall_impl; [exact F|]. cbn. intros p Hp. apply H3. exact Hp. }
  rewrite filter_cons. cbn [fst]. rewrite H1, E. destruct (decide (a ∈ m)); [rewrite bool_decide_true by assumption|rewrite bool_decide_false by assumption]; reflexivity.
Qed.

Lemma ordered_filter P `{forall x : N * N, Decision (P x)} l : ordered l -> ordered (filter P l).
Proof.
  induction 1 as [|p r Sr IH F]; [constructor|]. rewrite filter_cons. destruct (decide (P p)); [|exact IH].
  constructor; [exact IH|]. rewrite Forall_forall in *. intros q Hq. apply elem_of_list_filter in Hq as [_ Hq]. auto.
Qed.

Lemma look_filter a l (m : list N) : look a (filter (fun p => p.1 ∈ m) l) = if bool_decide (a ∈ m) then look a l else None.
Proof.
  induction l as [|[b v] r IH]; [cbn; now destruct (bool_decide _)|]. rewrite filter_cons. cbn [fst look].
  destruct (decide (b ∈ m)) as [H|H]; cbn [look]; destruct (N.eqb_spec a b) as [->|]; try exact IH.
  - now rewrite bool_decide_true.
  - rewrite IH. now rewrite bool_decide_false.
Qed.

Lemma vote_spec a v l : ordered l -> ordered (vote a v l) /\
  (forall b, look b (vote a v l) = if b =? a then Some v else look b l).
Proof.
  induction l as [|[c w] r IH]; intros S; cbn [vote].
  { split; [repeat constructor|]. intros b. reflexivity. }
  inversion S as [|? ? Sr F]; subst. destruct (IH Sr) as [IHo IHl].
  destruct (N.ltb_spec c a); [|destruct (N.eqb_spec c a) as [->|]].
  - split.
    + constructor; [exact IHo|]. clear IH IHo IHl S Sr. induction r as [|[d u] r IH']; cbn [vote].
      { repeat constructor. cbn. lia. }
      inversion F; subst. destruct (d <? a); [constructor; auto|]. destruct (d =? a); repeat (constructor; auto).
    + intros b. cbn [look]. rewrite IHl. destruct (N.eqb_spec b c), (N.eqb_spec b a); try lia; auto.
  - split; [constructor; [exact Sr|exact F]|]. intros b. cbn [look]. now destruct (b =? a).
  - split; [|intros b; reflexivity]. constructor; [exact S|]. constructor; [cbn; lia|].
    eapply Forall_impl; [exact F|]. cbn. intros q Hq. lia.
Qed.

(** The values kept are those of the members, in their order. *)
Lemma omap_look_cons b v r (m : list N) : b ∉ m -> omap (fun a => look a ((b, v) :: r)) m = omap (fun a => look a r) m.
Proof.
  intros H. induction m as [|c m IH]; [reflexivity|]. rewrite not_elem_of_cons in H. destruct H as [H1 H2].
  assert (E : look c ((b, v) :: r) = look c r) by (cbn; destruct (N.eqb_spec c b); [congruence|reflexivity]).
  change (omap (fun a => look a ((b, v) :: r)) (c :: m)) with
    (match look c ((b, v) :: r) with Some y => y :: omap (fun a => look a ((b, v) :: r)) m | None => omap (fun a => look a ((b, v) :: r)) m end).
  change (omap (fun a => look a r) (c :: m)) with
    (match look c r with Some y => y :: omap (fun a => look a r) m | None => omap (fun a => look a r) m end).
  rewrite E, IH by exact H2. reflexivity.
Qed.
Lemma omap_nil {A B} (f : A -> option B) (m : list A) : Forall (fun a => f a = None) m -> omap f m = [].
Proof. induction 1 as [|a m H _ IH]; [reflexivity|]. cbn. now rewrite H. Qed.
Lemma omap_ext' {A B} (f g : A -> option B) (m : list A) : (forall a, f a = g a) -> omap f m = omap g m.
Proof. intros H. induction m as [|a m IH]; [reflexivity|]. cbn. rewrite H. now destruct (g a); rewrite <- IH. Qed.
Lemma lt_nodup m : StronglySorted N.lt m -> NoDup m.
Proof.
  induction 1 as [|a m S IH F]; constructor; [|exact IH]. intros H. rewrite Forall_forall in F. apply F in H. lia.
Qed.

Lemma retain_values m l : StronglySorted N.lt m -> ordered l ->
  (snd <$> retain m l) ≡ₚ omap (fun a => look a l) m.
Proof.
  intros Sm So. rewrite retain_filter by auto. revert So.
  induction l as [|[b v] r IH]; intros So.
  { rewrite omap_nil; [reflexivity|]. apply Forall_true. reflexivity. }
  inversion So as [|? ? Sr F]; subst. specialize (IH Sr). rewrite filter_cons. cbn [fst].
  assert (Hb : look b r = None) by (apply look_none; exact F).
  destruct (decide (b ∈ m)) as [H|H].
  - rewrite fmap_cons. cbn [snd]. rewrite IH. clear IH. apply elem_of_list_split in H as (m1 & m2 & ->).
    apply lt_nodup in Sm. rewrite NoDup_app in Sm. destruct Sm as (_ & N1 & N2). apply NoDup_cons in N2 as [N2 _].
    assert (N3 : b ∉ m1) by (intros H; apply (N1 _ H); left).
    rewrite !omap_app. rewrite omap_look_cons by exact N3.
    assert (E1 : omap (fun a => look a r) (b :: m2) = omap (fun a => look a r) m2) by (cbn; now rewrite Hb).
    assert (E2 : omap (fun a => look a ((b, v) :: r)) (b :: m2) = v :: omap (fun a => look a ((b, v) :: r)) m2)
      by (cbn; now rewrite N.eqb_refl).
    rewrite E1, E2, omap_look_cons by exact N2. apply Permutation_middle.
  - rewrite omap_look_cons by exact H. exact IH.
Qed.

(** The middle entry of the sorted list is the median. *)
Lemma vins_perm p l : vins p l ≡ₚ p :: l.
Proof. induction l as [|q r IH]; [reflexivity|]. cbn. destruct (_ <=? _); [reflexivity|]. rewrite IH. apply perm_swap. Qed.
Lemma vsort_perm l : vsort l ≡ₚ l.
Proof. induction l as [|p r IH]; [reflexivity|]. cbn. rewrite vins_perm. now f_equiv. Qed.
Lemma vins_sorted p l : StronglySorted N.le (snd <$> l) -> StronglySorted N.le (snd <$> vins p l).
Proof.
  induction l as [|q r IH]; cbn; intros S; [repeat constructor|]. inversion S as [|? ? Sr F]; subst.
  destruct (N.leb_spec p.2 q.2); cbn.
  - constructor; [exact S|]. constructor; [lia|]. eapply Forall_impl; [exact F|]. cbn. intros z Hz. lia.
  - constructor; [auto|]. rewrite vins_perm. cbn. constructor; [lia|exact F].
Qed.
Lemma vsort_sorted l : StronglySorted N.le (snd <$> vsort l).
Proof. induction l as [|p r IH]; [constructor|]. cbn. now apply vins_sorted. Qed.

Lemma sorted_split l : forall i v, StronglySorted N.le l -> l !! i = Some v ->
  (length (filter (fun x => (x < v)%N) l) <= i)%nat /\ (i < length (filter (fun x => (x <= v)%N) l))%nat.
Proof.
  induction l as [|a r IH]; intros i v S H; [discriminate|]. inversion S as [|? ? Sr F]; subst.
  rewrite !filter_cons. destruct i as [|i]; cbn in H.
  - injection H as ->. rewrite decide_False by lia. rewrite decide_True by lia. cbn. split; [|lia].
    assert (E : filter (fun x => (x < v)%N) r = []); [|rewrite E; reflexivity].
    clear -F. induction F as [|z r Hz _ IH]; [reflexivity|]. rewrite filter_cons, decide_False by lia. exact IH.
  - destruct (IH i v Sr H) as [H1 H2]. rewrite Forall_forall in F. pose proof (F v (elem_of_list_lookup_2 _ _ _ H)).
    rewrite (decide_True (P := (a <= v)%N)) by lia. cbn. destruct (decide (a < v)); cbn; lia.
Qed.
Lemma median_perm v l l' : l ≡ₚ l' -> is_median v l -> is_median v l'.
Proof. intros P H. unfold is_median in *. rewrite <- P. exact H. Qed.
Lemma middle_median m l : StronglySorted N.lt m -> ordered l ->
  match middle m l with
  | Some v => is_median v (omap (fun a => look a l) m)
  | None => omap (fun a => look a l) m = []
  end.
Proof.
  intros Sm So. pose proof (retain_values m l Sm So) as P. unfold middle.
  set (k := vsort (retain m l)) in *.
  assert (P2 : (snd <$> k) ≡ₚ omap (fun a => look a l) m).
  { rewrite <- P. unfold k. now rewrite vsort_perm. }
  destruct (k !! (length k / 2)%nat) as [[a v]|] eqn:E; cbn.
  - apply (median_perm _ (snd <$> k)); [exact P2|].
    assert (E' : (snd <$> k) !! (length k / 2)%nat = Some v) by (rewrite list_lookup_fmap, E; reflexivity).
    destruct (sorted_split _ _ _ (vsort_sorted _) E'). unfold is_median. rewrite fmap_length.
    split; [|auto]. eapply elem_of_list_lookup_2; exact E'.
  - apply lookup_ge_None in E. destruct k as [|p r]; [|cbn [length] in E; pose proof (Nat.div_lt (S (length r)) 2); lia].
    cbn in P2. symmetry in P2. now apply Permutation_nil_r in P2.
Qed.
(** There is only one. *)
Lemma count_le v w l : v < w -> (length (filter (fun x => (x <= v)%N) l) <= length (filter (fun x => (x < w)%N) l))%nat.
Proof.
  intros H. induction l as [|a r IH]; [cbn; lia|]. rewrite !filter_cons.
  destruct (decide (a <= v)); [rewrite decide_True by lia; cbn; lia|]. destruct (decide (a < w)); cbn; lia.
Qed.
Lemma median_unique v w l : is_median v l -> is_median w l -> v = w.
Proof.
  intros (_ & H1 & H2) (_ & H3 & H4). destruct (N.lt_total v w) as [H|[H|H]]; [|exact H|];
    [pose proof (count_le v w l H)|pose proof (count_le w v l H)]; lia.
Qed.
