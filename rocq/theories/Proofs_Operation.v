(** Proofs about the operation pallet: the release loop. *)
From Verif Require Import Base Balances Proofs_Balances Model_Operation Spec_Operation.
From stdpp Require Import gmap sorting.
Open Scope N_scope.

Lemma day_day_of ms : day ms < 2 ^ 32 -> day_of ms = day ms.
Proof. intros H. unfold day_of. apply w32_small. exact H. Qed.
Lemma day_mono a b : a <= b -> day a <= day b.
Proof. intros H. unfold day. apply N.div_le_mono; [discriminate|exact H]. Qed.

(** * The iteration *)
Section iter.
  Context (cfg : ocfg).
  Notation key := (oc_key cfg).
  Definition okey_lt (p q : N * sched) : Prop := key p.1 < key q.1.

  Lemma iter_elem s c a p :
    (a, p) ∈ iter_from cfg s c <-> o_info s !! a = Some p /\ obeyond c (key a) = true.
  Proof.
    unfold iter_from. rewrite elem_of_list_filter, merge_sort_Permutation, elem_of_map_to_list. cbn. tauto.
  Qed.
  Lemma filter_ssorted {A} (R : relation A) (P : A -> Prop) `{forall x, Decision (P x)} l :
    StronglySorted R l -> StronglySorted R (filter P l).
  Proof.
    induction 1 as [|a l Hl IH Hf]; [constructor|].
    rewrite filter_cons. destruct (decide (P a)); [|exact IH]. constructor; [exact IH|].
    apply Forall_forall. intros y Hy. apply elem_of_list_filter in Hy as [_ Hy].
    rewrite Forall_forall in Hf. now apply Hf.
  Qed.
  Lemma nodup_fst_filter {B} (P : N * B -> Prop) `{forall x, Decision (P x)} (l : list (N * B)) :
    NoDup l.*1 -> NoDup (filter P l).*1.
  Proof.
    induction l as [|[a p] l IH]; [auto|]. rewrite fmap_cons. intros H1. inversion H1 as [|? ? H2 H3]; subst.
    rewrite filter_cons. case_decide; [|now apply IH]. rewrite fmap_cons. constructor; [|now apply IH].
    intros Hin. apply H2. apply elem_of_list_fmap in Hin as (q & E & Hq).
    apply elem_of_list_filter in Hq as [_ Hq]. apply elem_of_list_fmap. eauto.
  Qed.
  Lemma iter_nodup s c : NoDup (iter_from cfg s c).*1.
  Proof.
    unfold iter_from. apply nodup_fst_filter. rewrite merge_sort_Permutation. apply NoDup_fst_map_to_list.
  Qed.
  Lemma iter_sorted s c : keys_differ cfg -> StronglySorted okey_lt (iter_from cfg s c).
  Proof.
    intros Hinj.
    assert (H : StronglySorted (okey_le cfg) (iter_from cfg s c)).
    { unfold iter_from. apply filter_ssorted. apply StronglySorted_merge_sort.
      - intros p q r. unfold okey_le. lia.
      - intros p q. unfold okey_le. lia. }
    pose proof (iter_nodup s c) as Hn. revert H Hn. generalize (iter_from cfg s c). clear c s.
    induction l as [|[a p] l IH]; intros H Hn; [constructor|].
    inversion H as [|? ? H1 H2]; subst. cbn in Hn. inversion Hn as [|? ? H3 H4]; subst.
    constructor; [now apply IH|]. apply Forall_forall. intros [b q] Hb. unfold okey_lt. cbn.
    rewrite Forall_forall in H2. specialize (H2 _ Hb). unfold okey_le in H2. cbn in H2.
    assert (key a <> key b); [|lia]. intros E. apply Hinj in E as ->. apply H3.
    apply elem_of_list_fmap. now exists (b, q).
  Qed.
End iter.

(** * The loop *)
Section loop.
  Context (cfg : ocfg) (cur : N).
  Notation key := (oc_key cfg).

  Definition rel (r : sched) : N := mul128 (r_per r) (cur - r_last r).
  Definition due (l : list (N * sched)) : list (N * sched) := filter (fun p => rel p.2 <> 0) l.
  Definition bump (i : sched) : sched := Sched (r_days i) (r_moment i) (r_total i) (r_start i) cur (r_per i).
  Definition bumps (paid : list (N * sched)) (m : gmap N sched) : gmap N sched :=
    fold_left (fun m p => alter bump p.1 m) paid m.
  Definition sums (z : N) (paid : list (N * sched)) : N := fold_left (fun z p => add128 z (rel p.2)) paid z.
  Definition ends (r : sched) : bool := r_days r <=? cur - r_start r.
  Definition ended (paid : list (N * sched)) : list N := (filter (fun p => ends p.2 = true) paid).*1.
  Fixpoint mint_all (b : bank) (paid : list (N * sched)) : bank * list oev :=
    match paid with
    | [] => (b, [])
    | (w, r) :: t => let '(b1, v) := mint (oc_ed cfg) b w (rel r) in
                     let '(b2, vs) := mint_all b1 t in (b2, EReleased w v :: vs)
    end.

  Record same_rest (s s' : ostate) : Prop := {
    sr_total : o_total s' = o_total s; sr_dmax : o_dmax s' = o_dmax s; sr_smax : o_smax s' = o_smax s;
    sr_daily : o_daily s' = o_daily s; sr_out : o_out s' = o_out s; sr_in : o_in s' = o_in s;
    sr_cursor : o_cursor s' = o_cursor s; sr_day : o_day s' = o_day s; sr_fund : o_fund s' = o_fund s }.

  (** Where and why the loop stopped. *)
  Definition stops (l : list (N * sched)) (s : ostate) (daily blk : N) (paid : list (N * sched))
      (s' : ostate) (c : ocursor) (tail : list oev) : Prop :=
    (paid = due l /\ c = OOutside /\ o_end s' = true /\ tail = []) \/
    (exists l1 w r l2, l = l1 ++ (w, r) :: l2 /\ c = OKey (key w) /\ rel r <> 0 /\
      ((paid = due l1 /\ o_smax s < rel r /\ o_end s' = o_end s /\ tail = [ETooMuch w (rel r)] /\
        (paid = [] \/ (sums daily paid < o_dmax s /\ sums blk paid < o_smax s))) \/
       (paid = due l1 ++ [(w, r)] /\ tail = [] /\
        ((o_end s' = true /\ o_dmax s <= sums daily paid) \/
         (o_end s' = o_end s /\ sums daily paid < o_dmax s /\ o_smax s <= sums blk paid))))).

  Record loop_res (l : list (N * sched)) (s : ostate) (total daily blk : N)
      (s' : ostate) (total' daily' : N) (c : ocursor) (rem : list N) (evs : list oev)
      (paid : list (N * sched)) (tail : list oev) : Prop := {
    lr_same : same_rest s s';
    lr_bank : exists pe, mint_all (o_bank s) paid = (o_bank s', pe) /\ evs = pe ++ tail;
    lr_info : o_info s' = bumps paid (o_info s);
    lr_total : total' = sums total paid;
    lr_daily : daily' = sums daily paid;
    lr_rem : rem = ended paid;
    lr_small : Forall (fun p => rel p.2 <= o_smax s) paid;
    lr_before : forall p1 q p2, paid = p1 ++ q :: p2 ->
      p1 = [] \/ (sums daily p1 < o_dmax s /\ sums blk p1 < o_smax s);
    lr_stop : stops l s daily blk paid s' c tail;
  }.

  Lemma due_cons_0 w r l : rel r = 0 -> due ((w, r) :: l) = due l.
  Proof. intros H. unfold due. rewrite filter_cons, decide_False; [reflexivity|]. cbn. lia. Qed.
  Lemma due_cons_S w r l : rel r <> 0 -> due ((w, r) :: l) = (w, r) :: due l.
  Proof. intros H. unfold due. rewrite filter_cons, decide_True; [reflexivity|]. exact H. Qed.

  Lemma ended_cons w r l : ended ((w, r) :: l) = (if r_days r <=? cur - r_start r then [w] else []) ++ ended l.
  Proof.
    unfold ended. rewrite filter_cons. cbn [snd]. unfold ends. destruct (r_days r <=? cur - r_start r).
    - rewrite decide_True by reflexivity. reflexivity.
    - rewrite decide_False by discriminate. reflexivity.
  Qed.

  Lemma loop_spec l : forall s total daily blk s' total' daily' c rem evs,
    release_loop cfg cur l s total daily blk = (s', total', daily', c, rem, evs) ->
    exists paid tail, loop_res l s total daily blk s' total' daily' c rem evs paid tail.
  Proof.
    induction l as [|[w r] l IH]; intros s total daily blk s' total' daily' c rem evs H; cbn [release_loop] in H.
    - injection H as <- <- <- <- <- <-. exists [], []. split; try reflexivity.
      + split; reflexivity.
      + eexists. split; reflexivity.
      + constructor.
      + intros p1 q p2 E. now destruct p1.
      + left. repeat split.
    - fold (rel r) in H. destruct (N.eqb_spec (rel r) 0) as [E0|E0].
      { apply IH in H as (paid & tail & [L1 L2 L3 L4 L5 L6 L7 L8 L9]). exists paid, tail. split; auto.
        destruct L9 as [(Q1 & Q2 & Q3 & Q4)|(l1 & w' & r' & l2 & -> & Q2 & Q3 & Q4)].
        - left. rewrite due_cons_0 by exact E0. auto.
        - right. exists ((w, r) :: l1), w', r', l2. rewrite due_cons_0 by exact E0. auto. }
      destruct (N.ltb_spec (o_smax s) (rel r)) as [Em|Em].
      { injection H as <- <- <- <- <- <-. exists [], [ETooMuch w (rel r)]. split; try reflexivity.
        + split; reflexivity.
        + eexists. split; reflexivity.
        + constructor.
        + intros p1 q p2 E. now destruct p1.
        + right. exists [], w, r, l. split; [reflexivity|]. split; [reflexivity|]. split; [exact E0|]. left. split; [reflexivity|]. auto. }
      destruct (mint (oc_ed cfg) (o_bank s) w (rel r)) as [b v] eqn:Eb.
      cbn [o_dmax o_smax set_o_info set_o_bank o_info] in H.
      set (s1 := set_o_info (set_o_bank s b) (alter _ w (o_info s))) in H.
      assert (Hpre : forall p1 q p2, [(w, r)] = p1 ++ q :: p2 -> p1 = []).
      { intros p1 q p2 E. destruct p1 as [|? [|]]; [reflexivity|discriminate|discriminate]. }
      assert (Hbank : exists pe, mint_all (o_bank s) [(w, r)] = (b, pe) /\ [EReleased w v] = pe ++ []).
      { cbn [mint_all]. rewrite Eb. eexists. split; reflexivity. }
      destruct (N.leb_spec (o_dmax s) (add128 daily (rel r))) as [Ed|Ed].
      { injection H as <- <- <- <- <- <-. exists [(w, r)], []. split; try reflexivity; auto.
        + split; reflexivity.
        + rewrite ended_cons. unfold ended. cbn. now rewrite app_nil_r.
        + intros p1 q p2 E. left. eauto.
        + right. exists [], w, r, l. split; [reflexivity|]. split; [reflexivity|]. split; [exact E0|]. right. split; [reflexivity|]. split; [reflexivity|]. left. auto. }
      destruct (N.leb_spec (o_smax s) (add128 blk (rel r))) as [Es|Es].
      { injection H as <- <- <- <- <- <-. exists [(w, r)], []. split; try reflexivity; auto.
        + split; reflexivity.
        + rewrite ended_cons. unfold ended. cbn. now rewrite app_nil_r.
        + intros p1 q p2 E. left. eauto.
        + right. exists [], w, r, l. split; [reflexivity|]. split; [reflexivity|]. split; [exact E0|]. right. split; [reflexivity|]. split; [reflexivity|]. right. auto. }
      destruct (release_loop cfg cur l s1 (add128 total (rel r)) (add128 daily (rel r)) (add128 blk (rel r)))
        as [[[[[s2 t2] d2] c2] r2] e2] eqn:El.
      injection H as <- <- <- <- <- <-.
      apply IH in El as (paid & tail & [L1 L2 L3 L4 L5 L6 L7 L8 L9]).
      exists ((w, r) :: paid), tail. split.
      + destruct L1. split; assumption.
      + destruct L2 as (pe & E1 & ->). cbn [mint_all]. rewrite Eb. change (o_bank s1) with b in E1. rewrite E1.
        eexists. split; reflexivity.
      + rewrite L3. reflexivity.
      + exact L4.
      + exact L5.
      + rewrite L6. symmetry. apply ended_cons.
      + constructor; [exact Em|exact L7].
      + intros p1 q p2 E. destruct p1 as [|p0 p1]; [now left|]. right. cbn in E. injection E as <- E.
        cbn [sums fold_left snd]. destruct (L8 _ _ _ E) as [->|[H1 H2]]; [split; assumption|]. split; assumption.
      + unfold stops. change (o_smax s) with (o_smax s1). change (o_dmax s) with (o_dmax s1). change (o_end s) with (o_end s1).
        cbn [sums fold_left snd].
        destruct L9 as [(Q1 & Q2 & Q3 & Q4)|(l1 & w' & r' & l2 & -> & Q2 & Q3 & Q4)].
        * left. rewrite due_cons_S by exact E0. subst paid. auto.
        * right. exists ((w, r) :: l1), w', r', l2. rewrite due_cons_S by exact E0. repeat split; auto.
          destruct Q4 as [(-> & Q4 & Q5 & Q6 & Q7)|(-> & Q4)]; [left|right]; split; auto. repeat split; auto.
          right. destruct Q7 as [->|[Q7 Q8]]; split; assumption.
  Qed.
End loop.

(** * One block *)
Lemma due_in cur l p : p ∈ due cur l <-> p ∈ l /\ rel cur p.2 <> 0.
Proof. unfold due. rewrite elem_of_list_filter. tauto. Qed.
Lemma bumps_lookup cur paid : forall m w, NoDup paid.*1 ->
  bumps cur paid m !! w = if decide (w ∈ paid.*1) then bump cur <$> m !! w else m !! w.
Proof.
  induction paid as [|[a r] l IH]; intros m w Hn.
  - rewrite decide_False; [reflexivity|]. apply not_elem_of_nil.
  - cbn in Hn. inversion Hn as [|? ? H1 H2]; subst. change (bumps cur ((a, r) :: l) m) with (bumps cur l (alter (bump cur) a m)).
    rewrite (IH _ _ H2).
    destruct (decide (w = a)) as [->|Hne].
    + rewrite decide_False by exact H1. rewrite decide_True by (cbn; left). apply lookup_alter.
    + rewrite lookup_alter_ne by congruence. destruct (decide (w ∈ l.*1)) as [H|H].
      * rewrite decide_True; [reflexivity|]. cbn. now right.
      * rewrite decide_False; [reflexivity|]. cbn. rewrite not_elem_of_cons. auto.
Qed.
Lemma deletes_lookup {V} (l : list N) : forall (m : gmap N V) w,
  fold_left (fun m a => delete a m) l m !! w = if decide (w ∈ l) then None else m !! w.
Proof.
  induction l as [|a l IH]; intros m w; cbn [fold_left].
  - rewrite decide_False; [reflexivity|]. apply not_elem_of_nil.
  - rewrite IH. destruct (decide (w ∈ l)) as [H|H].
    + rewrite decide_True; [reflexivity|]. now right.
    + destruct (decide (w = a)) as [->|Hn].
      * rewrite lookup_delete, decide_True; [reflexivity|]. left.
      * rewrite lookup_delete_ne, decide_False; auto. rewrite not_elem_of_cons. auto.
Qed.

(** What a payment leaves of a schedule. *)
Definition after_pay (cur : N) (r : sched) : option sched :=
  if r_days r <=? cur - r_start r then None else Some (bump cur r).

Record block_res (cfg : ocfg) (cur : N) (s s' : ostate) (evs : list oev)
    (paid : list (N * sched)) (tail : list oev) : Prop := {
  br_nodup : NoDup paid.*1;
  br_paid : forall w r, (w, r) ∈ paid -> o_info s !! w = Some r /\ obeyond (o_cursor s) (oc_key cfg w) = true /\
              rel cur r <> 0 /\ rel cur r <= o_smax s;
  br_info : forall w, o_info s' !! w = match o_info s !! w with
              | Some r => if decide (w ∈ paid.*1) then after_pay cur r else Some r
              | None => None end;
  br_bank : exists pe, mint_all cfg cur (o_bank s) paid = (o_bank s', pe) /\ evs = pe ++ tail;
  br_total : o_total s' = sums cur (o_total s) paid;
  br_daily : o_daily s' = <[cur := sums cur (default 0 (o_daily s !! cur)) paid]> (o_daily s);
  br_before : forall p1 q p2, paid = p1 ++ q :: p2 ->
      p1 = [] \/ (sums cur (default 0 (o_daily s !! cur)) p1 < o_dmax s /\ sums cur 0 p1 < o_smax s);
  br_dmax : o_dmax s' = o_dmax s; br_smax : o_smax s' = o_smax s;
  br_out : o_out s' = o_out s; br_in : o_in s' = o_in s; br_day : o_day s' = o_day s; br_fund : o_fund s' = o_fund s;
  br_stop : stops cfg cur (iter_from cfg s (o_cursor s)) s (default 0 (o_daily s !! cur)) 0 paid s' (o_cursor s') tail;
}.
Lemma filter_sub {A} (P : A -> Prop) `{forall x, Decision (P x)} (l : list A) : sublist (filter P l) l.
Proof. induction l as [|a l IH]; [constructor|]. rewrite filter_cons. case_decide; now constructor. Qed.
Lemma stop_sub cfg cur l s d b paid s' c tail : stops cfg cur l s d b paid s' c tail -> sublist paid l.
Proof.
  intros [(-> & _)|(l1 & w & r & l2 & -> & _ & Hr & [(-> & _)|(-> & _)])].
  - unfold due. apply filter_sub.
  - unfold due. eapply (transitivity (R := sublist)); [apply filter_sub|]. apply sublist_inserts_r. reflexivity.
  - apply sublist_app; [unfold due; apply filter_sub|]. constructor. apply sublist_nil_l.
Qed.
Lemma stop_due cfg cur l s d b paid s' c tail p : stops cfg cur l s d b paid s' c tail -> p ∈ paid -> rel cur p.2 <> 0.
Proof.
  intros [(-> & _)|(l1 & w & r & l2 & -> & _ & Hr & [(-> & _)|(-> & _)])] Hp.
  - now apply due_in in Hp.
  - now apply due_in in Hp.
  - apply elem_of_app in Hp as [Hp|Hp]; [now apply due_in in Hp|]. apply elem_of_list_singleton in Hp as ->. exact Hr.
Qed.
Lemma sublist_nodup {A} (l k : list A) : sublist l k -> NoDup k -> NoDup l.
Proof.
  induction 1 as [|x l k H IH|x l k H IH]; intros Hn; [constructor| |].
  - inversion Hn as [|? ? H1 H2]; subst. constructor; [|now apply IH]. intros Hin. apply H1.
    eapply elem_of_submseteq; [exact Hin|]. now apply sublist_submseteq.
  - inversion Hn; subst. now apply IH.
Qed.
Lemma sublist_map {A B} (f : A -> B) l k : sublist l k -> sublist (f <$> l) (f <$> k).
Proof. induction 1; cbn; constructor; auto. Qed.

Lemma release_block cfg cur s s' evs :
  release cfg s cur = (s', evs) -> o_end s = false ->
  exists paid tail, block_res cfg cur s s' evs paid tail.
Proof.
  unfold release. intros H He. rewrite He in H.
  destruct (release_loop cfg cur _ s _ _ 0) as [[[[[s1 t1] d1] c1] r1] e1] eqn:El.
  apply loop_spec in El as (paid & tail & [L1 L2 L3 L4 L5 L6 L7 L8 L9]). injection H as <- <-.
  exists paid, tail.
  pose proof (stop_sub _ _ _ _ _ _ _ _ _ _ L9) as Hsub.
  assert (Hn : NoDup paid.*1).
  { eapply sublist_nodup; [eapply sublist_map; exact Hsub|]. apply iter_nodup. }
  assert (Hpaid : forall w r, (w, r) ∈ paid -> o_info s !! w = Some r /\ obeyond (o_cursor s) (oc_key cfg w) = true).
  { intros w r Hp. apply iter_elem. eapply elem_of_submseteq; [exact Hp|]. now apply sublist_submseteq. }
  destruct L1 as [R1 R2 R3 R4 R5 R6 R7 R8 R9].
  split; cbn [o_info o_bank o_total o_daily o_dmax o_smax o_out o_in o_day o_fund o_cursor o_end
    set_o_info set_o_cursor set_o_total set_o_daily]; auto.
  - intros w r Hp. destruct (Hpaid _ _ Hp) as [H1 H2]. repeat split; auto.
    + exact (stop_due _ _ _ _ _ _ _ _ _ _ _ L9 Hp).
    + rewrite Forall_forall in L7. exact (L7 _ Hp).
  - intros w. rewrite deletes_lookup, L3, bumps_lookup by exact Hn. subst r1.
    destruct (decide (w ∈ paid.*1)) as [Hw|Hw].
    + apply elem_of_list_fmap in Hw as ([w' r] & E & Hin). cbn in E. subst w'.
      destruct (Hpaid _ _ Hin) as [Hi _]. rewrite Hi. cbn [fmap option_fmap option_map]. unfold after_pay, ended.
      destruct (r_days r <=? cur - r_start r) eqn:Ee.
      * rewrite decide_True; [reflexivity|]. apply elem_of_list_fmap. exists (w, r). split; [done|].
        apply elem_of_list_filter. split; [exact Ee|exact Hin].
      * rewrite decide_False; [reflexivity|]. intros Hx. apply elem_of_list_fmap in Hx as ([w' r'] & E & Hx). cbn in E. subst w'.
        apply elem_of_list_filter in Hx as [Hx1 Hx2]. destruct (Hpaid _ _ Hx2) as [Hi' _].
        assert (r' = r) as -> by congruence. unfold ends in Hx1. cbn in Hx1. congruence.
    + rewrite decide_False; [destruct (o_info s !! w); reflexivity|].
      intros Hx. apply Hw. unfold ended in Hx. apply elem_of_list_fmap in Hx as (p & E & Hx).
      apply elem_of_list_filter in Hx as [_ Hx]. apply elem_of_list_fmap. eauto.
  - rewrite R4. now rewrite L5.
Qed.
Lemma release_ended cfg cur s : o_end s = true -> release cfg s cur = (s, []).
Proof. unfold release. now intros ->. Qed.

(** * Money of a block *)
Lemma mint_money ed b who v : forall b' p, mint ed b who v = (b', p) ->
  money b' = money b + p /\ (p = v \/ p = 0) /\ (forall w, w <> who -> acct_of b' w = acct_of b w).
Proof.
  intros b' p. unfold mint. destruct (N.eqb_spec v 0) as [->|Hv].
  { intros H. injection H as <- <-. repeat split; auto. lia. }
  destruct (is_new (acct_of b who) && (v <? ed)).
  { intros H. injection H as <- <-. repeat split; auto. lia. }
  destruct (N.leb_spec two128 (free (acct_of b who) + v)).
  { intros H0. injection H0 as <- <-. repeat split; auto. lia. }
  intros H0. injection H0 as <- <-. split; [|split; [now left|]].
  - pose proof (put_money ed b who (Acct (free (acct_of b who) + v) (rsv (acct_of b who)) (frz (acct_of b who)))) as Hm.
    cbn in Hm. pose proof (worth_le_money b who) as Hw. unfold free_of in Hw. lia.
  - intros w Hw. now apply put_acct_ne.
Qed.
