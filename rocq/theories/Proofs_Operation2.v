(** Histories of the operation pallet. *)
From Verif Require Import Base Balances Proofs_Balances Model_Operation Spec_Operation Proofs_Operation.
From stdpp Require Import gmap sorting.
Open Scope N_scope.

Ltac break_match :=
  repeat match goal with
  | H : context [match ?x with _ => _ end] |- _ => destruct x eqn:?; try discriminate
  end.

(** * Operations other than the end of a block *)
Definition not_release (e : oev) : Prop := match e with EReleased _ _ => False | _ => True end.
Lemma releases_none t evs : Forall not_release evs -> releases (map (fun e => (t, e)) evs) = [].
Proof. induction 1 as [|e l H1 H2 IH]; [reflexivity|]. destruct e; try contradiction; exact IH. Qed.
Lemma payments_none t w evs : Forall not_release evs -> payments w (map (fun e => (t, e)) evs) = [].
Proof. induction 1 as [|e l H1 H2 IH]; [reflexivity|]. destruct e; try contradiction; exact IH. Qed.
Lemma paid_on_none t d evs : Forall not_release evs -> paid_on d (map (fun e => (t, e)) evs) = 0.
Proof. induction 1 as [|e l H1 H2 IH]; [reflexivity|]. destruct e; try contradiction; exact IH. Qed.
Lemma paid_out_none t evs : Forall not_release evs -> paid_out (map (fun e => (t, e)) evs) = 0.
Proof. induction 1 as [|e l H1 H2 IH]; [reflexivity|]. destruct e; try contradiction; exact IH. Qed.

Record call_same (s s' : ostate) : Prop := {
  cs_total : o_total s' = o_total s; cs_daily : o_daily s' = o_daily s; cs_cursor : o_cursor s' = o_cursor s;
  cs_day : o_day s' = o_day s; cs_end : o_end s' = o_end s }.
Definition edits (op : oop) (s s' : ostate) : Prop :=
  o_info s' = o_info s \/
  (exists x o w d m t, op = (x, inl (o, OUnstake w d m t)) /\
     o_info s' = <[w := Sched d m t (day_of m) (day_of m) (t / d)]> (o_info s)) \/
  (exists x o l, op = (x, inl (o, ORemoveInfo l)) /\ o_info s' = fold_left (fun m a => delete a m) l (o_info s)).
Definition limits_same (op : oop) (s s' : ostate) : Prop :=
  (o_smax s' = o_smax s /\ o_dmax s' = o_dmax s) \/
  (exists x o a b, op = (x, inl (o, OSetLimits a b)) /\ o_smax s' = a /\ o_dmax s' = b).

Definition op_cases (cfg : ocfg) (s : ostate) (op : oop) (s' : ostate) (evs : list oev) : Prop :=
  (is_block op = true /\ (s', evs) = on_finalize cfg s op.1) \/
  (is_block op = false /\ call_same s s' /\ Forall not_release evs /\ edits op s s' /\ limits_same op s s').
Lemma odo_cases cfg s op s' evs : odo cfg s op = (s', evs) -> op_cases cfg s op s' evs.
Proof.
  destruct op as [x [[o c]|e]]; unfold odo, op_cases, is_block, edits, limits_same; cbn [fst snd]; intros H.
  - right. unfold ostep in H. destruct (oexec cfg s x o c) as [[s1 e1]|e|] eqn:E; injection H as <- <-.
    2-3: repeat split; auto.
    destruct c; cbn [oexec] in E;
      unfold signed, root, do_unstake, do_burn, do_bridge_out, do_bridge_in, do_unlock, ensure, rbind in E;
      break_match;
      repeat match goal with
      | H : ROk _ = ROk _ |- _ => injection H as <- <- || injection H as <-
      end; cbn; (split; [done|]; split; [split; reflexivity|]; split; [now repeat constructor|]);
      split; auto; try (right; left; do 6 eexists; split; reflexivity);
      try (right; right; do 3 eexists; split; reflexivity); try (right; do 4 eexists; repeat split; reflexivity).
  - destruct e; [left; split; [done|]; congruence|right].
    injection H as <- <-. repeat split; auto.
Qed.

(** * One block *)
Lemma new_day_state cfg s x s' evs :
  on_finalize cfg s x = (s', evs) -> o_day s < day_of (ox_time x) ->
  evs = [] /\ s' = set_o_cursor (set_o_end (set_o_day s (day_of (ox_time x))) false) OPrefix.
Proof.
  unfold on_finalize. intros H Hlt. apply N.ltb_lt in Hlt. rewrite Hlt in H. injection H as <- <-. auto.
Qed.
Lemma old_day_state cfg s x : day_of (ox_time x) <= o_day s -> on_finalize cfg s x = release cfg s (day_of (ox_time x)).
Proof. intros H. unfold on_finalize. apply N.ltb_ge in H. now rewrite H. Qed.

(** Events of a block. *)
Lemma mint_all_events cfg cur t paid : forall b b' pe, mint_all cfg cur b paid = (b', pe) ->
  releases (map (fun e => (t, e)) pe) = map (fun w => (day t, w)) paid.*1 /\
  money b' = money b + paid_out (map (fun e => (t, e)) pe).
Proof.
  induction paid as [|[w r] l IH]; intros b b' pe H; cbn [mint_all] in H.
  - injection H as <- <-. cbn. split; [done|]. unfold paid_out. cbn. lia.
  - destruct (mint (oc_ed cfg) b w (rel cur r)) as [b1 v] eqn:E.
    destruct (mint_all cfg cur b1 l) as [b2 vs] eqn:El. injection H as <- <-.
    destruct (IH _ _ _ El) as [H1 H2]. apply mint_money in E as (E1 & _). split.
    + cbn. f_equal. exact H1.
    + unfold paid_out in *. cbn. cbn in H2. lia.
Qed.
Lemma mint_all_payments cfg cur t w paid : forall b b' pe, mint_all cfg cur b paid = (b', pe) -> NoDup paid.*1 ->
  (w ∉ paid.*1 -> payments w (map (fun e => (t, e)) pe) = []) /\
  (forall r, (w, r) ∈ paid -> exists v, payments w (map (fun e => (t, e)) pe) = [(day t, v)] /\ (v = rel cur r \/ v = 0)).
Proof.
  induction paid as [|[a r0] l IH]; intros b b' pe H Hn; cbn [mint_all] in H.
  - injection H as <- <-. cbn. split; [done|]. intros r Hr. now apply elem_of_nil in Hr.
  - destruct (mint (oc_ed cfg) b a (rel cur r0)) as [b1 v] eqn:E.
    destruct (mint_all cfg cur b1 l) as [b2 vs] eqn:El. injection H as <- <-.
    cbn in Hn. inversion Hn as [|? ? Hn1 Hn2]; subst.
    destruct (IH _ _ _ El Hn2) as [H1 H2]. apply mint_money in E as (_ & E1 & _).
    unfold payments in *. cbn [map omap list_omap fst snd].
    destruct (N.eqb_spec a w) as [->|Hne].
    + rewrite H1 by exact Hn1. split.
      * intros Hx. exfalso. apply Hx. cbn. left.
      * intros r Hr. apply elem_of_cons in Hr as [Hr|Hr]; [injection Hr as ->; eauto|].
        exfalso. apply Hn1. apply elem_of_list_fmap. now exists (w, r).
    + split.
      * intros Hx. apply H1. cbn in Hx. rewrite not_elem_of_cons in Hx. tauto.
      * intros r Hr. apply elem_of_cons in Hr as [Hr|Hr]; [congruence|]. now apply H2.
Qed.
Lemma tail_not_release cfg cur l s d b paid s' c tail : stops cfg cur l s d b paid s' c tail -> Forall not_release tail.
Proof.
  intros [(_ & _ & _ & ->)|(l1 & w & r & l2 & _ & _ & _ & [(_ & _ & _ & -> & _)|(_ & -> & _)])]; repeat constructor.
Qed.
Lemma releases_app a b : releases (a ++ b) = releases a ++ releases b.
Proof. apply omap_app. Qed.
Lemma payments_app w a b : payments w (a ++ b) = payments w a ++ payments w b.
Proof. apply omap_app. Qed.
Lemma paid_on_app d a b : paid_on d (a ++ b) = paid_on d a + paid_on d b.
Proof. unfold paid_on. rewrite omap_app, lsum_app. reflexivity. Qed.
Lemma paid_out_app a b : paid_out (a ++ b) = paid_out a + paid_out b.
Proof. unfold paid_out. rewrite omap_app, lsum_app. reflexivity. Qed.
Lemma paid_to_app w a b : paid_to w (a ++ b) = paid_to w a + paid_to w b.
Proof. unfold paid_to. rewrite payments_app, map_app, lsum_app. reflexivity. Qed.

Lemma block_events cfg cur s s' evs paid tail t :
  block_res cfg cur s s' evs paid tail ->
  releases (map (fun e => (t, e)) evs) = map (fun w => (day t, w)) paid.*1 /\
  money (o_bank s') = money (o_bank s) + paid_out (map (fun e => (t, e)) evs).
Proof.
  intros B. destruct (br_bank _ _ _ _ _ _ _ B) as (pe & E1 & ->).
  pose proof (tail_not_release _ _ _ _ _ _ _ _ _ _ (br_stop _ _ _ _ _ _ _ B)) as Ht.
  destruct (mint_all_events _ _ t _ _ _ _ E1) as [H1 H2].
  rewrite map_app, releases_app, paid_out_app, (releases_none t tail), (paid_out_none t tail) by exact Ht.
  rewrite app_nil_r, N.add_0_r. auto.
Qed.
Lemma block_payments cfg cur s s' evs paid tail t w :
  block_res cfg cur s s' evs paid tail ->
  (w ∉ paid.*1 -> payments w (map (fun e => (t, e)) evs) = []) /\
  (forall r, (w, r) ∈ paid -> exists v, payments w (map (fun e => (t, e)) evs) = [(day t, v)] /\ (v = rel cur r \/ v = 0)).
Proof.
  intros B. destruct (br_bank _ _ _ _ _ _ _ B) as (pe & E1 & ->).
  pose proof (tail_not_release _ _ _ _ _ _ _ _ _ _ (br_stop _ _ _ _ _ _ _ B)) as Ht.
  rewrite map_app, payments_app, (payments_none _ _ tail) by exact Ht. rewrite app_nil_r.
  eapply mint_all_payments; [exact E1|]. exact (br_nodup _ _ _ _ _ _ _ B).
Qed.

(** The cursor moves forward over everything served. *)
Definition pending (cfg : ocfg) (s : ostate) (w : N) : bool :=
  negb (o_end s) && obeyond (o_cursor s) (oc_key cfg w).

Lemma sorted_split cfg l1 p l2 q :
  StronglySorted (okey_lt cfg) (l1 ++ p :: l2) -> q ∈ l1 -> oc_key cfg q.1 < oc_key cfg p.1.
Proof.
  induction l1 as [|a l1 IH]; intros Hs Hq; [now apply elem_of_nil in Hq|].
  cbn in Hs. inversion Hs as [|? ? H1 H2]; subst. apply elem_of_cons in Hq as [->|Hq]; [|now apply IH].
  rewrite Forall_forall in H2. apply (H2 p). apply elem_of_app. right. left.
Qed.
Lemma block_pending cfg cur s s' evs paid tail :
  keys_differ cfg -> o_end s = false -> block_res cfg cur s s' evs paid tail ->
  (forall w, w ∈ paid.*1 -> pending cfg s w = true /\ pending cfg s' w = false) /\
  (forall w, pending cfg s' w = true -> pending cfg s w = true).
Proof.
  intros Hinj He B. pose proof (br_stop _ _ _ _ _ _ _ B) as Hst.
  pose proof (iter_sorted cfg s (o_cursor s) Hinj) as Hsort. unfold pending. rewrite He. cbn [negb andb].
  assert (Hpaid : forall w, w ∈ paid.*1 -> obeyond (o_cursor s) (oc_key cfg w) = true).
  { intros w Hw. apply elem_of_list_fmap in Hw as ([w' r] & E & Hin). cbn in E. subst w'.
    now destruct (br_paid _ _ _ _ _ _ _ B _ _ Hin) as (_ & H & _). }
  destruct Hst as [(-> & _ & He' & _)|(l1 & w0 & r0 & l2 & El & Ec & _ & Hc)].
  - rewrite He'. cbn. split; [auto|discriminate].
  - assert (Hw0 : obeyond (o_cursor s) (oc_key cfg w0) = true).
    { apply (iter_elem cfg s (o_cursor s) w0 r0). rewrite El. apply elem_of_app. right. left. }
    rewrite Ec. cbn [obeyond]. split.
    + intros w Hw. split; [auto|]. apply andb_false_iff. right. apply N.ltb_ge.
      rewrite El in Hsort. apply elem_of_list_fmap in Hw as ([w' r] & E & Hin). cbn in E. subst w'.
      destruct Hc as [(-> & _)|(-> & _)].
      * apply due_in in Hin as [Hin _]. pose proof (sorted_split _ _ _ _ _ Hsort Hin). cbn in *. lia.
      * apply elem_of_app in Hin as [Hin|Hin].
        -- apply due_in in Hin as [Hin _]. pose proof (sorted_split _ _ _ _ _ Hsort Hin). cbn in *. lia.
        -- apply elem_of_list_singleton in Hin. injection Hin as -> ->. lia.
    + intros w Hw. apply andb_true_iff in Hw as [_ Hw]. apply N.ltb_lt in Hw.
      destruct (o_cursor s); cbn in *; [auto| |discriminate]. apply N.ltb_lt in Hw0. apply N.ltb_lt. lia.
Qed.

(** * C46: at most once a day *)
Lemma released_once cfg : keys_differ cfg -> forall h s t,
  o_day s <= day t -> chrono t h ->
  NoDup (releases (snd (orun cfg s h))) /\
  forall d w, (d, w) ∈ releases (snd (orun cfg s h)) ->
    o_day s <= d /\ (d = o_day s -> pending cfg s w = true).
Proof.
  intros Hinj. induction h as [|op r IH]; intros s t Hd Hc.
  - cbn. split; [constructor|]. intros d w H. now apply elem_of_nil in H.
  - cbn [chrono] in Hc. destruct Hc as (Ht & Hfit & Hc). cbn [orun].
    destruct (odo cfg s op) as [s1 evs] eqn:E. destruct (orun cfg s1 r) as [s2 out] eqn:Er.
    pose proof (day_mono _ _ Ht) as Hdm. cbn [snd]. rewrite releases_app.
    apply odo_cases in E as [[_ E]|(_ & E1 & E2 & _)].
    + destruct (N.lt_ge_cases (o_day s) (day_of (ox_time op.1))) as [Hn|Hn].
      * symmetry in E. apply new_day_state in E as (-> & E); [|done]. rewrite day_day_of in E, Hn by done.
        destruct (IH s1 (ox_time op.1)) as [I1 I2]; [subst s1; cbn; lia|done|]. rewrite Er in I1, I2. cbn [snd] in I1, I2.
        cbn [map releases omap list_omap app]. split; [done|]. intros d w Hw. apply I2 in Hw as [Hw _].
        subst s1. cbn in Hw. split; [lia|]. intros ->. lia.
      * rewrite old_day_state in E by done. rewrite day_day_of in E, Hn by done.
        destruct (o_end s) eqn:He.
        -- rewrite release_ended in E by done. injection E as -> ->. cbn [map releases omap list_omap app].
           destruct (IH s (ox_time op.1)) as [I1 I2]; [lia|done|]. rewrite Er in I1, I2. cbn [snd] in I1, I2. auto.
        -- symmetry in E. apply release_block in E as (paid & tail & B); [|done].
           destruct (block_events _ _ _ _ _ _ _ (ox_time op.1) B) as [Hev _]. rewrite Hev.
           destruct (block_pending _ _ _ _ _ _ _ Hinj He B) as [P1 P2].
           assert (Hday : o_day s1 = o_day s) by exact (br_day _ _ _ _ _ _ _ B).
           destruct (IH s1 (ox_time op.1)) as [I1 I2]; [lia|done|]. rewrite Er in I1, I2. cbn [snd] in I1, I2.
           rewrite Hday in I2. split.
           ++ apply NoDup_app. split; [|split; [|done]].
              ** apply NoDup_fmap_2; [intros a b Eab; congruence|]. exact (br_nodup _ _ _ _ _ _ _ B).
              ** intros [d w] H1 H2. apply elem_of_list_fmap in H1 as (a & Ea & Ha). injection Ea as -> ->.
                 apply P1 in Ha as [_ Ha]. apply I2 in H2 as [_ H2]. rewrite H2 in Ha; [discriminate|lia].
           ++ intros d w Hw. apply elem_of_app in Hw as [Hw|Hw].
              ** apply elem_of_list_fmap in Hw as (a & Ea & Ha). injection Ea as -> ->. split; [lia|].
                 intros _. now apply P1.
              ** apply I2 in Hw as [H1 H2]. split; [done|]. intros Hd'. apply P2. now apply H2.
    + rewrite releases_none by done. cbn [app]. destruct E1 as [_ _ C1 C2 C3].
      destruct (IH s1 (ox_time op.1)) as [I1 I2]; [lia|done|]. rewrite Er in I1, I2. cbn [snd] in I1, I2.
      unfold pending in *. rewrite C1, C2, C3 in I2. auto.
Qed.

(** * C45: limits *)
Lemma sums_snoc cur z p q : sums cur z (p ++ [q]) = add128 (sums cur z p) (rel cur q.2).
Proof. unfold sums. now rewrite fold_left_app. Qed.
Definition rels (cur : N) (paid : list (N * sched)) : N := lsum (map (fun p => rel cur p.2) paid).
Lemma rels_snoc cur p q : rels cur (p ++ [q]) = rels cur p + rel cur q.2.
Proof. unfold rels. rewrite map_app, lsum_app. cbn. lia. Qed.
Lemma sums_exact cur z L S paid :
  z <= L -> L + S < two128 -> Forall (fun p => rel cur p.2 <= S) paid ->
  (forall p1 q p2, paid = p1 ++ q :: p2 -> p1 = [] \/ sums cur z p1 <= L) ->
  sums cur z paid = z + rels cur paid /\ sums cur z paid <= L + S.
Proof.
  intros Hz Hlim. induction paid as [|q p IH] using rev_ind; intros Hs Hb.
  - unfold rels. cbn. split; lia.
  - apply Forall_app in Hs as [Hs Hq]. apply Forall_cons in Hq as [Hq _].
    destruct IH as [I1 I2]; [done|intros p1 q' p2 E; apply (Hb p1 q' (p2 ++ [q])); rewrite E, <- app_assoc; reflexivity|].
    assert (H : sums cur z p <= L) by (destruct (Hb p q [] eq_refl) as [->|H]; [cbn; lia|exact H]).
    rewrite sums_snoc, rels_snoc. unfold add128. rewrite w128_small by lia. lia.
Qed.
Lemma mint_all_le cfg cur t d paid : forall b b' pe, mint_all cfg cur b paid = (b', pe) ->
  paid_on d (map (fun e => (t, e)) pe) <= (if day t =? d then rels cur paid else 0) /\
  paid_out (map (fun e => (t, e)) pe) <= rels cur paid.
Proof.
  induction paid as [|[w r] l IH]; intros b b' pe H; cbn [mint_all] in H.
  - injection H as <- <-. unfold paid_on, paid_out, rels. cbn. destruct (day t =? d); lia.
  - destruct (mint (oc_ed cfg) b w (rel cur r)) as [b1 v] eqn:E.
    destruct (mint_all cfg cur b1 l) as [b2 vs] eqn:El. injection H as <- <-.
    destruct (IH _ _ _ El) as [H1 H2]. apply mint_money in E as (_ & E & _).
    unfold paid_on, paid_out, rels in *. cbn [map omap list_omap fst snd lsum].
    destruct (day t =? d); cbn [lsum]; lia.
Qed.
Lemma rels_single cfg cur b b' pe paid : mint_all cfg cur b paid = (b', pe) ->
  forall w v, EReleased w v ∈ pe -> exists r, (w, r) ∈ paid /\ (v = rel cur r \/ v = 0).
Proof.
  revert b b' pe. induction paid as [|[a r] l IH]; intros b b' pe H w v Hin; cbn [mint_all] in H.
  - injection H as <- <-. now apply elem_of_nil in Hin.
  - destruct (mint (oc_ed cfg) b a (rel cur r)) as [b1 v1] eqn:E.
    destruct (mint_all cfg cur b1 l) as [b2 vs] eqn:El. injection H as <- <-.
    apply elem_of_cons in Hin as [Hin|Hin].
    + injection Hin as -> ->. apply mint_money in E as (_ & E & _). exists r. split; [left|exact E].
    + destruct (IH _ _ _ El _ _ Hin) as (r' & H1 & H2). exists r'. split; [now right|exact H2].
Qed.

(** Daily totals under limits [D] and [S]. *)
Definition daily_of (s : ostate) (d : N) : N := default 0 (o_daily s !! d).
Record within (S D : N) (s : ostate) : Prop := {
  wi_s : o_smax s <= S; wi_d : o_dmax s <= D;
  wi_daily : forall d, daily_of s d <= (D - 1) + S;
  wi_open : o_end s = false -> daily_of s (o_day s) <= D - 1;
  wi_later : forall d, o_day s < d -> daily_of s d = 0 }.

Lemma daily_run cfg S D : (D - 1) + S < two128 -> forall h s t,
  within S D s -> o_day s <= day t -> chrono t h -> Forall (limits_within S D) h ->
  within S D (fst (orun cfg s h)) /\
  forall d, daily_of s d + paid_on d (snd (orun cfg s h)) <= daily_of (fst (orun cfg s h)) d.
Proof.
  intros Hlim. induction h as [|op r IH]; intros s t W Hd Hc HL.
  - cbn. split; [done|]. intros d. unfold paid_on. cbn. lia.
  - cbn [chrono] in Hc. destruct Hc as (Ht & Hfit & Hc). apply Forall_cons in HL as [HL0 HL]. cbn [orun].
    destruct (odo cfg s op) as [s1 evs] eqn:E. pose proof (day_mono _ _ Ht) as Hdm.
    enough (H : within S D s1 /\ o_day s1 <= day (ox_time op.1) /\
      forall d, daily_of s d + paid_on d (map (fun e => (ox_time op.1, e)) evs) <= daily_of s1 d).
    { destruct H as (H1 & H2 & H3). destruct (IH s1 (ox_time op.1) H1 H2 Hc HL) as [I1 I2].
      destruct (orun cfg s1 r) as [s2 out]. cbn [fst snd] in *. split; [done|]. intros d. rewrite paid_on_app.
      specialize (H3 d). specialize (I2 d). lia. }
    destruct W as [W1 W2 W3 W4 W5].
    apply odo_cases in E as [[_ E]|(_ & E1 & E2 & _ & E3)].
    + destruct (N.lt_ge_cases (o_day s) (day_of (ox_time op.1))) as [Hn|Hn].
      * symmetry in E. apply new_day_state in E as (-> & ->); [|done]. rewrite day_day_of in * by done.
        split; [|split].
        -- split; cbn; auto. { intros _. change (daily_of _ _) with (daily_of s (day (ox_time op.1))). rewrite W5; lia. }
           intros d Hdd. change (daily_of _ _) with (daily_of s d). apply W5. lia.
        -- cbn. lia.
        -- intros d. change (daily_of (set_o_cursor _ _) d) with (daily_of s d). unfold paid_on. cbn. lia.
      * rewrite old_day_state in E by done. rewrite day_day_of in E, Hn by done.
        destruct (o_end s) eqn:He.
        -- rewrite release_ended in E by done. injection E as -> ->. split; [split; auto; congruence|]. split; [lia|].
           intros d. unfold paid_on. cbn. lia.
        -- symmetry in E. apply release_block in E as (paid & tail & B); [|done].
           assert (Hcur : day (ox_time op.1) = o_day s) by lia. rewrite Hcur in B.
           assert (Hz : daily_of s (o_day s) <= D - 1) by (now apply W4).
           assert (Hb : forall p1 q p2, paid = p1 ++ q :: p2 -> p1 = [] \/ sums (o_day s) (daily_of s (o_day s)) p1 <= D - 1).
           { intros p1 q p2 Ep. destruct (br_before _ _ _ _ _ _ _ B _ _ _ Ep) as [H|[H _]]; [now left|right].
             fold (daily_of s (o_day s)) in H. lia. }
           assert (Hsm : Forall (fun p => rel (o_day s) p.2 <= S) paid).
           { apply Forall_forall. intros [w r0] Hp. destruct (br_paid _ _ _ _ _ _ _ B _ _ Hp) as (_ & _ & _ & H). cbn. lia. }
           destruct (sums_exact _ _ _ _ _ Hz Hlim Hsm Hb) as [X1 X2].
           assert (Hdaily : forall d, daily_of s1 d =
                     if decide (d = o_day s) then sums (o_day s) (daily_of s (o_day s)) paid else daily_of s d).
           { intros d. unfold daily_of at 1. rewrite (br_daily _ _ _ _ _ _ _ B).
             destruct (decide (d = o_day s)) as [->|Hne]; [now rewrite lookup_insert|rewrite lookup_insert_ne by congruence; reflexivity]. }
           split; [|split].
           ++ split.
              ** rewrite (br_smax _ _ _ _ _ _ _ B). exact W1.
              ** rewrite (br_dmax _ _ _ _ _ _ _ B). exact W2.
              ** intros d. rewrite Hdaily. destruct (decide _); [lia|auto].
              ** rewrite (br_day _ _ _ _ _ _ _ B), Hdaily, decide_True by done. intros He'.
                 destruct (br_stop _ _ _ _ _ _ _ B) as [(_ & _ & He'' & _)|(l1 & w & r0 & l2 & _ & _ & _ & [(_ & _ & _ & _ & H)|(_ & _ & [[H _]|(_ & H & _)])])];
                   [congruence| |congruence|].
                 --- destruct H as [->|[H _]]; [cbn; lia|]. fold (daily_of s (o_day s)) in H. lia.
                 --- fold (daily_of s (o_day s)) in H. lia.
              ** rewrite (br_day _ _ _ _ _ _ _ B). intros d Hdd. rewrite Hdaily, decide_False by lia. now apply W5.
           ++ rewrite (br_day _ _ _ _ _ _ _ B). lia.
           ++ intros d. destruct (br_bank _ _ _ _ _ _ _ B) as (pe & E1 & ->).
              pose proof (tail_not_release _ _ _ _ _ _ _ _ _ _ (br_stop _ _ _ _ _ _ _ B)) as Htl.
              rewrite map_app, paid_on_app, (paid_on_none _ _ tail) by done.
              destruct (mint_all_le _ _ (ox_time op.1) d _ _ _ _ E1) as [H1 _]. rewrite Hdaily, Hcur in *.
              destruct (decide (d = o_day s)) as [->|Hne].
              ** rewrite N.eqb_refl in H1. lia.
              ** destruct (N.eqb_spec (o_day s) d); [congruence|]. lia.
    + destruct E1 as [C1 C2 C3 C4 C5].
      assert (Hdd : forall d, daily_of s1 d = daily_of s d) by (intros d; unfold daily_of; now rewrite C2).
      split; [|split].
      * split.
        -- destruct E3 as [[-> _]|(x & o & a & b & -> & -> & _)]; [done|]. now destruct HL0.
        -- destruct E3 as [[_ ->]|(x & o & a & b & -> & _ & ->)]; [done|]. now destruct HL0.
        -- intros d. now rewrite Hdd.
        -- rewrite C4, C5, Hdd. exact W4.
        -- rewrite C4. intros d. rewrite Hdd. apply W5.
      * lia.
      * intros d. rewrite paid_on_none, Hdd by done. lia.
Qed.

(** * C44 and C46: one schedule *)
Lemma deletes_other {V} (l : list N) (m : gmap N V) w :
  fold_left (fun m a => delete a m) l m !! w = None \/ fold_left (fun m a => delete a m) l m !! w = m !! w.
Proof. rewrite deletes_lookup. case_decide; auto. Qed.
Lemma edits_keep op s s' w : edits op s s' -> ~ schedules w op -> o_info s' !! w = None \/ o_info s' !! w = o_info s !! w.
Proof.
  intros [->|[(x & o & a & d & m & t & -> & ->)|(x & o & l & -> & ->)]] Hs; auto.
  - right. rewrite lookup_insert_ne; [reflexivity|]. intros ->. apply Hs. reflexivity.
  - apply deletes_other.
Qed.

(** An account without schedule is not paid. *)
Lemma nothing_due cfg w : forall h s, o_info s !! w = None -> Forall (fun op => ~ schedules w op) h ->
  payments w (snd (orun cfg s h)) = [].
Proof.
  induction h as [|op r IH]; intros s Hi Hs; [reflexivity|]. apply Forall_cons in Hs as [Hs0 Hs]. cbn [orun].
  destruct (odo cfg s op) as [s1 evs] eqn:E.
  enough (H : o_info s1 !! w = None /\ payments w (map (fun e => (ox_time op.1, e)) evs) = []).
  { destruct H as [H1 H2]. specialize (IH s1 H1 Hs). destruct (orun cfg s1 r) as [s2 out]. cbn [snd] in *.
    now rewrite payments_app, H2, IH. }
  apply odo_cases in E as [[_ E]|(_ & _ & E2 & E3 & _)].
  - destruct (N.lt_ge_cases (o_day s) (day_of (ox_time op.1))) as [Hn|Hn].
    + symmetry in E. apply new_day_state in E as (-> & ->); [|done]. auto.
    + rewrite old_day_state in E by done. destruct (o_end s) eqn:He.
      * rewrite release_ended in E by done. injection E as -> ->. auto.
      * symmetry in E. apply release_block in E as (paid & tail & B); [|done]. split.
        -- rewrite (br_info _ _ _ _ _ _ _ B), Hi. reflexivity.
        -- destruct (block_payments _ _ _ _ _ _ _ (ox_time op.1) w B) as [H _]. apply H.
           intros Hw. apply elem_of_list_fmap in Hw as ([w' r0] & Ew & Hin). cbn in Ew. subst w'.
           destruct (br_paid _ _ _ _ _ _ _ B _ _ Hin) as [H0 _]. congruence.
  - split; [|now apply payments_none]. destruct (edits_keep _ _ _ _ E3 Hs0) as [H|H]; congruence.
Qed.

(** What an operation does to one schedule. *)
Definition sched_step (cfg : ocfg) (w : N) (s : ostate) (op : oop) (s1 : ostate) (evs : list oev) (r : sched) : Prop :=
  let out := payments w (map (fun e => (ox_time op.1, e)) evs) in
  (o_info s1 !! w = None /\ out = []) \/ (o_info s1 !! w = Some r /\ out = []) \/
  (exists v, is_block op = true /\ out = [(day (ox_time op.1), v)] /\
     let cur := day_of (ox_time op.1) in
     (v = rel cur r \/ v = 0) /\ rel cur r <> 0 /\ rel cur r <= o_smax s /\ o_info s1 !! w = after_pay cur r).
Lemma one_step cfg w s op s1 evs r :
  odo cfg s op = (s1, evs) -> o_info s !! w = Some r -> ~ schedules w op -> sched_step cfg w s op s1 evs r.
Proof.
  intros E Hi Hs. unfold sched_step. cbv zeta. apply odo_cases in E as [[Eb E]|(_ & _ & E2 & E3 & _)].
  - destruct (N.lt_ge_cases (o_day s) (day_of (ox_time op.1))) as [Hn|Hn].
    + symmetry in E. apply new_day_state in E as (-> & ->); [|done]. auto.
    + rewrite old_day_state in E by done. destruct (o_end s) eqn:He.
      * rewrite release_ended in E by done. injection E as -> ->. auto.
      * symmetry in E. apply release_block in E as (paid & tail & B); [|done].
        destruct (block_payments _ _ _ _ _ _ _ (ox_time op.1) w B) as [P1 P2].
        pose proof (br_info _ _ _ _ _ _ _ B w) as Hw. rewrite Hi in Hw.
        destruct (decide (w ∈ paid.*1)) as [Hin|Hin].
        -- right. right. apply elem_of_list_fmap in Hin as ([w' r0] & Ew & Hin). cbn in Ew. subst w'.
           destruct (br_paid _ _ _ _ _ _ _ B _ _ Hin) as (H0 & _ & H1 & H2). assert (r0 = r) as -> by congruence.
           destruct (P2 _ Hin) as (v & Hv1 & Hv2). exists v. repeat split; auto.
        -- right. left. auto.
  - rewrite payments_none by done. destruct (edits_keep _ _ _ _ E3 Hs) as [H|H]; [left|right; left]; split; congruence.
Qed.

Lemma rel_le cur r : rel cur r <= r_per r * (cur - r_last r).
Proof. unfold rel, mul128, w128. apply N.mod_le. discriminate. Qed.
Lemma limits_step cfg S D s op s1 evs :
  odo cfg s op = (s1, evs) -> limits_within S D op -> o_smax s <= S -> o_smax s1 <= S.
Proof.
  intros E HL Hs. apply odo_cases in E as [[_ E]|(_ & _ & _ & _ & E)].
  - destruct (N.lt_ge_cases (o_day s) (day_of (ox_time op.1))) as [Hn|Hn].
    + symmetry in E. apply new_day_state in E as (_ & ->); [|done]. exact Hs.
    + rewrite old_day_state in E by done. destruct (o_end s) eqn:He.
      * rewrite release_ended in E by done. injection E as -> _. exact Hs.
      * symmetry in E. apply release_block in E as (paid & tail & B); [|done]. now rewrite (br_smax _ _ _ _ _ _ _ B).
  - destruct E as [[-> _]|(x & o & a & b & -> & -> & _)]; [done|]. now destruct HL.
Qed.

Lemma schedule_bound cfg w S D days moment total start per : per * days <= total ->
  forall h s last, o_info s !! w = Some (Sched days moment total start last per) ->
    start <= last -> last - start < days -> o_smax s <= S ->
    Forall (fun op => ~ schedules w op) h -> Forall (limits_within S D) h ->
    paid_to w (snd (orun cfg s h)) + per * (last - start) + per <= total + S.
Proof.
  intros Hper. induction h as [|op r IH]; intros s last Hi Hsl Hlt HS Hs HL.
  - unfold paid_to. cbn. nia.
  - apply Forall_cons in Hs as [Hs0 Hs]. apply Forall_cons in HL as [HL0 HL]. cbn [orun].
    destruct (odo cfg s op) as [s1 evs] eqn:E. pose proof (limits_step _ _ _ _ _ _ _ E HL0 HS) as HS1.
    pose proof (one_step _ _ _ _ _ _ _ E Hi Hs0) as Hstep. unfold sched_step in Hstep. cbv zeta in Hstep.
    destruct (orun cfg s1 r) as [s2 out] eqn:Er. cbn [snd]. rewrite paid_to_app. unfold paid_to at 1.
    assert (Hnone : o_info s1 !! w = None -> paid_to w out = 0).
    { intros Hn. pose proof (nothing_due cfg w r s1 Hn Hs) as H. rewrite Er in H. cbn [snd] in H. unfold paid_to. now rewrite H. }
    destruct Hstep as [(H1 & ->)|[(H1 & ->)|(v & _ & -> & Hv & H2 & H3 & H4)]]; cbn [map lsum snd].
    + rewrite Hnone by done. nia.
    + specialize (IH s1 last H1 Hsl Hlt HS1 Hs HL). rewrite Er in IH. cbn [snd] in IH. lia.
    + set (cur := day_of (ox_time op.1)) in *. pose proof (rel_le cur (Sched days moment total start last per)) as Hr.
      cbn [r_per r_last] in Hr.
      assert (Hcl : last < cur).
      { destruct (N.lt_ge_cases last cur) as [H|H]; [done|]. exfalso. apply H2. unfold rel, mul128. cbn [r_per r_last].
        replace (cur - last) with 0 by lia. rewrite N.mul_0_r. reflexivity. }
      set (q := rel cur (Sched days moment total start last per)) in *.
      assert (Hvq : v <= q) by (destruct Hv as [->| ->]; lia).
      unfold after_pay in H4. cbn [r_days r_start] in H4. destruct (N.leb_spec days (cur - start)) as [He|He].
      * rewrite Hnone by done. assert (per * (last - start) + per <= per * days) by nia. lia.
      * specialize (IH s1 cur H4 ltac:(lia) He HS1 Hs HL). rewrite Er in IH. cbn [snd] in IH.
        assert (per * (cur - start) = per * (cur - last) + per * (last - start)).
        { rewrite <- N.mul_add_distr_l. f_equal. lia. }
        lia.
Qed.

Lemma schedule_covers cfg w days moment total start per : per * 2 ^ 32 <= two128 ->
  forall h s t last, o_info s !! w = Some (Sched days moment total start last per) ->
    chrono t h -> Forall (fun op => ~ schedules w op) h ->
    covers per last (payments w (snd (orun cfg s h))).
Proof.
  intros Hper. induction h as [|op r IH]; intros s t last Hi Hc Hs; [exact I|].
  cbn [chrono] in Hc. destruct Hc as (Ht & Hfit & Hc).
  apply Forall_cons in Hs as [Hs0 Hs]. cbn [orun].
  destruct (odo cfg s op) as [s1 evs] eqn:E.
  pose proof (one_step _ _ _ _ _ _ _ E Hi Hs0) as Hstep. unfold sched_step in Hstep. cbv zeta in Hstep.
  destruct (orun cfg s1 r) as [s2 out] eqn:Er. cbn [snd]. rewrite payments_app.
  assert (Hnone : o_info s1 !! w = None -> payments w out = []).
  { intros Hn. pose proof (nothing_due cfg w r s1 Hn Hs) as H. now rewrite Er in H. }
  destruct Hstep as [(H1 & ->)|[(H1 & ->)|(v & _ & -> & Hv & H2 & H3 & H4)]]; cbn [app].
  - rewrite Hnone by done. exact I.
  - specialize (IH s1 _ last H1 Hc Hs). now rewrite Er in IH.
  - rewrite day_day_of in * by done. set (cur := day (ox_time op.1)) in *.
    assert (Hcl : last < cur).
    { destruct (N.lt_ge_cases last cur) as [H|H]; [done|]. exfalso. apply H2. unfold rel, mul128. cbn [r_per r_last].
      replace (cur - last) with 0 by lia. rewrite N.mul_0_r. reflexivity. }
    assert (Hrel : rel cur (Sched days moment total start last per) = per * (cur - last)).
    { unfold rel, mul128. cbn [r_per r_last]. apply w128_small.
      assert (cur < 2 ^ 32) by exact Hfit. destruct (N.eq_dec per 0) as [->|Hp0]; [reflexivity|].
      eapply N.lt_le_trans; [|exact Hper]. apply N.mul_lt_mono_pos_l; [lia|]. change (2 ^ 32) with 4294967296 in *. lia. }
    cbn [covers]. split; [done|]. split; [rewrite <- Hrel; exact Hv|].
    unfold after_pay in H4. destruct (r_days _ <=? _).
    + rewrite Hnone by done. exact I.
    + specialize (IH s1 _ cur H4 Hc Hs). now rewrite Er in IH.
Qed.
Lemma covers_sum per : forall l last bound, covers per last l -> Forall (fun p => p.1 <= bound) l ->
  last <= bound -> lsum (map snd l) <= per * (bound - last).
Proof.
  induction l as [|[d v] l IH]; intros last bound Hc Hb Hl; [apply N.le_0_l|].
  cbn [covers] in Hc. destruct Hc as (H1 & H2 & H3). apply Forall_cons in Hb as [Hb0 Hb]. cbn [fst] in Hb0.
  specialize (IH d bound H3 Hb Hb0). cbn [map snd lsum].
  cbn in Hb0. assert (H : per * (bound - last) = per * (d - last) + per * (bound - d)).
  { rewrite <- N.mul_add_distr_l. f_equal. lia. }
  rewrite H. transitivity (per * (d - last) + lsum (map snd l)); [|apply N.add_le_mono_l; exact IH].
  apply N.add_le_mono_r. destruct H2 as [->| ->]; [reflexivity|apply N.le_0_l].
Qed.
