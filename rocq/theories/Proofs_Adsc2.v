(** Histories of the ADSC pallet: who is paid when. *)
From Verif Require Import Base Balances Model_Adsc Spec_Adsc Proofs_Adsc.
From stdpp Require Import gmap sorting.
Open Scope N_scope.

Lemma day_day_of ms : day ms < 2 ^ 32 -> day_of ms = day ms.
Proof. intros H. unfold day_of. apply w32_small. exact H. Qed.
Lemma day_mono a b : a <= b -> day a <= day b.
Proof. intros H. unfold day. apply N.div_le_mono; [discriminate|exact H]. Qed.

Lemma new_bnum_ok (n : nat) : 0 < add32 (N.min (N.of_nat n) (two32 - 1) / 17000) 2 /\
  add32 (N.min (N.of_nat n) (two32 - 1) / 17000) 2 < two32 /\
  add32 (N.min (N.of_nat n) (two32 - 1) / 17000) 2 = N.min (N.of_nat n) (two32 - 1) / 17000 + 2.
Proof.
  set (m := N.min (N.of_nat n) (two32 - 1)).
  assert (H : m / 17000 <= 252645).
  { transitivity ((two32 - 1) / 17000); [|vm_compute; discriminate]. apply N.div_le_mono; [discriminate|]. unfold m. lia. }
  revert H. generalize (m / 17000). intros q H. unfold add32. rewrite w32_small; unfold two32; [repeat split|]; lia.
Qed.

Definition op_cases (cfg : acfg) (s : astate) (op : aop) (s' : astate) (evs : list aev) : Prop :=
  (is_block op = true /\ (s', evs) = on_init cfg s op.1) \/
  (is_block op = false /\ a_cursor s' = a_cursor s /\ a_day s' = a_day s /\ a_bnum s' = a_bnum s /\
   Forall not_reward evs /\
   (a_stakers s' = a_stakers s \/
    exists who, adds who op /\ is_add op = true /\ a_stakers s' = <[who := a_period s]> (a_stakers s))).
Lemma ado_cases cfg s op s' evs : ado cfg s op = (s', evs) -> op_cases cfg s op s' evs.
Proof.
  destruct op as [x [[o c]|e]]; unfold ado, op_cases, is_block, is_add, adds; cbn [fst snd]; intros H.
  - right. destruct (astep cfg s x o c) as [s1 r] eqn:E. injection H as <- <-.
    apply call_pass in E as (E1 & E2 & E3 & E4 & E5). repeat split; auto.
    destruct E5 as [E5|(who & Hw & E5)]; [now left|right]. exists who. destruct c; try contradiction; auto.
  - destruct e; [left; split; [done|]; cbn [aentry] in H; congruence|right..].
    all: apply entry_pass in H as (E1 & E2 & E3 & -> & E5); [|discriminate]; repeat split; auto; constructor.
Qed.

Lemma ado_bnum cfg s op s' evs : ado cfg s op = (s', evs) -> bnum_ok s -> bnum_ok s'.
Proof.
  intros H Hb. apply ado_cases in H as [[_ H]|(_ & _ & _ & E & _)]; [|unfold bnum_ok in *; now rewrite E].
  unfold on_init in H. destruct (a_day s <? day_of (ax_time op.1)).
  - injection H as -> _. unfold bnum_ok. cbn [a_bnum set_a_bnum]. destruct (new_bnum_ok (size (a_stakers s))) as (? & ? & _). auto.
  - destruct (a_cursor s) eqn:Ec.
    + unfold adsc_reward in H. rewrite Ec in H. injection H as -> _. exact Hb.
    + symmetry in H. apply reward_block in H as (_ & _ & _ & E & _); [|done|congruence]. unfold bnum_ok in *. now rewrite E.
    + symmetry in H. apply reward_block in H as (_ & _ & _ & E & _); [|done|congruence]. unfold bnum_ok in *. now rewrite E.
Qed.

(** * One block, in terms of accounts *)
Lemma rewards_app a b : rewards (a ++ b) = rewards a ++ rewards b.
Proof. apply omap_app. Qed.

Lemma sublist_nodup {A} (l k : list A) : sublist l k -> NoDup k -> NoDup l.
Proof.
  induction 1 as [|x l k H IH|x l k H IH]; intros Hn; [constructor| |].
  - inversion Hn as [|? ? H1 H2]; subst. constructor; [|now apply IH]. intros Hin. apply H1.
    eapply elem_of_submseteq; [exact Hin|]. now apply sublist_submseteq.
  - inversion Hn; subst. now apply IH.
Qed.
Lemma sub_in_served v w : w ∈ sub_of v -> w ∈ v.*1.
Proof. unfold sub_of. intros H. apply sub_filter_fst in H as (p & Hp & _). apply elem_of_list_fmap. now exists (w, p). Qed.

Lemma block_rewards cfg s x s' evs t :
  keys_differ cfg -> bnum_ok s -> adsc_reward cfg s x = (s', evs) ->
  let out := rewards (map (fun e => (t, e)) evs) in
  a_day s' = a_day s /\ NoDup out /\
  (forall d w, (d, w) ∈ out ->
     d = day t /\ pending (a_cursor s) (ac_key cfg w) = true /\ pending (a_cursor s') (ac_key cfg w) = false /\
     exists p, a_stakers s !! w = Some p /\ p <> 0 /\ a_stakers s' !! w = Some (p - 1)) /\
  (forall w, pending (a_cursor s') (ac_key cfg w) = true -> pending (a_cursor s) (ac_key cfg w) = true) /\
  (forall w, match a_stakers s !! w, a_stakers s' !! w with
             | Some p, Some p' => p' <= p | None, Some _ => False | _, _ => True end).
Proof.
  intros Hinj Hb H. cbv zeta. assert (Ec : a_cursor s = CEmpty \/ a_cursor s <> CEmpty) by (destruct (a_cursor s); auto; right; discriminate).
  destruct Ec as [Ec|Ec].
  - unfold adsc_reward in H. rewrite Ec in H. injection H as <- <-. cbn. rewrite Ec. split; [done|]. split; [constructor|].
    split; [intros d w Hin; now apply elem_of_nil in Hin|]. split; [auto|].
    intros w. destruct (a_stakers s !! w); [lia|auto].
  - apply reward_block in H as (H1 & H2 & H3 & _ & H5); [|done..]. specialize (H5 t).
    assert (Hin : forall d w, (d, w) ∈ rewards (map (fun e => (t, e)) evs) -> d = day t /\ w ∈ sub_of (served cfg s x)).
    { intros d w Hw.
      assert (Hs : (d, w) ∈ map (fun a => (day t, a)) (sub_of (served cfg s x))).
      { eapply elem_of_submseteq; [exact Hw|]. now apply sublist_submseteq. }
      apply elem_of_list_fmap in Hs as (a & E & Ha). injection E as -> ->. auto. }
    split; [done|]. split; [|split; [|split]].
    + eapply sublist_nodup; [exact H5|]. apply NoDup_fmap_2; [intros a b E; congruence|].
      apply nodup_fst_filter, served_nodup.
    + intros d w Hw. apply Hin in Hw as [-> Hw]. split; [done|].
      pose proof (sub_in_served _ _ Hw) as Hv.
      unfold sub_of in Hw. apply sub_filter_fst in Hw as (p & Hp & Hp0). cbn in Hp0.
      pose proof (served_in cfg s x w p Hp) as (Hst & Hby & _).
      rewrite pending_beyond in Hby by done. split; [done|]. split.
      * destruct (pending (a_cursor s') (ac_key cfg w)) eqn:Ep; [|done]. rewrite H2 in Ep.
        apply cursor_after in Ep as [Ep _]; [contradiction|done].
      * exists p. rewrite H1, Hst, bool_decide_eq_true_2 by done. cbn [after_visit].
        destruct (N.eqb_spec p 0); [contradiction|auto].
    + intros w Hw. rewrite H2 in Hw. apply cursor_after in Hw as [_ Hw]; auto.
    + intros w. rewrite H1. destruct (a_stakers s !! w) as [p|]; cbn; [|auto].
      destruct (bool_decide _); [|lia]. destruct (p =? 0); lia || auto.
Qed.
Lemma new_day_state cfg s x s' evs :
  on_init cfg s x = (s', evs) -> a_day s < day_of (ax_time x) ->
  evs = [] /\ a_cursor s' = CPrefix /\ a_day s' = day_of (ax_time x) /\ a_stakers s' = a_stakers s /\
  a_bnum s' = N.min (N.of_nat (size (a_stakers s))) (two32 - 1) / 17000 + 2.
Proof.
  unfold on_init. intros H Hlt. apply N.ltb_lt in Hlt. rewrite Hlt in H. injection H as <- <-. repeat split.
  cbn [a_bnum set_a_bnum]. apply new_bnum_ok.
Qed.
Lemma old_day_state cfg s x : day_of (ax_time x) <= a_day s -> on_init cfg s x = adsc_reward cfg s x.
Proof. intros H. unfold on_init. apply N.ltb_ge in H. now rewrite H. Qed.

(** * At most once a day *)
Lemma paid_once cfg : keys_differ cfg -> forall h s t,
  bnum_ok s -> a_day s <= day t -> chrono t h ->
  NoDup (rewards (snd (arun cfg s h))) /\
  forall d w, (d, w) ∈ rewards (snd (arun cfg s h)) ->
    a_day s <= d /\ (d = a_day s -> pending (a_cursor s) (ac_key cfg w) = true).
Proof.
  intros Hinj. induction h as [|op r IH]; intros s t Hb Hd Hc.
  - cbn. split; [constructor|]. intros d w H. now apply elem_of_nil in H.
  - cbn [chrono] in Hc. destruct Hc as (Ht & Hfit & Hc). cbn [arun].
    destruct (ado cfg s op) as [s1 evs] eqn:E. destruct (arun cfg s1 r) as [s2 out] eqn:Er.
    pose proof (ado_bnum _ _ _ _ _ E Hb) as Hb1. pose proof (day_mono _ _ Ht) as Hdm.
    cbn [snd]. rewrite rewards_app.
    apply ado_cases in E as [[_ E]|(_ & E1 & E2 & _ & E4 & _)].
    + destruct (N.lt_ge_cases (a_day s) (day_of (ax_time op.1))) as [Hn|Hn].
      * symmetry in E. apply new_day_state in E as (-> & E2 & E3 & _); [|done].
        rewrite day_day_of in E3, Hn by done.
        destruct (IH s1 (ax_time op.1)) as [I1 I2]; [done|lia|done|]. rewrite Er in I1, I2. cbn [snd] in I1, I2.
        cbn [map rewards omap list_omap app]. split; [done|]. intros d w Hw. apply I2 in Hw as [Hw _].
        rewrite E3 in Hw. split; [lia|]. intros ->. lia.
      * rewrite old_day_state in E by done. rewrite day_day_of in Hn by done.
        symmetry in E. apply (block_rewards cfg _ _ _ _ (ax_time op.1)) in E as (E1 & E2 & E3 & E4 & _); [|done..].
        destruct (IH s1 (ax_time op.1)) as [I1 I2]; [done|lia|done|]. rewrite Er in I1, I2. cbn [snd] in I1, I2.
        rewrite E1 in I2. split.
        -- apply NoDup_app. split; [done|]. split; [|done]. intros [d w] H1 H2.
           apply E3 in H1 as (-> & _ & Hp & _). apply I2 in H2 as [_ H2].
           rewrite H2 in Hp; [discriminate|lia].
        -- intros d w Hw. apply elem_of_app in Hw as [Hw|Hw].
           ++ apply E3 in Hw as (-> & Hp & _). split; [lia|auto].
           ++ apply I2 in Hw as [H1 H2]. split; [done|]. intros Hd'. apply E4. now apply H2.
    + rewrite rewards_none by done. cbn [app].
      destruct (IH s1 (ax_time op.1)) as [I1 I2]; [done|lia|done|]. rewrite Er in I1, I2. cbn [snd] in I1, I2.
      rewrite E1, E2 in I2. auto.
Qed.

(** * At most the period *)
Definition left_days (s : astate) (w : N) : N := default 0 (a_stakers s !! w).
Definition hits (w : N) (l : list (N * N)) : N := N.of_nat (length (filter (fun p => p.2 = w) l)).
Lemma hits_app w a b : hits w (a ++ b) = hits w a + hits w b.
Proof. unfold hits. rewrite filter_app, app_length. lia. Qed.
Lemma hits_once w l : NoDup l -> (forall d d', (d, w) ∈ l -> (d', w) ∈ l -> d = d') ->
  hits w l <= 1 /\ ((forall d, (d, w) ∉ l) -> hits w l = 0).
Proof.
  intros Hn Hs. unfold hits.
  assert (Hf : forall p, p ∈ filter (fun p : N * N => p.2 = w) l -> exists d, p = (d, w) /\ (d, w) ∈ l).
  { intros [d w'] Hp. apply elem_of_list_filter in Hp as [E Hp]. cbn in E. subst w'. eauto. }
  pose proof (NoDup_filter (fun p : N * N => p.2 = w) l Hn) as Hn'.
  destruct (filter (fun p => p.2 = w) l) as [|p [|q r]]; cbn [length].
  - split; [lia|auto].
  - split; [lia|]. intros H. destruct (Hf p) as (d & -> & Hd); [left|]. now apply H in Hd.
  - exfalso. destruct (Hf p) as (d & -> & Hd); [left|]. destruct (Hf q) as (d' & -> & Hd'); [right; left|].
    rewrite (Hs d d') in Hn' by done. apply NoDup_cons in Hn' as [Hn' _]. apply Hn'. left.
Qed.
Lemma paid_period cfg : keys_differ cfg -> forall h s w,
  bnum_ok s -> Forall (fun op => ~ adds w op) h ->
  hits w (rewards (snd (arun cfg s h))) + left_days (fst (arun cfg s h)) w <= left_days s w.
Proof.
  intros Hinj. induction h as [|op r IH]; intros s w Hb Ha; [cbn; lia|].
  apply Forall_cons in Ha as [Ha0 Ha]. cbn [arun].
  destruct (ado cfg s op) as [s1 evs] eqn:E. pose proof (ado_bnum _ _ _ _ _ E Hb) as Hb1.
  specialize (IH s1 w Hb1 Ha). destruct (arun cfg s1 r) as [s2 out] eqn:Er. cbn [fst snd] in *.
  rewrite rewards_app, hits_app.
  enough (hits w (rewards (map (fun e => (ax_time op.1, e)) evs)) + left_days s1 w <= left_days s w) by lia.
  apply ado_cases in E as [[_ E]|(_ & _ & _ & _ & E4 & E5)].
  - destruct (N.lt_ge_cases (a_day s) (day_of (ax_time op.1))) as [Hn|Hn].
    + symmetry in E. apply new_day_state in E as (-> & _ & _ & E & _); [|done]. cbn. unfold left_days. rewrite E. lia.
    + rewrite old_day_state in E by done. symmetry in E.
      apply (block_rewards cfg _ _ _ _ (ax_time op.1)) in E as (_ & E2 & E3 & _ & E5); [|done..].
      destruct (hits_once w _ E2) as [Hh Hz].
      { intros d d' H1 H2. apply E3 in H1 as [-> _]. apply E3 in H2 as [-> _]. done. }
      specialize (E5 w). unfold left_days.
      destruct (decide ((day (ax_time op.1), w) ∈ rewards (map (fun e => (ax_time op.1, e)) evs))) as [Hin|Hin].
      * apply E3 in Hin as (_ & _ & _ & p & -> & Hp & ->). cbn. lia.
      * rewrite Hz; [destruct (a_stakers s !! w), (a_stakers s1 !! w); cbn; lia || contradiction|].
        intros d Hd. apply Hin. pose proof (E3 _ _ Hd) as [-> _]. exact Hd.
  - rewrite rewards_none by done. unfold left_days, hits. cbn.
    destruct E5 as [->|(who & Hw & _ & ->)]; [lia|].
    rewrite lookup_insert_ne; [lia|]. intros ->. contradiction.
Qed.
