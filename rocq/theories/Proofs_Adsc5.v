(** ADSC: the daily pass reaches every staker. *)
From Verif Require Import Base Balances Model_Adsc Spec_Adsc Proofs_Adsc Proofs_Adsc2 Proofs_Adsc3 Proofs_Adsc4.
From stdpp Require Import gmap sorting.
Open Scope N_scope.

Section pass.
  Context (cfg : acfg).
  Notation key := (ac_key cfg).

  (** The accounts still to be visited. *)
  Definition queue (s : astate) : list (N * N) := iter_from cfg s (a_cursor s).
  Definition qlen (s : astate) : N := N.of_nat (length (queue s)).

  Lemma fst_submseteq (l k : list (N * N)) : NoDup l.*1 -> (forall a, a ∈ l.*1 -> a ∈ k.*1) -> (length l <= length k)%nat.
  Proof.
    intros Hn Hs. rewrite <- (fmap_length fst l), <- (fmap_length fst k).
    apply submseteq_length. now apply NoDup_submseteq.
  Qed.
  Lemma queue_fst s c a : a ∈ (iter_from cfg s c).*1 <-> is_Some (a_stakers s !! a) /\ beyond c (key a) = true.
  Proof.
    rewrite elem_of_list_fmap. split.
    - intros ([b p] & -> & H). apply iter_elem in H as [H1 H2]. split; [now exists p|done].
    - intros [[p H1] H2]. exists (a, p). split; [done|]. apply iter_elem. auto.
  Qed.

  (** A block serves [bnum] of them, or all that are online. *)
  Lemma served_all s x a p :
    (a, p) ∈ queue s -> ax_offline x a = 0 -> (a, p) ∉ served cfg s x ->
    length (served cfg s x) = N.to_nat (a_bnum s).
  Proof.
    intros Hq Ho Hn. unfold served, visited in *. rewrite take_length.
    destruct (Nat.le_gt_cases (N.to_nat (a_bnum s)) (length (on_l x (iter_from cfg s (a_cursor s))))) as [H|H]; [lia|].
    exfalso. apply Hn. rewrite take_ge by lia. apply elem_of_list_filter. auto.
  Qed.
  Lemma block_queue s x s' evs a p :
    keys_differ cfg -> bnum_ok s -> a_cursor s <> CEmpty -> adsc_reward cfg s x = (s', evs) ->
    a_stakers s !! a = Some p -> pending (a_cursor s) (key a) = true -> ax_offline x a = 0 ->
    a ∉ (served cfg s x).*1 ->
    pending (a_cursor s') (key a) = true /\ a_stakers s' !! a = Some p /\ qlen s' + a_bnum s <= qlen s.
  Proof.
    intros Hinj Hb Hc H Hp Hpe Ho Hns.
    apply reward_block in H as (H1 & H2 & H3 & H4 & _); [|done..].
    assert (Hq : (a, p) ∈ queue s).
    { apply iter_elem. split; [done|]. now rewrite pending_beyond. }
    assert (Hlen : length (served cfg s x) = N.to_nat (a_bnum s)).
    { eapply served_all; [exact Hq|done|]. intros Hin. apply Hns. apply elem_of_list_fmap. now exists (a, p). }
    destruct (last (served cfg s x)) as [[b q]|] eqn:El.
    2: { apply last_None in El. rewrite El in Hlen. destruct Hb. cbn in Hlen. lia. }
    assert (Ec : a_cursor s' = CKey (key b)) by (rewrite H2; unfold cursor_of; now rewrite El).
    assert (Hb' : (b, q) ∈ served cfg s x) by now apply last_Some_elem_of in El.
    pose proof (fun z r => sorted_last cfg _ _ z r (served_sorted cfg s x Hinj) El) as Hlast. cbn [fst] in Hlast.
    (* everything online up to the last one served has been served *)
    assert (Hpa : key b < key a).
    { destruct (N.lt_trichotomy (key b) (key a)) as [G|[G|G]]; [done| |].
      - apply Hinj in G as ->. exfalso. apply Hns. apply elem_of_list_fmap. now exists (a, q).
      - exfalso. unfold served, visited in Hns, Hb'. fold (queue s) in Hns, Hb'.
        assert (Hsrt : StronglySorted (key_lt cfg) (on_l x (queue s))) by (apply filter_ssorted, iter_sorted, Hinj).
        assert (Hin : (a, p) ∈ on_l x (queue s)) by (apply elem_of_list_filter; auto).
        revert Hns Hb' Hsrt Hin. generalize (on_l x (queue s)). intros l Hns Hb' Hsrt Hin.
        rewrite <- (take_drop (N.to_nat (a_bnum s)) l) in Hin, Hsrt. apply elem_of_app in Hin as [Hin|Hin].
        + apply Hns. apply elem_of_list_fmap. now exists (a, p).
        + assert (key_lt cfg (b, q) (a, p)) by (eapply elem_of_StronglySorted_app; eauto).
          unfold key_lt in *. cbn in *. lia. }
    split; [rewrite Ec; cbn; now apply N.ltb_lt|]. split.
    { rewrite H1, Hp, bool_decide_eq_false_2 by done. reflexivity. }
    assert (Hsub : (length (queue s' ++ served cfg s x) <= length (queue s))%nat).
    { apply fst_submseteq.
      - rewrite fmap_app. apply NoDup_app. split; [apply iter_nodup|]. split; [|apply served_nodup].
        intros z Hz Hz2. apply queue_fst in Hz as [_ Hz]. rewrite Ec in Hz. cbn in Hz. apply N.ltb_lt in Hz.
        apply elem_of_list_fmap in Hz2 as ([z' r] & -> & Hz2). specialize (Hlast _ _ Hz2). cbn in *. lia.
      - intros z Hz. rewrite fmap_app in Hz. apply elem_of_app in Hz as [Hz|Hz].
        + apply queue_fst in Hz as [Hz1 Hz2]. apply queue_fst. rewrite H1 in Hz1. split.
          * destruct (a_stakers s !! z); [eauto|]. cbn in Hz1. now destruct Hz1.
          * rewrite Ec in Hz2. cbn in Hz2. apply N.ltb_lt in Hz2. apply served_in in Hb' as (_ & Hby & _).
            rewrite pending_beyond in * by done. destruct (a_cursor s); [congruence|done|]. cbn in *.
            apply N.ltb_lt in Hby. apply N.ltb_lt. lia.
        + apply elem_of_list_fmap in Hz as ([z' r] & -> & Hz). apply served_in in Hz as (Hz1 & Hz2 & _).
          apply queue_fst. split; [eauto|done]. }
    rewrite app_length in Hsub. unfold qlen. lia.
  Qed.
  (** Adding an account makes the queue at most one longer. *)
  Lemma add_queue s s' who v :
    a_stakers s' = <[who := v]> (a_stakers s) -> a_cursor s' = a_cursor s -> qlen s' <= qlen s + 1.
  Proof.
    intros E1 E2. unfold qlen.
    assert (H : (length (queue s') <= length ((who, v) :: queue s))%nat).
    { apply fst_submseteq; [apply iter_nodup|]. intros a Ha. unfold queue in *. apply queue_fst in Ha as [Ha1 Ha2].
      rewrite E1 in Ha1. rewrite E2 in Ha2. rewrite fmap_cons. apply elem_of_cons.
      destruct (decide (a = who)) as [->|Hn]; [now left|right]. rewrite lookup_insert_ne in Ha1 by congruence.
      apply queue_fst. auto. }
    cbn [length] in H. lia.
  Qed.
  Lemma same_queue s s' : a_stakers s' = a_stakers s -> a_cursor s' = a_cursor s -> qlen s' = qlen s.
  Proof. intros E1 E2. unfold qlen, queue, iter_from. now rewrite E1, E2. Qed.

  (** The payment inside the block. *)
  Lemma pay_some s w p l b :
    a_ass s = Some l -> as_bal l !! w = Some b -> b <= as_supply l -> as_supply l + a_base s < two128 ->
    exists s' v, pay_reward s w p = Some (s', v).
  Proof.
    intros E1 E2 H1 H2. unfold pay_reward. rewrite E1.
    assert (Hv : frac_mul (perbill_of p (a_period s)) PERBILL (a_base s) <= a_base s)
      by (apply frac_mul_le; [discriminate|apply perbill_of_le]).
    revert Hv. generalize (frac_mul (perbill_of p (a_period s)) PERBILL (a_base s)). intros v Hv.
    unfold amint. destruct (N.leb_spec two128 (as_supply l + v)); [lia|].
    destruct (v =? 0); [eauto|]. rewrite E2. destruct (N.leb_spec two128 (b + v)); [lia|]. eauto.
  Qed.
  Lemma amint_other l w v l' who b : amint l w v = Some l' -> as_bal l !! who = Some b -> b <= as_supply l ->
    exists b', as_bal l' !! who = Some b' /\ b' <= as_supply l' /\ as_supply l' = as_supply l + v.
  Proof.
    unfold amint. intros H E Hb. destruct (_ <=? _); [discriminate|]. destruct (N.eqb_spec v 0) as [->|].
    { injection H as <-. exists b. repeat split; auto; lia. }
    destruct (decide (w = who)) as [->|Hn].
    - rewrite E in H. destruct (_ <=? _); [discriminate|]. injection H as <-. cbn. rewrite lookup_insert.
      eexists; repeat split; auto; lia.
    - destruct (as_bal l !! w) as [bw|].
      + destruct (_ <=? _); [discriminate|]. injection H as <-. cbn. rewrite lookup_insert_ne by done.
        exists b. repeat split; auto; lia.
      + destruct (_ <? _); [discriminate|]. injection H as <-. cbn. rewrite lookup_insert_ne by done.
        exists b. repeat split; auto; lia.
  Qed.
  Lemma loop_pays x bnum who p : forall l counter s d s' last rem sub evs led b K,
    counter < bnum -> bnum < two32 ->
    reward_loop cfg x bnum l counter s d = (s', last, rem, sub, evs) ->
    (who, p) ∈ visited x (bnum - counter) l -> p <> 0 ->
    a_ass s = Some led -> as_bal led !! who = Some b -> b <= as_supply led ->
    a_base s <= K -> as_supply led + (bnum - counter) * K < two128 ->
    exists v, EReward who v ∈ evs.
  Proof.
    induction l as [|[a q] l IH]; intros counter s d s' last rem sub evs led b K Hc Hb H Hin Hp E1 E2 E3 HK Hs;
      cbn [reward_loop] in H.
    - unfold visited in Hin. cbn in Hin. rewrite take_nil in Hin. now apply elem_of_nil in Hin.
    - unfold visited, on_l in *. rewrite filter_cons in Hin. cbn [fst] in *.
      destruct (N.eqb_spec (ax_offline x a) 0) as [E|E]; cbn [negb] in H.
      2: { rewrite decide_False in Hin by exact E. eapply IH; eauto. }
      rewrite decide_True in Hin by exact E.
      replace (N.to_nat (bnum - counter)) with (S (N.to_nat (bnum - (counter + 1)))) in Hin by lia. cbn [take] in Hin.
      destruct (if q =? 0 then (s, []) else _) as [s1 ev1] eqn:Ep.
      assert (HK1 : as_supply led + K < two128) by nia.
      assert (Hnow : (who, p) = (a, q) -> exists v, ev1 = [EReward who v]).
      { intros Eq. injection Eq as <- <-. destruct (N.eqb_spec p 0); [contradiction|].
        destruct (pay_some s who p led b) as (s2 & v & Ev); [done..|lia|]. rewrite Ev in Ep. injection Ep as <- <-. eauto. }
      assert (Hnext : exists led1 b1, a_ass s1 = Some led1 /\ as_bal led1 !! who = Some b1 /\ b1 <= as_supply led1 /\
                        a_base s1 <= K /\ as_supply led1 <= as_supply led + K).
      { assert (Hsame : s1 = s \/ exists v, paid s a q s1 v).
        { destruct (q =? 0); [injection Ep as <- <-; auto|].
          destruct (pay_reward s a q) as [[s2 v]|] eqn:Er; injection Ep as <- <-; [|auto]. right. exists v. now apply pay_paid in Er. }
        destruct Hsame as [->|[v P]]; [exists led, b; repeat split; auto; lia|].
        destruct (pd_ass _ _ _ _ _ P) as (l0 & l1 & F1 & F2 & F3). assert (l0 = led) as -> by congruence.
        destruct (amint_other _ _ _ _ _ _ F2 E2 E3) as (b1 & G1 & G2 & G3).
        pose proof (paid_le _ _ _ _ _ P) as [P1 P2]. exists l1, b1. repeat split; auto; lia. }
      destruct Hnext as (led1 & b1 & N1 & N2 & N3 & N4 & N5).
      replace (add32 counter 1) with (counter + 1) in H by (unfold add32; rewrite w32_small; lia).
      destruct (N.eqb_spec (counter + 1) bnum) as [Eb|Eb].
      + injection H as <- <- <- <- <-. apply elem_of_cons in Hin as [Hin|Hin].
        * destruct (Hnow Hin) as [v ->]. exists v. left.
        * replace (N.to_nat (bnum - (counter + 1))) with 0%nat in Hin by lia. now apply elem_of_nil in Hin.
      + destruct (reward_loop cfg x bnum l (counter + 1) s1 (CKey (key a))) as [[[[s2 l2] r2] b2] e2] eqn:El.
        injection H as <- <- <- <- <-. apply elem_of_cons in Hin as [Hin|Hin].
        * destruct (Hnow Hin) as [v ->]. exists v. apply elem_of_app. left. left.
        * destruct (IH (counter + 1) s1 (CKey (key a)) s2 l2 r2 b2 e2 led1 b1 K) as [v Hv]; auto; [lia|nia|].
          exists v. apply elem_of_app. auto.
  Qed.
End pass.

(** What happened to [who], which had [p] days left. *)
Definition one_less (s : astate) (who p : N) : Prop := a_stakers s !! who = (if p =? 0 then None else Some (p - 1)).

(** Once visited, an account is left alone for the rest of the day. *)
Lemma rest_of_day cfg who d : keys_differ cfg -> forall h s,
  bnum_ok s -> a_day s = d -> d < 2 ^ 32 -> pending (a_cursor s) (ac_key cfg who) = false ->
  Forall (on_day d) h -> Forall (fun op => ~ adds who op) h ->
  a_stakers (fst (arun cfg s h)) !! who = a_stakers s !! who.
Proof.
  intros Hinj. induction h as [|op r IH]; intros s Hb Hd Hd32 Hp Ho Ha; [done|].
  apply Forall_cons in Ho as [Ho0 Ho]. apply Forall_cons in Ha as [Ha0 Ha]. cbn [arun].
  destruct (ado cfg s op) as [s1 evs] eqn:E. pose proof (ado_bnum _ _ _ _ _ E Hb) as Hb1.
  assert (G : a_day s1 = d /\ pending (a_cursor s1) (ac_key cfg who) = false /\ a_stakers s1 !! who = a_stakers s !! who).
  { apply ado_cases in E as [[Hbl E]|(_ & E1 & E2 & _ & _ & E5)].
    - specialize (Ho0 Hbl). rewrite old_day_state in E by (rewrite day_day_of; lia).
      symmetry in E. pose proof (block_rewards cfg s op.1 s1 evs 0 Hinj Hb E) as (E1 & _ & _ & E4 & _).
      split; [congruence|]. split.
      + destruct (pending (a_cursor s1) (ac_key cfg who)) eqn:Ep; [|done]. apply E4 in Ep. congruence.
      + assert (Ec : a_cursor s = CEmpty \/ a_cursor s <> CEmpty) by (destruct (a_cursor s); auto; right; discriminate).
        destruct Ec as [Ec|Ec]; [unfold adsc_reward in E; rewrite Ec in E; now injection E as <- <-|].
        apply reward_block in E as (R1 & _); [|done..]. rewrite R1, bool_decide_eq_false_2; [now destruct (a_stakers s !! who)|].
        intros Hin. apply elem_of_list_fmap in Hin as ([w q] & -> & Hin). apply served_in in Hin as (_ & Hy & _).
        rewrite pending_beyond in Hy by done. cbn in *. congruence.
    - rewrite E1, E2. repeat split; auto. destruct E5 as [->|(w & Hw & _ & ->)]; [done|].
      rewrite lookup_insert_ne; [done|]. intros ->. contradiction. }
  destruct G as (G1 & G2 & G3). specialize (IH s1 Hb1 G1 Hd32 G2 Ho Ha). destruct (arun cfg s1 r). cbn [fst] in *. congruence.
Qed.

Lemma how_many_cons f op r : how_many f (op :: r) = (if f op then 1 else 0) + how_many f r.
Proof. unfold how_many. cbn [List.filter]. destruct (f op); cbn [length]; lia. Qed.

(** Until visited, it stays in a queue that gets shorter. *)
Lemma reaches cfg who d p : keys_differ cfg -> forall h s,
  bnum_ok s -> a_day s = d -> d < 2 ^ 32 -> pending (a_cursor s) (ac_key cfg who) = true -> a_stakers s !! who = Some p ->
  Forall (on_day d) h -> Forall (online who) h -> Forall (fun op => ~ adds who op) h ->
  qlen cfg s + how_many is_add h <= a_bnum s * how_many is_block h ->
  exists h1 op h2 s1, h = h1 ++ op :: h2 /\ is_block op = true /\ s1 = fst (arun cfg s h1) /\
    bnum_ok s1 /\ a_day s1 = d /\ a_cursor s1 <> CEmpty /\ pending (a_cursor s1) (ac_key cfg who) = true /\
    a_stakers s1 !! who = Some p /\ (who, p) ∈ served cfg s1 op.1 /\ a_bnum s1 = a_bnum s.
Proof.
  intros Hinj. induction h as [|op r IH]; intros s Hb Hd Hd32 Hp Hst Ho Hon Ha Hq.
  - exfalso. cbn in Hq. assert (qlen cfg s <> 0); [|lia]. unfold qlen, queue.
    assert (Hin : (who, p) ∈ iter_from cfg s (a_cursor s)).
    { apply iter_elem. split; [done|]. destruct (a_cursor s); [discriminate|done|done]. }
    destruct (iter_from cfg s (a_cursor s)); [now apply elem_of_nil in Hin|]. cbn. lia.
  - apply Forall_cons in Ho as [Ho0 Ho]. apply Forall_cons in Hon as [Hon0 Hon]. apply Forall_cons in Ha as [Ha0 Ha].
    rewrite !how_many_cons in Hq.
    assert (Ec : a_cursor s <> CEmpty) by (intros E; rewrite E in Hp; discriminate).
    destruct (ado cfg s op) as [s1 evs] eqn:E. pose proof (ado_bnum _ _ _ _ _ E Hb) as Hb1.
    assert (Hstep : forall q', bnum_ok s1 -> a_day s1 = d -> pending (a_cursor s1) (ac_key cfg who) = true -> a_stakers s1 !! who = Some p ->
       a_bnum s1 = a_bnum s -> qlen cfg s1 <= q' -> q' + how_many is_add r <= a_bnum s * how_many is_block r ->
       exists h1 op0 h2 s2, op :: r = h1 ++ op0 :: h2 /\ is_block op0 = true /\ s2 = fst (arun cfg s h1) /\
         bnum_ok s2 /\ a_day s2 = d /\ a_cursor s2 <> CEmpty /\ pending (a_cursor s2) (ac_key cfg who) = true /\
         a_stakers s2 !! who = Some p /\ (who, p) ∈ served cfg s2 op0.1 /\ a_bnum s2 = a_bnum s).
    { intros q' A1 A2 A3 A4 A5 A6 A7.
      destruct (IH s1 A1 A2 Hd32 A3 A4 Ho Hon Ha) as (h1 & op0 & h2 & s2 & B1 & B2 & B3 & B4 & B5 & B6 & B7 & B8 & B9 & B10).
      { rewrite A5. lia. }
      exists (op :: h1), op0, h2, s2. rewrite B1. repeat (split; [done|]).
      split; [cbn [arun]; rewrite E; destruct (arun cfg s1 h1); exact B3|]. repeat (split; [done|]). congruence. }
    pose proof E as E0. apply ado_cases in E as [[Hbl E]|(Hbl & E1 & E2 & E3 & _ & E5)].
    + specialize (Ho0 Hbl). specialize (Hon0 Hbl). rewrite old_day_state in E by (rewrite day_day_of; lia). symmetry in E.
      assert (Hna : is_add op = false) by (destruct op as [x [[o c]|e]]; cbn in *; [discriminate|done]).
      rewrite Hbl, Hna in Hq.
      destruct (decide (who ∈ (served cfg s op.1).*1)) as [Hs|Hs].
      * apply elem_of_list_fmap in Hs as ([w q] & Ew & Hs). cbn in Ew. subst w.
        assert (q = p) as ->. { apply served_in in Hs as (Hs & _). congruence. }
        exists [], op, r, s. repeat (split; [done|]). done.
      * pose proof (reward_block cfg s op.1 s1 evs Hb Ec E) as (_ & _ & R3 & R4 & _).
        destruct (block_queue cfg s op.1 s1 evs who p Hinj Hb Ec E Hst Hp Hon0 Hs) as (Q1 & Q2 & Q3).
        apply (Hstep (qlen cfg s1)); auto; try congruence; try lia; nia.
    + rewrite Hbl in Hq. destruct E5 as [E5|(w & Hw & Hadd & E5)].
      * apply (Hstep (qlen cfg s)); auto; try congruence.
        -- rewrite (same_queue cfg s s1); auto; lia.
        -- destruct (is_add op); lia.
      * rewrite Hadd in Hq. assert (w <> who) by (intros ->; contradiction).
        apply (Hstep (qlen cfg s + 1)); auto; try congruence; [now rewrite E5, lookup_insert_ne| |].
        -- eapply add_queue; eauto.
        -- lia.
Qed.

Lemma arun_app cfg : forall a b s,
  arun cfg s (a ++ b) = let '(s1, o1) := arun cfg s a in let '(s2, o2) := arun cfg s1 b in (s2, o1 ++ o2).
Proof.
  induction a as [|op a IH]; intros b s; cbn [app arun].
  - destruct (arun cfg s b). reflexivity.
  - destruct (ado cfg s op) as [s1 evs]. rewrite IH. destruct (arun cfg s1 a) as [s2 o2]. destruct (arun cfg s2 b) as [s3 o3].
    now rewrite app_assoc.
Qed.
Lemma can_receive_app cfg who : forall a b s, can_receive cfg who s (a ++ b) -> can_receive cfg who (fst (arun cfg s a)) b.
Proof.
  induction a as [|op a IH]; intros b s H; [exact H|]. cbn [app can_receive arun] in *. destruct H as [_ H]. apply IH in H.
  destruct (ado cfg s op) as [s1 evs]. cbn [fst] in H. destruct (arun cfg s1 a). exact H.
Qed.

Lemma qlen_prefix cfg s : a_cursor s = CPrefix -> qlen cfg s = N.of_nat (size (a_stakers s)).
Proof.
  intros E. unfold qlen, queue, iter_from. rewrite E. f_equal.
  assert (H : forall l : list (N * N), filter (fun p => beyond CPrefix (ac_key cfg p.1) = true) l = l).
  { induction l as [|q l IH]; [done|]. rewrite filter_cons, decide_True by done. now rewrite IH. }
  rewrite H, (Permutation_length (merge_sort_Permutation (key_le cfg) _)). apply map_to_list_length_size || (unfold size, map_size; reflexivity).
Qed.

(** The whole day. *)
Lemma day_serves cfg who p d : keys_differ cfg -> forall s x r,
  a_stakers s !! who = Some p -> N.of_nat (size (a_stakers s)) < 2 ^ 32 ->
  day (ax_time x) = d -> d < 2 ^ 32 -> a_day s < d ->
  Forall (on_day d) r -> Forall (online who) r -> Forall (fun op => ~ adds who op) r ->
  how_many is_add r <= 17000 -> 17000 <= how_many is_block r ->
  let h := (x, inr AInitialize) :: r in
  one_less (fst (arun cfg s h)) who p /\
  (p <> 0 -> can_receive cfg who s h -> (d, who) ∈ rewards (snd (arun cfg s h))).
Proof.
  intros Hinj s x r Hst Hsz Hd Hd32 Hnew Ho Hon Ha Hadd Hblk. cbv zeta. cbn [arun can_receive].
  destruct (ado cfg s (x, inr AInitialize)) as [s0 ev0] eqn:E.
  assert (E' : on_init cfg s x = (s0, ev0)) by exact E.
  apply new_day_state in E' as (-> & Ec & Ed & Es & Ebn); [|rewrite day_day_of; lia].
  rewrite day_day_of in Ed by lia. rewrite Hd in Ed.
  assert (Hb : bnum_ok s0).
  { unfold bnum_ok. rewrite Ebn. pose proof (new_bnum_ok (size (a_stakers s))) as (G1 & G2 & G3). rewrite <- G3. auto. }
  destruct (reaches cfg who d p Hinj r s0 Hb Ed Hd32) as (h1 & op & h2 & s1 & B1 & B2 & B3 & B4 & B5 & B6 & B7 & B8 & B9 & B10);
    auto; [now rewrite Ec|now rewrite Es| |].
  { rewrite qlen_prefix by exact Ec. rewrite Es, Ebn.
    set (n := N.of_nat (size (a_stakers s))) in *. rewrite N.min_l by (unfold two32; lia).
    pose proof (N.div_mod n 17000 ltac:(discriminate)) as Hdm. pose proof (N.mod_lt n 17000 ltac:(discriminate)) as Hm.
    revert Hdm Hm. generalize (n / 17000). intros q. generalize (n mod 17000). intros z Hdm Hm.
    transitivity ((q + 2) * 17000); [lia|]. apply N.mul_le_mono_l. exact Hblk. }
  subst r. apply Forall_app in Ho as [_ Ho]. apply Forall_cons in Ho as [Ho0 Ho]. specialize (Ho0 B2).
  apply Forall_app in Ha as [_ Ha]. apply Forall_cons in Ha as [_ Ha].
  rewrite arun_app. destruct (arun cfg s0 h1) as [s1' o1] eqn:Er. cbn [fst] in B3. subst s1'.
  cbn [arun]. destruct (ado cfg s1 op) as [s2 evs] eqn:E2.
  pose proof E2 as E3. apply ado_cases in E3 as [[_ E3]|(Hf & _)]; [|congruence].
  rewrite old_day_state in E3 by (rewrite day_day_of; lia). symmetry in E3.
  pose proof (reward_block cfg s1 op.1 s2 evs B4 B6 E3) as (R1 & R2 & R3 & R4 & _).
  assert (Hv : who ∈ (served cfg s1 op.1).*1) by (apply elem_of_list_fmap; now exists (who, p)).
  assert (Hs2 : one_less s2 who p).
  { unfold one_less. rewrite R1, B8, bool_decide_eq_true_2 by done. reflexivity. }
  assert (Hp2 : pending (a_cursor s2) (ac_key cfg who) = false).
  { destruct (pending (a_cursor s2) (ac_key cfg who)) eqn:Ep; [|done]. rewrite R2 in Ep. apply cursor_after in Ep as [Ep _]; [contradiction|done]. }
  pose proof (rest_of_day cfg who d Hinj h2 s2 (ado_bnum _ _ _ _ _ E2 B4) ltac:(congruence) Hd32 Hp2 Ho Ha) as Hrest.
  destruct (arun cfg s2 h2) as [s3 o3] eqn:Er3. cbn [fst snd] in *. split.
  - unfold one_less in *. congruence.
  - intros Hp0 [_ Hcr].
    apply can_receive_app in Hcr. rewrite Er in Hcr. cbn [fst can_receive] in Hcr.
    destruct Hcr as [Hcr _]. destruct (Hcr B2) as (led & b & L1 & L2 & L3 & L4).
    apply adsc_reward_loop in E3 as (sl & ll & rl & bl & El & _); [|done].
    destruct B4 as [Bn1 Bn2].
    destruct (loop_pays cfg op.1 (a_bnum s1) who p _ 0 s1 CEmpty sl ll rl bl evs led b (a_base s1) Bn1 Bn2 El) as [v Hv2]; auto; [| |].
    + rewrite N.sub_0_r. exact B9.
    + rewrite N.sub_0_r. change two128 with (2 ^ 128). eapply N.le_lt_trans; [|exact L4].
      apply N.add_le_mono_l, N.mul_le_mono_r. change (2 ^ 32) with two32. lia.
    + rewrite !rewards_app. apply elem_of_app. right. apply elem_of_app. right. apply elem_of_app. left.
      unfold rewards. apply elem_of_list_omap. exists (ax_time op.1, EReward who v). split; [|cbn; now rewrite Ho0].
      apply elem_of_list_fmap. eauto.
Qed.
