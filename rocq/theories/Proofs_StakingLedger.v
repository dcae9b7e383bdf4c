(** The ledger of a stash and its slashing spans. *)
From Verif Require Import Base Model_StakingLedger Model_Staking Spec_Staking Proofs_Arith.
From stdpp Require Import gmap.
Open Scope N_scope.

(** ** Slashing a ledger *)

Lemma slash_out_cases m t x v t' x' v' :
  slash_out_of m t x v = (t', x', v') ->
  (x' = x /\ v' = v /\ t' = t /\ (v = 0 \/ x = 0)) \/
  (x' = 0 /\ v <> 0 /\ x <> 0 /\ v' = v - x /\ t' = t - x /\ x <= v + m) \/
  (m < x' /\ x' < x /\ v' = 0 /\ t' = t - v /\ x = x' + v).
Proof.
  unfold slash_out_of. intros H.
  destruct (N.eqb_spec (N.min v x) 0) as [E|E].
  - injection H as <- <- <-. left. repeat split; lia.
  - right. cbn zeta in H. destruct (N.leb_spec (x - N.min v x) m) as [Hm|Hm].
    + injection H as <- <- <-. left. unfold ssub.
      destruct (N.le_gt_cases v x); [rewrite N.min_l in * by lia|rewrite N.min_r in * by lia];
        repeat split; lia.
    + injection H as <- <- <-. right. rewrite N.min_l in * by lia. repeat split; lia.
Qed.

Lemma slash_chunks_spec m : forall cs t v t' cs',
  slash_chunks m t v cs = (t', cs') -> lsum (map c_val cs) <= t ->
  t' + lsum (map c_val cs) = t + lsum (map c_val cs') /\
  front_taken m cs cs' /\
  N.min v (lsum (map c_val cs)) <= t - t' /\ t - t' <= v + (if v =? 0 then 0 else m) /\ t' <= t /\
  (v = 0 -> lsum (map c_val cs') = lsum (map c_val cs)).
Proof.
  induction cs as [|c r IH]; intros t v t' cs' H Hs; cbn [slash_chunks] in H.
  - injection H as <- <-. cbn. split; [lia|]. split; [exists []; now left|]. repeat split; try lia.
  - destruct (slash_out_of m t (c_val c) v) as [[t1 x1] v1] eqn:E.
    cbn [map lsum] in *.
    apply slash_out_cases in E as [(-> & -> & -> & Hz)|[(-> & Hv & Hx & -> & -> & Hd)|(H1 & H2 & -> & -> & H3)]].
    + destruct (N.eqb_spec (c_val c) 0) as [Ez|Ez].
      * apply IH in H as (A & B & C & D & F & G); [|lia].
        rewrite Ez in *. split; [lia|]. split.
        { destruct B as [g [B|B]]; exists (c :: g).
          - left. now rewrite B.
          - right. destruct B as (w & w' & e & q & -> & -> & B3). exists w, w', e, q. auto. }
        repeat split; auto; lia.
      * injection H as <- <-. destruct c as [cv ce]. cbn [c_val c_era map lsum] in *.
        split; [lia|]. split; [exists []; now left|].
        destruct Hz as [->|]; [|lia]. cbn. repeat split; lia.
    + rewrite N.eqb_refl in H. apply IH in H as (A & B & C & D & F & G); [|lia].
      split; [lia|]. split.
      { destruct B as [g [B|B]]; exists (c :: g).
        - left. now rewrite B.
        - right. destruct B as (w & w' & e & q & -> & -> & B3). exists w, w', e, q. auto. }
      destruct (N.eqb_spec v 0); [lia|].
      split; [lia|]. split; [|split; [lia|intros; lia]].
      destruct (N.eqb_spec (v - c_val c) 0) as [Ev|Ev]; lia.
    + destruct (N.eqb_spec x1 0); [lia|]. injection H as <- <-.
      destruct c as [cv ce]. cbn [c_val c_era map lsum] in *.
      split; [lia|]. split.
      { exists []. right. exists cv, x1, ce, r. repeat split; auto. }
      destruct (N.eqb_spec v 0); repeat split; lia.
Qed.

Theorem slash_ledger_spec v m l l' got :
  sound l -> slash_ledger v m l = (l', got) ->
  sound l' /\ l_stash l' = l_stash l /\ l_total l = l_total l' + got /\
  N.min v (l_total l) <= got /\ got <= v + m /\
  no_dust m (l_active l) (l_active l') /\ front_taken m (l_unl l) (l_unl l') /\
  (unlocking l' <> unlocking l -> l_active l' = 0).
Proof.
  unfold sound, slash_ledger, unlocking. intros Hs H.
  destruct (slash_out_of m (l_total l) (l_active l) v) as [[t1 a1] v1] eqn:E1.
  destruct (slash_chunks m t1 v1 (l_unl l)) as [t2 u2] eqn:E2.
  injection H as <- <-. cbn [l_total l_stash l_active l_unl].
  apply slash_out_cases in E1 as [(-> & -> & -> & Hz)|[(-> & Hv & Hx & -> & -> & Hd)|(H1 & H2 & -> & -> & H3)]].
  - apply slash_chunks_spec in E2 as (A & B & C & D & F & G); [|lia].
    split; [lia|]. split; [auto|]. unfold ssub. split; [lia|].
    split; [lia|]. split; [destruct (v =? 0); lia|]. split; [now left|]. split; [auto|].
    intros Hn. destruct Hz as [->|]; auto. now rewrite G in Hn by auto.
  - apply slash_chunks_spec in E2 as (A & B & C & D & F & G); [|lia].
    split; [lia|]. split; [auto|]. unfold ssub. split; [lia|].
    split; [lia|]. split; [destruct (N.eqb_spec (v - l_active l) 0); lia|]. split; [right; now left|]. auto.
  - apply slash_chunks_spec in E2 as (A & B & C & D & F & G); [|lia].
    rewrite G in * by auto. cbn in D.
    split; [lia|]. split; [auto|]. unfold ssub. split; [lia|].
    split; [lia|]. split; [lia|]. split; [right; right; lia|]. split; [auto|]. now intros [].
Qed.

(** ** Rebonding *)

Lemma rebond_rev_spec : forall r v got act r' act',
  rebond_rev r v got act = (r', act') -> v < two128 -> got <= v ->
  got + lsum (map c_val r) < two128 -> act + lsum (map c_val r) < two128 ->
  act' = act + N.min (v - got) (lsum (map c_val r)) /\
  act' + lsum (map c_val r') = act + lsum (map c_val r) /\
  (exists gone, r = gone ++ r' \/
     exists w w' e q, r = gone ++ Chunk w e :: q /\ r' = Chunk w' e :: q /\ w' <= w).
Proof.
  induction r as [|c r IH]; intros v got act r' act' H Hv Hg Hb Ha; cbn [rebond_rev map lsum] in *.
  - injection H as <- <-. cbn [map lsum]. split; [lia|]. split; [lia|]. exists []. now left.
  - destruct c as [cv ce]. cbn [c_val c_era] in *.
    rewrite !(add128_small got cv) in H by lia. rewrite !(add128_small act cv) in H by lia.
    destruct (N.leb_spec (got + cv) v) as [L|L].
    + destruct (N.leb_spec v (got + cv)).
      * injection H as <- <-. split; [lia|]. split; [lia|]. exists [Chunk cv ce]. now left.
      * apply IH in H as (A & B & g & C); [|lia..].
        split; [lia|]. split; [lia|]. exists (Chunk cv ce :: g). destruct C as [->|(w & w' & e & q & -> & -> & C)].
        { now left. } { right. exists w, w', e, q. auto. }
    + assert (E : sub128 v got = v - got) by (apply sub128_exact; lia).
      rewrite E in H. rewrite (sub128_exact cv (v - got)) in H by lia.
      rewrite (add128_small act (v - got)) in H by lia.
      injection H as <- <-. cbn [map lsum c_val]. split; [lia|]. split; [lia|].
      exists []. right. exists cv, (cv - (v - got)), ce, r. repeat split; lia.
Qed.

Lemma lsum_rev l : lsum (rev l) = lsum l.
Proof. induction l; cbn; [auto|]. rewrite lsum_app. cbn. lia. Qed.

Theorem rebond_spec v l :
  sound l -> l_total l < two128 -> v < two128 ->
  sound (rebond v l) /\ l_stash (rebond v l) = l_stash l /\ l_total (rebond v l) = l_total l /\
  l_active (rebond v l) = l_active l + N.min v (unlocking l) /\
  back_taken (l_unl l) (l_unl (rebond v l)).
Proof.
  unfold sound, rebond, unlocking. intros Hs Ht Hv.
  destruct (rebond_rev (rev (l_unl l)) v 0 (l_active l)) as [r a] eqn:E.
  assert (R : lsum (map c_val (rev (l_unl l))) = lsum (map c_val (l_unl l)))
    by now rewrite map_rev, lsum_rev.
  apply rebond_rev_spec in E as (A & B & g & C); [|lia..].
  cbn [l_total l_stash l_active l_unl]. rewrite map_rev, lsum_rev.
  split; [lia|]. split; [auto|]. split; [auto|]. split; [lia|].
  assert (E : l_unl l = rev (rev (l_unl l))) by now rewrite rev_involutive.
  exists (rev g). destruct C as [C|(w & w' & e & q & C & -> & W)].
  - left. rewrite E, C, rev_app_distr. reflexivity.
  - right. exists w, w', e, (rev q). rewrite E, C, rev_app_distr. cbn.
    rewrite <- app_assoc. cbn. auto.
Qed.

(** ** Withdrawing *)

Lemma consolidate_total cur : forall cs t,
  lsum (map c_val cs) <= t ->
  fold_left (fun t c => if cur <? c_era c then t else ssub t (c_val c)) cs t +
    lsum (map c_val (List.filter (fun c => negb (cur <? c_era c)) cs)) = t.
Proof.
  induction cs as [|c r IH]; intros t H; cbn [fold_left List.filter map lsum] in *; [lia|].
  destruct (cur <? c_era c); cbn [negb map lsum].
  - apply IH. lia.
  - unfold ssub. rewrite N.add_comm, <- N.add_assoc, (N.add_comm (lsum _)).
    rewrite IH by lia. lia.
Qed.
Lemma filter_parts (f : chunk -> bool) cs :
  lsum (map c_val (List.filter f cs)) + lsum (map c_val (List.filter (fun c => negb (f c)) cs))
  = lsum (map c_val cs).
Proof.
  induction cs as [|c r IH]; cbn [List.filter map lsum]; [auto|].
  destruct (f c); cbn [negb map lsum]; lia.
Qed.
Lemma consolidate_spec cur l :
  sound l -> sound (consolidate cur l) /\ l_stash (consolidate cur l) = l_stash l /\
  l_active (consolidate cur l) = l_active l /\
  l_total (consolidate cur l) + lsum (map c_val (List.filter (fun c => negb (cur <? c_era c)) (l_unl l)))
    = l_total l.
Proof.
  unfold sound, unlocking. intros Hs.
  pose proof (consolidate_total cur (l_unl l) (l_total l) ltac:(lia)) as T.
  pose proof (filter_parts (fun c => cur <? c_era c) (l_unl l)) as P.
  cbn [consolidate l_total l_active l_unl l_stash] in *. repeat split; auto. lia.
Qed.

(** ** Spans *)

(** Spans whose ongoing span starts at most right after [now]. *)
Record spans_ok (now : N) (s : spans) : Prop := {
  so_index : sp_index s <= sp_start s;
  so_start : sp_start s <= now + 1;
  so_sum : lsum (sp_prior s) <= sp_start s;
  so_len : N.of_nat (length (sp_prior s)) <= sp_index s;
  so_pos : Forall (fun n => 0 < n) (sp_prior s) }.

Lemma sub32_small x y : y <= x -> x < two32 -> sub32 x y = x - y.
Proof. apply sub32_exact. Qed.

(** The prior spans without machine arithmetic. *)
Fixpoint priors (index start : N) (l : list N) : list span :=
  match l with
  | [] => []
  | n :: r => Span (index - 1) (start - n) (Some n) :: priors (index - 1) (start - n) r
  end.
Lemma prior_spans_exact : forall l i st,
  lsum l <= st -> N.of_nat (length l) <= i -> st < two32 -> i < two32 ->
  prior_spans i st l = priors i st l.
Proof.
  induction l as [|n r IH]; intros i st Hs Hl Hst Hi; cbn [prior_spans priors lsum length] in *; auto.
  rewrite sub32_small by lia. rewrite sub32_small by lia. f_equal. apply IH; lia.
Qed.
Lemma priors_length l : forall i st, length (priors i st l) = length l.
Proof. induction l; intros; cbn; auto. Qed.

Lemma priors_chained : forall l i st sl,
  lsum l <= st -> N.of_nat (length l) <= i -> Forall (fun n => 0 < n) l ->
  chained (Span i st sl :: priors i st l).
Proof.
  induction l as [|n r IH]; intros i st sl Hs Hl Hp; cbn [priors lsum length] in *; [cbn; auto|].
  apply Forall_cons in Hp as [Hn Hp].
  change (chained (Span i st sl :: Span (i - 1) (st - n) (Some n) :: priors (i - 1) (st - n) r)).
  cbn [chained sn_index sn_len sn_start]. split; [lia|]. split.
  - exists n. repeat split; lia.
  - apply (IH (i - 1) (st - n) (Some n)); auto; lia.
Qed.
Lemma priors_last : forall l i st d,
  lsum l <= st -> sn_start d = st ->
  sn_start (List.last (priors i st l) d) = st - lsum l.
Proof.
  induction l as [|n r IH]; intros i st d Hs Hd; cbn [priors lsum] in *; [cbn; lia|].
  set (d0 := Span (i - 1) (st - n) (Some n)).
  assert (E : List.last (d0 :: priors (i - 1) (st - n) r) d = List.last (priors (i - 1) (st - n) r) d0).
  { destruct (priors (i - 1) (st - n) r) as [|p q]; [reflexivity|].
    change (List.last (p :: q) d = List.last (p :: q) d0). clear.
    revert p. induction q as [|y q IH]; intros p; [reflexivity|]. apply (IH y). }
  rewrite E, (IH _ _ d0) by (cbn; lia). lia.
Qed.
(** The prior spans cover the eras from their earliest start to below [st]. *)
Lemma priors_bounds : forall l i st sp era,
  lsum l <= st -> sp ∈ priors i st l -> in_span sp era -> st - lsum l <= era /\ era < st.
Proof.
  induction l as [|n r IH]; intros i st sp era Hs Hin Hsp; cbn [priors lsum] in *.
  - now apply elem_of_nil in Hin.
  - apply elem_of_cons in Hin as [->|Hin].
    + destruct Hsp as [A B]. cbn in A, B. lia.
    + apply (IH (i - 1) (st - n) sp era) in Hsp; auto; lia.
Qed.
Lemma priors_unique : forall l i st era,
  lsum l <= st -> st - lsum l <= era -> era < st ->
  exists j sp, priors i st l !! j = Some sp /\ in_span sp era /\
    forall j' sp', priors i st l !! j' = Some sp' -> in_span sp' era -> j' = j.
Proof.
  induction l as [|n r IH]; intros i st era Hs H1 H2; cbn [priors lsum] in *; [lia|].
  destruct (N.le_gt_cases (st - n) era) as [L|L].
  - exists 0%nat, (Span (i - 1) (st - n) (Some n)). split; [auto|].
    split; [split; cbn; lia|].
    intros [|j'] sp' Hj Hsp; [auto|]. cbn in Hj. exfalso.
    apply elem_of_list_lookup_2 in Hj. apply priors_bounds with (era := era) in Hj; auto; lia.
  - destruct (IH (i - 1) (st - n) era) as (j & sp & A & B & C); [lia..|].
    exists (S j), sp. split; [auto|]. split; [auto|].
    intros [|j'] sp' Hj Hsp.
    + cbn in Hj. injection Hj as <-. destruct Hsp as [X Y]. cbn in X, Y. lia.
    + f_equal. eapply C; eauto.
Qed.

Lemma spans_iter_exact now s :
  spans_ok now s -> now + 1 < two32 ->
  spans_iter s = Span (sp_index s) (sp_start s) None :: priors (sp_index s) (sp_start s) (sp_prior s).
Proof.
  intros [A B C D E] Hn. unfold spans_iter. f_equal. apply prior_spans_exact; lia.
Qed.

Theorem spans_partition now s : spans_ok now s -> now + 1 < two32 -> partitioned (spans_iter s).
Proof.
  intros K Hn. rewrite (spans_iter_exact now s K Hn). destruct K as [A B C D E].
  eexists _, _, (sp_start s - lsum (sp_prior s)). split; [reflexivity|].
  split; [reflexivity|]. split; [apply priors_chained; auto|].
  split; [apply priors_last; auto|]. split.
  - intros era He. destruct (N.le_gt_cases (sp_start s) era) as [L|L].
    + exists 0%nat, (Span (sp_index s) (sp_start s) None). split; [auto|]. split; [split; cbn; auto|].
      intros [|j] sp Hj Hsp; [auto|]. cbn in Hj. apply elem_of_list_lookup_2 in Hj.
      apply priors_bounds with (era := era) in Hj; auto; lia.
    + destruct (priors_unique (sp_prior s) (sp_index s) (sp_start s) era) as (j & sp & X & Y & Z); [lia..|].
      exists (S j), sp. split; [auto|]. split; [auto|].
      intros [|j'] sp' Hj Hsp.
      * cbn in Hj. injection Hj as <-. destruct Hsp as [Q _]. cbn in Q. lia.
      * f_equal. eapply Z; eauto.
  - intros era sp He Hin Hsp. apply elem_of_cons in Hin as [->|Hin].
    + destruct Hsp as [Q _]. cbn in Q. lia.
    + apply priors_bounds with (era := era) in Hin; auto; lia.
Qed.

(** Every operation keeps the spans in order. *)
Lemma spans_ok_mono now now' s : spans_ok now s -> now <= now' -> spans_ok now' s.
Proof. intros [A B C D E] L. constructor; auto; lia. Qed.
Lemma spans_new_ok now w : w <= now -> spans_ok now (spans_new w).
Proof. intros H. constructor; cbn; auto; lia. Qed.
Lemma end_span_ok now s s' b :
  spans_ok now s -> now + 1 < two32 -> end_span now s = (s', b) -> spans_ok now s'.
Proof.
  intros [A B C D E] Hn H. unfold end_span in H.
  rewrite (add32_exact now 1) in H by lia.
  destruct (N.leb_spec (now + 1) (sp_start s)) as [L|L].
  - injection H as <- <-. constructor; auto.
  - injection H as <- <-. rewrite (sub32_small (now + 1) (sp_start s)) by lia.
    rewrite (add32_exact (sp_index s) 1) by lia.
    constructor; cbn [sp_index sp_start sp_prior lsum length]; try lia.
    constructor; [lia|auto].
Qed.
Lemma lsum_take n l : lsum (take n l) <= lsum l.
Proof. revert n. induction l; intros [|n]; cbn; try lia. specialize (IHl n). lia. Qed.
(** If the window starts after the ongoing span, every prior span is pruned. *)
Lemma prune_ok now w s s' p :
  spans_ok now s -> now + 1 < two32 -> w <= now -> prune w s = (s', p) -> spans_ok now s'.
Proof.
  intros K Hn Hw H. pose proof (spans_iter_exact now s K Hn) as E. destruct K as [A B C D F].
  unfold prune in H. rewrite E in H. cbn [tail] in H.
  destruct (old_position w (priors (sp_index s) (sp_start s) (sp_prior s))) as [o|] eqn:Eo.
  - injection H as <- _. constructor; cbn [sp_index sp_start sp_prior].
    + lia.
    + lia.
    + pose proof (lsum_take o (sp_prior s)). lia.
    + rewrite take_length. lia.
    + now apply Forall_take.
  - injection H as <- _. constructor; cbn [sp_index sp_start sp_prior]; auto; lia.
Qed.
(** Pruning does not move the start of the spans that are kept. *)
Lemma prune_start now w s s' p :
  spans_ok now s -> now + 1 < two32 -> prune w s = (s', p) ->
  sp_start s' = sp_start s \/ (sp_start s' = w /\ sp_prior s' = []).
Proof.
  intros K Hn H. pose proof (spans_iter_exact now s K Hn) as E. destruct K as [A B C D F].
  unfold prune in H. rewrite E in H. cbn [tail] in H.
  destruct (N.le_gt_cases w (sp_start s)) as [L|L].
  - left. destruct (old_position w _); injection H as <- _; cbn; lia.
  - right. destruct (sp_prior s) as [|n r] eqn:Ep.
    + cbn in H. injection H as <- _. cbn. split; [lia|auto].
    + cbn [priors old_position sn_len sn_start] in H. cbn [lsum] in C.
      rewrite (add32_exact (sp_start s - n) n) in H by lia.
      destruct (N.leb_spec (sp_start s - n + n) w); [|lia].
      injection H as <- _. cbn. split; [lia|auto].
Qed.
