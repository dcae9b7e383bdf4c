From Verif Require Import Base Balances Model_Adsc Model_Operation Model_Staking Model_Meter Spec_Meter.
From stdpp Require Import gmap sorting.
From Coq Require Import ZifyBool Lia.
Open Scope N_scope.

(** ** Delegators *)
Lemma pay_meter_looked cfg x g rw n : forall l s pool,
  looked (pay_meter cfg x g rw n l s pool) <= N.of_nat n.
Proof.
  induction n as [|n IH]; intros l s pool; [cbn; lia|].
  destruct l as [|[d r] rest]; [cbn; lia|]. cbn [pay_meter].
  assert (Hd : looked (payd_meter x g rw d r) = 0).
  { unfold payd_meter. repeat case_match; reflexivity. }
  destruct (pay_delegator cfg x s d r pool) as [[s1 paid] e1].
  destruct (_ =? 0); [cbn [looked madd]; lia|].
  assert (Hr : looked (payr_meter rw s1 d) = 0).
  { unfold payr_meter. repeat case_match; reflexivity. }
  destruct (pay_referer cfg s1 d paid _) as [[s2 paid2] e2].
  destruct (_ =? 0); cbn [looked madd]; [lia|].
  match goal with |- context [pay_meter cfg x g rw n rest ?a ?b] => pose proof (IH rest a b) end. lia.
Qed.

Lemma pay_meter_reads cfg x g rw n : forall l s pool,
  looked (pay_meter cfg x g rw n l s pool) <= reads (pay_meter cfg x g rw n l s pool).
Proof.
  induction n as [|n IH]; intros l s pool; [cbn; lia|].
  destruct l as [|[d r] rest]; [cbn; lia|]. cbn [pay_meter].
  assert (Hd : looked (payd_meter x g rw d r) = 0).
  { unfold payd_meter. repeat case_match; reflexivity. }
  destruct (pay_delegator cfg x s d r pool) as [[s1 paid] e1].
  destruct (_ =? 0); [cbn [looked reads madd]; lia|].
  assert (Hr : looked (payr_meter rw s1 d) = 0).
  { unfold payr_meter. repeat case_match; reflexivity. }
  destruct (pay_referer cfg s1 d paid _) as [[s2 paid2] e2].
  destruct (_ =? 0); cbn [looked reads madd]; [lia|].
  match goal with |- context [pay_meter cfg x g rw n rest ?a ?b] => pose proof (IH rest a b) end. lia.
Qed.

Lemma staking_looked cfg x g rw s : looked (staking_meter cfg x g rw s) <= d_per (k_del s).
Proof.
  unfold staking_meter, pays_meter.
  destruct (0 <? cur_era s); [|cbn; lia].
  destruct (_ =? 0); [cbn; lia|]. destruct (_ =? 0); [cbn; lia|].
  destruct (pay_loop _ _ _ _ _ _ _ _) as [[[[? ?] ?] ?] ?]. cbn [looked madd].
  pose proof (pay_meter_looked cfg x g rw (N.to_nat (d_per (k_del s)))
    (delegators_from cfg (k_del s) (d_cursor (k_del s))) s (pool_of cfg (k_del s))). lia.
Qed.

Lemma staking_accounted cfg x g rw s : accounted (staking_meter cfg x g rw s).
Proof.
  unfold accounted, staking_meter, pays_meter.
  destruct (0 <? cur_era s); [|cbn; lia].
  destruct (_ =? 0); [cbn; lia|]. destruct (_ =? 0); [cbn; lia|].
  destruct (pay_loop _ _ _ _ _ _ _ _) as [[[[? ?] ?] ?] ?]. cbn [looked reads madd].
  pose proof (pay_meter_reads cfg x g rw (N.to_nat (d_per (k_del s)))
    (delegators_from cfg (k_del s) (d_cursor (k_del s))) s (pool_of cfg (k_del s))). lia.
Qed.

(** The loop counts no more rounds than entries are looked at, one less at most. *)
Lemma pay_meter_tied cfg x g rw n : forall l s pool last c,
  let '(_, _, _, c', _) := pay_loop cfg x n l s pool last c in
  c' - c <= looked (pay_meter cfg x g rw n l s pool) <= c' - c + 1 /\ c <= c'.
Proof.
  induction n as [|n IH]; intros l s pool last c; [cbn; lia|].
  destruct l as [|[d r] rest]; [cbn; lia|]. cbn [pay_meter pay_loop].
  assert (Hd : looked (payd_meter x g rw d r) = 0).
  { unfold payd_meter. repeat case_match; reflexivity. }
  destruct (pay_delegator cfg x s d r pool) as [[s1 paid] e1].
  destruct (_ =? 0); [cbn [looked madd]; lia|].
  assert (Hr : looked (payr_meter rw s1 d) = 0).
  { unfold payr_meter. repeat case_match; reflexivity. }
  destruct (pay_referer cfg s1 d paid _) as [[s2 paid2] e2].
  destruct (_ =? 0); cbn [looked madd]; [lia|].
  match goal with |- context [pay_loop cfg x n rest ?a ?b ?e ?f] => specialize (IH rest a b e f) end.
  destruct (pay_loop cfg x n rest _ _ _ _) as [[[[s3 p3] l3] c3] e3]. lia.
Qed.

(** What is reported covers what the events tell. *)
Lemma asked_app f a b : asked f (a ++ b) = asked f a + asked f b.
Proof. unfold asked. now rewrite map_app, lsum_app. Qed.
Lemma paidd_app f a b : paid_delegators f (a ++ b) = paid_delegators f a + paid_delegators f b.
Proof. unfold paid_delegators. now rewrite map_app, lsum_app. Qed.
Lemma paidr_app f a b : paid_referers f (a ++ b) = paid_referers f a + paid_referers f b.
Proof. unfold paid_referers. now rewrite map_app, lsum_app. Qed.

Section reported.
  Context (cfg : kcfg) (x : kctx) (g : N -> N * N) (rw : N -> bool) (on : N -> N).

  Definition w_told (evs : list kev) : N :=
    2 * (paid_delegators (fun _ => 1) evs + paid_referers (fun _ => 1) evs) + asked (fun d => (g d).2 + on d) evs.
  Definition r_told (evs : list kev) : N :=
    asked (fun d => 1 + (g d).1) evs + paid_delegators (fun d => one_if (rw d)) evs
      + paid_referers (fun d => 1 + one_if (rw d)) evs.
  Lemma w_told_nil : w_told [] = 0.
  Proof. reflexivity. Qed.
  Lemma r_told_nil : r_told [] = 0.
  Proof. reflexivity. Qed.
  Lemma w_told_app a b : w_told (a ++ b) = w_told a + w_told b.
  Proof. unfold w_told. rewrite asked_app, !paidd_app, !paidr_app. lia. Qed.
  Lemma r_told_app a b : r_told (a ++ b) = r_told a + r_told b.
  Proof. unfold r_told. rewrite asked_app, !paidd_app, !paidr_app. lia. Qed.

  Lemma payd_told s d r pool s1 paid e1 :
    on d = one_if (dr_on r) ->
    pay_delegator cfg x s d r pool = (s1, paid, e1) ->
    w_told e1 <= writes (payd_meter x g rw d r) /\ r_told e1 <= reads (payd_meter x g rw d r).
  Proof.
    intros Ho. unfold pay_delegator, payd_meter.
    destruct (_ =? kx_era x); [intros [= <- <- <-]; rewrite ?w_told_nil, ?r_told_nil; cbn [reads writes mzero]; lia|].
    destruct (kx_reward x d _ _) as [poc|].
    - destruct (mint _ _ _ _) as [b got]. intros [= <- <- <-].
      unfold w_told, r_told, asked, paid_delegators, paid_referers. cbn [map lsum]. rewrite Ho.
      destruct (rw d), (dr_on r); cbn [reads writes madd mzero one_if lsum map fold_right]; lia.
    - intros [= <- <- <-].
      unfold w_told, r_told, asked, paid_delegators, paid_referers. cbn [map lsum]. rewrite Ho.
      destruct (dr_on r); cbn [reads writes madd mzero one_if]; lia.
  Qed.
  Lemma payr_told s d paid pool s1 paid2 e :
    pay_referer cfg s d paid pool = (s1, paid2, e) ->
    w_told e <= writes (payr_meter rw s d) /\ 1 + r_told e <= reads (payr_meter rw s d).
  Proof.
    unfold pay_referer, payr_meter.
    destruct (d_ref (k_del s) !! d) as [ref|]; [|intros [= <- <- <-]; rewrite ?w_told_nil, ?r_told_nil; cbn [reads writes mzero]; lia].
    destruct (Model_Staking.bonus_rate _) as [rate|]; [|intros [= <- <- <-]; rewrite ?w_told_nil, ?r_told_nil; cbn [reads writes mzero]; lia].
    destruct (mint _ _ _ _) as [b got]. intros [= <- <- <-].
    unfold w_told, r_told, asked, paid_delegators, paid_referers. cbn [map lsum].
    destruct (rw ref); cbn [reads writes madd mzero one_if]; lia.
  Qed.
  Lemma pay_told n : forall l s pool last c,
    (forall d r, (d, r) ∈ l -> on d = one_if (dr_on r)) ->
    let '(_, _, _, c', evs) := pay_loop cfg x n l s pool last c in
    w_told evs <= writes (pay_meter cfg x g rw n l s pool) /\
    3 * (c' - c) + r_told evs <= reads (pay_meter cfg x g rw n l s pool) /\ c <= c'.
  Proof.
    induction n as [|n IH]; intros l s pool last c Hl; [cbn [pay_loop pay_meter]; rewrite ?w_told_nil, ?r_told_nil; cbn [reads writes mzero]; lia|].
    destruct l as [|[d r] rest]; [cbn [pay_loop pay_meter]; rewrite ?w_told_nil, ?r_told_nil; cbn [reads writes mzero]; lia|]. cbn [pay_meter pay_loop].
    assert (Ho : on d = one_if (dr_on r)) by (apply Hl; left).
    destruct (pay_delegator cfg x s d r pool) as [[s1 paid] e1] eqn:E1.
    destruct (payd_told _ _ _ _ _ _ _ Ho E1) as [W1 R1].
    destruct (_ =? 0); [cbn [reads writes madd]; lia|].
    destruct (pay_referer cfg s1 d paid _) as [[s2 paid2] e2] eqn:E2.
    destruct (payr_told _ _ _ _ _ _ _ E2) as [W2 R2].
    destruct (_ =? 0); cbn [reads writes madd]; [rewrite w_told_app, r_told_app; lia|].
    match goal with |- context [pay_loop cfg x n rest ?a ?b ?e ?f] => specialize (IH rest a b e f) end.
    destruct (pay_loop cfg x n rest _ _ _ _) as [[[[s3 p3] l3] c3] e3].
    destruct IH as (W3 & R3 & C3); [intros d' r' H; apply Hl; now right|].
    rewrite !w_told_app, !r_told_app. lia.
  Qed.
End reported.

Lemma rounds_told cfg x g rw n l s pool last c :
  let '(_, _, _, c', evs) := pay_loop cfg x n l s pool last c in
  3 * (c' - c) + asked (fun d => 1 + (g d).1) evs + paid_delegators (fun d => one_if (rw d)) evs
    + paid_referers (fun d => 1 + one_if (rw d)) evs <= reads (pay_meter cfg x g rw n l s pool).
Proof.
  assert (G : forall n l s pool last c,
    let '(_, _, _, c', evs) := pay_loop cfg x n l s pool last c in
    3 * (c' - c) + r_told g rw evs <= reads (pay_meter cfg x g rw n l s pool) /\ c <= c').
  { clear. induction n as [|n IH]; intros l s pool last c; [cbn [pay_loop pay_meter]; rewrite ?r_told_nil; cbn [reads mzero]; lia|].
    destruct l as [|[d r] rest]; [cbn [pay_loop pay_meter]; rewrite ?r_told_nil; cbn [reads mzero]; lia|]. cbn [pay_meter pay_loop].
    destruct (pay_delegator cfg x s d r pool) as [[s1 paid] e1] eqn:E1.
    destruct (payd_told cfg x g rw (fun _ => one_if (dr_on r)) _ _ _ _ _ _ _ eq_refl E1) as [_ R1].
    destruct (_ =? 0); [cbn [reads madd]; lia|].
    destruct (pay_referer cfg s1 d paid _) as [[s2 paid2] e2] eqn:E2.
    destruct (payr_told cfg g rw (fun _ => 0) _ _ _ _ _ _ _ E2) as [_ R2].
    destruct (_ =? 0); cbn [reads madd]; [rewrite r_told_app; lia|].
    match goal with |- context [pay_loop cfg x n rest ?a ?b ?e ?f] => specialize (IH rest a b e f) end.
    destruct (pay_loop cfg x n rest _ _ _ _) as [[[[s3 p3] l3] c3] e3].
    rewrite !r_told_app. lia. }
  specialize (G n l s pool last c). destruct (pay_loop _ _ _ _ _ _ _ _) as [[[[? ?] ?] ?] ?].
  unfold r_told in G. lia.
Qed.

Lemma pay_loop_cursor cfg x n : forall l s pool last c,
  let '(s', _, _, _, _) := pay_loop cfg x n l s pool last c in d_cursor (k_del s') = d_cursor (k_del s).
Proof.
  induction n as [|n IH]; intros l s pool last c; [reflexivity|].
  destruct l as [|[d r] rest]; [reflexivity|]. cbn [pay_loop].
  destruct (pay_delegator cfg x s d r pool) as [[s1 paid] e1] eqn:E1.
  assert (H1 : d_cursor (k_del s1) = d_cursor (k_del s)).
  { unfold pay_delegator in E1. destruct (_ =? kx_era x); [congruence|].
    destruct (kx_reward x d _ _); [destruct (mint _ _ _ _)|]; injection E1 as <- _ _; cbn; destruct (dr_on r); reflexivity. }
  destruct (_ =? 0); [exact H1|].
  destruct (pay_referer cfg s1 d paid _) as [[s2 paid2] e2] eqn:E2.
  assert (H2 : d_cursor (k_del s2) = d_cursor (k_del s1)).
  { unfold pay_referer in E2. destruct (d_ref (k_del s1) !! d); [|congruence].
    destruct (Model_Staking.bonus_rate _); [|congruence].
    destruct (mint _ _ _ _). injection E2 as <- _ _. reflexivity. }
  destruct (_ =? 0); [congruence|].
  match goal with |- context [pay_loop cfg x n rest ?a ?b ?e ?f] => specialize (IH rest a b e f) end.
  destruct (pay_loop cfg x n rest _ _ _ _) as [[[[s3 p3] l3] c3] e3]. congruence.
Qed.

Lemma delegators_from_recs cfg k c d r : (d, r) ∈ delegators_from cfg k c -> d_recs k !! d = Some r.
Proof.
  unfold delegators_from. intros H. apply elem_of_list_filter in H as [_ H].
  rewrite (merge_sort_Permutation _ _) in H. now apply elem_of_map_to_list in H.
Qed.

Lemma staking_told cfg x g rw s s' evs :
  on_initialize cfg x s = ROk (s', evs) ->
  let m := staking_meter cfg x g rw s in
  2 * (paid_delegators (fun _ => 1) evs + paid_referers (fun _ => 1) evs)
    + asked (fun d => (g d).2 + stays s d) evs
    + one_if (bool_decide (d_pool (k_del s') <> d_pool (k_del s)))
    + one_if (bool_decide (d_cursor (k_del s') <> d_cursor (k_del s))) + 1 <= writes m /\
  asked (fun d => 1 + (g d).1) evs + paid_delegators (fun d => one_if (rw d)) evs
    + paid_referers (fun d => 1 + one_if (rw d)) evs <= reads m.
Proof.
  assert (B : forall b, one_if b <= 1) by (intros []; cbn; lia).
  intros H. cbv zeta. unfold on_initialize in H. unfold staking_meter.
  change (w_told g (stays s) evs + one_if (bool_decide (d_pool (k_del s') <> d_pool (k_del s)))
    + one_if (bool_decide (d_cursor (k_del s') <> d_cursor (k_del s))) + 1
    <= writes (madd (Meter 0 2 1)
      (if 0 <? cur_era s then
         if kx_block x mod kc_bpe cfg =? 0 then Meter 0 3 4 else pays_meter cfg x g rw s
       else mzero)) /\ r_told g rw evs <= reads (madd (Meter 0 2 1)
      (if 0 <? cur_era s then
         if kx_block x mod kc_bpe cfg =? 0 then Meter 0 3 4 else pays_meter cfg x g rw s
       else mzero))).
  assert (B1 := B (bool_decide (d_pool (k_del s') <> d_pool (k_del s)))).
  assert (B2 := B (bool_decide (d_cursor (k_del s') <> d_cursor (k_del s)))).
  assert (Z : forall s0, s' = s0 -> d_pool (k_del s0) = d_pool (k_del s) ->
    d_cursor (k_del s0) = d_cursor (k_del s) ->
    one_if (bool_decide (d_pool (k_del s') <> d_pool (k_del s))) = 0 /\
    one_if (bool_decide (d_cursor (k_del s') <> d_cursor (k_del s))) = 0).
  { intros s0 -> E1 E2. rewrite E1, E2. rewrite !bool_decide_eq_false_2 by congruence. split; reflexivity. }
  destruct (0 <? cur_era s).
  2: { injection H as <- <-. destruct (Z s eq_refl eq_refl eq_refl) as [-> ->].
       rewrite w_told_nil, r_told_nil. cbn [reads writes madd mzero]. lia. }
  destruct (kx_block x mod kc_bpe cfg =? 0).
  { destruct (_ =? 0); [discriminate|]. injection H as <- <-.
    rewrite w_told_nil, r_told_nil. cbn [reads writes madd mzero]. lia. }
  unfold pay_delegators in H. unfold pays_meter.
  destruct (pool_of cfg (k_del s) =? 0).
  { injection H as <- <-. destruct (Z s eq_refl eq_refl eq_refl) as [-> ->].
    rewrite w_told_nil, r_told_nil. cbn [reads writes madd mzero]. lia. }
  pose proof (pay_told cfg x g rw (stays s) (N.to_nat (d_per (k_del s)))
    (delegators_from cfg (k_del s) (d_cursor (k_del s))) s (pool_of cfg (k_del s)) (d_cursor (k_del s)) 0) as T.
  pose proof (pay_loop_cursor cfg x (N.to_nat (d_per (k_del s)))
    (delegators_from cfg (k_del s) (d_cursor (k_del s))) s (pool_of cfg (k_del s)) (d_cursor (k_del s)) 0) as C.
  destruct (pay_loop _ _ _ _ _ _ _ _) as [[[[s1 p1] l1] c1] e1].
  destruct T as (W & R & _).
  { intros d r Hd. apply delegators_from_recs in Hd. unfold stays. rewrite Hd. now destruct (dr_on r). }
  injection H as <- <-. cbn [reads writes madd]. cbn in C.
  destruct (c1 =? d_per (k_del s)); [lia|].
  assert (E : one_if (bool_decide (d_cursor (k_del (set_k_del s1 (set_d_pool (k_del s1) (Some p1)))) <> d_cursor (k_del s))) = 0).
  { cbn. rewrite C. now rewrite bool_decide_eq_false_2 by congruence. }
  rewrite E. lia.
Qed.

(** ** ADSC stakers *)
Definition is_silent (x : actx) (p : N * N) : Prop := ax_offline x p.1 <> 0.
Global Instance is_silent_dec x p : Decision (is_silent x p).
Proof. unfold is_silent. apply _. Defined.
Definition nsilent (x : actx) (l : list (N * N)) : N := N.of_nat (length (filter (is_silent x) l)).

Lemma nsilent_cons x p l :
  nsilent x (p :: l) = (if decide (is_silent x p) then 1 else 0) + nsilent x l.
Proof. unfold nsilent. rewrite filter_cons. destruct (decide (is_silent x p)); cbn [length]; lia. Qed.

Lemma adsc_meter_looked x bnum l : forall counter,
  counter < bnum -> bnum < two32 ->
  looked (adsc_meter x bnum l counter) <= (bnum - counter) + nsilent x l.
Proof.
  induction l as [|[who period] r IH]; intros c Hc Hb; [cbn; lia|].
  cbn [adsc_meter]. rewrite nsilent_cons.
  destruct (ax_offline x who =? 0) eqn:E; cbn [negb].
  - rewrite decide_False by (unfold is_silent; cbn; lia).
    assert (Hadd : add32 c 1 = c + 1).
    { unfold add32, w32. rewrite N.mod_small; [reflexivity|]. lia. }
    rewrite Hadd. assert (H1 : looked (if period =? 0 then Meter 1 1 1 else Meter 1 4 4) = 1) by (destruct (period =? 0); reflexivity).
    destruct (c + 1 =? bnum) eqn:Ec; [rewrite H1; lia|].
    cbn [looked madd]. rewrite H1. specialize (IH (c + 1)). lia.
  - rewrite decide_True by (unfold is_silent; cbn; lia).
    cbn [looked madd]. specialize (IH c Hc Hb). lia.
Qed.

Lemma adsc_meter_reads x bnum l : forall counter,
  nsilent x l = 0 -> looked (adsc_meter x bnum l counter) <= reads (adsc_meter x bnum l counter)
    /\ looked (adsc_meter x bnum l counter) <= writes (adsc_meter x bnum l counter).
Proof.
  induction l as [|[who period] r IH]; intros c Hs; [cbn; lia|].
  cbn [adsc_meter]. rewrite nsilent_cons in Hs.
  destruct (ax_offline x who =? 0) eqn:E; cbn [negb].
  - specialize (IH (add32 c 1)).
    destruct (period =? 0), (add32 c 1 =? bnum); cbn [looked reads writes madd]; lia.
  - exfalso. destruct (decide _) as [|Hn]; [lia|]. apply Hn. unfold is_silent. cbn. lia.
Qed.

(** Those served by the loop are removed or counted down, and the meter knows them. *)
Lemma adsc_meter_tied cfg x bnum l : forall c s last,
  let '(_, _, rem, sub, evs) := reward_loop cfg x bnum l c s last in
  writes (adsc_meter x bnum l c) = N.of_nat (length rem) + 4 * N.of_nat (length sub)
  /\ N.of_nat (length rem + length sub) <= looked (adsc_meter x bnum l c)
       <= N.of_nat (length rem + length sub) + nsilent x l
  /\ (length evs <= length sub)%nat.
Proof.
  induction l as [|[who period] r IH]; intros c s last; [cbn; lia|].
  cbn [reward_loop adsc_meter]. rewrite nsilent_cons.
  destruct (ax_offline x who =? 0) eqn:E; cbn [negb].
  - rewrite decide_False by (unfold is_silent; cbn; lia).
    set (pe := if period =? 0 then (s, []) else _).
    assert (Hev : (length pe.2 <= (if N.eqb period 0 then 0 else 1))%nat).
    { subst pe. destruct (period =? 0); [cbn; lia|].
      destruct (pay_reward s who period) as [[s1 v]|]; cbn; lia. }
    destruct pe as [s1 evs].
    cbn [snd] in Hev.
    destruct (add32 c 1 =? bnum).
    + destruct (period =? 0); cbn [length looked writes madd]; lia.
    + specialize (IH (add32 c 1) s1 (Model_Adsc.CKey (ac_key cfg who))).
      destruct (reward_loop cfg x bnum r (add32 c 1) s1 (Model_Adsc.CKey (ac_key cfg who))) as [[[[s2 l2] rem2] sub2] evs2].
      rewrite !app_length.
      destruct (period =? 0); cbn [length looked writes madd]; lia.
  - rewrite decide_True by (unfold is_silent; cbn; lia).
    specialize (IH c s last). destruct (reward_loop cfg x bnum r c s last) as [[[[s2 l2] rem2] sub2] evs2].
    cbn [looked writes madd]. lia.
Qed.

Lemma adsc_all_silent x bnum l : forall c,
  (forall p, p ∈ l -> ax_offline x p.1 <> 0) ->
  adsc_meter x bnum l c = Meter (N.of_nat (length l)) 0 0.
Proof.
  induction l as [|[who period] r IH]; intros c H; [reflexivity|].
  cbn [adsc_meter].
  assert (E : ax_offline x who =? 0 = false).
  { apply N.eqb_neq. apply (H (who, period)). left. }
  rewrite E. cbn [negb]. rewrite IH by (intros p Hp; apply H; now right).
  unfold madd. cbn [looked reads writes length]. f_equal; lia.
Qed.

Lemma filter_filter_length {A} (P Q : A -> Prop) `{!forall x, Decision (P x), !forall x, Decision (Q x)} (l : list A) :
  (length (filter P (filter Q l)) <= length (filter P l))%nat.
Proof.
  induction l as [|a l IH]; [cbn; lia|].
  destruct (decide (Q a)) as [Hq|Hq].
  - rewrite (filter_cons_True Q) by done. destruct (decide (P a)).
    + rewrite !(filter_cons_True P) by done. cbn. lia.
    + now rewrite !(filter_cons_False P) by done.
  - rewrite (filter_cons_False Q) by done. destruct (decide (P a)).
    + rewrite (filter_cons_True P _ l) by done. cbn. lia.
    + now rewrite (filter_cons_False P _ l) by done.
Qed.
Lemma iter_from_prefix cfg s :
  Model_Adsc.iter_from cfg s Model_Adsc.CPrefix ≡ₚ map_to_list (a_stakers s).
Proof.
  unfold Model_Adsc.iter_from.
  rewrite (merge_sort_Permutation (key_le cfg)). induction (map_to_list (a_stakers s)) as [|p l IH]; [constructor|].
  rewrite filter_cons_True by reflexivity. now constructor.
Qed.

Lemma NoDup_fst_filter {A B} (P : A * B -> Prop) `{!forall x, Decision (P x)} (l : list (A * B)) :
  NoDup l.*1 -> NoDup (filter P l).*1.
Proof.
  induction l as [|a l IH]; intros Hl; [done|]. cbn in Hl. apply NoDup_cons in Hl as [Hn Hd].
  destruct (decide (P a)).
  - rewrite filter_cons_True by done. cbn. apply NoDup_cons. split; [|auto].
    intros Hi. apply Hn. apply elem_of_list_fmap in Hi as (b & E & Hb).
    apply elem_of_list_filter in Hb as [_ Hb]. rewrite E. now apply elem_of_list_fmap_1.
  - rewrite filter_cons_False by done. auto.
Qed.

Lemma nsilent_iter cfg x s c :
  nsilent x (Model_Adsc.iter_from cfg s c) <= N.of_nat (size (silent x s)).
Proof.
  unfold nsilent.
  assert (Hle : (length (filter (is_silent x) (Model_Adsc.iter_from cfg s c))
     <= length (filter (is_silent x) (map_to_list (a_stakers s))))%nat).
  { unfold Model_Adsc.iter_from. etransitivity; [apply filter_filter_length|].
    apply Nat.eq_le_incl, Permutation_length. now rewrite merge_sort_Permutation. }
  assert (Heq : length (filter (is_silent x) (map_to_list (a_stakers s)))
    = size (silent x s)).
  { unfold silent, size, map_size. rewrite map_filter_alt, map_to_list_to_map;
      [f_equal; apply list_filter_iff; reflexivity|].
    apply NoDup_fst_filter, NoDup_fst_map_to_list. }
  lia.
Qed.

(** Whatever the hook of the ADSC pallet does. *)
Lemma adsc_looked cfg x s :
  1 <= a_bnum s < two32 ->
  looked (adsc_init_meter cfg s x) <= a_bnum s + N.of_nat (size (silent x s)).
Proof.
  intros Hb. unfold adsc_init_meter, adsc_reward_meter.
  destruct (_ <? _); [cbn; lia|].
  assert (H : forall c, looked (adsc_meter x (a_bnum s) (Model_Adsc.iter_from cfg s c) 0)
     <= a_bnum s + N.of_nat (size (silent x s))).
  { intros c. pose proof (adsc_meter_looked x (a_bnum s) (Model_Adsc.iter_from cfg s c) 0).
    pose proof (nsilent_iter cfg x s c). lia. }
  destruct (a_cursor s) as [| |k]; cbn [looked madd]; [lia| |].
  - pose proof (H Model_Adsc.CPrefix). lia.
  - pose proof (H (Model_Adsc.CKey k)). lia.
Qed.

Lemma adsc_rewards cfg x s :
  1 <= a_bnum s < two32 ->
  rewards (on_init cfg s x).2 <= a_bnum s.
Proof.
  intros Hb. unfold on_init. destruct (_ <? _); [cbn; lia|]. unfold adsc_reward.
  assert (Hl : forall l c s0 last, c < a_bnum s ->
     let '(_, _, _, _, evs) := reward_loop cfg x (a_bnum s) l c s0 last in rewards evs <= a_bnum s - c).
  { induction l as [|[who period] r IH]; intros c s0 last Hc; [cbn; lia|].
    cbn [reward_loop].
    destruct (ax_offline x who =? 0); cbn [negb]; [|apply IH, Hc].
    set (pe := if period =? 0 then (s0, []) else _).
    assert (Hev : rewards pe.2 <= 1).
    { subst pe. destruct (period =? 0); [cbn; lia|].
      destruct (pay_reward s0 who period) as [[s1 v]|]; cbn; lia. }
    destruct pe as [s1 evs]. cbn [snd] in Hev.
    assert (Hadd : add32 c 1 = c + 1).
    { unfold add32, w32. rewrite N.mod_small; [reflexivity|]. lia. }
    rewrite Hadd. destruct (c + 1 =? a_bnum s) eqn:Ec; [lia|].
    specialize (IH (c + 1) s1 (Model_Adsc.CKey (ac_key cfg who))).
    destruct (reward_loop cfg x (a_bnum s) r (c + 1) s1 _) as [[[[s2 l2] rem2] sub2] evs2].
    unfold rewards in *. rewrite map_app, lsum_app. lia. }
  destruct (a_cursor s) as [| |k]; [cbn; lia| |].
  - specialize (Hl (Model_Adsc.iter_from cfg s Model_Adsc.CPrefix) 0 s CEmpty).
    destruct (reward_loop _ _ _ _ _ _ _) as [[[[s2 l2] rem2] sub2] evs2]. cbn [snd]. lia.
  - specialize (Hl (Model_Adsc.iter_from cfg s (Model_Adsc.CKey k)) 0 s CEmpty).
    destruct (reward_loop _ _ _ _ _ _ _) as [[[[s2 l2] rem2] sub2] evs2]. cbn [snd]. lia.
Qed.

Lemma adsc_accounted cfg x s :
  silent x s = ∅ -> accounted (adsc_init_meter cfg s x).
Proof.
  intros Hs. unfold accounted, adsc_init_meter, adsc_reward_meter.
  destruct (_ <? _); [cbn; lia|].
  assert (H : forall c, looked (adsc_meter x (a_bnum s) (Model_Adsc.iter_from cfg s c) 0)
     <= reads (adsc_meter x (a_bnum s) (Model_Adsc.iter_from cfg s c) 0)).
  { intros c. apply adsc_meter_reads. pose proof (nsilent_iter cfg x s c) as Hn.
    rewrite Hs, map_size_empty in Hn. lia. }
  destruct (a_cursor s) as [| |k]; cbn [looked reads madd]; [lia| |].
  - pose proof (H Model_Adsc.CPrefix). lia.
  - pose proof (H (Model_Adsc.CKey k)). lia.
Qed.

(** A chain with [n] stakers, all silent. *)
Section many.
  Context (cfg : acfg).
  Definition adm : actx := ACtx 0 (fun _ => 0) (fun _ => true) true.
  Definition newday : actx := ACtx Model_Adsc.MS_PER_DAY (fun _ => 0) (fun _ => true) true.
  (** A day later nobody has been heard of. *)
  Definition quiet : actx := ACtx Model_Adsc.MS_PER_DAY (fun _ => 5) (fun _ => true) true.
  Definition adds (l : list N) : list aop := map (fun i => (adm, inl (Signed 0, AAdd i))) l.
  Fixpoint put_all (l : list N) (v : N) (m : gmap N N) : gmap N N :=
    match l with [] => m | i :: r => put_all r v (<[i := v]> m) end.
  Lemma set_stakers_twice s m m' : set_a_stakers (set_a_stakers s m) m' = set_a_stakers s m'.
  Proof. reflexivity. Qed.
  Lemma run_adds l : forall s h, (arun cfg s (adds l ++ h)).1 =
    (arun cfg (set_a_stakers s (put_all l (a_period s) (a_stakers s))) h).1.
  Proof.
    induction l as [|i r IH]; intros s h; [cbn; destruct s; reflexivity|].
    cbn [adds map app arun]. unfold ado at 1. cbn [snd fst].
    unfold astep. cbn [aexec ensure_admin ax_admin adm rbind].
    fold (adds r).
    specialize (IH (set_a_stakers s (<[i:=a_period s]> (a_stakers s))) h).
    destruct (arun cfg (set_a_stakers s _) (adds r ++ h)) as [s2 out] eqn:E. cbn [fst].
    cbn [fst] in IH. rewrite IH. reflexivity.
  Qed.
  Lemma put_all_size l v : forall m, NoDup l -> (forall i, i ∈ l -> m !! i = None) ->
    size (put_all l v m) = (size m + length l)%nat.
  Proof.
    induction l as [|i r IH]; intros m Hd Hm; [cbn; lia|].
    apply NoDup_cons in Hd as [Hi Hd]. cbn [put_all length].
    rewrite IH; [|done|].
    - rewrite map_size_insert_None by (apply Hm; left). lia.
    - intros j Hj. rewrite lookup_insert_ne by (intros ->; done). apply Hm. now right.
  Qed.
  Definition names (n : nat) : list N := map N.of_nat (seq 0 n).
  Lemma names_NoDup n : NoDup (names n).
  Proof. unfold names. apply (NoDup_fmap_2 N.of_nat). apply NoDup_seq. Qed.
  Lemma names_length n : length (names n) = n.
  Proof. unfold names. rewrite map_length. apply seq_length. Qed.

  Lemma many_silent b u (n : nat) :
    let s := (arun cfg (ainit b u) (adds (names n) ++ [(newday, inr AInitialize)])).1 in
    adsc_init_meter cfg s quiet = Meter (N.of_nat n) 4 1 /\ a_bnum s = add32 (N.min (N.of_nat n) (two32 - 1) / 17000) 2.
  Proof.
    intros s. subst s. rewrite run_adds.
    set (m := put_all _ _ _).
    assert (Hm : size m = n).
    { subst m. rewrite put_all_size; [now rewrite names_length|apply names_NoDup|done]. }
    cbn [arun]. unfold ado. cbn [snd fst aentry]. unfold on_init.
    cbn [a_day set_a_stakers ainit newday ax_time a_stakers].
    replace (0 <? Model_Adsc.day_of Model_Adsc.MS_PER_DAY) with true by reflexivity.
    cbn [fst]. rewrite Hm. split; [|reflexivity].
    unfold adsc_init_meter. cbn [a_day set_a_bnum set_a_cursor set_a_day quiet ax_time].
    rewrite N.ltb_irrefl. unfold adsc_reward_meter. cbn [a_cursor set_a_bnum set_a_cursor].
    rewrite adsc_all_silent by (intros p _; cbn; lia).
    rewrite (Permutation_length (iter_from_prefix cfg _)). cbn [a_stakers set_a_bnum set_a_cursor set_a_day set_a_stakers].
    unfold size, map_size in Hm. rewrite Hm. reflexivity.
  Qed.
End many.

(** ** Release schedules *)
Lemma release_meter_tied cfg d l : forall s total daily blockly,
  let '(_, _, _, _, _, evs) := release_loop cfg d l s total daily blockly in
  N.of_nat (length evs) <= release_meter s d l daily blockly
    <= N.of_nat (length evs) + N.of_nat (length (filter (fun p => mul128 (r_per p.2) (d - r_last p.2) = 0) l)).
Proof.
  induction l as [|[who r] rest IH]; intros s total daily blockly; [cbn; lia|].
  cbn [release_loop release_meter].
  destruct (mul128 (r_per r) (d - r_last r) =? 0) eqn:E0.
  - rewrite filter_cons_True by (cbn; lia).
    specialize (IH s total daily blockly). destruct (release_loop _ _ _ _ _ _ _) as [[[[[? ?] ?] ?] ?] evs].
    cbn [length]. lia.
  - rewrite filter_cons_False by (cbn; lia).
    destruct (o_smax s <? _); [cbn [length]; lia|].
    destruct (Model_Operation.mint (oc_ed cfg) (o_bank s) who _) as [b peek].
    cbn [o_dmax o_smax set_o_bank set_o_info].
    destruct (o_dmax s <=? _); [cbn [length]; lia|].
    destruct (o_smax s <=? _); [cbn [length]; lia|].
    match goal with |- context [release_loop cfg d rest ?a ?b1 ?c ?e] => specialize (IH a b1 c e) end.
    destruct (release_loop _ _ _ _ _ _ _) as [[[[[? ?] ?] ?] ?] evs].
    assert (Hm : forall s1 dl bl, o_smax s1 = o_smax s -> o_dmax s1 = o_dmax s ->
      release_meter s1 d rest dl bl = release_meter s d rest dl bl).
    { clear. intros s1 dl bl H1 H2. revert dl bl. induction rest as [|[w q] t IHt]; intros dl bl; [reflexivity|].
      cbn [release_meter]. rewrite H1, H2. now rewrite !IHt. }
    rewrite Hm in IH by reflexivity. cbn [length]. lia.
Qed.

(** A release pays something, and what a block pays stays below the single maximum
    until the last one. *)
Lemma release_loop_count cfg d l : forall s total daily blockly,
  o_smax s < 2 ^ 127 -> blockly <= o_smax s -> (blockly = 0 \/ blockly < o_smax s) ->
  let '(_, _, _, _, _, evs) := release_loop cfg d l s total daily blockly in
  releases evs <= o_smax s - blockly.
Proof.
  induction l as [|[who r] rest IH]; intros s total daily blockly Hs Hb Hb'; [cbn; lia|].
  cbn [release_loop].
  destruct (mul128 (r_per r) (d - r_last r) =? 0) eqn:E0; [apply IH; done|].
  destruct (o_smax s <? _) eqn:E1; [cbn; lia|].
  set (v := mul128 (r_per r) (d - r_last r)) in *.
  destruct (Model_Operation.mint (oc_ed cfg) (o_bank s) who v) as [b peek].
  cbn [o_dmax o_smax set_o_bank set_o_info].
  destruct (o_dmax s <=? _); [cbn; lia|].
  assert (Hadd : add128 blockly v = blockly + v).
  { unfold add128, w128. apply N.mod_small. unfold two128. lia. }
  rewrite Hadd.
  destruct (o_smax s <=? blockly + v) eqn:E2; [cbn; lia|].
  match goal with |- context [release_loop cfg d rest ?a ?b1 ?c ?e] => specialize (IH a b1 c e) end.
  cbn [o_smax set_o_bank set_o_info] in IH.
  destruct (release_loop _ _ _ _ _ _ _) as [[[[[? ?] ?] ?] ?] evs].
  cbn. fold (releases evs). unfold releases in *. lia.
Qed.

Lemma release_count cfg s x :
  o_smax s < 2 ^ 127 -> releases (Model_Operation.on_finalize cfg s x).2 <= o_smax s.
Proof.
  intros Hs. unfold Model_Operation.on_finalize. destruct (_ <? _); [cbn; lia|]. unfold release.
  destruct (o_end s); [cbn; lia|].
  match goal with |- context [release_loop cfg ?d ?l ?a ?b1 ?c ?e] =>
    pose proof (release_loop_count cfg d l a b1 c e) as H end.
  destruct (release_loop _ _ _ _ _ _ _) as [[[[[? ?] ?] ?] ?] evs]. cbn [snd]. lia.
Qed.

Section schedules.
  Context (cfg : ocfg).
  Definition setter : octx := OCtx 0 (fun _ => true) (fun _ => true) (fun _ => true) (fun _ => true) (fun _ => 0).
  (** A schedule over 10 days that begins on day 9. *)
  Definition plan : N -> oop := fun i => (setter, inl (Signed 0, OUnstake i 10 (9 * Model_Operation.MS_PER_DAY) DPR)).
  Definition plans (l : list N) : list oop := map plan l.
  Definition the_plan : sched := Sched 10 (9 * Model_Operation.MS_PER_DAY) DPR 9 9 (DPR / 10).
  Fixpoint plan_all (l : list N) (m : gmap N sched) : gmap N sched :=
    match l with [] => m | i :: r => plan_all r (<[i := the_plan]> m) end.
  Lemma run_plans l : forall s, o_smax s = 10000 * DPR ->
    (orun cfg s (plans l)).1 = set_o_info s (plan_all l (o_info s)).
  Proof.
    induction l as [|i r IH]; intros s Hs; [cbn; destruct s; reflexivity|].
    cbn [plans map orun]. unfold odo at 1. cbn [plan snd fst].
    unfold ostep. cbn [oexec signed rbind do_unstake]. unfold do_unstake. cbn [ox_setter setter ensure rbind].
    replace (negb (10 =? 0)) with true by reflexivity. cbn [ensure rbind].
    replace (negb (DPR =? 0)) with true by reflexivity. cbn [ensure rbind].
    rewrite Hs. replace (DPR / 10 <=? 10000 * DPR) with true by reflexivity. cbn [ensure rbind ox_slash setter].
    replace (Model_Operation.day_of (9 * Model_Operation.MS_PER_DAY)) with 9 by reflexivity.
    cbn [Model_Operation.signed rbind].
    match goal with |- context [orun cfg ?a ?t] =>
      change (orun cfg a t) with (orun cfg (set_o_info s (<[i := the_plan]> (o_info s))) (plans r)) end.
    specialize (IH (set_o_info s (<[i:=the_plan]> (o_info s))) Hs).
    destruct (orun cfg (set_o_info s _) (plans r)) as [s2 out] eqn:E. cbn [fst].
    cbn [fst] in IH. rewrite IH. reflexivity.
  Qed.
  Lemma plan_all_size l : forall m, NoDup l -> (forall i, i ∈ l -> m !! i = None) ->
    size (plan_all l m) = (size m + length l)%nat.
  Proof.
    induction l as [|i r IH]; intros m Hd Hm; [cbn; lia|].
    apply NoDup_cons in Hd as [Hi Hd]. cbn [plan_all length].
    rewrite IH; [|done|].
    - rewrite map_size_insert_None by (apply Hm; left). lia.
    - intros j Hj. rewrite lookup_insert_ne by (intros ->; done). apply Hm. now right.
  Qed.
  Lemma plan_all_in l : forall m, (forall i p, m !! i = Some p -> p = the_plan) ->
    forall i p, plan_all l m !! i = Some p -> p = the_plan.
  Proof.
    induction l as [|j r IH]; intros m Hm i p H; [eauto|]. cbn [plan_all] in H.
    refine (IH _ _ i p H). intros k q Hk. apply lookup_insert_Some in Hk as [[_ <-]|[_ Hk]]; eauto.
  Qed.
  Lemma oiter_prefix s : Model_Operation.iter_from cfg s OPrefix ≡ₚ map_to_list (o_info s).
  Proof.
    unfold Model_Operation.iter_from.
    rewrite (merge_sort_Permutation (okey_le cfg)). induction (map_to_list (o_info s)) as [|p l IH]; [constructor|].
    rewrite filter_cons_True by reflexivity. now constructor.
  Qed.
  Lemma release_all_future s d l dl bl : (forall p, p ∈ l -> d <= r_last p.2) ->
    release_meter s d l dl bl = N.of_nat (length l).
  Proof.
    induction l as [|[who r] rest IH]; intros H; [reflexivity|]. cbn [release_meter].
    replace (d - r_last r) with 0 by (pose proof (H (who, r) ltac:(left)); cbn in *; lia).
    unfold mul128 at 1. rewrite N.mul_0_r. replace (w128 0 =? 0) with true by reflexivity.
    rewrite IH by (intros p Hp; apply H; now right). cbn [length]. lia.
  Qed.
  Lemma many_plans b (n : nat) :
    let s := (orun cfg (oinit b) (plans (names n))).1 in
    operation_meter cfg s setter = Meter (N.of_nat n) 0 0.
  Proof.
    intros s. subst s. rewrite run_plans by reflexivity.
    set (m := plan_all _ _).
    assert (Hm : size m = n).
    { subst m. rewrite plan_all_size; [now rewrite names_length|apply names_NoDup|done]. }
    unfold operation_meter. cbn [o_day set_o_info oinit setter ox_time o_end o_cursor o_daily].
    replace (0 <? Model_Operation.day_of 0) with false by reflexivity. cbn [orb].
    rewrite release_all_future.
    - rewrite (Permutation_length (oiter_prefix _)). cbn [o_info set_o_info].
      unfold size, map_size in Hm. now rewrite Hm.
    - intros [i p] Hp. assert (Hin : (i, p) ∈ map_to_list m).
      { pose proof (oiter_prefix (set_o_info (oinit b) m)) as Hq. cbn [o_info set_o_info] in Hq. now rewrite <-Hq. }
      apply elem_of_map_to_list in Hin.
      assert (He : forall j q, (∅ : gmap N sched) !! j = Some q -> q = the_plan)
        by (intros j q; rewrite lookup_empty; discriminate).
      rewrite (plan_all_in (names n) ∅ He i p Hin). vm_compute. discriminate.
  Qed.
End schedules.

Lemma small_sub a b : b <= a -> a < two32 -> (a + (two32 - b mod two32)) mod two32 = a - b.
Proof.
  intros H L. rewrite (N.mod_small b) by lia. unfold two32 in *.
  replace (a + (4294967296 - b)) with (a - b + 1 * 4294967296) by lia.
  rewrite N.mod_add by lia. apply N.mod_small. lia.
Qed.
(** The quota of delegators set in the first block of an era. *)
Lemma quota cfg x s : 0 < cur_era s -> kx_block x mod kc_bpe cfg = 0 ->
  2 < kc_bpe cfg < two32 -> d_count (k_del s) + kc_bpe cfg < two32 ->
  exists s', on_initialize cfg x s = ROk (s', []) /\
    d_per (k_del s') <= d_count (k_del s) / (kc_bpe cfg - 2) + 2 /\
    d_count (k_del s) < d_per (k_del s') * (kc_bpe cfg - 2).
Proof.
  intros He Hx Hb Hc. unfold on_initialize.
  replace (0 <? cur_era s) with true by lia. rewrite Hx. cbn [N.eqb].
  assert (E1 : sub32 (w32 (kc_bpe cfg)) 2 = kc_bpe cfg - 2).
  { unfold sub32, w32. rewrite (N.mod_small (kc_bpe cfg)) by lia. apply (small_sub (kc_bpe cfg) 2); lia. }
  rewrite E1. set (m := kc_bpe cfg - 2) in *. assert (2 < kc_bpe cfg) by lia. assert (0 < m) by (subst m; lia).
  replace (m =? 0) with false by lia. eexists. split; [reflexivity|].
  cbn [k_del set_k_del d_per set_d_cursor set_d_per].
  set (c := d_count (k_del s)) in *.
  assert (E2 : sub32 (add32 c m) 1 = c + m - 1).
  { unfold sub32, add32, w32. rewrite (N.mod_small (c + m)) by (subst m; lia).
    apply (small_sub (c + m) 1); subst m; lia. }
  rewrite E2.
  pose proof (N.div_mod (c + m - 1) m ltac:(lia)) as D1. pose proof (N.mod_lt (c + m - 1) m ltac:(lia)) as L1.
  assert (Hq : (c + m - 1) / m <= c / m + 1).
  { replace (c / m + 1) with ((c + 1 * m) / m) by (rewrite N.div_add by lia; reflexivity).
    apply N.div_le_mono; lia. }
  assert (Hs : (c + m - 1) / m <= c + m - 1) by (apply N.div_le_upper_bound; nia).
  assert (E3 : add32 ((c + m - 1) / m) 1 = (c + m - 1) / m + 1).
  { unfold add32, w32. apply N.mod_small. unfold two32 in *. subst m. lia. }
  rewrite E3. split; [lia|]. nia.
Qed.

Lemma release_end cfg s x :
  o_end s = true \/ o_day s < Model_Operation.day_of (ox_time x) ->
  looked (operation_meter cfg s x) = 0 /\ (Model_Operation.on_finalize cfg s x).2 = [].
Proof.
  intros H. unfold operation_meter, Model_Operation.on_finalize.
  destruct (o_day s <? Model_Operation.day_of (ox_time x)) eqn:E; cbn [orb]; [split; reflexivity|].
  destruct H as [H|H]; [|apply N.ltb_ge in E; lia].
  unfold release. rewrite H. split; reflexivity.
Qed.
