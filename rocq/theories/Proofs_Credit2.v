(** Invariants of records and histories, and the reward of a claim. *)
From Verif Require Import Base Balances Proofs_Arith Model_UserPrivileges Model_Credit Spec_Credit Proofs_Credit.
From stdpp Require Import gmap.
Open Scope N_scope.

Lemma krun_app cfg s h1 h2 : krun cfg s (h1 ++ h2) = krun cfg (krun cfg s h1) h2.
Proof. apply fold_left_app. Qed.

(** * Levels *)
Definition book_levels (b : book) : Prop := forall who d, b.1 !! who = Some d -> level_ok d.
Lemma touch_levels (P : Prop) era who b b' :
  P -> book_levels b -> touch P era who b b' -> book_levels b'.
Proof.
  intros HP H T. destruct T as [u h d d' Hd Hl|u h d Hd Hl|u h|u h d Hd]; intros w dw; cbn.
  - intros [[-> <-]|[? Hw]]%lookup_insert_Some; [auto|eapply H; eassumption].
  - intros [[-> <-]|[? Hw]]%lookup_insert_Some; [auto|eapply H; eassumption].
  - intros [? Hw]%lookup_delete_Some. eapply H; eassumption.
  - intros Hw. eapply H; eassumption.
Qed.
Lemma touches_levels (P : Prop) era who b b' :
  P -> book_levels b -> rtc (touch P era who) b b' -> book_levels b'.
Proof. intros HP H T. induction T; [done|]. apply IHT. eapply touch_levels; [exact HP|eassumption..]. Qed.

Lemma kdo_levels cfg s op :
  kc_step cfg <> U64MAX -> levels_ok s -> levels_ok (kdo cfg s op).
Proof.
  intros Hstep H. destruct (kdo_touches cfg s op Hstep) as [[who T]|(who & e & h & h' & _ & _ & _ & ->)].
  - exact (touches_levels _ _ _ (cr s) (cr (kdo cfg s op)) H H T).
  - exact H.
Qed.
Lemma krun_levels cfg s h :
  kc_step cfg <> U64MAX -> levels_ok s -> levels_ok (krun cfg s h).
Proof.
  intros Hstep. revert s. induction h as [|op h IH]; intros s H; [done|].
  cbn [krun fold_left]. apply (IH (kdo cfg s op)). now apply kdo_levels.
Qed.

(** * Order of histories *)
(** Strictly increasing eras, none beyond [e]. *)
Fixpoint upto (h : list (N * cdata)) (e : N) : Prop :=
  match h with [] => True | (e', _) :: r => e' <= e /\ upto r e end.

Lemma increasing_app h e d :
  increasing h -> (forall e' d', last h = Some (e', d') -> e' < e) -> increasing (h ++ [(e, d)]).
Proof.
  induction h as [|[a da] r IH]; [done|]. cbn [increasing app]. intros [H1 H2] Hl.
  split.
  - destruct r as [|[b db] r']; cbn.
    + apply (Hl a da). reflexivity.
    + exact H1.
  - apply IH; [exact H2|]. intros e' d' E. apply (Hl e' d').
    destruct r; [discriminate|]. exact E.
Qed.
Lemma increasing_take n h : increasing h -> increasing (take n h).
Proof.
  revert n. induction h as [|[a da] r IH]; intros [|n]; cbn [take increasing]; try done.
  intros [H1 H2]. split; [|now apply IH].
  destruct r as [|[b db] r']; [now rewrite take_nil|]. destruct n; [done|]. exact H1.
Qed.
Lemma increasing_snoc h e d : increasing (h ++ [(e, d)]) ->
  increasing h /\ (forall e' d', last h = Some (e', d') -> e' < e).
Proof.
  induction h as [|[a da] r IH]; [done|]. cbn [increasing app]. intros [H1 H2].
  destruct (IH H2) as [I1 I2]. split.
  - split; [|done]. destruct r as [|[b db] r']; [done|]. exact H1.
  - intros e' d' E. destruct r as [|p r'].
    + cbn in E. injection E as -> ->. exact H1.
    + apply (I2 e' d'). exact E.
Qed.
Lemma snoc_inv {A} (h : list A) p : last h = Some p -> exists h0, h = h0 ++ [p].
Proof. intros H. apply last_Some in H. exact H. Qed.
Lemma take_snoc {A} (h : list A) p : take (length (h ++ [p]) - 1) (h ++ [p]) = h.
Proof. rewrite app_length. cbn. replace (length h + 1 - 1)%nat with (length h) by lia. now rewrite take_app. Qed.

(** The book of one user is well ordered at era [e]. *)
Definition ordered (u : option cdata) (h : list (N * cdata)) (e : N) : Prop :=
  increasing h /\
  forall e' d', last h = Some (e', d') -> u = Some d' /\ e' <= e.
Definition book_ordered (b : book) (e : N) : Prop :=
  forall who, ordered (b.1 !! who) (default [] (b.2 !! who)) e.

Lemma recorded_self m who era d :
  default [] (recorded m who era d !! who) =
  match last (default [] (m !! who)) with
  | None => []
  | Some (e, _) => if e =? era then take (length (default [] (m !! who)) - 1) (default [] (m !! who)) ++ [(era, d)]
                   else default [] (m !! who) ++ [(era, d)]
  end.
Proof.
  unfold recorded. destruct (last (default [] (m !! who))) as [[e ?]|] eqn:E.
  - now rewrite lookup_insert.
  - destruct (default [] (m !! who)) as [|p r] eqn:E'; [done|].
    exfalso. apply last_None in E. discriminate.
Qed.
Lemma recorded_other m who era d w : w <> who -> recorded m who era d !! w = m !! w.
Proof.
  intros Hne. unfold recorded. destruct (last _) as [[e ?]|]; [|done].
  rewrite lookup_insert_ne; congruence.
Qed.

Lemma touch_ordered P era who b b' :
  book_ordered b era -> touch P era who b b' -> book_ordered b' era.
Proof.
  intros H T. destruct T as [u h d d' Hd Hl|u h d Hd Hl|u h|u h d Hd]; intros w; cbn;
    pose proof (H w) as Hw; pose proof (H who) as Hwho; cbn in Hw, Hwho.
  - destruct (decide (w = who)) as [->|Hne].
    + rewrite lookup_insert, recorded_self. destruct Hw as [Hi Hlast].
      destruct (last (default [] (h !! who))) as [[e dl]|] eqn:El; [|split; [done|discriminate]].
      specialize (Hlast e dl eq_refl) as [_ He].
      apply snoc_inv in El as [h0 E0]. rewrite E0 in *.
      destruct (N.eqb_spec e era) as [->|Hne].
      * rewrite take_snoc. apply increasing_snoc in Hi as [Hi1 Hi2]. split.
        -- apply increasing_app; assumption.
        -- intros e' dd. rewrite last_snoc. intros E. injection E as <- <-. split; [done|lia].
      * split.
        -- apply increasing_app; [assumption|]. intros e' dd. rewrite last_snoc. intros E. injection E as <- <-. lia.
        -- intros e' dd. rewrite last_snoc. intros E. injection E as <- <-. split; [done|lia].
    + rewrite lookup_insert_ne, recorded_other by congruence. exact Hw.
  - destruct (decide (w = who)) as [->|Hne].
    + destruct Hw as [Hi Hlast]. split; [done|]. intros e' dd E. destruct (Hlast e' dd E). congruence.
    + rewrite lookup_insert_ne by congruence. exact Hw.
  - destruct (decide (w = who)) as [->|Hne].
    + rewrite !lookup_delete. split; [done|discriminate].
    + rewrite !lookup_delete_ne by congruence. exact Hw.
  - destruct (decide (w = who)) as [->|Hne].
    + rewrite lookup_insert. cbn. split; [done|]. intros e' dd E. injection E as <- <-. split; [done|lia].
    + rewrite lookup_insert_ne by congruence. exact Hw.
Qed.
Lemma touches_ordered P era who b b' :
  book_ordered b era -> rtc (touch P era who) b b' -> book_ordered b' era.
Proof. intros H T. induction T; [done|]. apply IHT. eapply touch_ordered; eassumption. Qed.

Lemma book_ordered_mono b e e' : e <= e' -> book_ordered b e -> book_ordered b e'.
Proof.
  intros He H w. destruct (H w) as [H1 H2]. split; [done|]. intros a d E. destruct (H2 a d E). split; [done|lia].
Qed.

(** Restamping keeps the tail and its last record. *)
Lemma restamp_spec h e h' :
  restamp h e = Some h' ->
  exists h0 e0 d0 r, h = h0 ++ (e0, d0) :: r /\ h' = (e, d0) :: r /\ e0 <= e /\
    match r with [] => True | (e1, _) :: _ => e < e1 end.
Proof.
  induction h as [|[a da] r IH]; [discriminate|]. cbn [restamp].
  destruct r as [|[b db] r'].
  - destruct (N.leb_spec a e); [|discriminate]. intros E. injection E as <-.
    exists [], a, da, []. auto.
  - destruct ((a <=? e) && (e <? b)) eqn:Hb.
    + apply andb_true_iff in Hb as [H1%N.leb_le H2%N.ltb_lt]. intros E. injection E as <-.
      exists [], a, da, ((b, db) :: r'). auto.
    + intros E. destruct (IH E) as (h0 & e0 & d0 & r0 & Eh & ? & ? & ?).
      exists ((a, da) :: h0), e0, d0, r0. rewrite Eh. auto.
Qed.
Lemma increasing_app_r h0 r : increasing (h0 ++ r) -> increasing r.
Proof.
  induction h0 as [|[a da] h0 IH]; [done|]. cbn [app increasing]. intros [_ H]. now apply IH.
Qed.
Lemma restamp_ordered u h e h' cur :
  restamp h e = Some h' -> e <= cur -> ordered u h cur -> ordered u h' cur.
Proof.
  intros E He [Hi Hl]. destruct (restamp_spec _ _ _ E) as (h0 & e0 & d0 & r & -> & -> & Hle & Hr).
  apply increasing_app_r in Hi. cbn [increasing] in Hi. destruct Hi as [Hi1 Hi2].
  split.
  - cbn [increasing]. split; [|done]. destruct r as [|[]]; [done|]. exact Hr.
  - intros e' d' El. rewrite last_app_cons in Hl. destruct r as [|p r'].
    + cbn in El. injection El as <- <-. destruct (Hl e0 d0 eq_refl). split; [done|lia].
    + apply (Hl e' d'). exact El.
Qed.

Lemma kdo_ordered cfg s op e :
  kc_step cfg <> U64MAX -> kc_bpe cfg <> 0 -> past_only cfg op ->
  e <= era_at cfg (kx_now (fst op)) ->
  book_ordered (cr s) e -> book_ordered (cr (kdo cfg s op)) (era_at cfg (kx_now (fst op))).
Proof.
  intros Hstep Hb Hp He H. apply (book_ordered_mono _ _ _ He) in H.
  destruct (kdo_touches cfg s op Hstep) as [[who T]|(who & e0 & h & h' & Eop & Eh & Er & ->)].
  - eapply touches_ordered; eassumption.
  - intros w. cbn. unfold past_only in Hp. rewrite Eop in Hp.
    destruct (decide (w = who)) as [->|Hne].
    + rewrite lookup_insert. cbn. pose proof (H who) as Hw. cbn in Hw. rewrite Eh in Hw. cbn in Hw.
      eapply restamp_ordered; eassumption.
    + rewrite lookup_insert_ne by congruence. apply H.
Qed.

Lemma era_at_mono cfg a b : kc_bpe cfg <> 0 -> a <= b -> era_at cfg a <= era_at cfg b.
Proof. intros. unfold era_at. now apply N.div_le_mono. Qed.

Lemma krun_ordered cfg s h t0 t :
  kc_step cfg <> U64MAX -> kc_bpe cfg <> 0 -> chrono t0 h t -> Forall (past_only cfg) h ->
  book_ordered (cr s) (era_at cfg t0) -> book_ordered (cr (krun cfg s h)) (era_at cfg t).
Proof.
  intros Hstep Hb. revert s t0. induction h as [|[x op] h IH]; intros s t0 Hc Hf H; cbn [chrono] in Hc.
  - eapply book_ordered_mono; [|exact H]. now apply era_at_mono.
  - destruct Hc as [Hle Hc]. apply Forall_cons in Hf as [Hp Hf]. cbn [krun fold_left].
    apply (IH _ (kx_now x)); [done..|].
    change x with (fst ((x, op) : kop)) at 2. eapply kdo_ordered; [done|done|done| |exact H].
    now apply era_at_mono.
Qed.

(** * Records in force *)
Lemma increasing_before h1 p h2 q : increasing (h1 ++ p :: h2) -> q ∈ h2 -> p.1 < q.1.
Proof.
  intros H%increasing_app_r. revert p H. induction h2 as [|r h2 IH]; intros [a da] H Hq.
  - now apply elem_of_nil in Hq.
  - cbn [increasing] in H. destruct r as [b db]. destruct H as [H1 H2].
    apply elem_of_cons in Hq as [->|Hq]; [exact H1|].
    cbn. apply (N.lt_trans _ b); [exact H1|]. apply (IH (b, db) H2 Hq).
Qed.
Lemma increasing_after h1 p h2 q : increasing (h1 ++ p :: h2) -> q ∈ h1 -> q.1 < p.1.
Proof.
  revert p h2. induction h1 as [|r h1 IH]; intros p h2 H Hq.
  - now apply elem_of_nil in Hq.
  - apply elem_of_cons in Hq as [->|Hq].
    + change ((r :: h1) ++ p :: h2) with ([] ++ r :: (h1 ++ p :: h2)) in H.
      eapply increasing_before; [exact H|]. apply elem_of_app. right. left.
    + eapply IH; [|exact Hq]. apply (increasing_app_r [r]) in H. exact H.
Qed.
Lemma filter_none (h : list (N * cdata)) e :
  (forall p, p ∈ h -> e < p.1) -> filter (fun p => p.1 <= e) h = [].
Proof.
  induction h as [|p h IH]; intros H; [done|].
  rewrite filter_cons_False; [apply IH; intros q Hq; apply H; now right|].
  pose proof (H p ltac:(left)). lia.
Qed.
Lemma filter_all (h : list (N * cdata)) e :
  (forall p, p ∈ h -> p.1 <= e) -> filter (fun p => p.1 <= e) h = h.
Proof.
  induction h as [|p h IH]; intros H; [done|].
  rewrite filter_cons_True; [|apply H; left]. f_equal. apply IH. intros q Hq. apply H. now right.
Qed.

Lemma in_force_split h1 ej d h2 e :
  increasing (h1 ++ (ej, d) :: h2) -> ej <= e ->
  match h2 with [] => True | (e', _) :: _ => e < e' end ->
  in_force (h1 ++ (ej, d) :: h2) e = Some d.
Proof.
  intros Hi He Hn. unfold in_force. rewrite filter_app, filter_cons_True by exact He.
  rewrite (filter_all h1), (filter_none h2).
  - now rewrite last_snoc.
  - intros p Hp. destruct h2 as [|[e' d'] h2]; [now apply elem_of_nil in Hp|].
    apply elem_of_cons in Hp as [->|Hp]; [exact Hn|].
    assert (e' < p.1); [|lia].
    change e' with ((e', d').1).
    eapply (increasing_before (h1 ++ [(ej, d)])); [|exact Hp].
    rewrite <- app_assoc. exact Hi.
  - intros p Hp. pose proof (increasing_after _ _ _ _ Hi Hp) as H. cbn in H. lia.
Qed.
Lemma in_force_before h e e0 d0 r :
  h = (e0, d0) :: r -> increasing h -> e < e0 -> in_force h e = None.
Proof.
  intros -> Hi He. unfold in_force. rewrite filter_none; [done|].
  intros p Hp. apply elem_of_cons in Hp as [->|Hp]; [exact He|].
  pose proof (increasing_before [] _ _ _ Hi Hp) as H. cbn in H. lia.
Qed.

(** The cursor stops at the first record not before the era. *)
Lemma skip_spec fuel h i era :
  (length h <= i + fuel)%nat -> (i <= length h)%nat ->
  (forall j p, (j < i)%nat -> h !! j = Some p -> p.1 < era) ->
  let i' := skip fuel h i era in
  (i <= i' <= length h)%nat /\
  (forall j p, (j < i')%nat -> h !! j = Some p -> p.1 < era) /\
  (forall p, h !! i' = Some p -> era <= p.1).
Proof.
  revert i. induction fuel as [|f IH]; intros i Hf Hi Hb; cbn [skip].
  - assert (i = length h) by lia. subst. split; [lia|]. split; [exact Hb|].
    intros p Hp. apply lookup_lt_Some in Hp. lia.
  - destruct (h !! i) as [[e d]|] eqn:E.
    + destruct (N.ltb_spec e era).
      * pose proof (lookup_lt_Some _ _ _ E).
        destruct (IH (S i)) as (I1 & I2 & I3); [lia|lia| |].
        { intros j p Hj Hp. destruct (decide (j = i)) as [->|]; [|apply (Hb j); [lia|done]].
          rewrite E in Hp. injection Hp as <-. exact H. }
        split; [lia|]. split; assumption.
      * split; [lia|]. split; [exact Hb|]. intros p Hp. rewrite E in Hp. injection Hp as <-. exact H.
    + split; [lia|]. split; [exact Hb|]. intros p Hp. congruence.
Qed.

Lemma lookup_split {A} (h : list A) i p : h !! i = Some p -> h = take i h ++ p :: drop (S i) h.
Proof. intros H. symmetry. now apply take_drop_middle. Qed.

(** The record picked for an era is the one in force. *)
Lemma pick_in_force h e0 d0 r era i' :
  h = (e0, d0) :: r -> increasing h -> e0 <= era ->
  (i' <= length h)%nat ->
  (forall j p, (j < i')%nat -> h !! j = Some p -> p.1 < era) ->
  (forall p, h !! i' = Some p -> era <= p.1) ->
  exists d, in_force h era = Some d /\
  match h !! i' with
  | Some (e, d) => if e =? era then Some d
                   else match i' with O => None | S j => snd <$> h !! j end
  | None => match i' with O => None | S j => snd <$> h !! j end
  end = Some d.
Proof.
  intros Eh Hi He0 Hlen Hlow Hhigh.
  assert (Hprev : forall j, i' = S j -> (forall p, h !! i' = Some p -> era < p.1) ->
            exists d, in_force h era = Some d /\ snd <$> h !! j = Some d).
  { intros j -> Hgt. assert (j < length h)%nat as Hj by lia.
    apply lookup_lt_is_Some in Hj as [[ej d] Ej]. exists d. rewrite Ej. split; [|done].
    pose proof (lookup_split _ _ _ Ej) as Es. rewrite Es. rewrite Es in Hi.
    apply in_force_split; [exact Hi| |].
    - pose proof (Hlow j _ ltac:(lia) Ej) as H. cbn in H. lia.
    - destruct (drop (S j) h) as [|[e' d'] t] eqn:Ed; [done|].
      apply (Hgt (e', d')). rewrite <- (Nat.add_0_r (S j)), <- lookup_drop, Ed. reflexivity. }
  destruct (h !! i') as [[e d]|] eqn:Ei.
  - destruct (N.eqb_spec e era) as [->|Hne].
    + exists d. split; [|done].
      pose proof (lookup_split _ _ _ Ei) as Es. rewrite Es. rewrite Es in Hi.
      apply in_force_split; [exact Hi|lia|].
      destruct (drop (S i') h) as [|[e' d'] t] eqn:Ed; [done|].
      pose proof (increasing_before _ _ _ (e', d') Hi ltac:(left)) as H. exact H.
    + assert (era < e). { pose proof (Hhigh _ eq_refl) as H. cbn in H. lia. }
      destruct i' as [|j].
      * subst h. cbn in Ei. injection Ei as -> ->. lia.
      * apply Hprev; [done|]. intros p Hp. injection Hp as <-. exact H.
  - destruct i' as [|j].
    + subst h. discriminate.
    + apply Hprev; [done|]. intros p Hp. discriminate.
Qed.

(** * The reward map *)
Fixpoint weigh (f : cdata -> N) (m : list (cdata * N)) : N :=
  match m with [] => 0 | (d, n) :: r => f d * n + weigh f r end.
Definition counts_le (m : list (cdata * N)) (k : N) : Prop := Forall (fun p => p.2 <= k) m.

Lemma bump_weigh f m d k : counts_le m k -> k < 65535 -> weigh f (bump m d) = f d + weigh f m.
Proof.
  induction m as [|[d' n] r IH]; intros H Hk; cbn [bump weigh]; [lia|].
  apply Forall_cons in H as [Hn H]. cbn in Hn.
  destruct (decide (d' = d)) as [->|]; cbn [weigh].
  - rewrite N.mod_small by lia. lia.
  - rewrite IH by assumption. lia.
Qed.
Lemma bump_counts m d k : counts_le m k -> k < 65535 -> counts_le (bump m d) (k + 1).
Proof.
  induction m as [|[d' n] r IH]; intros H Hk; cbn [bump].
  - constructor; [cbn; lia|constructor].
  - apply Forall_cons in H as [Hn H]. cbn in Hn. destruct (decide (d' = d)) as [->|].
    + constructor; [cbn; rewrite N.mod_small; lia|]. eapply Forall_impl; [exact H|]. cbn. intros; lia.
    + constructor; [cbn; lia|]. now apply IH.
Qed.
Lemma bump_ne m d : bump m d <> [].
Proof. destruct m as [|[d' n] r]; cbn; [done|]. destruct (decide _); done. Qed.
Lemma counts_weaken m k k' : k <= k' -> counts_le m k -> counts_le m k'.
Proof. intros H Hc. eapply Forall_impl; [exact Hc|]. cbn. intros; lia. Qed.

(** Records that pay, era by era. *)
Definition payer (cfg : kcfg) (h : list (N * cdata)) (e : N) : option cdata :=
  match in_force h e with Some d => if kc_min cfg <=? cd_credit d then Some d else None | None => None end.
Definition run_of (n : nat) (a : N) : list N := map (fun i => a + N.of_nat i) (seq 0 n).
Lemma run_of_S n a : run_of (S n) a = a :: run_of n (a + 1).
Proof.
  unfold run_of. cbn [seq map]. f_equal; [lia|]. rewrite <- seq_shift, map_map.
  apply map_ext. intros i. lia.
Qed.

Lemma credit_map_loop_spec cfg f n h e0 d0 r era i m k :
  h = (e0, d0) :: r -> increasing h ->
  (i <= length h)%nat -> (forall j p, (j < i)%nat -> h !! j = Some p -> p.1 < era) ->
  counts_le m k -> k + N.of_nat n < 65536 ->
  exists m', credit_map_loop cfg n h era i m = Some m' /\
    weigh f m' = weigh f m + lsum (map f (omap (payer cfg h) (run_of n era))) /\
    (m' = [] <-> m = [] /\ omap (payer cfg h) (run_of n era) = []) /\
    (forall d k', (d, k') ∈ m' -> (exists k'', (d, k'') ∈ m) \/ d ∈ omap (payer cfg h) (run_of n era)).
Proof.
  intros Eh Hi. revert era i m k. induction n as [|n IH]; intros era i m k Hil Hlow Hc Hk.
  - exists m. cbn. split; [done|]. split; [lia|]. split; [tauto|]. eauto.
  - cbn [credit_map_loop]. rewrite run_of_S.
    destruct (skip_spec (length h) h i era ltac:(lia) Hil Hlow) as (S1 & S2 & S3).
    set (i' := skip (length h) h i era) in *.
    assert (Hlow' : forall j p, (j < i')%nat -> h !! j = Some p -> p.1 < era + 1).
    { intros j p Hj Hp. pose proof (S2 j p Hj Hp). lia. }
    assert (H0 : h !! 0%nat = Some (e0, d0)) by now rewrite Eh.
    rewrite H0. destruct (N.ltb_spec era e0) as [Hlt|Hge].
    + destruct (IH (era + 1) i' m k) as (m' & E & W & N0 & M); [lia|exact Hlow'|exact Hc|lia|].
      exists m'. assert (P : payer cfg h era = None).
      { unfold payer. now rewrite (in_force_before h era e0 d0 r). }
      cbn [omap list_omap]. rewrite P. auto.
    + destruct (pick_in_force h e0 d0 r era i' Eh Hi Hge ltac:(lia) S2 S3) as (d & F & ->).
      assert (P : payer cfg h era = if passes cfg d then Some d else None).
      { unfold payer, passes. now rewrite F. }
      cbn [omap list_omap]. rewrite P. destruct (passes cfg d).
      * destruct (IH (era + 1) i' (bump m d) (k + 1)) as (m' & E & W & N0 & M);
          [lia|exact Hlow'|apply bump_counts; [done|lia]|lia|].
        exists m'. split; [exact E|]. split; [|split].
        -- rewrite W. rewrite (bump_weigh f m d k) by (done || lia). cbn [map lsum]. lia.
        -- rewrite N0. split; [intros [B _]; now apply bump_ne in B|intros [_ B]; discriminate].
        -- intros d1 k1 H1. destruct (M d1 k1 H1) as [[k2 H2]|H2]; [|right; now right].
           assert (B : forall l, (d1, k2) ∈ bump l d -> (exists k3, (d1, k3) ∈ l) \/ d1 = d).
           { clear. induction l as [|[d' n'] l IHl]; cbn [bump].
             - intros H. apply elem_of_list_singleton in H. injection H as -> _. now right.
             - destruct (decide (d' = d)) as [->|]; intros H; apply elem_of_cons in H as [H|H].
               + injection H as -> _. now right.
               + left. exists k2. now right.
               + injection H as -> ->. left. exists n'. now left.
               + destruct (IHl H) as [[k3 H3]|]; [left; exists k3; now right|now right]. }
           destruct (B m H2) as [| ->]; [now left|]. right. left.
      * destruct (IH (era + 1) i' m k) as (m' & E & W & N0 & M); [lia|exact Hlow'|exact Hc|lia|].
        exists m'. auto.
Qed.

Lemma sadd_min a b : sadd128 (N.min a (two128 - 1)) b = N.min (a + b) (two128 - 1).
Proof. unfold sadd128. lia. Qed.
Lemma sadd_smul_min a v n : sadd128 (N.min a (two128 - 1)) (smul128 v n) = N.min (a + v * n) (two128 - 1).
Proof. unfold sadd128, smul128. lia. Qed.

Lemma sum_rewards_spec s who f m acc :
  (forall d n, (d, n) ∈ m -> daily_reward s who d = ROk (f d)) ->
  sum_rewards s who m (N.min acc (two128 - 1)) = ROk (N.min (acc + weigh f m) (two128 - 1)).
Proof.
  revert acc. induction m as [|[d n] r IH]; intros acc H; cbn [sum_rewards weigh].
  - now rewrite N.add_0_r.
  - rewrite (H d n) by left. cbn [rbind]. rewrite sadd_smul_min, IH.
    + now rewrite N.add_assoc.
    + intros d' n' Hin. apply (H d' n'). now right.
Qed.
