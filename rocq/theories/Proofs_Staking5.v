(** Slashing spans: well formed in every state, and charged the maximum. *)
From Verif Require Import Base Balances Model_StakingLedger Model_Staking Spec_Staking
  Proofs_Arith Proofs_StakingLedger Proofs_Staking Proofs_Staking2 Proofs_Staking3.
From stdpp Require Import gmap.
Open Scope N_scope.

Definition record (k : stk) (st i : N) : N * N := default (0, 0) (s_rec k !! (st, i)).
Definition slashed (k : stk) (st i : N) : N := (record k st i).1.
Definition earliest (sp : spans) : N := sp_index sp - N.of_nat (length (sp_prior sp)).

Lemma charged_app st i a b : charged st i (a ++ b) = charged st i a + charged st i b.
Proof. unfold charged. now rewrite map_app, lsum_app. Qed.
Lemma largest_app st i a b : largest st i (a ++ b) = N.max (largest st i a) (largest st i b).
Proof.
  induction a as [|e a IH]; cbn [largest app]; [lia|]. destruct e; auto. rewrite IH. lia.
Qed.
Definition uncharged (ev : list kev) : Prop :=
  Forall (fun e => match e with KCharge _ _ _ _ _ => False | _ => True end) ev.
Lemma uncharged_0 st i ev : uncharged ev -> charged st i ev = 0 /\ largest st i ev = 0.
Proof.
  induction 1 as [|e ev He Hev [IH1 IH2]]; [auto|]. unfold charged in *. cbn. rewrite IH1.
  destruct e; auto; contradiction.
Qed.
Lemma uncharged_app a b : uncharged a -> uncharged b -> uncharged (a ++ b).
Proof. intros. now apply Forall_app. Qed.

(** The books of one stash. *)
Record books (now st : N) (sp : spans) (k : stk) (ev : list kev) : Prop := {
  bk_ok : spans_ok now sp;
  bk_sum : forall i, charged st i ev = largest st i ev;
  bk_rec : forall i, earliest sp <= i -> slashed k st i = largest st i ev }.
Definition st_inv (now st : N) (k : stk) (ev : list kev) : Prop :=
  match s_spans k !! st with
  | Some sp => books now st sp k ev
  | None => forall i, slashed k st i = 0 /\ charged st i ev = 0 /\ largest st i ev = 0
  end.

Section books.
  Context (now st : N) (Hnow : now + 1 < two32).

  Lemma era_span_index sp era t :
    spans_ok now sp -> era_span sp era = Some t -> earliest sp <= sn_index t /\ sn_index t <= sp_index sp.
  Proof.
    intros K H. unfold era_span in H. apply List.find_some in H as [H _].
    rewrite (spans_iter_exact now sp K Hnow) in H. apply elem_of_list_In in H.
    apply elem_of_cons in H as [->|H]; [cbn; unfold earliest; lia|].
    assert (G : forall l i s0 t, N.of_nat (length l) <= i -> t ∈ priors i s0 l -> i - N.of_nat (length l) <= sn_index t /\ sn_index t <= i).
    { clear. induction l as [|n r IH]; intros i s0 t Hl H; cbn [priors length] in *; [inversion H|].
      apply elem_of_cons in H as [->|H]; [cbn; lia|].
      apply IH in H; lia. }
    apply G in H; [exact H|apply (so_len _ _ K)].
  Qed.

  Lemma fetch_books k ev w k0 sp :
    w <= now -> fetch_spans k st w = (k0, sp) -> st_inv now st k ev ->
    books now st sp k0 ev /\ s_spans k0 !! st = Some sp.
  Proof.
    unfold fetch_spans, st_inv. intros Hw H I. destruct (s_spans k !! st) as [sp0|] eqn:E; injection H as <- <-.
    - auto.
    - split; [|cbn; apply lookup_insert]. constructor.
      + now apply spans_new_ok.
      + intros i. destruct (I i) as (_ & A & B). congruence.
      + intros i _. destruct (I i) as (A & _ & B). unfold slashed, record in *. cbn. congruence.
  Qed.

  Lemma update_books k sp f era own ev k1 sp1 d df rw t :
    update_span k st sp f era own = (k1, sp1, d, df, rw, t) -> books now st sp k ev ->
    books now st sp1 k1 (ev ++ match t with Some i => [KCharge st era i own df] | None => [] end) /\
    s_spans k1 = s_spans k /\ (d = false -> sp1 = sp).
  Proof.
    unfold update_span. intros H B. destruct (era_span sp era) as [t0|] eqn:Et.
    2: { injection H as <- <- <- <- <- <-. rewrite app_nil_r. auto. }
    pose proof (era_span_index _ _ _ (bk_ok _ _ _ _ _ B) Et) as [Hi _].
    pose proof (bk_rec _ _ _ _ _ B _ Hi) as Hr. unfold slashed, record in Hr.
    destruct (default (0, 0) (s_rec k !! (st, sn_index t0))) as [sl pd] eqn:Er. cbn [fst] in Hr.
    cbn zeta in H.
    set (pay := frac_mul REWARD_F1 PERBILL _) in H.
    assert (Gen : forall sl' df' sp' rw' ch,
      spans_ok now sp' -> earliest sp' = earliest sp -> sl' = N.max sl own -> sl + df' = sl' ->
      (ch = false -> sl' = sl) ->
      books now st sp' (if ch then set_s_rec k (<[(st, sn_index t0) := (sl', add128 pd rw')]> (s_rec k)) else k)
        (ev ++ [KCharge st era (sn_index t0) own df'])).
    { intros sl' df' sp' rw' ch Ok Ee Em Ed Ec.
      assert (C1 : forall i, charged st i [KCharge st era (sn_index t0) own df'] = if sn_index t0 =? i then df' else 0).
      { intros i. unfold charged. cbn. rewrite N.eqb_refl. cbn. lia. }
      assert (L1 : forall i, largest st i [KCharge st era (sn_index t0) own df'] = if sn_index t0 =? i then own else 0).
      { intros i. cbn. rewrite N.eqb_refl. cbn. lia. }
      constructor; [auto| |].
      - intros i. rewrite charged_app, largest_app, C1, L1, (bk_sum _ _ _ _ _ B).
        destruct (N.eqb_spec (sn_index t0) i) as [<-|Hn]; lia.
      - intros i Hge. rewrite Ee in Hge. pose proof (bk_rec _ _ _ _ _ B i Hge) as Ri. rewrite largest_app, L1.
        destruct ch; unfold slashed, record in *; cbn.
        + destruct (N.eqb_spec (sn_index t0) i) as [<-|Hn].
          * rewrite lookup_insert. cbn. lia.
          * rewrite lookup_insert_ne by congruence. lia.
        + destruct (N.eqb_spec (sn_index t0) i) as [<-|Hn]; [|lia]. rewrite Er. cbn. specialize (Ec eq_refl). lia. }
    destruct (N.ltb_spec sl own) as [L|L].
    - injection H as <- <- <- <- <- <-. split; [|split; [auto|discriminate]].
      apply (Gen own (own - sl) _ pay true); try lia; [|reflexivity].
      destruct (bk_ok _ _ _ _ _ B). now constructor.
    - destruct (N.eqb_spec sl own) as [E|E].
      + cbn [orb] in H. destruct (pay =? 0); cbn [negb] in H; injection H as <- <- <- <- <- <-;
          (split; [|split; [auto|auto]]).
        * apply (Gen sl 0 sp 0 false); auto; try lia. apply (bk_ok _ _ _ _ _ B).
        * apply (Gen sl 0 sp pay true); auto; try lia. apply (bk_ok _ _ _ _ _ B).
      + cbn [orb N.eqb negb] in H. injection H as <- <- <- <- <- <-. split; [|split; [auto|auto]].
        apply (Gen sl 0 sp 0 false); auto; try lia. apply (bk_ok _ _ _ _ _ B).
  Qed.

  Lemma kick_books x k e sp d k' e' sp' d' ev :
    kick x k e st now sp d = (k', e', sp', d') -> books now st sp k ev ->
    books now st sp' k' ev /\ s_spans k' = s_spans k /\ (d' = false -> d = false /\ sp' = sp).
  Proof.
    unfold kick. destruct (end_span now sp) as [sp1 b] eqn:E. intros H B. injection H as <- <- <- <-.
    pose proof (end_span_ok _ _ _ _ (bk_ok _ _ _ _ _ B) Hnow E) as Ok.
    split; [|split; [auto|]].
    - assert (Ee : earliest sp1 = earliest sp).
      { pose proof (bk_ok _ _ _ _ _ B) as [? ? ? ? ?]. unfold end_span in E. rewrite add32_exact in E by lia.
        destruct (N.leb_spec (now + 1) (sp_start sp)); injection E as <- <-; [auto|].
        unfold earliest. cbn [sp_index sp_prior length]. rewrite add32_exact by lia. lia. }
      constructor; [auto|apply (bk_sum _ _ _ _ _ B)|]. intros i Hi. rewrite Ee in Hi. now apply (bk_rec _ _ _ _ _ B).
    - unfold end_span in E. destruct (_ <=? _); injection E as <- <-; cbn; [auto|discriminate].
  Qed.

  Lemma delete_range (m : gmap (N * N) (N * N)) a n i :
    (i < a \/ a + N.of_nat n <= i) ->
    foldr (fun j m => delete (st, a + N.of_nat j) m) m (seq 0 n) !! (st, i) = m !! (st, i).
  Proof.
    intros H.
    assert (G : forall l, (forall j, j ∈ l -> a + N.of_nat j <> i) ->
      foldr (fun j m => delete (st, a + N.of_nat j) m) m l !! (st, i) = m !! (st, i)).
    { induction l as [|j l IH]; intros G; cbn; [auto|].
      rewrite lookup_delete_ne; [apply IH; intros; apply G; now right|].
      intros E. injection E as E. apply (G j); [left|auto]. }
    apply G. intros j Hj. apply elem_of_seq in Hj. lia.
  Qed.
  Lemma close_books k w d sp ev :
    w <= now -> books now st sp k ev -> (d = false -> s_spans k !! st = Some sp) ->
    st_inv now st (close_spans k st w d sp) ev /\ is_Some (s_spans (close_spans k st w d sp) !! st).
  Proof.
    intros Hw B Hd. unfold close_spans. destruct d.
    2: { unfold st_inv. rewrite (Hd eq_refl). eauto. }
    destruct (prune w sp) as [sp' pr] eqn:Ep. unfold st_inv. cbn. rewrite lookup_insert. split; [|eauto].
    pose proof (bk_ok _ _ _ _ _ B) as Ok. pose proof (prune_ok _ _ _ _ _ Ok Hnow Hw Ep) as Ok'.
    constructor; [auto|apply (bk_sum _ _ _ _ _ B)|]. intros i Hi.
    unfold prune in Ep. destruct (old_position w _) as [o|].
    - injection Ep as <- <-. unfold earliest in Hi. cbn [sp_index sp_prior] in Hi.
      destruct Ok as [A1 A2 A3 A4 A5].
      rewrite <- (bk_rec _ _ _ _ _ B i).
      + unfold slashed, record. cbn. rewrite delete_range; [auto|]. rewrite take_length in *.
        assert (Hm : N.of_nat (o `min` length (sp_prior sp)) <= sp_index sp) by lia.
        rewrite (sub32_exact (sp_index sp) (N.of_nat (length (sp_prior sp)))) by lia.
        rewrite (sub32_exact (sp_index sp) (N.of_nat (o `min` length (sp_prior sp)))) by lia. lia.
      + unfold earliest. rewrite take_length in Hi. lia.
    - injection Ep as <- <-. unfold earliest in Hi. cbn [sp_index sp_prior] in Hi.
      rewrite <- (bk_rec _ _ _ _ _ B i); [|exact Hi]. reflexivity.
  Qed.
End books.

(** What one report does for its offender and for everybody else. *)
Definition same_books (k k' : stk) (st : N) : Prop :=
  s_spans k' !! st = s_spans k !! st /\ forall i, record k' st i = record k st i.
Lemma same_refl k st : same_books k k st.
Proof. split; auto. Qed.
Lemma same_trans k1 k2 k3 st : same_books k1 k2 st -> same_books k2 k3 st -> same_books k1 k3 st.
Proof. intros [A B] [C D]. split; [congruence|]. intros i. now rewrite D. Qed.
Lemma same_inv now st k k' ev : same_books k k' st -> st_inv now st k ev -> st_inv now st k' ev.
Proof.
  intros [A B] I. unfold st_inv in *. rewrite A. destruct (s_spans k !! st).
  - destruct I as [I1 I2 I3]. constructor; auto. intros i Hi. unfold slashed. rewrite B. apply (I3 i Hi).
  - intros i. unfold slashed. rewrite B. apply (I i).
Qed.

Lemma fetch_other k st w k0 sp st' : st' <> st -> fetch_spans k st w = (k0, sp) -> same_books k k0 st'.
Proof.
  unfold fetch_spans. intros Hn. destruct (s_spans k !! st); intros H; injection H as <- <-; [apply same_refl|].
  split; [cbn; rewrite lookup_insert_ne by congruence; auto|auto].
Qed.
Lemma update_other k st sp f era own k1 sp1 d df rw t st' :
  st' <> st -> update_span k st sp f era own = (k1, sp1, d, df, rw, t) -> same_books k k1 st'.
Proof.
  intros Hn. unfold update_span. destruct (era_span sp era) as [t0|]; [|intros H; injection H as <- _; apply same_refl].
  destruct (default (0, 0) _) as [sl pd]. cbn zeta.
  assert (G : forall v, same_books k (set_s_rec k (<[(st, sn_index t0) := v]> (s_rec k))) st').
  { intros v. split; [auto|]. intros i. unfold slashed, record. cbn. rewrite lookup_insert_ne; [auto|congruence]. }
  destruct (_ <? _); [|destruct (_ =? own)]; cbn [orb]; try destruct (negb _); intros H; injection H as <- _; auto using same_refl.
Qed.
Lemma kick_other x k e st now sp d k' e' sp' d' st' :
  kick x k e st now sp d = (k', e', sp', d') -> same_books k k' st'.
Proof. unfold kick. destruct (end_span now sp). intros H. injection H as <- _. split; auto. Qed.
Lemma close_other k st w d sp st' : st' <> st -> same_books k (close_spans k st w d sp) st'.
Proof.
  intros Hn. unfold close_spans. destruct d; [|apply same_refl]. destruct (prune w sp) as [sp' pr].
  split; [cbn; rewrite lookup_insert_ne by congruence; auto|]. intros i. unfold slashed, record. cbn.
  destruct pr as [[a b]|]; [|auto]. f_equal.
  induction (seq 0 (N.to_nat (b - a))) as [|j l IH]; cbn; [auto|]. rewrite lookup_delete_ne; [auto|congruence].
Qed.

Lemma kick_out_books x s st era w now ev st' :
  now + 1 < two32 -> w <= now -> st_inv now st' (k_stk s) ev ->
  st_inv now st' (k_stk (kick_out x s st era w now)) ev.
Proof.
  intros Hn Hw I. unfold kick_out. destruct (fetch_spans (k_stk s) st w) as [k0 sp] eqn:E0.
  destruct (decide (st' = st)) as [->|Hne].
  - destruct (fetch_books now st _ _ _ _ _ Hw E0 I) as [B S0].
    assert (I0 : st_inv now st k0 ev) by (unfold st_inv; now rewrite S0).
    destruct (era_span sp era); [|exact I0]. destruct (_ =? _); [|exact I0].
    destruct (kick x k0 (k_era s) st now sp false) as [[[k1 e1] sp1] d] eqn:E1.
    destruct (kick_books now st Hn _ _ _ _ _ _ _ _ _ _ E1 B) as (B1 & S1 & D1).
    cbn. apply (close_books now st Hn k1 w d sp1 ev Hw B1). intros Ed. destruct (D1 Ed) as [_ ->]. congruence.
  - pose proof (fetch_other _ _ _ _ _ st' Hne E0) as F0.
    destruct (era_span sp era); [|exact (same_inv _ _ _ _ _ F0 I)].
    destruct (_ =? _); [|exact (same_inv _ _ _ _ _ F0 I)].
    destruct (kick x k0 (k_era s) st now sp false) as [[[k1 e1] sp1] d] eqn:E1. apply (kick_other _ _ _ _ _ _ _ _ _ _ _ st') in E1.
    apply (same_inv _ _ (k_stk s)); [|exact I].
    eapply same_trans; [exact F0|]. eapply same_trans; [exact E1|]. now apply close_other.
Qed.
Lemma compute_books x s st f ex era w now s' u ev1 ev st' :
  compute_slash x s st f ex era w now = (s', u, ev1) ->
  now + 1 < two32 -> w <= now -> st_inv now st' (k_stk s) ev ->
  st_inv now st' (k_stk s') (ev ++ ev1).
Proof.
  intros H Hn Hw I. unfold compute_slash in H.
  destruct (_ =? 0); [injection H as <- _ <-; rewrite app_nil_r; now apply kick_out_books|].
  destruct (_ <=? _); [injection H as <- _ <-; now rewrite app_nil_r|].
  set (k := set_s_in_era (k_stk s) _) in H.
  assert (Ik : st_inv now st' k ev) by (apply (same_inv now st' (k_stk s)); [split; reflexivity|exact I]).
  destruct (fetch_spans k st w) as [k0 sp] eqn:E0.
  destruct (update_span _ _ _ _ _ _) as [[[[[k1 sp1] d] df] rw] t] eqn:E1.
  destruct (if bool_decide _ then _ else _) as [[[k2 e2] sp2] d2] eqn:E2.
  injection H as <- _ <-. cbn [k_stk set_k_era set_k_stk].
  destruct (decide (st' = st)) as [->|Hne].
  - destruct (fetch_books now st _ _ _ _ _ Hw E0 Ik) as [B0 S0].
    destruct (update_books now st Hn _ _ _ _ _ _ _ _ _ _ _ _ E1 B0) as (B1 & S1 & D1).
    destruct (bool_decide _).
    + destruct (kick_books now st Hn _ _ _ _ _ _ _ _ _ _ E2 B1) as (B2 & S2 & D2).
      apply (close_books now st Hn k2 w d2 sp2 _ Hw B2). intros Ed. destruct (D2 Ed) as [Ed' ->].
      rewrite S2, S1. now rewrite (D1 Ed').
    + injection E2 as <- <- <- <-.
      apply (close_books now st Hn k1 w d sp1 _ Hw B1). intros Ed. rewrite S1. now rewrite (D1 Ed).
  - assert (Sb : same_books k (close_spans k2 st w d2 sp2) st').
    { eapply same_trans; [exact (fetch_other _ _ _ _ _ _ Hne E0)|].
      eapply same_trans; [exact (update_other _ _ _ _ _ _ _ _ _ _ _ _ _ Hne E1)|].
      eapply same_trans; [|now apply close_other].
      destruct (bool_decide _); [now apply (kick_other _ _ _ _ _ _ _ _ _ _ _ st') in E2|].
      injection E2 as <- _ _ _. apply same_refl. }
    apply (same_inv _ _ _ _ _ Sb).
    assert (Z : forall i, charged st' i (match t with Some i => [KCharge st era i (frac_mul f PERBILL (x_own ex)) df] | None => [] end) = 0 /\
                largest st' i (match t with Some i => [KCharge st era i (frac_mul f PERBILL (x_own ex)) df] | None => [] end) = 0).
    { intros i. destruct t; [|auto]. unfold charged. cbn.
      destruct (N.eqb_spec st st'); [congruence|]. cbn. lia. }
    unfold st_inv in *. destruct (s_spans k !! st') as [sp'|].
    + destruct Ik as [I1 I2 I3]. constructor; auto.
      * intros i. destruct (Z i) as [Z1 Z2]. rewrite charged_app, largest_app, Z1, Z2, I2. lia.
      * intros i Hi. destruct (Z i) as [Z1 Z2]. rewrite largest_app, Z2, I3 by auto. lia.
    + intros i. destruct (Z i) as [Z1 Z2]. destruct (Ik i) as (A & B & C). rewrite charged_app, largest_app, Z1, Z2. lia.
Qed.
