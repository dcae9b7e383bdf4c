(** Stakes and the money behind them: proofs for property C201. *)
From Verif Require Import Base Balances Model_StakingLedger Model_Staking Spec_Staking Spec_Staking2 Spec_Cover
  Proofs_Balances Proofs_Staking Proofs_Staking14 Spec_OtherLocks Proofs_OtherLocks.
From stdpp Require Import gmap.
Open Scope N_scope.

(** ** Operations on balances *)
Section bank.
  Context (ed : N) (a : N).
  Definition keeps (b b' : bank) : Prop := ed <= free (acct_of b a) -> polite ed b b' a.
  Lemma keeps_refl b : keeps b b.
  Proof. intros H. split; [exact H|]. split; [reflexivity|]. lia. Qed.
  Lemma keeps_trans b b1 b2 : keeps b b1 -> keeps b1 b2 -> keeps b b2.
  Proof.
    intros A B H. destruct (A H) as (A1 & A2 & A3). destruct (B A1) as (B1 & B2 & B3).
    split; [exact B1|]. split; [congruence|]. rewrite A2 in B3. lia.
  Qed.
  Lemma put_at b w r n z : ed <= n -> acct_of (put ed b w (Acct n r z)) w = Acct n r z.
  Proof.
    intros H. unfold put. cbn [free rsv]. replace (n <? ed) with false by (symmetry; apply N.ltb_ge; exact H).
    unfold acct_of. cbn. now rewrite lookup_insert.
  Qed.
  Lemma put_keeps b w n r :
    (w = a -> ed <= free (acct_of b a) -> ed <= n /\ N.min (money_of b a) (frz (acct_of b a)) <= n + r) ->
    keeps b (put ed b w (Acct n r (frz (acct_of b w)))).
  Proof.
    intros L H. unfold polite, money_of. destruct (decide (w = a)) as [->|N].
    - destruct (L eq_refl H) as [A B]. rewrite put_at by exact A. cbn. auto.
    - rewrite put_acct_ne by auto. split; [exact H|]. split; [reflexivity|]. unfold money_of. lia.
  Qed.
  Lemma lost_keeps b m : keeps b (Bank (accts b) m).
  Proof. exact (keeps_refl b). Qed.
  Lemma deposit_keeps b w v : keeps b (deposit_creating ed b w v).
  Proof.
    unfold deposit_creating. destruct (v =? 0); [apply keeps_refl|]. destruct (_ && _); [apply lost_keeps|].
    destruct (_ <=? _); [apply lost_keeps|]. apply put_keeps. intros ->. unfold money_of. lia.
  Qed.
  Lemma mint_keeps b w v b' got : Model_Operation.mint ed b w v = (b', got) -> keeps b b'.
  Proof.
    unfold Model_Operation.mint. destruct (v =? 0); [intros [= <- <-]; apply keeps_refl|].
    destruct (_ && _); [intros [= <- <-]; apply keeps_refl|]. destruct (_ <=? _); intros [= <- <-]; [apply keeps_refl|].
    apply put_keeps. intros ->. unfold money_of. lia.
  Qed.
  Lemma transfer_keep_keeps b src dst v b' : transfer_keep ed b src dst v = Some b' -> keeps b b'.
  Proof.
    unfold transfer_keep. destruct (N.eqb_spec v 0); [intros [= <-]; apply keeps_refl|].
    destruct (N.eqb_spec src dst) as [|Hn]; [intros [= <-]; apply keeps_refl|]. cbn [orb].
    destruct (N.ltb_spec (free (acct_of b src)) v) as [|L]; [discriminate|].
    destruct (N.ltb_spec (free (acct_of b src) - N.max (frz (acct_of b src) - rsv (acct_of b src)) ed) v) as [|L2]; [discriminate|].
    destruct (_ <? ed); [discriminate|]. destruct (_ <=? _); [discriminate|].
    intros [= <-].
    assert (A : keeps b (put ed b src (Acct (free (acct_of b src) - v) (rsv (acct_of b src)) (frz (acct_of b src))))).
    { apply put_keeps. intros -> H. unfold money_of. lia. }
    set (b1 := put ed b src _) in *.
    assert (E : acct_of b1 dst = acct_of b dst) by (apply put_acct_ne; congruence).
    rewrite <- E. refine (keeps_trans _ _ _ A _). apply put_keeps. intros ->. unfold money_of. lia.
  Qed.
  (** Those of the other pallets, for an account of which at least the existential deposit is frozen. *)
  Lemma transfer_allow_keeps b src dst v b' : 0 < frz (acct_of b a) -> transfer_allow ed b src dst v = Some b' -> keeps b b'.
  Proof.
    intros Z. unfold transfer_allow. destruct (N.eqb_spec v 0); [intros [= <-]; apply keeps_refl|].
    destruct (N.eqb_spec src dst) as [|Hn]; [intros [= <-]; apply keeps_refl|]. cbn [orb].
    destruct (N.ltb_spec (free (acct_of b src)) v) as [|L]; [discriminate|].
    destruct (N.ltb_spec (free (acct_of b src) - (frz (acct_of b src) - rsv (acct_of b src))) v) as [|L2]; [discriminate|].
    destruct ((_ <? ed) && _) eqn:D; [discriminate|].
    destruct (_ + _ + v <? ed); [discriminate|]. destruct (_ <=? _); [discriminate|].
    intros [= <-].
    assert (A : keeps b (put ed b src (Acct (free (acct_of b src) - v) (rsv (acct_of b src)) (frz (acct_of b src))))).
    { apply put_keeps. intros -> H. apply andb_false_iff in D as [D|D].
      - apply N.ltb_ge in D. unfold money_of. lia.
      - apply negb_false_iff, andb_true_iff in D as [_ D]. apply N.eqb_eq in D. lia. }
    set (b1 := put ed b src _) in *.
    assert (E : acct_of b1 dst = acct_of b dst) by (apply put_acct_ne; congruence).
    rewrite <- E. refine (keeps_trans _ _ _ A _). apply put_keeps. intros ->. unfold money_of. lia.
  Qed.
  Lemma withdraw_keeps b k w v b' : ed <= frz (acct_of b a) -> withdraw ed k b w v = Some b' -> keeps b b'.
  Proof.
    intros Z. unfold withdraw. destruct (v =? 0); [intros [= <-]; apply keeps_refl|].
    destruct (N.ltb_spec (free (acct_of b w)) v) as [|L]; [discriminate|]. destruct (_ && _); [discriminate|].
    destruct (N.ltb_spec (free (acct_of b w) - v) (frz (acct_of b w))) as [|L2]; [discriminate|]. intros [= <-].
    apply put_keeps. intros -> H. unfold money_of. lia.
  Qed.
  Lemma reserve_keeps b w v b' : reserve ed b w v = Some b' -> keeps b b'.
  Proof.
    unfold reserve. destruct (v =? 0); [intros [= <-]; apply keeps_refl|].
    destruct (N.ltb_spec (free (acct_of b w)) v) as [|L]; [discriminate|].
    destruct (N.ltb_spec (free (acct_of b w) - v) (frz (acct_of b w))) as [|L2]; [discriminate|].
    destruct (N.ltb_spec (free (acct_of b w) - v) ed) as [|L3]; [discriminate|]. intros [= <-].
    apply put_keeps. intros -> H. unfold money_of. lia.
  Qed.
  Lemma unreserve_keeps b w v : keeps b (unreserve ed b w v).
  Proof.
    unfold unreserve. destruct (v =? 0); [apply keeps_refl|]. apply put_keeps. intros -> H. unfold money_of. lia.
  Qed.
End bank.

Lemma slash_out_le minb t g v : forall t' g' v', slash_out_of minb t g v = (t', g', v') -> t' <= t.
Proof.
  intros t' g' v'. unfold slash_out_of. destruct (_ =? 0); [intros [= <- _ _]; lia|].
  destruct (_ <=? _); intros [= <- _ _]; unfold ssub; lia.
Qed.
Lemma slash_chunks_le minb : forall cs t v t' u, slash_chunks minb t v cs = (t', u) -> t' <= t.
Proof.
  induction cs as [|c cs IH]; intros t v t' u H; cbn [slash_chunks] in H; [injection H as <- _; lia|].
  destruct (slash_out_of _ _ _ _) as [[t1 k] v1] eqn:E. apply slash_out_le in E. destruct (k =? 0).
  - apply IH in H. lia.
  - injection H as <- _. exact E.
Qed.
Lemma slash_ledger_total v minb l l' g :
  slash_ledger v minb l = (l', g) -> l_stash l' = l_stash l /\ l_total l' + g = l_total l.
Proof.
  unfold slash_ledger. destruct (slash_out_of _ _ _ _) as [[t1 a1] v1] eqn:E1. apply slash_out_le in E1.
  destruct (slash_chunks _ _ _ _) as [t2 u2] eqn:E2. apply slash_chunks_le in E2. intros [= <- <-]. cbn. unfold ssub. split; [reflexivity|lia].
Qed.
Lemma consolidate_le e l : l_stash (consolidate e l) = l_stash l /\ l_total (consolidate e l) <= l_total l.
Proof.
  split; [reflexivity|]. unfold consolidate. cbn [l_total]. generalize (l_total l). induction (l_unl l) as [|c cs IH]; intros t; cbn; [lia|].
  etransitivity; [apply IH|]. destruct (_ <? _); unfold ssub; lia.
Qed.
Lemma rebond_same v l : l_stash (rebond v l) = l_stash l /\ l_total (rebond v l) = l_total l.
Proof. unfold rebond. destruct (rebond_rev _ _ _ _). auto. Qed.
Lemma add128_le p q : add128 p q <= p + q.
Proof. apply N.mod_le. discriminate. Qed.

Section cover.
  Context (cfg : kcfg) (a : N) (Z : 0 < kc_ed cfg).
  Local Notation ed := (kc_ed cfg).
  Record inv (s : kstate) : Prop := Inv {
    i_pair : paired s; i_guard : guarded cfg s a; i_lock : locked_all s a; i_cov : covered s a }.
  Local Notation lk s := (default 0 (s_lock (k_stk s) !! a)).

  Lemma inv_view s s' : inv s -> keeps ed a (k_bank s) (k_bank s') -> view s' = view s -> inv s'.
  Proof.
    intros [P [G1 G2] L C] K E. unfold view in E. injection E as E1 E2 E3. destruct (K G1) as (K1 & K2 & K3).
    split.
    - unfold paired. now rewrite E1, E2.
    - unfold guarded. rewrite E3, K2. auto.
    - unfold locked_all. now rewrite E2, E3.
    - unfold covered. rewrite E2. intros c l H Hs. specialize (L c l H Hs). specialize (C c l H Hs). lia.
  Qed.
  Lemma inv_same s s' : inv s -> k_bank s' = k_bank s -> view s' = view s -> inv s'.
  Proof. intros I E. apply inv_view; [exact I|]. rewrite E. apply keeps_refl. Qed.

  Context (x : kctx).
  Lemma freeze_acct b w v : ed <= free (acct_of b a) ->
    acct_of (freeze cfg b w v) a = if w =? a then Acct (free (acct_of b a)) (rsv (acct_of b a)) v else acct_of b a.
  Proof.
    intros H. unfold freeze. destruct (N.eqb_spec w a) as [->|N]; [now rewrite put_at|now rewrite put_acct_ne by auto].
  Qed.
  (** A ledger is written. *)
  Lemma upd_inv s1 c l' :
    ed <= free (acct_of (k_bank s1) a) -> lk s1 <= frz (acct_of (k_bank s1) a) ->
    paired (set_k_stk s1 (set_s_ledger (k_stk s1) (<[c := l']> (s_ledger (k_stk s1))))) ->
    (l_stash l' = a -> l_total l' <= money_of (k_bank s1) a) ->
    (l_stash l' <> a -> locked_all s1 a /\ covered s1 a) ->
    inv (update_ledger cfg x s1 c l').
  Proof.
    intros G1 G2 P A B.
    set (s2 := update_ledger cfg x s1 c l').
    assert (Ev : view s2 = LView (s_bonded (k_stk s1)) (<[c := l']> (s_ledger (k_stk s1)))
          (set_lock_of (s_lock (k_stk s1)) (l_stash l') (l_total l'))) by apply view_update.
    assert (E1 : s_bonded (k_stk s2) = s_bonded (k_stk s1)) by exact (f_equal v_bonded Ev).
    assert (E2 : s_ledger (k_stk s2) = <[c := l']> (s_ledger (k_stk s1))) by exact (f_equal v_ledger Ev).
    assert (E3 : s_lock (k_stk s2) = set_lock_of (s_lock (k_stk s1)) (l_stash l') (l_total l')) by exact (f_equal v_lock Ev).
    assert (P2 : paired s2).
    { destruct P as [P1 P2]. unfold paired. rewrite E1, E2. split; [exact P1|exact P2]. }
    assert (F : free (acct_of (k_bank s2) a) = free (acct_of (k_bank s1) a) /\ money_of (k_bank s2) a = money_of (k_bank s1) a /\ lk s2 <= frz (acct_of (k_bank s2) a)).
    { unfold money_of. rewrite E3. subst s2. unfold update_ledger, set_lock. cbn [k_bank set_k_stk]. destruct (N.eqb_spec (l_total l') 0) as [T|T].
      - unfold set_lock_of. rewrite T. cbn. auto.
      - cbn [k_bank set_k_stk set_k_bank]. rewrite freeze_acct by exact G1.
        unfold set_lock_of. destruct (N.eqb_spec (l_total l') 0) as [|_]; [contradiction|]. destruct (N.eqb_spec (l_stash l') a) as [->|N].
        + cbn. rewrite lookup_insert. cbn. split; [reflexivity|]. split; [reflexivity|]. lia.
        + rewrite lookup_insert_ne by auto. auto. }
    destruct F as (F1 & F2 & F3).
    assert (U : forall c0 l0, s_ledger (k_stk s2) !! c0 = Some l0 -> l_stash l0 = a ->
      (l0 = l' /\ l_stash l' = a) \/ (l_stash l' <> a /\ s_ledger (k_stk s1) !! c0 = Some l0)).
    { intros c0 l0 H Hs. pose proof (proj2 P2 _ _ H) as H1. rewrite E2 in H. destruct (decide (c = c0)) as [<-|Nc].
      - rewrite lookup_insert in H. injection H as ->. auto.
      - rewrite lookup_insert_ne in H by auto. right. split; [|exact H]. intros Ha.
        assert (H2 : s_bonded (k_stk s2) !! l_stash l' = Some c) by (apply (proj2 P2); rewrite E2; apply lookup_insert).
        congruence. }
    split.
    - exact P2.
    - split; [congruence|exact F3].
    - intros c0 l0 H Hs. destruct (U _ _ H Hs) as [[-> Ha]|[Ha H0]].
      + rewrite E3, Ha. unfold set_lock_of. destruct (N.eqb_spec (l_total l') 0) as [->|T]; [lia|]. rewrite lookup_insert. cbn. lia.
      + rewrite E3. unfold set_lock_of. destruct (N.eqb_spec (l_total l') 0) as [T|T]; [|rewrite lookup_insert_ne by auto]; now apply (proj1 (B Ha) c0 l0).
    - intros c0 l0 H Hs. rewrite F2. destruct (U _ _ H Hs) as [[-> Ha]|[Ha H0]]; [auto|]. now apply (proj2 (B Ha) c0 l0).
  Qed.
  Lemma paired_upd s c l l' :
    paired s -> s_ledger (k_stk s) !! c = Some l -> l_stash l' = l_stash l ->
    paired (set_k_stk s (set_s_ledger (k_stk s) (<[c := l']> (s_ledger (k_stk s))))).
  Proof.
    intros [P1 P2] H E. split; destruct s as [? k ? ? ?]; destruct k; cbn in *.
    - intros st c0 H0. destruct (decide (c = c0)) as [<-|N].
      + rewrite lookup_insert. exists l'. split; [reflexivity|]. destruct (P1 _ _ H0) as (l0 & A & <-). congruence.
      + rewrite lookup_insert_ne by auto. auto.
    - intros c0 l0 H0. destruct (decide (c = c0)) as [<-|N].
      + rewrite lookup_insert in H0. injection H0 as <-. rewrite E. auto.
      + rewrite lookup_insert_ne in H0 by auto. auto.
  Qed.
  (** The usual case: balances have changed to [b] before. *)
  Lemma upd_bank s b c l l' :
    inv s -> s_ledger (k_stk s) !! c = Some l -> l_stash l' = l_stash l ->
    ed <= free (acct_of b a) -> frz (acct_of b a) = frz (acct_of (k_bank s) a) ->
    (l_stash l = a -> l_total l' <= money_of b a) ->
    (l_stash l <> a -> polite ed (k_bank s) b a) ->
    inv (update_ledger cfg x (set_k_bank s b) c l').
  Proof.
    intros [P [G1 G2] L C] H E B1 B2 A B. apply upd_inv; cbn [k_bank k_stk set_k_bank].
    - exact B1.
    - rewrite B2. exact G2.
    - exact (paired_upd s c l l' P H E).
    - intros Ha. apply A. congruence.
    - intros Ha. split; [exact L|]. destruct (B ltac:(congruence)) as (_ & _ & K).
      intros c0 l0 H0 Hs. specialize (L c0 l0 H0 Hs). specialize (C c0 l0 H0 Hs). cbn [k_bank set_k_bank]. lia.
  Qed.
  Lemma upd_same s c l l' :
    inv s -> s_ledger (k_stk s) !! c = Some l -> l_stash l' = l_stash l ->
    (l_stash l = a -> l_total l' <= money_of (k_bank s) a) -> inv (update_ledger cfg x s c l').
  Proof.
    intros I H E A. pose proof (upd_bank s (k_bank s) c l l' I H E (proj1 (i_guard _ I)) eq_refl A) as K.
    replace (set_k_bank s (k_bank s)) with s in K by now destruct s. apply K. intros _.
    apply keeps_refl, (proj1 (i_guard _ I)).
  Qed.
  Lemma upd_less s c l l' :
    inv s -> s_ledger (k_stk s) !! c = Some l -> l_stash l' = l_stash l -> l_total l' <= l_total l ->
    inv (update_ledger cfg x s c l').
  Proof. intros I H E T. apply (upd_same s c l l' I H E). intros Ha. pose proof (i_cov _ I c l H Ha). lia. Qed.

  (** *** Payouts *)
  Lemma mint_existing_keeps b w v b' got : mint_existing cfg b w v = (b', got) -> keeps ed a b b'.
  Proof.
    unfold mint_existing. destruct (v =? 0); [intros [= <- <-]; apply keeps_refl|].
    destruct (is_new _); [intros [= <- <-]; apply keeps_refl|]. destruct (_ <=? _); intros [= <- <-]; [apply keeps_refl|].
    apply put_keeps. intros ->. unfold money_of. lia.
  Qed.
  Lemma mint_existing_got b v b' got :
    mint_existing cfg b a v = (b', got) -> ed <= free (acct_of b a) -> free (acct_of b a) + v < two128 ->
    money_of b' a = money_of b a + v /\ free (acct_of b' a) = free (acct_of b a) + v.
  Proof.
    intros H L R. revert H. unfold mint_existing. destruct (N.eqb_spec v 0) as [->|]; [intros [= <- <-]; lia|].
    assert (I : is_new (acct_of b a) = false).
    { unfold is_new. apply andb_false_iff. left. apply andb_false_iff. left. apply N.eqb_neq. lia. }
    rewrite I. destruct (N.leb_spec two128 (free (acct_of b a) + v)); [lia|]. intros [= <- <-].
    unfold money_of. rewrite put_at by lia. cbn. lia.
  Qed.
  Lemma put_free_le b w n r z m : ed <= free (acct_of b a) -> (w = a -> n <= free (acct_of b a) + m) ->
    free (acct_of (put ed b w (Acct n r z)) a) <= free (acct_of b a) + m.
  Proof.
    intros L H. destruct (decide (w = a)) as [->|N]; [|rewrite put_acct_ne by auto; lia].
    unfold put, acct_of. cbn [free rsv]. destruct (_ && _); cbn; [rewrite lookup_delete|rewrite lookup_insert]; cbn; [lia|]. apply H. reflexivity.
  Qed.
  Lemma mint_free b w v b' got : Model_Operation.mint ed b w v = (b', got) -> ed <= free (acct_of b a) ->
    free (acct_of b' a) <= free (acct_of b a) + v.
  Proof.
    intros H L. revert H. unfold Model_Operation.mint. destruct (v =? 0); [intros [= <- <-]; lia|].
    destruct (_ && _); [intros [= <- <-]; lia|]. destruct (_ <=? _); intros [= <- <-]; [lia|].
    apply put_free_le; [exact L|]. intros ->. lia.
  Qed.
  Lemma mint_existing_free b w v b' got : mint_existing cfg b w v = (b', got) -> ed <= free (acct_of b a) ->
    free (acct_of b' a) <= free (acct_of b a) + v.
  Proof.
    intros H L. revert H. unfold mint_existing. destruct (v =? 0); [intros [= <- <-]; lia|].
    destruct (is_new _); [intros [= <- <-]; lia|]. destruct (_ <=? _); intros [= <- <-]; [lia|].
    apply put_free_le; [exact L|]. intros ->. lia.
  Qed.
  Lemma upd_free s c l : ed <= free (acct_of (k_bank s) a) ->
    free (acct_of (k_bank (update_ledger cfg x s c l)) a) = free (acct_of (k_bank s) a).
  Proof.
    intros L. unfold update_ledger, set_lock. cbn [k_bank set_k_stk]. destruct (_ =? 0); [reflexivity|].
    cbn [k_bank set_k_stk set_k_bank]. rewrite freeze_acct by exact L. now destruct (_ =? a).
  Qed.
  Lemma payout_inv s st v s' ev :
    validator_payout cfg x s st v = (s', ev) -> inv s -> free (acct_of (k_bank s) a) + v < two128 ->
    inv s' /\ free (acct_of (k_bank s') a) <= free (acct_of (k_bank s) a) + v.
  Proof.
    intros H I R. pose proof (proj1 (i_guard _ I)) as G. revert H. unfold validator_payout. destruct (default PStaked _).
    - destruct (s_bonded (k_stk s) !! st) as [c|] eqn:Eb; [|intros [= <- <-]; split; [exact I|lia]].
      destruct (s_ledger (k_stk s) !! c) as [l|] eqn:El; [|intros [= <- <-]; split; [exact I|lia]].
      destruct (mint_existing _ _ _ _) as [b got] eqn:E. intros H. injection H as <- <-.
      assert (Es : l_stash l = st).
      { destruct (proj1 (i_pair _ I) _ _ Eb) as (l0 & A & B). congruence. }
      destruct (mint_existing_keeps _ _ _ _ _ E G) as (K1 & K2 & K3). split.
      + apply (upd_bank s b c l); [exact I|exact El|reflexivity|exact K1|exact K2| |]; cbn [l_total].
        * intros Ha. rewrite <- Es, Ha in E. destruct (mint_existing_got _ _ _ _ E G R) as [M _].
          pose proof (i_cov _ I c l El Ha). pose proof (add128_le (l_total l) v). lia.
        * intros _. repeat split; assumption.
      + rewrite upd_free by exact K1. exact (mint_existing_free _ _ _ _ _ E G).
    - destruct (mint_existing _ _ _ _) eqn:E. intros H. injection H as <- <-. split; [|exact (mint_existing_free _ _ _ _ _ E G)].
      apply (inv_view s); [exact I|exact (mint_existing_keeps _ _ _ _ _ E)|reflexivity].
    - destruct (_ !! st); [|intros [= <- <-]; split; [exact I|lia]].
      destruct (Model_Operation.mint _ _ _ _) eqn:E. intros H. injection H as <- <-. split; [|exact (mint_free _ _ _ _ _ E G)].
      apply (inv_view s); [exact I|exact (mint_keeps _ _ _ _ _ _ _ E)|reflexivity].
    - destruct (Model_Operation.mint _ _ _ _) eqn:E. intros H. injection H as <- <-. split; [|exact (mint_free _ _ _ _ _ E G)].
      apply (inv_view s); [exact I|exact (mint_keeps _ _ _ _ _ _ _ E)|reflexivity].
  Qed.
  Lemma pay_each_inv pts po : forall vs s t s' t' ev, pay_each cfg x pts po vs s t = (s', t', ev) ->
    inv s -> free (acct_of (k_bank s) a) + N.of_nat (length vs) * po < two128 -> inv s'.
  Proof.
    induction vs as [|v r IH]; intros s t s' t' ev H I R; cbn [pay_each] in H; [injection H as <- _ _; exact I|].
    cbn [length] in R. rewrite Nat2N.inj_succ in R.
    destruct (_ =? 0); [apply (IH _ _ _ _ _ H I); lia|].
    destruct (validator_payout _ _ _ _ _) as [s1 e1] eqn:E1. destruct (pay_each _ _ _ _ r s1 _) as [[s2 t2] e2] eqn:E2.
    injection H as <- _ _.
    assert (A : frac_mul (perbill_of (default 0 (pts.2 !! v)) pts.1) PERBILL po <= po).
    { apply frac_mul_le; [discriminate|]. apply Proofs_Adsc3.perbill_of_le. }
    destruct (payout_inv _ _ _ _ _ E1 I ltac:(lia)) as [I1 F1]. apply (IH _ _ _ _ _ E2 I1). lia.
  Qed.
  Lemma pay_delegator_inv s d r pool s' p ev : pay_delegator cfg x s d r pool = (s', p, ev) -> inv s -> inv s'.
  Proof.
    unfold pay_delegator. destruct (_ =? _); [intros [= <- _ _] I; now apply (inv_same s)|].
    destruct (kx_reward x d _ _); [|intros [= <- _ _] I; now apply (inv_same s)].
    destruct (Model_Operation.mint _ _ _ _) eqn:E. intros H I; injection H as <- _ _.
    apply (inv_view s); [exact I|exact (mint_keeps _ _ _ _ _ _ _ E)|reflexivity].
  Qed.
  Lemma pay_referer_inv s d rw pool s' p ev : pay_referer cfg s d rw pool = (s', p, ev) -> inv s -> inv s'.
  Proof.
    unfold pay_referer. destruct (_ !! d); [|intros [= <- _ _] I; now apply (inv_same s)].
    destruct (bonus_rate _); [|intros [= <- _ _] I; now apply (inv_same s)].
    destruct (Model_Operation.mint _ _ _ _) eqn:E. intros H I; injection H as <- _ _.
    apply (inv_view s); [exact I|exact (mint_keeps _ _ _ _ _ _ _ E)|reflexivity].
  Qed.
  Lemma pay_loop_inv : forall n l s pool last ct s' p' la' c' ev,
    pay_loop cfg x n l s pool last ct = (s', p', la', c', ev) -> inv s -> inv s'.
  Proof.
    induction n as [|n IH]; intros l s pool last ct s' p' la' c' ev H I; cbn [pay_loop] in H; [injection H as <- _ _ _ _; exact I|].
    destruct l as [|[d r] rest]; [injection H as <- _ _ _ _; exact I|].
    destruct (pay_delegator _ _ _ _ _ _) as [[s1 q1] e1] eqn:E1. apply pay_delegator_inv in E1; [|exact I].
    destruct (_ =? 0); [injection H as <- _ _ _ _; auto|].
    destruct (pay_referer _ _ _ _ _) as [[s2 q2] e2] eqn:E2. apply pay_referer_inv in E2; [|exact E1].
    destruct (_ =? 0); [injection H as <- _ _ _ _; exact E2|].
    destruct (pay_loop _ _ _ _ _ _ _ _) as [[[[s3 q3] l3] c3] e3] eqn:E3. apply IH in E3; [|exact E2]. injection H as <- _ _ _ _. exact E3.
  Qed.

  (** *** Slashes *)
  Context (D : kx_dies x a = false).
  Lemma cslash_cost b w v b' got miss :
    cslash cfg x b w v = (b', got, miss) -> ed <= free (acct_of b a) ->
    ed <= free (acct_of b' a) /\ frz (acct_of b' a) = frz (acct_of b a) /\
    money_of b a <= money_of b' a + v /\ (w <> a -> acct_of b' a = acct_of b a).
  Proof.
    intros H L. revert H. unfold cslash. destruct (v =? 0); [intros [= <- <- <-]; repeat split; auto; lia|].
    destruct (_ =? 0); [intros [= <- <- <-]; repeat split; auto; lia|].
    intros H. injection H as <- <- <-. unfold money_of. destruct (decide (w = a)) as [->|N].
    - rewrite D. rewrite put_at by (unfold ssub; lia). cbn. unfold ssub. repeat split; try lia; now intros [].
    - rewrite put_acct_ne by auto. repeat split; auto; lia.
  Qed.
  Lemma pay_reps_keeps : forall l b each have b' left', pay_reps cfg b l each have = (b', left') -> keeps ed a b b'.
  Proof.
    induction l as [|r l IH]; intros b each have b' left' H; cbn [pay_reps] in H; [injection H as <- <-; apply keeps_refl|].
    apply IH in H. exact (keeps_trans _ _ _ _ _ (deposit_keeps _ _ _ _ _) H).
  Qed.
  Lemma pay_reporters_keeps b pay sl l : keeps ed a b (pay_reporters cfg b pay sl l).
  Proof.
    unfold pay_reporters. destruct (_ || _); [apply deposit_keeps|].
    destruct (pay_reps _ _ _ _ _) as [b1 have] eqn:E. apply pay_reps_keeps in E. exact (keeps_trans _ _ _ _ _ E (deposit_keeps _ _ _ _ _)).
  Qed.
  Lemma apply_slash_inv s u s' ev : apply_slash cfg x s u = (s', ev) -> inv s -> inv s'.
  Proof.
    unfold apply_slash. destruct (do_slash _ _ _ _ _ _) as [[[s1 pay] got] e1] eqn:E. intros H I. injection H as <- _.
    assert (A : inv s1).
    { unfold do_slash in E. destruct (s_bonded (k_stk s) !! u_val u) as [c|] eqn:Eb; [|injection E as <- _ _ _; exact I].
      destruct (s_ledger (k_stk s) !! c) as [l|] eqn:El; [|injection E as <- _ _ _; exact I].
      destruct (slash_ledger _ _ _) as [l' v] eqn:Es. apply slash_ledger_total in Es as [Es Et].
      destruct (v =? 0); [injection E as <- _ _ _; exact I|].
      destruct (cslash _ _ _ _ _) as [[b g] ms] eqn:Ec. injection E as <- _ _ _.
      destruct (cslash_cost _ _ _ _ _ _ Ec (proj1 (i_guard _ I))) as (C1 & C2 & C3 & C4).
      assert (Eu : l_stash l = u_val u).
      { destruct (proj1 (i_pair _ I) _ _ Eb) as (l0 & X1 & X2). congruence. }
      apply (upd_bank s b c l); [exact I|exact El|exact Es|exact C1|exact C2| |].
      - intros Ha. pose proof (i_cov _ I c l El Ha). lia.
      - intros Ha. unfold polite, money_of. rewrite C4 by congruence. repeat split; [exact (proj1 (i_guard _ I))|]. lia. }
    apply (inv_view s1); [exact A| |].
    - cbn [k_bank set_k_bank]. rewrite credit_fold_bank. apply pay_reporters_keeps.
    - unfold view. cbn [k_stk set_k_bank]. now rewrite Proofs_Staking.credit_fold_stk.
  Qed.
  Lemma apply_list_inv : forall l s s' ev, apply_list cfg x l s = (s', ev) -> inv s -> inv s'.
  Proof.
    induction l as [|u r IH]; intros s s' ev H I; cbn [apply_list] in H; [injection H as <- _; exact I|].
    destruct (apply_slash _ _ _ _) as [s1 e1] eqn:E1. destruct (apply_list _ _ r s1) as [s2 e2] eqn:E2. injection H as <- _.
    apply (IH _ _ _ E2). exact (apply_slash_inv _ _ _ _ E1 I).
  Qed.
  Lemma apply_eras_inv : forall n era s s' ev, apply_eras cfg x n era s = (s', ev) -> inv s -> inv s'.
  Proof.
    induction n as [|n IH]; intros era s s' ev H I; cbn [apply_eras] in H; [injection H as <- _; exact I|].
    destruct (apply_list _ _ _ _) as [s1 e1] eqn:E1. destruct (apply_eras _ _ n _ s1) as [s2 e2] eqn:E2. injection H as <- _.
    apply (IH _ _ _ _ E2). apply (apply_list_inv _ _ _ _ E1). now apply (inv_same s).
  Qed.
  Lemma start_session_inv s i s' ev : start_session cfg x s i = (s', ev) -> inv s -> inv s'.
  Proof.
    unfold start_session. destruct (_ !! _); [|intros [= <- _] I; exact I].
    destruct (_ <=? i); [|intros [= <- _] I; exact I].
    unfold start_era, apply_unapplied. cbn zeta.
    match goal with |- context [s_first ?k] => destruct (s_first k) end; [|intros [= <- _] I; now apply (inv_same s)].
    destruct (apply_eras _ _ _ _ _) as [s1 e1] eqn:E. intros H I. injection H as <- _. apply (inv_same s1); [|reflexivity|reflexivity].
    apply (apply_eras_inv _ _ _ _ _ E). now apply (inv_same s).
  Qed.
  Lemma offender_inv era w act s ev o s' ev' : offender1 cfg x era w act (s, ev) o = (s', ev') -> inv s -> inv s'.
  Proof.
    destruct o as [[[st ex] reps] fr]. unfold offender1. destruct (bool_decide _); [intros [= <- _] I; exact I|].
    destruct (compute_slash _ _ _ _ _ _ _ _) as [[s1 u] e1] eqn:E. intros H I.
    assert (I1 : inv s1) by (apply (inv_same s); [exact I|now apply compute_bank in E|now apply compute_slash_view in E]).
    revert H. destruct u as [u|].
    - destruct (_ =? 0).
      + destruct (apply_slash _ _ _ _) as [s2 e2] eqn:E2. intros H. injection H as <- _. exact (apply_slash_inv _ _ _ _ E2 I1).
      + intros H. injection H as <- _. now apply (inv_same s1).
    - intros H. injection H as <- _. exact I1.
  Qed.
  Lemma offenders_inv era w act : forall os s ev s' ev',
    fold_left (offender1 cfg x era w act) os (s, ev) = (s', ev') -> inv s -> inv s'.
  Proof.
    induction os as [|o os IH]; intros s ev s' ev' H I; cbn [fold_left] in H; [injection H as <- _; exact I|].
    destruct (offender1 _ _ _ _ _ _ o) as [s1 ev1] eqn:E. apply (IH _ _ _ _ H). exact (offender_inv _ _ _ _ _ _ _ _ E I).
  Qed.
  Lemma on_offence_inv s os i s' ev : on_offence cfg x s os i = (s', ev) -> inv s -> inv s'.
  Proof.
    unfold on_offence. destruct (e_act (k_era s)) as [[act b]|]; [|intros [= <- _] I; exact I].
    destruct (slash_era _ _ _); [|intros [= <- _] I; exact I]. intros H I. apply (offenders_inv _ _ _ _ _ _ _ _ H).
    apply (inv_same s); [exact I|reflexivity|]. unfold view. cbn. now destruct (s_first (k_stk s)).
  Qed.

  (** *** Calls *)
  Lemma unstake_inv s st n s' : unstake cfg x s st n = ROk s' -> inv s -> inv s'.
  Proof.
    intros H [P [G1 G2] L C]. pose proof (unstake_move cfg x s st n s' H) as M. inversion M as [| |m st0 c Hb E0 E1 E2|]; subst.
    rename E2 into V1, H0 into V2, H1 into V3. symmetry in V1, V2, V3. clear M. change (s_bonded (k_stk s) !! st = Some c) in Hb.
    assert (B : k_bank s' = freeze cfg (k_bank s) st (kx_other x st)).
    { unfold unstake in H. inv_bind H. injection H as <-. reflexivity. }
    destruct P as [P1 P2]. destruct (P1 _ _ Hb) as (l & Hl & Hs).
    assert (Pr : paired s').
    { unfold paired. rewrite V1, V2. split.
      - intros st1 c1 H1. apply lookup_delete_Some in H1 as [N1 H1]. destruct (P1 _ _ H1) as (l1 & A1 & A2). exists l1. split; [|exact A2].
        apply lookup_delete_Some. split; [|exact A1]. intros ->. congruence.
      - intros c1 l1 H1. apply lookup_delete_Some in H1 as [N1 H1]. apply lookup_delete_Some. split; [|auto].
        intros E. apply P2 in H1. congruence. }
    assert (F : forall c1 l1, s_ledger (k_stk s') !! c1 = Some l1 -> l_stash l1 = a -> st <> a /\ s_ledger (k_stk s) !! c1 = Some l1).
    { intros c1 l1 H1 Ha. pose proof (proj2 Pr _ _ H1) as Hb1. rewrite V1, Ha in Hb1. apply lookup_delete_Some in Hb1 as [Hb1 _].
      rewrite V2 in H1. apply lookup_delete_Some in H1 as [_ H1]. auto. }
    split; [exact Pr| | |].
    - unfold guarded. rewrite V3, B, freeze_acct by exact G1. destruct (N.eqb_spec st a) as [->|N].
      + cbn. rewrite lookup_delete. cbn. split; [exact G1|lia].
      + rewrite lookup_delete_ne by auto. auto.
    - intros c1 l1 H1 Ha. destruct (F _ _ H1 Ha) as [N H0]. rewrite V3, lookup_delete_ne by auto. now apply (L c1).
    - intros c1 l1 H1 Ha. destruct (F _ _ H1 Ha) as [N H0]. unfold money_of. rewrite B, freeze_acct by exact G1.
      destruct (N.eqb_spec st a) as [|_]; [contradiction|]. now apply (C c1).
  Qed.
  Lemma bond_inv s st c v dest s' : bond cfg x s st c v dest = ROk s' -> inv s -> inv s'.
  Proof.
    intros H I. unfold bond in H. inv_bind H. inv_bind H. inv_bind H. inv_bind H. injection H as <-.
    apply negb_true_iff, bool_decide_eq_false in E. apply negb_true_iff, bool_decide_eq_false in E0.
    apply eq_None_not_Some in E. apply eq_None_not_Some in E0.
    destruct I as [[P1 P2] [G1 G2] L C]. apply upd_inv; cbn [k_bank k_stk set_k_stk].
    - exact G1.
    - destruct (k_stk s). exact G2.
    - unfold paired. destruct s as [? k ? ? ?]; destruct k; cbn in *. split.
      + intros st1 c1 H1. destruct (decide (st = st1)) as [<-|N].
        * rewrite lookup_insert in H1. injection H1 as <-. rewrite lookup_insert. eauto.
        * rewrite lookup_insert_ne in H1 by auto. destruct (P1 _ _ H1) as (l1 & A1 & A2). exists l1. rewrite lookup_insert_ne by congruence. auto.
      + intros c1 l1 H1. destruct (decide (c = c1)) as [<-|N].
        * rewrite lookup_insert in H1. injection H1 as <-. apply lookup_insert.
        * rewrite lookup_insert_ne in H1 by auto. pose proof (P2 _ _ H1). rewrite lookup_insert_ne by congruence. auto.
    - cbn [l_stash l_total]. intros ->. unfold free_of, money_of. lia.
    - intros _. destruct s as [? k ? ? ?]; destruct k. split; [exact L|exact C].
  Qed.
  Lemma set_controller_inv s st c k : set_controller (k_stk s) st c = ROk k -> inv s -> inv (set_k_stk s k).
  Proof.
    unfold set_controller. destruct (s_bonded (k_stk s) !! st) as [old|] eqn:Eb; [|discriminate]. intros H. inv_bind H.
    apply negb_true_iff, bool_decide_eq_false in E. apply eq_None_not_Some in E.
    destruct (N.eqb_spec c old) as [->|N]; [injection H as <-; intros I; now apply (inv_same s)|].
    intros [[P1 P2] [G1 G2] L C]. destruct (P1 _ _ Eb) as (l & Hl & Hs). rewrite Hl in H. injection H as <-.
    destruct s as [bk0 k ? ? ?]; destruct k; cbn in *.
    assert (F : forall c1 l1, <[c:=l]> (delete old s_ledger) !! c1 = Some l1 -> exists c0, s_ledger !! c0 = Some l1).
    { intros c1 l1 H1. destruct (decide (c = c1)) as [<-|N1].
      - rewrite lookup_insert in H1. injection H1 as <-. eauto.
      - rewrite lookup_insert_ne in H1 by auto. apply lookup_delete_Some in H1 as [_ H1]. eauto. }
    split.
    - split; cbn.
      + intros st1 c1 H1. destruct (decide (st = st1)) as [<-|N1].
        * rewrite lookup_insert in H1. injection H1 as <-. rewrite lookup_insert. eauto.
        * rewrite lookup_insert_ne in H1 by auto. destruct (P1 _ _ H1) as (l1 & A1 & A2). exists l1.
          rewrite lookup_insert_ne by congruence. rewrite lookup_delete_ne by congruence. auto.
      + intros c1 l1 H1. destruct (decide (c = c1)) as [<-|N1].
        * rewrite lookup_insert in H1. injection H1 as <-. rewrite Hs. apply lookup_insert.
        * rewrite lookup_insert_ne in H1 by auto. apply lookup_delete_Some in H1 as [N2 H1]. pose proof (P2 _ _ H1).
          rewrite lookup_insert_ne by congruence. auto.
    - split; [exact G1|exact G2].
    - intros c1 l1 H1 Ha. cbn in H1. destruct (F _ _ H1) as [c0 H0]. exact (L c0 l1 H0 Ha).
    - intros c1 l1 H1 Ha. cbn in H1. destruct (F _ _ H1) as [c0 H0]. exact (C c0 l1 H0 Ha).
  Qed.
  Lemma burn_inv s c v s' ev : validator_burn cfg x s c v = ROk (s', ev) -> inv s -> inv s'.
  Proof.
    intros H I. unfold validator_burn in H. destruct (s_ledger (k_stk s) !! c) as [l|] eqn:El; [|discriminate].
    destruct (slash_ledger _ _ _) as [l' amount] eqn:Es. apply slash_ledger_total in Es as [Es Et].
    destruct (cslash _ _ _ _ _) as [[b got] ms] eqn:Ec. injection H as <- <-.
    destruct I as [P [G1 G2] L C]. unfold remove_lock in Ec. cbn [k_bank set_k_stk set_k_bank] in Ec.
    pose proof (freeze_acct (k_bank s) (l_stash l) (kx_other x (l_stash l)) G1) as Fz.
    set (b1 := freeze cfg (k_bank s) (l_stash l) (kx_other x (l_stash l))) in *.
    assert (F1 : free (acct_of b1 a) = free (acct_of (k_bank s) a) /\ rsv (acct_of b1 a) = rsv (acct_of (k_bank s) a)).
    { rewrite Fz. now destruct (_ =? a). }
    destruct F1 as [F1 F2]. assert (G3 : ed <= free (acct_of b1 a)) by lia.
    destruct (cslash_cost _ _ _ _ _ _ Ec G3) as (C1 & C2 & C3 & C4).
    assert (M : money_of b1 a = money_of (k_bank s) a) by (unfold money_of; lia).
    unfold remove_lock. apply upd_inv; cbn [k_bank k_stk set_k_bank set_k_stk]; change (acct_of (Bank (accts b) (lost b + got)) a) with (acct_of b a).
    - exact C1.
    - rewrite C2, Fz. destruct s as [bk0 k ? ? ?]; destruct k; cbn in *. destruct (N.eqb_spec (l_stash l) a) as [->|N].
      + rewrite lookup_delete. cbn. lia.
      + rewrite lookup_delete_ne by auto. exact G2.
    - pose proof (paired_upd s c l l' P El Es) as Q. destruct s as [bk0 k ? ? ?]; destruct k. exact Q.
    - intros Ha. unfold money_of. change (acct_of (Bank (accts b) (lost b + got)) a) with (acct_of b a). fold (money_of b a).
      pose proof (C c l El ltac:(congruence)). lia.
    - intros Ha. rewrite Es in Ha. split.
      + intros c1 l1 H1 H2. specialize (L c1 l1). destruct s as [bk0 k ? ? ?]; destruct k; cbn in *. rewrite lookup_delete_ne by auto. auto.
      + intros c1 l1 H1 H2. specialize (C c1 l1). destruct s as [bk0 k ? ? ?]; destruct k; cbn in *. unfold money_of in *.
        change (acct_of (Bank (accts b) (lost b + got)) a) with (acct_of b a). rewrite (C4 Ha). specialize (C H1 H2). lia.
  Qed.
  Lemma call_inv s o c s' ev : dispatch cfg x s o c = ROk (s', ev) -> inv s -> inv s'.
  Proof.
    intros H I.
    destruct c; cbn [dispatch] in H; unfold admin, controlled, signed, root, quiet, with_par, with_del, with_stk in H;
      try (destruct o; try discriminate H; []);
      repeat match type of H with rbind (ensure _ _) _ = _ => inv_bind H end;
      try (now (injection H as <- <-; apply (inv_same s))).
    - unfold staking_delegate in H. inv_bind H. inv_bind H.
      destruct (kx_level x who); [|discriminate]. inv_bind H.
      destruct (kx_dpr x who !! N.to_nat level); [|discriminate].
      destruct (kx_dpr x who !! N.to_nat n); [|discriminate].
      destruct (transfer_keep _ _ _ _ _) as [b|] eqn:Et; [|discriminate]. inv_bind H.
      injection H as <- <-. apply (inv_view s); [exact I|exact (transfer_keep_keeps _ _ _ _ _ _ _ Et)|reflexivity].
    - unfold usdt_delegate in H. inv_bind H. inv_bind H. destruct v as [cur rest].
      destruct (0 <? _); [inv_bind H|]; injection H as <- <-; now apply (inv_same s).
    - inv_bind H. injection H as <- <-. exact (bond_inv _ _ _ _ _ _ E I).
    - inv_bind H. injection H as <- <-. unfold bond_extra in E.
      destruct (s_bonded (k_stk s) !! who) as [c|] eqn:Eb; [|discriminate]. destruct (s_ledger (k_stk s) !! c) as [l|] eqn:El; [|discriminate].
      destruct (N.ltb_spec (free_of (k_bank s) who) (l_total l)); [injection E as <-; exact I|]. inv_bind E. injection E as <-.
      apply (upd_same s c l _ I El); [reflexivity|]. cbn [l_total]. intros Ha.
      destruct (proj1 (i_pair _ I) _ _ Eb) as (l0 & A1 & A2). assert (Hw : who = a) by congruence. rewrite Hw in H |- *.
      pose proof (add128_le (l_total l) (N.min (free_of (k_bank s) a - l_total l) v)). unfold free_of, money_of in *. lia.
    - unfold unbond in H. destruct (s_ledger (k_stk s) !! who) as [l|] eqn:El; [|discriminate].
      inv_bind H. destruct (_ =? 0); [injection H as <- <-; exact I|].
      destruct (if _ <? _ then _ else _) as [v2 a2]. injection H as <- <-. apply (upd_less s who l _ I El); [reflexivity|]. cbn. lia.
    - unfold withdraw_unbonded in H. destruct (s_ledger (k_stk s) !! who) as [l0|] eqn:El; [|discriminate].
      destruct (bool_decide _ && _) in H.
      + inv_bind H. injection H as <- <-. exact (unstake_inv _ _ _ _ E I).
      + injection H as <- <-. destruct (e_cur (k_era s)) as [e|].
        * destruct (consolidate_le e l0) as [A1 A2]. exact (upd_less s who l0 _ I El A1 A2).
        * apply (upd_less s who l0 _ I El); [reflexivity|lia].
    - destruct (s_ledger _ !! _); [|discriminate]. injection H as <- <-. now apply (inv_same s).
    - destruct (s_ledger _ !! _); [|discriminate]. injection H as <- <-. now apply (inv_same s).
    - destruct (s_ledger _ !! _); [|discriminate]. injection H as <- <-. now apply (inv_same s).
    - inv_bind H. injection H as <- <-. exact (set_controller_inv _ _ _ _ E I).
    - inv_bind H. injection H as <- <-. exact (unstake_inv _ _ _ _ E I).
    - inv_bind H. injection H as <- <-. apply (inv_same s); [exact I|reflexivity|]. unfold cancel in E.
      inv_bind E. inv_bind E. inv_bind E. destruct (remove_at _ _ _); [|discriminate]. now injection E as <-.
    - inv_bind H. injection H as <- <-. unfold do_rebond in E.
      destruct (s_ledger (k_stk s) !! who) as [l|] eqn:El; [|discriminate].
      inv_bind E. inv_bind E. injection E as <-. destruct (rebond_same v l) as [A1 A2]. apply (upd_less s who l _ I El A1). lia.
    - destruct (e_cur (k_era s)); injection H as <- <-; now apply (inv_same s).
    - inv_bind H. injection H as <- <-. exact (unstake_inv _ _ _ _ E0 I).
    - inv_bind H. injection H as <- <-. now apply (inv_same s).
    - injection H as <- <-. apply (inv_same s); [exact I|apply undelegate_fold_bank|apply undelegate_fold_view].
    - unfold compensate in H. inv_bind H. destruct (Model_Operation.mint _ _ _ _) eqn:Em. injection H as <- <-.
      apply (inv_view s); [exact I|exact (mint_keeps _ _ _ _ _ _ _ Em)|reflexivity].
    - inv_bind H. injection H as <- <-. now apply (inv_same s).
    - unfold npow_mint in H. inv_bind H. destruct (Model_Operation.mint _ _ _ _) eqn:Em. injection H as <- <-.
      apply (inv_view s); [exact I|exact (mint_keeps _ _ _ _ _ _ _ Em)|reflexivity].
    - exact (burn_inv _ _ _ _ _ H I).
  Qed.
End cover.

Lemma step_inv cfg a s op : 0 < kc_ed cfg -> step_cover cfg a s op -> inv cfg a s -> inv cfg a (kstep cfg s op).1.
Proof.
  intros Z X I. destruct op as [x o c|x| |i|x i|x i|w|x os i|b]; cbn [kstep step_cover] in *.
  - destruct (dispatch cfg x s o c) as [[s1 ev]|e|] eqn:E; cbn [settle fst]; auto. exact (call_inv cfg a Z x X _ _ _ _ _ E I).
  - assert (K : forall s' ev, on_initialize cfg x s = ROk (s', ev) -> inv cfg a s').
    { intros s' ev H. unfold on_initialize in H. destruct (0 <? _); [|injection H as <- _; exact I].
      destruct (_ =? 0).
      - destruct (_ =? 0); [discriminate|]. injection H as <- _. now apply (inv_same cfg a Z s).
      - unfold pay_delegators in H. destruct (_ =? 0); [injection H as <- _; exact I|].
        destruct (pay_loop _ _ _ _ _ _ _) as [[[[s3 p3] l3] c3] e3] eqn:E3.
        injection H as <- _. apply (pay_loop_inv cfg a Z x) in E3; [|exact I]. now apply (inv_same cfg a Z s3). }
    destruct (on_initialize cfg x s) as [[s1 ev]|e|] eqn:E; cbn [settle fst]; [exact (K _ _ eq_refl)|exact I|exact I].
  - unfold on_finalize. destruct (e_act (k_era s)) as [[? []]|]; try exact I. now apply (inv_same cfg a Z s).
  - destruct (new_session cfg s i) as [s1 ev] eqn:E. cbn [settle fst].
    apply (inv_same cfg a Z s); [exact I|now apply new_session_bank in E|]. unfold view. now rewrite (new_session_stk _ _ _ _ _ E).
  - destruct (start_session cfg x s i) as [s1 ev] eqn:E. exact (start_session_inv cfg a Z x X _ _ _ _ E I).
  - destruct (end_session cfg x s i) as [s1 ev] eqn:E. cbn [settle fst]. destruct X as [X R].
    unfold end_session in E. destruct (e_act (k_era s)) as [[i0 b]|] eqn:Ea; [|injection E as <- _; auto].
    destruct (_ !! _); [|injection E as <- _; auto]. destruct (_ && _); [|injection E as <- _; auto].
    unfold pay_validators in E. destruct (_ =? 0); [injection E as <- _; exact I|].
    destruct (pay_each _ _ _ _ _ _ _) as [[s2 t2] e2] eqn:E2. injection E as <- _.
    apply (inv_same cfg a Z s2); [|reflexivity|reflexivity]. apply (pay_each_inv cfg a Z x) in E2; [exact E2|exact I|].
    unfold payees in R. rewrite Ea in R. change (2 ^ 128) with two128 in R.
    eapply N.le_lt_trans; [|exact R]. apply N.add_le_mono_l, N.mul_le_mono_l. lia.
  - unfold note_author. destruct (e_act (k_era s)) as [[? ?]|]; [|auto]. destruct (default (0, ∅) _). now apply (inv_same cfg a Z s).
  - destruct (on_offence cfg x s os i) as [s1 ev] eqn:E. exact (on_offence_inv cfg a Z x X _ _ _ _ _ E I).
  - cbn [fst]. apply (inv_view cfg a Z s); [exact I| |reflexivity]. intros _. exact X.
Qed.
Lemma run_inv cfg a : 0 < kc_ed cfg -> forall h s, run_cover cfg a s h -> inv cfg a s -> inv cfg a (krun cfg s h).
Proof.
  intros Z. induction h as [|op h IH]; intros s X I; [exact I|]. destruct X as [X R].
  exact (IH _ R (step_inv _ _ _ _ Z X I)).
Qed.
