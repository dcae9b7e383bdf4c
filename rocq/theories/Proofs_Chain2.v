(** The joined chain seen from the credit pallet: every step is a sequence of steps
    of Model_Credit.v in the same block, apart from changes of balances. *)
From Verif Require Import Base Balances Model_UserPrivileges.
From Verif Require Model_Credit Spec_Credit.
From Verif Require Import Model_StakingLedger Model_Staking Model_Chain Proofs_Arith
  Proofs_Credit Proofs_Credit2 Proofs_Credit3 Proofs_Credit6 Proofs_Chain1.
From stdpp Require Import gmap.
Open Scope N_scope.

Section credit.
  Context (cfg : jcfg).
  Local Notation cc := (jc_c cfg).
  Local Notation sc := (jc_s cfg).

  (** The account that starts delegating in a call. *)
  Definition joining (a : jact) (d : N) : Prop :=
    match a with
    | JCall (Signed w) (JOf (KDelegate _)) | JCall (Signed w) (JOf (KStakeDelegate _)) => d = w
    | JCall _ (JOf (KUsdtDelegate w _ _)) => d = w
    | _ => False
    end.
  (** What the staking pallet may ask of the credit pallet in a step. *)
  Definition may (s : kstate) (a : jact) (e : Model_Credit.kentry) : Prop :=
    match e with
    | Model_Credit.KSlash d None => match a with JStartSession _ | JOffence _ _ => True | _ => False end
    | Model_Credit.KSlash d (Some n) =>
        match a with
        | JCall _ (JForceUndelegate l) => (d, n) ∈ l
        | JCall _ (JOf (KForceUndelegate l)) => d ∈ l /\ n = 0
        | JCall _ (JOf (KForceUnstakingDelegate w)) => d = w /\ n = Model_Credit.U64MAX
        | _ => False
        end
    | Model_Credit.KGetReward _ _ _ => a = JInit
    | Model_Credit.KInitHistory d => joining a d /\ d_recs (k_del s) !! d = None
    | Model_Credit.KAddOrUpdate d _ _ | Model_Credit.KStakingBalance d _ _ => joining a d
    | _ => False
    end.
  Lemma may_staking s a e : may s a e -> staking_only e = true.
  Proof. now destruct e. Qed.

  Section step.
    Context (x : jctx) (A : Model_Credit.kentry -> Prop).
    Local Notation cx := (jx_c x).

    (** Steps the staking pallet makes the credit pallet take, in this block. *)
    Definition reach (c c' : credit) : Prop :=
      exists l, c' = Model_Credit.krun cc c (map (fun e => (cx, inr e)) l) /\ Forall A l.
    Lemma reach_refl c : reach c c.
    Proof. exists []. split; [done|constructor]. Qed.
    Lemma reach_trans a b c : reach a b -> reach b c -> reach a c.
    Proof.
      intros (l & -> & Hl) (l' & -> & Hl'). exists (l ++ l'). rewrite map_app. split; [|now apply Forall_app].
      unfold Model_Credit.krun. now rewrite fold_left_app.
    Qed.
    Lemma reach_one c c' e :
      Model_Credit.kdo cc c (cx, inr e) = c' -> A e -> reach c c'.
    Proof. intros <- H. exists [e]. split; [done|now repeat constructor]. Qed.
    Lemma reach_slash c d n c' : A (Model_Credit.KSlash d n) -> Model_Credit.slash_credit cc c cx d n = ROk c' -> reach c c'.
    Proof.
      intros Hm H. apply (reach_one _ _ (Model_Credit.KSlash d n)); [|done].
      unfold Model_Credit.kdo, Model_Credit.kentry_step, Model_Credit.kentry_exec. cbn [fst snd]. now rewrite H.
    Qed.
    Lemma reach_reward c d f t c' r : A (Model_Credit.KGetReward d f t) -> Model_Credit.get_reward cc c cx d f t = ROk (c', r) -> reach c c'.
    Proof.
      intros Hm H. apply (reach_one _ _ (Model_Credit.KGetReward d f t)); [|done].
      unfold Model_Credit.kdo, Model_Credit.kentry_step, Model_Credit.kentry_exec. cbn [fst snd]. now rewrite H.
    Qed.
    Lemma reach_init c d : A (Model_Credit.KInitHistory d) -> reach c (fst (Model_Credit.init_delegator_history cc c cx d)).
    Proof.
      intros Hm. apply (reach_one _ _ (Model_Credit.KInitHistory d)); [|done].
      unfold Model_Credit.kdo, Model_Credit.kentry_step, Model_Credit.kentry_exec. cbn [fst snd].
      now destruct (Model_Credit.init_delegator_history cc c cx d).
    Qed.
    Lemma reach_add c d gap camp c' : A (Model_Credit.KAddOrUpdate d gap camp) -> Model_Credit.add_or_update cc c cx d gap camp = ROk c' -> reach c c'.
    Proof.
      intros Hm H. apply (reach_one _ _ (Model_Credit.KAddOrUpdate d gap camp)); [|done].
      unfold Model_Credit.kdo, Model_Credit.kentry_step, Model_Credit.kentry_exec. cbn [fst snd]. now rewrite H.
    Qed.
    Lemma reach_balance c d u v : A (Model_Credit.KStakingBalance d u v) -> reach c (Model_Credit.set_staking_balance c d u v).
    Proof. intros Hm. now apply (reach_one _ _ (Model_Credit.KStakingBalance d u v)). Qed.
    Lemma reach_joined c s s' d :
      (d_recs (k_del s) !! d = None -> A (Model_Credit.KInitHistory d)) -> reach c (joined cfg x c s s' d).
    Proof.
      intros Hm. unfold joined. destruct (d_recs (k_del s) !! d); [apply reach_refl|].
      destruct (d_recs (k_del s') !! d); [now apply reach_init, Hm|apply reach_refl].
    Qed.
    Lemma lift_ok {B} (r : res Model_Credit.kerr B) a : lift r = ROk a -> r = ROk a.
    Proof. destruct r; cbn; congruence. Qed.

    Lemma jforce_reach l : (forall d n, (d, n) ∈ l -> A (Model_Credit.KSlash d (Some n))) ->
      forall c s c' s', jforce cfg x l c s = ROk (c', s') -> reach c c'.
    Proof.
      induction l as [|[a n] l IH]; intros Hm c s c' s' H; cbn [jforce] in H.
      - injection H as <- _. apply reach_refl.
      - inv_bind H. apply lift_ok in Ha. eapply reach_trans; [eapply reach_slash, Ha; apply Hm; left|eapply IH, H].
        intros; apply Hm; now right.
    Qed.
    Lemma jforce_undelegate_reach c s o l c' s' ev : (forall d n, (d, n) ∈ l -> A (Model_Credit.KSlash d (Some n))) ->
      jforce_undelegate cfg x c s o l = ROk (c', s', ev) -> reach c c'.
    Proof.
      unfold jforce_undelegate, root. intros Hm. destruct o; try discriminate. intros H. inv_bind H. destruct a as [c1 s1].
      injection H as <- <- <-. eapply jforce_reach, Ha. exact Hm.
    Qed.
    Lemma jdispatch_reach c s o call c' s' ev : (forall e, may s (JCall o call) e -> A e) -> jdispatch cfg x c s o call = ROk (c', s', ev) -> reach c c'.
    Proof.
      intros Hm H.
      assert (G : forall y c1 k, (r <-? dispatch sc y s o k ; ROk (c1, r.1, r.2)) = ROk (c', s', ev) -> c' = c1).
      { intros y c1 k H'. destruct (dispatch sc y s o k) as [[s1 e1]| |] eqn:E; cbn in H'; try discriminate. now injection H'. }
      assert (Gj : forall y c1 w k, (r <-? dispatch sc y s o k ; ROk (joined cfg x c1 s r.1 w, r.1, r.2)) = ROk (c', s', ev) ->
        joining (JCall o call) w -> reach c1 c').
      { intros y c1 w k H' Hj. destruct (dispatch sc y s o k) as [[s1 e1]| |] eqn:E; cbn in H'; try discriminate.
        injection H' as <- <- <-. apply reach_joined. intros Hn. apply Hm. now split. }
      destruct call as [k|l]; [|eapply jforce_undelegate_reach, H; intros d n Hin; apply Hm; exact Hin].
      unfold jdispatch in H. destruct k; try (apply G in H as ->; apply reach_refl).
      - unfold jstaking_delegate, signed in H. destruct o; try discriminate. inv_bind H. apply lift_ok in Ha.
        eapply reach_trans; [eapply reach_add, Ha; apply Hm; exact eq_refl|exact (Gj _ _ _ _ H eq_refl)].
      - unfold jusdt_delegate in H.
        assert (J : joining (JCall o (JOf (KUsdtDelegate who usdt dpr))) who) by now destruct o.
        destruct (kx_level (sctx cfg x c) who) as [lv|];
          (inv_bind H; apply lift_ok in Ha; eapply reach_trans; [eapply reach_add, Ha; apply Hm; exact J|];
           eapply reach_trans; [apply reach_balance; apply Hm; exact J|exact (Gj _ _ _ _ H J)]).
      - unfold jdelegate, signed in H. destruct o; try discriminate. exact (Gj _ _ _ _ H eq_refl).
      - eapply jforce_undelegate_reach, H. intros d n Hin. apply elem_of_list_fmap in Hin as (b & [= -> ->] & Hb).
        apply Hm; now split.
      - unfold jforce_unstaking in H. inv_bind H. apply lift_ok in Ha. apply G in H as ->. eapply reach_slash, Ha. apply Hm; now split.
    Qed.

    Lemma jpay_delegator_reach c s d r pool c' s' paid ev : (forall d f t, A (Model_Credit.KGetReward d f t)) ->
      jpay_delegator cfg x c s d r pool = ROk (c', s', paid, ev) -> reach c c'.
    Proof.
      intros Hm. unfold jpay_delegator. destruct (pay_delegator _ _ _ _ _ _) as [[s1 p] e]. intros H.
      destruct (_ =? _); [injection H as <- _ _ _; apply reach_refl|].
      inv_bind H. apply lift_ok in Ha. destruct a as [c2 rw]. injection H as <- _ _ _. eapply reach_reward, Ha. apply Hm.
    Qed.
    Lemma jpay_loop_reach n : (forall d f t, A (Model_Credit.KGetReward d f t)) -> forall l c s pool last counter c' s' pool' last' counter' ev,
      jpay_loop cfg x n l c s pool last counter = ROk (c', s', pool', last', counter', ev) -> reach c c'.
    Proof.
      intros Hm. induction n as [|n IH]; intros l c s pool last counter c' s' pool' last' counter' ev H.
      - cbn in H. injection H as <- _ _ _ _ _. apply reach_refl.
      - destruct l as [|[d r] l]; [cbn in H; injection H as <- _ _ _ _ _; apply reach_refl|].
        cbn [jpay_loop] in H. inv_bind H. destruct a as [[[c2 s2] paid] e1].
        apply jpay_delegator_reach in Ha; [|exact Hm].
        destruct (_ =? 0); [injection H as <- _ _ _ _ _; exact Ha|].
        destruct (pay_referer sc s2 d paid _) as [[s3 paid2] e2].
        destruct (_ =? 0); [injection H as <- _ _ _ _ _; exact Ha|].
        inv_bind H. destruct a as [[[[[c4 s4] p4] l4] ct4] e4]. injection H as <- _ _ _ _ _.
        eapply reach_trans; [exact Ha|eapply IH, Ha0].
    Qed.
    Lemma jon_initialize_reach c s c' s' ev : (forall d f t, A (Model_Credit.KGetReward d f t)) -> jon_initialize cfg x c s = ROk (c', s', ev) -> reach c c'.
    Proof.
      intros Hm. unfold jon_initialize. destruct (_ && _).
      - unfold jpay_delegators. destruct (_ =? 0); [intros [= <- _ _]; apply reach_refl|].
        intros H. inv_bind H. destruct a as [[[[[c4 s4] p4] l4] ct4] e4]. injection H as <- _ _.
        eapply jpay_loop_reach, Ha. exact Hm.
      - intros H. inv_bind H. injection H as <- _ _. apply reach_refl.
    Qed.

    Lemma jslash_others_reach l : (forall d, A (Model_Credit.KSlash d None)) -> forall c s c' s', jslash_others cfg x l c s = ROk (c', s') -> reach c c'.
    Proof.
      intros Hm. induction l as [|d l IH]; intros c s c' s' H; cbn [jslash_others] in H.
      - injection H as <- _. apply reach_refl.
      - inv_bind H. apply lift_ok in Ha. eapply reach_trans; [eapply reach_slash, Ha; apply Hm|eapply IH, H].
    Qed.
    Lemma japply_slash_reach c s u c' s' ev : (forall d, A (Model_Credit.KSlash d None)) -> japply_slash cfg x c s u = ROk (c', s', ev) -> reach c c'.
    Proof.
      intros Hm. unfold japply_slash. destruct (do_slash _ _ _ _ _ _) as [[[s1 pay] got] e]. intros H. inv_bind H.
      destruct a as [c2 s2]. injection H as <- _ _. eapply jslash_others_reach, Ha. exact Hm.
    Qed.
    Lemma japply_list_reach l : (forall d, A (Model_Credit.KSlash d None)) -> forall c s c' s' ev, japply_list cfg x l c s = ROk (c', s', ev) -> reach c c'.
    Proof.
      intros Hm. induction l as [|u l IH]; intros c s c' s' ev H; cbn [japply_list] in H.
      - injection H as <- _ _. apply reach_refl.
      - inv_bind H. inv_bind H. destruct a as [[c1 s1] e1], a0 as [[c2 s2] e2]. cbn [fst snd] in *.
        injection H as <- _ _. eapply reach_trans; [eapply japply_slash_reach, Ha; exact Hm|eapply IH, Ha0].
    Qed.
    Lemma japply_eras_reach n : (forall d, A (Model_Credit.KSlash d None)) -> forall era c s c' s' ev, japply_eras cfg x n era c s = ROk (c', s', ev) -> reach c c'.
    Proof.
      intros Hm. induction n as [|n IH]; intros era c s c' s' ev H; cbn [japply_eras] in H.
      - injection H as <- _ _. apply reach_refl.
      - inv_bind H. inv_bind H. destruct a as [[c1 s1] e1], a0 as [[c2 s2] e2]. cbn [fst snd] in *.
        injection H as <- _ _. eapply reach_trans; [eapply japply_list_reach, Ha; exact Hm|eapply IH, Ha0].
    Qed.
    Lemma jstart_session_reach c s i c' s' ev : (forall d, A (Model_Credit.KSlash d None)) -> jstart_session cfg x c s i = ROk (c', s', ev) -> reach c c'.
    Proof.
      intros Hm. unfold jstart_session. destruct (_ !! _) as [st|]; [|intros [= <- _ _]; apply reach_refl].
      destruct (_ <=? _); [|intros [= <- _ _]; apply reach_refl].
      unfold japply_unapplied. destruct (s_first _); [|intros [= <- _ _]; apply reach_refl].
      intros H. inv_bind H. destruct a as [[c1 s1] e1]. injection H as <- _ _. eapply japply_eras_reach, Ha. exact Hm.
    Qed.
    Lemma joffenders_reach era window active os : (forall d, A (Model_Credit.KSlash d None)) -> forall c s c' s' ev,
      joffenders cfg x era window active os c s = ROk (c', s', ev) -> reach c c'.
    Proof.
      intros Hm. induction os as [|o os IH]; intros c s c' s' ev H; cbn [joffenders] in H.
      - injection H as <- _ _. apply reach_refl.
      - inv_bind H. inv_bind H. destruct a as [[c1 s1] e1], a0 as [[c2 s2] e2]. cbn [fst snd] in *.
        injection H as <- _ _. eapply reach_trans; [|eapply IH, Ha0].
        clear - Ha Hm. unfold joffender1 in Ha. destruct o as [[[v ex] reps] frac].
        destruct (bool_decide _); [injection Ha as <- _ _; apply reach_refl|].
        destruct (compute_slash _ _ _ _ _ _ _ _) as [[s2 [u|]] e2]; [|injection Ha as <- _ _; apply reach_refl].
        destruct (_ =? 0); [|injection Ha as <- _ _; apply reach_refl].
        inv_bind Ha. destruct a as [[c3 s3] e3]. cbn [fst snd] in Ha. injection Ha as <- _ _.
        eapply japply_slash_reach, Ha0. exact Hm.
    Qed.
    Lemma jon_offence_reach c s os i c' s' ev : (forall d, A (Model_Credit.KSlash d None)) -> jon_offence cfg x c s os i = ROk (c', s', ev) -> reach c c'.
    Proof.
      intros Hm. unfold jon_offence. destruct (e_act _) as [[active b]|]; [|intros [= <- _ _]; apply reach_refl].
      destruct (slash_era _ _ _) as [era|]; [|intros [= <- _ _]; apply reach_refl].
      now apply joffenders_reach.
    Qed.
  End step.

  (** The credit pallet's own step, if the step of the chain is one. *)
  Definition own_step (op : jop) : list Model_Credit.kop :=
    match op.2 with
    | JCredit o c => [(jx_c op.1, inl (o, c))]
    | JEntry e => if staking_only e then [] else [(jx_c op.1, inr e)]
    | _ => []
    end.
  Lemma jstep_credit j op :
    synced j ->
    exists c1, reach op.1 (may (j_s j) op.2) (j_c j) c1 /\
      j_c (jstep cfg j op).1 =
        Model_Credit.set_k_bank (Model_Credit.krun cc c1 (own_step op)) (k_bank (j_s (jstep cfg j op).1)).
  Proof.
    intros Hy. destruct op as [x a]. unfold jstep, own_step. cbn [fst snd].
    assert (Bank : forall c : credit, c = Model_Credit.set_k_bank c (Model_Credit.k_bank c)) by now intros [].
    assert (G : forall r, (forall c s ev, r = ROk (c, s, ev) -> reach x (may (j_s j) a) (j_c j) c) ->
      exists c1, reach x (may (j_s j) a) (j_c j) c1 /\ j_c (jsettle j r).1 = Model_Credit.set_k_bank c1 (k_bank (j_s (jsettle j r).1))).
    { intros [[[c s] ev]| |] H; cbn [jsettle fst j_c j_s].
      - exists c. split; [eapply H; reflexivity|reflexivity].
      - exists (j_c j). split; [apply reach_refl|]. rewrite <- Hy. apply Bank.
      - exists (j_c j). split; [apply reach_refl|]. rewrite <- Hy. apply Bank. }
    destruct a as [o c|e|o c| | |i|i|i|a|os i|b]; cbn [jact_step].
    - exists (j_c j). split; [apply reach_refl|]. unfold csettle. cbn [fst j_c j_s k_bank set_k_bank].
      cbn [Model_Credit.krun fold_left]. unfold Model_Credit.kdo. cbn [fst snd]. apply Bank.
    - destruct (staking_only e).
      + exists (j_c j). split; [apply reach_refl|]. cbn [fst Model_Credit.krun fold_left]. rewrite <- Hy. apply Bank.
      + exists (j_c j). split; [apply reach_refl|]. unfold csettle. cbn [fst j_c j_s k_bank set_k_bank].
        cbn [Model_Credit.krun fold_left]. unfold Model_Credit.kdo. cbn [fst snd]. apply Bank.
    - apply G. intros c' s' ev. now apply jdispatch_reach.
    - apply G. intros c' s' ev. now apply jon_initialize_reach.
    - exists (j_c j). split; [apply reach_refl|]. reflexivity.
    - exists (j_c j). split; [apply reach_refl|]. reflexivity.
    - apply G. intros c' s' ev. now apply jstart_session_reach.
    - exists (j_c j). split; [apply reach_refl|]. reflexivity.
    - exists (j_c j). split; [apply reach_refl|]. reflexivity.
    - apply G. intros c' s' ev. now apply jon_offence_reach.
    - exists (j_c j). split; [apply reach_refl|]. reflexivity.
  Qed.

  (** What the credit pallet keeps whatever it is asked, it keeps in the chain. *)
  Lemma jstep_keeps (P : credit -> Prop) j op :
    synced j ->
    (forall c b, P c -> P (Model_Credit.set_k_bank c b)) ->
    (forall c e, may (j_s j) op.2 e -> P c -> P (Model_Credit.kdo cc c (jx_c op.1, inr e))) ->
    (forall c o, o ∈ own_step op -> P c -> P (Model_Credit.kdo cc c o)) ->
    P (j_c j) -> P (j_c (jstep cfg j op).1).
  Proof.
    intros Hy Hb He Ho H. destruct (jstep_credit j op Hy) as (c1 & (l & -> & Hl) & ->). apply Hb.
    assert (H1 : P (Model_Credit.krun cc (j_c j) (map (fun e => (jx_c op.1, inr e)) l))).
    { revert Hl H. generalize (j_c j). induction l as [|e l IH]; intros c Hl H; [exact H|].
      apply Forall_cons in Hl as [Hl1 Hl2]. cbn [map Model_Credit.krun fold_left].
      apply IH; [exact Hl2|]. now apply He. }
    revert H1. generalize (Model_Credit.krun cc (j_c j) (map (fun e => (jx_c op.1, inr e)) l)).
    revert Ho. generalize (own_step op). intros l'. induction l' as [|o l' IH]; intros Ho c H1; [exact H1|].
    cbn [Model_Credit.krun fold_left]. apply IH; [intros; apply Ho; [now right|done]|]. apply Ho; [now left|done].
  Qed.

  Lemma jstep_ordered j op e :
    synced j -> Model_Credit.kc_step cc <> Model_Credit.U64MAX -> Model_Credit.kc_bpe cc <> 0 ->
    Forall (Spec_Credit.past_only cc) (own_step op) ->
    e <= Spec_Credit.era_at cc (Model_Credit.kx_now (jx_c op.1)) ->
    book_ordered (cr (j_c j)) e ->
    book_ordered (cr (j_c (jstep cfg j op).1)) (Spec_Credit.era_at cc (Model_Credit.kx_now (jx_c op.1))).
  Proof.
    intros Hy Hs Hb Hp He H. apply (book_ordered_mono _ _ _ He) in H.
    apply (jstep_keeps (fun c => book_ordered (cr c) (Spec_Credit.era_at cc (Model_Credit.kx_now (jx_c op.1)))));
      [done|auto| | |done].
    - intros c en Hen Hc. apply (kdo_ordered cc c (jx_c op.1, inr en) (Spec_Credit.era_at cc (Model_Credit.kx_now (jx_c op.1))) Hs Hb); [|apply N.le_refl|exact Hc].
      unfold Spec_Credit.past_only. now destruct en.
    - intros c o Hin Hc. rewrite Forall_forall in Hp. pose proof (Hp _ Hin) as Hpo.
      assert (Eo : fst o = jx_c op.1).
      { unfold own_step in Hin. destruct (op.2); try (now apply elem_of_nil in Hin).
        - apply elem_of_list_singleton in Hin as ->. done.
        - destruct (staking_only e0); [now apply elem_of_nil in Hin|]. apply elem_of_list_singleton in Hin as ->. done. }
      rewrite <- Eo. apply (kdo_ordered cc c o (Spec_Credit.era_at cc (Model_Credit.kx_now (fst o))) Hs Hb Hpo); [apply N.le_refl|]. now rewrite Eo.
  Qed.
  Lemma jstep_poc j op :
    synced j -> Model_Credit.kc_step cc <> Model_Credit.U64MAX -> Forall Spec_Credit.typed_op (own_step op) ->
    poc_ok (j_c j) -> poc_ok (j_c (jstep cfg j op).1).
  Proof.
    intros Hy Hs Ht H. apply (jstep_keeps poc_ok); [done|auto| | |done].
    - intros c en Hen Hc. apply kdo_poc; [done| |done]. unfold Spec_Credit.typed_op. now destruct en.
    - intros c o Hin Hc. rewrite Forall_forall in Ht. apply kdo_poc; auto.
  Qed.

  (** add_or_update always succeeds, as [lift] takes for granted. *)
  Lemma add_or_update_total c x d gap camp : exists c', Model_Credit.add_or_update cc c x d gap camp = ROk c'.
  Proof.
    unfold Model_Credit.add_or_update, Model_Credit.do_add_credit.
    destruct (Model_Credit.k_uc c !! d) as [r|]; cbn [rbind]; [|eauto].
    match goal with |- context [Model_Credit.hist_of ?t d] => destruct (Model_Credit.hist_of t d) eqn:E end; cbn [rbind]; [eauto|].
    erewrite update_history_eq by (cbn; apply lookup_insert). cbn [rbind]. eauto.
  Qed.
End credit.
