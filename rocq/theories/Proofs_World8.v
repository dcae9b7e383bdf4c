(** What a payout does to the score of the delegator it is for. *)
From Verif Require Import Base Balances Model_UserPrivileges.
From Verif Require Model_Credit Spec_Credit Proofs_Credit5.
From Verif Require Import Model_Staking Model_Chain Model_World Spec_Staking Spec_Chain3 Spec_World Spec_World2 Spec_World3
  Proofs_Arith Proofs_Credit6 Proofs_Staking Proofs_Staking8 Proofs_Chain1 Proofs_World2 Proofs_World3 Proofs_World5 Proofs_World7.
From stdpp Require Import gmap.
Open Scope N_scope.

Section pay.
  Context (cfg : jcfg).
  Local Notation cc := (jc_c cfg).
  Context (Hstep : Model_Credit.kc_step cc <> Model_Credit.U64MAX).
  Section ctx.
    Context (x : jctx).
    Local Notation cx := (jx_c x).

    Definition asked (d f t : N) (c c' : credit) : Prop :=
      t = sub32 (Model_Credit.era_of cc (Model_Credit.kx_now cx)) 1 /\
      exists ca cb r, agree d c ca /\ Model_Credit.get_reward cc ca cx d f t = ROk (cb, r) /\ agree d cb c'.

    Lemma pay_asks c s a r pool c' s' paid ev d f t :
      jpay_delegator cfg x c s a r pool = ROk (c', s', paid, ev) -> KAsk d f t ∈ ev -> a = d /\ asked d f t c c'.
    Proof.
      unfold jpay_delegator, pay_delegator. cbn [kx_era sctx sctx2].
      destruct (_ =? _); [intros [= <- <- <- <-] H; now apply elem_of_nil in H|].
      destruct (match kx_reward _ _ _ _ with Some _ => _ | None => _ end) as [[b po] e] eqn:E.
      destruct (Model_Credit.get_reward cc c cx a _ _) as [[c2 rw]| |] eqn:G; cbn [lift rbind fst]; try discriminate.
      intros [= <- <- <- <-] H. apply elem_of_cons in H as [[= -> -> ->]|H].
      - split; [done|]. split; [done|]. exists c, c2, rw. split; [apply agree_refl|]. split; [exact G|apply agree_refl].
      - exfalso. destruct (kx_reward _ _ _ _); [|injection E as <- <- <-; now apply elem_of_nil in H].
        destruct (mint _ _ _ _). injection E as <- <- <-. apply elem_of_list_singleton in H. discriminate.
    Qed.
    Lemma referer_asks s d paid pool s' p ev a f t : pay_referer (jc_s cfg) s d paid pool = (s', p, ev) -> KAsk a f t ∈ ev -> False.
    Proof.
      unfold pay_referer. destruct (d_ref _ !! d); [|intros [= <- <- <-] H; now apply elem_of_nil in H].
      destruct (bonus_rate _); [|intros [= <- <- <-] H; now apply elem_of_nil in H].
      destruct (mint _ _ _ _). intros [= <- <- <-] H. apply elem_of_list_singleton in H. discriminate.
    Qed.
    Lemma loop_same d n : forall l c s pool last counter c' s' pool' last' counter' ev,
      d ∉ l.*1 -> jpay_loop cfg x n l c s pool last counter = ROk (c', s', pool', last', counter', ev) -> agree d c c'.
    Proof.
      induction n as [|n IH]; intros l c s pool last counter c' s' pool' last' counter' ev Hd H.
      - cbn in H. injection H as <- _ _ _ _ _. apply agree_refl.
      - destruct l as [|[a r] l]; [cbn in H; injection H as <- _ _ _ _ _; apply agree_refl|].
        cbn [jpay_loop] in H. rewrite fmap_cons, elem_of_cons in Hd.
        destruct (jpay_delegator cfg x c s a r pool) as [[[[c2 s2] paid] e1]| |] eqn:E1; cbn [rbind] in H; try discriminate.
        assert (A : agree d c c2) by (eapply jpay_delegator_other; [exact Hstep|exact E1|tauto]).
        destruct (_ =? 0); [now injection H as <- _ _ _ _ _|].
        destruct (pay_referer _ s2 a paid _) as [[s3 paid2] e2].
        destruct (_ =? 0); [now injection H as <- _ _ _ _ _|].
        destruct (jpay_loop cfg x n l c2 s3 _ _ _) as [[[[[[c4 s4] p4] l4] ct4] e4]| |] eqn:E2; cbn [rbind] in H; try discriminate.
        injection H as <- _ _ _ _ _. eapply agree_trans; [exact A|]. eapply IH; [|exact E2]. tauto.
    Qed.
    Lemma asked_before d f t c0 c c' : agree d c0 c -> asked d f t c c' -> asked d f t c0 c'.
    Proof. intros A (-> & ca & cb & r & A1 & G & A2). split; [done|]. exists ca, cb, r. split; [eapply agree_trans; eassumption|]. auto. Qed.
    Lemma asked_after d f t c c' c2 : asked d f t c c' -> agree d c' c2 -> asked d f t c c2.
    Proof. intros (-> & ca & cb & r & A1 & G & A2) A. split; [done|]. exists ca, cb, r. split; [done|]. split; [done|]. eapply agree_trans; eassumption. Qed.
    Lemma loop_asks d f t n : forall l c s pool last counter c' s' pool' last' counter' ev,
      NoDup l.*1 -> jpay_loop cfg x n l c s pool last counter = ROk (c', s', pool', last', counter', ev) ->
      KAsk d f t ∈ ev -> d ∈ l.*1 /\ asked d f t c c'.
    Proof.
      induction n as [|n IH]; intros l c s pool last counter c' s' pool' last' counter' ev Hn H Hi.
      - cbn in H. injection H as _ _ _ _ _ <-. now apply elem_of_nil in Hi.
      - destruct l as [|[a r] l]; [cbn in H; injection H as _ _ _ _ _ <-; now apply elem_of_nil in Hi|].
        cbn [jpay_loop] in H. rewrite fmap_cons in Hn |- *. cbn [fst] in *. apply NoDup_cons in Hn as [Ha Hn].
        destruct (jpay_delegator cfg x c s a r pool) as [[[[c2 s2] paid] e1]| |] eqn:E1; cbn [rbind] in H; try discriminate.
        destruct (_ =? 0).
        { injection H as <- _ _ _ _ <-. destruct (pay_asks _ _ _ _ _ _ _ _ _ d f t E1 Hi) as [-> K]. split; [left|exact K]. }
        destruct (pay_referer _ s2 a paid _) as [[s3 paid2] e2] eqn:R.
        assert (R' : KAsk d f t ∈ e1 ++ e2 -> KAsk d f t ∈ e1).
        { intros K. apply elem_of_app in K as [K|K]; [exact K|exfalso]. eapply referer_asks; eassumption. }
        destruct (_ =? 0).
        { injection H as <- _ _ _ _ <-. destruct (pay_asks _ _ _ _ _ _ _ _ _ d f t E1 (R' Hi)) as [-> K]. split; [left|exact K]. }
        destruct (jpay_loop cfg x n l c2 s3 _ _ _) as [[[[[[c4 s4] p4] l4] ct4] e4]| |] eqn:E2; cbn [rbind] in H; try discriminate.
        injection H as <- _ _ _ _ <-. rewrite app_assoc in Hi. apply elem_of_app in Hi as [Hi|Hi].
        + destruct (pay_asks _ _ _ _ _ _ _ _ _ d f t E1 (R' Hi)) as [-> K]. split; [left|].
          eapply asked_after; [exact K|]. eapply loop_same; eassumption.
        + destruct (IH _ _ _ _ _ _ _ _ _ _ _ _ Hn E2 Hi) as [I K]. split; [now right|].
          eapply asked_before; [|exact K]. eapply jpay_delegator_other; [exact Hstep|exact E1|]. intros ->. now apply Ha.
    Qed.
    Lemma init_asks c s c' s' ev d f t :
      jon_initialize cfg x c s = ROk (c', s', ev) -> KAsk d f t ∈ ev -> asked d f t c c'.
    Proof.
      unfold jon_initialize. destruct ((0 <? cur_era s) && negb (_ =? 0)) eqn:Y.
      - unfold jpay_delegators. destruct (pool_of (jc_s cfg) (k_del s) =? 0); [intros [= <- <- <-] H; now apply elem_of_nil in H|].
        destruct (jpay_loop cfg x _ _ c s _ _ _) as [[[[[[c4 s4] p4] l4] ct4] e4]| |] eqn:E; cbn [rbind]; try discriminate.
        intros [= <- <- <-] H. eapply loop_asks; [apply delegators_nodup|exact E|exact H].
      - destruct (on_initialize _ _ s) as [[s1 e1]| |] eqn:E; cbn [rbind fst snd]; try discriminate.
        intros [= <- <- <-] H. exfalso. revert E H. unfold on_initialize.
        destruct (0 <? cur_era s) eqn:Z; [|intros [= <- <-] H; now apply elem_of_nil in H].
        cbn [kx_block sctx sctx2]. cbn [andb] in Y. apply negb_false_iff in Y. rewrite Y.
        destruct (sub32 _ 2 =? 0); [discriminate|]. intros [= <- <-] H. now apply elem_of_nil in H.
    Qed.
  End ctx.
End pay.

Section world.
  Context (cfg : wcfg).
  Local Notation cc := (jc_c (wc_chain cfg)).

  Theorem step_paid b p settings data evm u h x w' ev d f t r :
    Model_Credit.kc_step cc <> Model_Credit.U64MAX ->
    Forall (fun op => wx_now op.1 <= wx_now x) h -> wx_now x < 2 ^ 32 ->
    let w := wrun cfg (wgenesis b p settings data evm u) h in
    wstep cfg w (x, WBlock BStakingInit) = (w', WDone ev) ->
    KAsk d f t ∈ omap staking_event ev -> f <= t -> t < wx_now x / Model_Credit.kc_bpe cc ->
    record w d = Some r -> Model_Credit.cd_eras r <> 0 -> first_era cfg w (wx_now x) d + Model_Credit.cd_eras r < 2 ^ 32 ->
    let n := silent_eras cfg h (wx_now x) d in
    (0 < n /\ n mod 3 = 0 /\ ~ maintained w d -> ~ moves cfg w (wx_now x) d r f ->
       score w' d = score w d - Model_Credit.kc_step cc) /\
    (~ (0 < n /\ n mod 3 = 0 /\ ~ maintained w d) -> score w' d = score w d).
  Proof.
    intros Hs F L w H Hi Hft Ht Hr He H32 n.
    pose proof (step_moved cfg w (x, WBlock BStakingInit) w' ev H) as [M _]. unfold chain_moved in M.
    cbn [chain_part fst snd] in M. destruct M as [_ M]. unfold wjstep in M. set (j := jsync (w_chain w) (w_bank w)) in *.
    assert (J : exists c' s', jon_initialize (wc_chain cfg) (wjctx cfg x w) (j_c j) (j_s j) = ROk (c', s', omap staking_event ev) /\
      Model_Credit.k_uc (j_c (w_chain w')) = Model_Credit.k_uc c').
    { assert (M2 : jsettle j (jon_initialize (wc_chain cfg) (wjctx cfg x w) (j_c j) (j_s j)) = (w_chain w', JDone (omap staking_event ev))) by exact M.
      destruct (jon_initialize _ _ _ _) as [[[c' s'] e']| |]; cbn [jsettle] in M2; try discriminate. injection M2 as E1 E2. exists c', s'.
      rewrite <- E1, E2. split; reflexivity. }
    destruct J as (c' & s' & J & Ec).
    destruct (init_asks (wc_chain cfg) Hs _ _ _ _ _ _ d f t J Hi) as (_ & ca & cb & q & (A1 & A2 & A3) & G & (B1 & _)).
    assert (Eo : Model_Credit.kx_offline (jx_c (wjctx cfg x w)) d = n) by (apply (offline_silent cfg b p settings data evm u h x d F L)).
    assert (Er : Model_Credit.k_uc ca !! d = Some r) by (rewrite A1; exact Hr).
    destruct (Proofs_Credit5.get_reward_score cc ca (jx_c (wjctx cfg x w)) d f t cb q r Hs Er He Hft Ht) as [P1 P2].
    { cbv zeta. rewrite A2. exact H32. }
    { exact G. }
    assert (Es : score w d = Model_Credit.cd_credit r) by (unfold score, credit_of; unfold record in Hr; now rewrite Hr).
    assert (Es' : forall v, Spec_Credit.score_of cb d = Some v -> score w' d = v).
    { intros v V. unfold score, credit_of. rewrite Ec, B1. unfold Spec_Credit.score_of in V. destruct (Model_Credit.k_uc cb !! d); [|discriminate].
      now injection V. }
    assert (Dq : Model_Credit.offline_slash_due ca (jx_c (wjctx cfg x w)) d = true <-> 0 < n /\ n mod 3 = 0 /\ ~ maintained w d).
    { unfold Model_Credit.offline_slash_due. rewrite Eo, !andb_true_iff, N.ltb_lt, N.eqb_eq, negb_true_iff, bool_decide_eq_false.
      rewrite A3. unfold maintained. tauto. }
    split.
    - intros K Sw. rewrite Es. apply Es', P2; [now apply Dq|]. unfold Proofs_Credit5.may_switch. rewrite A2. rewrite A3.
      exact Sw.
    - intros K. rewrite Es. apply Es', P1. apply not_true_is_false. rewrite Dq. exact K.
  Qed.
End world.
