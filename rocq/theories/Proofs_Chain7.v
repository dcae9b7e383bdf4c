(** Who delegates has the credit for it, unless it was taken behind the staking
    pallet's back. *)
From Verif Require Import Base Balances Model_UserPrivileges.
From Verif Require Model_Credit Spec_Credit.
From Verif Require Import Model_StakingLedger Model_Staking Model_Chain Spec_Staking Spec_Staking2 Spec_Chain Proofs_Arith
  Proofs_Credit Proofs_Credit2 Proofs_Credit3 Proofs_Credit6 Proofs_Credit7 Proofs_Credit8 Proofs_Staking Proofs_Staking8 Proofs_Staking10 Proofs_Staking13
  Proofs_Staking15 Proofs_Chain1 Proofs_Chain2 Proofs_Chain3 Proofs_Chain4 Proofs_Chain5 Proofs_Chain6.
From stdpp Require Import gmap sorting.
Open Scope N_scope.

Definition on (k : dels) (d : N) : Prop := exists r, d_recs k !! d = Some r /\ dr_on r = true.
Lemma undelegate_off era k d : ~ on (undelegate era k d) d.
Proof.
  rewrite undelegate_eq. intros (r & H1 & H2). destruct (d_recs k !! d) as [r0|] eqn:E; [|congruence].
  destruct (dr_on r0) eqn:Eo; [|congruence]. cbn [d_recs] in H1. unfold kept in H1. destruct (dr_since r0) as [e|].
  - destruct (e =? era); [now rewrite lookup_delete in H1|]. rewrite lookup_insert in H1. injection H1 as <-. discriminate.
  - now rewrite lookup_delete in H1.
Qed.
Lemma undelegate_on era k d e : on (undelegate era k d) e -> on k e.
Proof.
  destruct (decide (d = e)) as [->|Hn]; [intros H; now apply undelegate_off in H|].
  intros (r & H). rewrite undelegate_other in H by done. now exists r.
Qed.
Lemma path_on k ls k' x kd d :
  dpath k ls k' -> Forall (dlab_ok (x, kd)) ls -> on k' d -> on k d \/ kd = KdJoin /\ exists y, x = Some y /\ kx_pass y d = true.
Proof.
  intros P F. induction P as [|k l k1 ls k' M P IH]; intros H; [now left|].
  apply Forall_cons in F as [F1 F2]. destruct (IH F2 H) as [H1|H1]; [|now right]. clear IH P F2 H.
  assert (Same : d_recs k1 = d_recs k -> on k d) by (intros E; destruct H1 as (r & H1 & H2); exists r; now rewrite <- E).
  destruct M as [k k1 E1 E2|k k1 E1 E2|k k1 E1 E2|k y d0 vs k1 E|k era d0|k y d0 r o E1 E2|k who ref k1 E|k who]; try (left; now apply Same).
  - cbn in F1. injection F1 as -> ->. unfold do_delegate in E. inv_bind E. injection E as <-.
    destruct (decide (d0 = d)) as [->|Hn]; [right; eauto|]. left. destruct H1 as (r & H1 & H2). exists r. split; [|exact H2].
    cbn [d_recs set_d_cand] in H1. destruct (d_recs k !! d0) as [r0|] eqn:Er.
    + replace (d_recs _) with (<[d0:=DRec vs (Some (default (kx_era y) (dr_since r0))) true]> (d_recs k)) in H1 by now destruct (dr_on r0).
      now rewrite lookup_insert_ne in H1.
    + cbn in H1. now rewrite lookup_insert_ne in H1.
  - left. now apply undelegate_on in H1.
  - left. destruct H1 as (r1 & H1 & H2). unfold paid_rec in H1. destruct (dr_on r) eqn:Eo; cbn in H1.
    + destruct (decide (d0 = d)) as [->|Hn]; [now exists r|]. rewrite lookup_insert_ne in H1 by done. now exists r1.
    + destruct (decide (d0 = d)) as [->|Hn]; [now rewrite lookup_delete in H1|]. rewrite lookup_delete_ne in H1 by done. now exists r1.
  - left. apply Same. unfold set_referer in E. inv_bind E. now injection E as <-.
  - left. apply Same. unfold unset_referer. now destruct (d_ref k !! who).
Qed.

Local Ltac split_bind H :=
  let a := fresh "a" in let Ha := fresh "Ha" in apply rbind_ok in H as (a & Ha & H).

Section chain.
  Context (cfg : jcfg).
  Local Notation cc := (jc_c cfg).
  Local Notation sc := (jc_s cfg).
  Context (Hstep : Model_Credit.kc_step cc <> Model_Credit.U64MAX) (Hmin : Model_Credit.kc_min cc <= Model_Credit.U64MAX).
  Context (d : N).

  Definition backed (c : credit) (s : kstate) : Prop := delegating s d -> eligible cfg c d.
  Lemma passing_eligible c : passing cfg c d = true <-> eligible cfg c d.
  Proof.
    unfold passing, eligible. destruct (Model_Credit.k_uc c !! d) as [r|].
    - unfold Model_Credit.passes. rewrite N.leb_le. split; [eauto|]. now intros (r' & [= <-] & H).
    - split; [discriminate|]. now intros (r' & H & _).
  Qed.
  Lemma eligible_over c : eligible cfg c d <-> over (Model_Credit.kc_min cc) c d.
  Proof. reflexivity. Qed.

  Lemma may_maintain s a e c x : may s a e -> Model_Credit.k_maintain (Model_Credit.kdo cc c (x, inr e)) = Model_Credit.k_maintain c.
  Proof.
    intros Hm. unfold Model_Credit.kdo, Model_Credit.kentry_step. cbn [fst snd].
    destruct (Model_Credit.kentry_exec cc c x e) as [[c' r]|er|] eqn:E; [|reflexivity..]. cbn [fst].
    pose proof (kentry_rest cc c x e c' r Hstep E) as R.
    destruct e; cbn in Hm; try contradiction; rewrite R; reflexivity.
  Qed.

  Section step.
    Context (x : jctx).
    Local Notation cx := (jx_c x).
    Lemma others_backed l : forall c s c' s', jslash_others cfg x l c s = ROk (c', s') -> backed c s -> backed c' s'.
    Proof.
      induction l as [|e l IH]; intros c s c' s' H B; cbn [jslash_others] in H; [injection H as <- <-; exact B|].
      split_bind H. apply lift_ok in Ha. eapply IH; [exact H|]. clear IH H. intros On.
      destruct (decide (e = d)) as [->|Hn].
      - unfold credit_slash in On. destruct (kx_pass (sctx cfg x a) d) eqn:Ep; [now apply passing_eligible|].
        now apply undelegate_off in On.
      - apply (slash_other_over cc _ c cx e None a d Ha Hn). apply B.
        unfold credit_slash in On. destruct (kx_pass (sctx cfg x a) e); [exact On|]. now apply undelegate_on in On.
    Qed.
    Lemma apply_backed c s u c' s' ev : japply_slash cfg x c s u = ROk (c', s', ev) -> backed c s -> backed c' s'.
    Proof.
      unfold japply_slash. pose proof (do_slash_del cfg (sctx cfg x c) s (u_val u) (u_own u) (u_pay u) (k_del s)) as (_ & Ek & _).
      destruct (do_slash _ _ _ _ _ _) as [[[s1 pay] got] e]. cbn [fst] in Ek. intros H B. split_bind H. destruct a as [c2 s2]. injection H as <- <- _.
      apply (others_backed _ _ _ _ _ Ha). intros (r & H1 & H2). rewrite Ek in H1. apply B. now exists r.
    Qed.
    Lemma list_backed l : forall c s c' s' ev, japply_list cfg x l c s = ROk (c', s', ev) -> backed c s -> backed c' s'.
    Proof.
      induction l as [|u l IH]; intros c s c' s' ev H B; cbn [japply_list] in H; [injection H as <- <- _; exact B|].
      split_bind H. destruct a as [[c1 s1] e1]. split_bind H. destruct a as [[c2 s2] e2]. cbn [fst snd] in *. injection H as <- <- _.
      eapply IH; [exact Ha0|]. eapply apply_backed; eauto.
    Qed.
    Lemma eras_backed n : forall era c s c' s' ev, japply_eras cfg x n era c s = ROk (c', s', ev) -> backed c s -> backed c' s'.
    Proof.
      induction n as [|n IH]; intros era c s c' s' ev H B; cbn [japply_eras] in H; [injection H as <- <- _; exact B|].
      cbv zeta in H. split_bind H. destruct a as [[c1 s1] e1]. split_bind H. destruct a as [[c2 s2] e2]. cbn [fst snd] in *. injection H as <- <- _.
      eapply IH; [exact Ha0|]. eapply list_backed; [exact Ha|]. exact B.
    Qed.
    Lemma start_backed c s i c' s' ev : jstart_session cfg x c s i = ROk (c', s', ev) -> backed c s -> backed c' s'.
    Proof.
      unfold jstart_session. destruct (e_start _ !! _) as [st|]; [|intros [= <- <- _]; auto].
      destruct (_ <=? _); [|intros [= <- <- _]; auto]. unfold japply_unapplied. intros H B.
      destruct (s_first _); [|injection H as <- <- _; exact B].
      cbv zeta in H. split_bind H. destruct a as [[c1 s1] e1]. cbn [fst snd] in H. injection H as <- <- _.
      exact (eras_backed _ _ _ _ _ _ _ Ha B).
    Qed.
    Lemma offenders_backed era w now os : forall c s c' s' ev, joffenders cfg x era w now os c s = ROk (c', s', ev) -> backed c s -> backed c' s'.
    Proof.
      induction os as [|o os IH]; intros c s c' s' ev H B; cbn [joffenders] in H; [injection H as <- <- _; exact B|].
      split_bind H. destruct a as [[c1 s1] e1]. split_bind H. destruct a as [[c2 s2] e2]. cbn [fst snd] in *. injection H as <- <- _.
      eapply IH; [exact Ha0|]. clear IH Ha0. revert Ha. unfold joffender1. destruct o as [[[st ex] reps] f].
      destruct (bool_decide _); [intros [= <- <- _]; exact B|].
      pose proof (compute_slash_del (sctx cfg x c) s st f ex era w now (k_del s)) as (_ & Ek & _).
      destruct (compute_slash _ _ _ _ _ _ _ _) as [[s3 u] e3]. cbn [fst] in Ek.
      assert (B3 : backed c s3) by (intros (r & H1 & H2); rewrite Ek in H1; apply B; now exists r).
      destruct u as [u|]; [|intros [= <- <- _]; exact B3]. cbv zeta. destruct (_ =? 0); [|intros [= <- <- _]; exact B3].
      intros H. split_bind H. destruct a as [[c4 s4] e4]. cbn [fst snd] in H. injection H as <- <- _. eapply apply_backed; eauto.
    Qed.
    Lemma offence_backed c s os i c' s' ev : jon_offence cfg x c s os i = ROk (c', s', ev) -> backed c s -> backed c' s'.
    Proof.
      unfold jon_offence. destruct (e_act _) as [[active ?]|]; [|intros [= <- <- _]; auto].
      destruct (slash_era _ _ _); [|intros [= <- <- _]; auto]. cbv zeta. intros H B. exact (offenders_backed _ _ _ _ _ _ _ _ _ H B).
    Qed.
    Lemma force_backed l : forall c s c' s', jforce cfg x l c s = ROk (c', s') -> backed c s -> backed c' s'.
    Proof.
      induction l as [|[a n] l IH]; intros c s c' s' H B; cbn [jforce] in H; [injection H as <- <-; exact B|].
      split_bind H. apply lift_ok in Ha. eapply IH; [exact H|]. clear IH H. intros On.
      destruct (decide (a = d)) as [->|Hn]; [now apply undelegate_off in On|].
      apply (slash_other_over cc _ c cx a (Some n) a0 d Ha Hn). apply B. now apply undelegate_on in On.
    Qed.
    Lemma force_list_backed c s o l c' s' ev : jforce_undelegate cfg x c s o l = ROk (c', s', ev) -> backed c s -> backed c' s'.
    Proof.
      unfold jforce_undelegate. destruct o; cbn [root]; try discriminate. intros H B. split_bind H. destruct a as [c1 s1].
      injection H as <- <- _. eapply force_backed; eauto.
    Qed.
  End step.

  Lemma jstep_backed j op : synced j -> ~ takes_credit (j_c j) op d -> backed (j_c j) (j_s j) ->
    backed (j_c (jstep cfg j op).1) (j_s (jstep cfg j op).1).
  Proof.
    intros Hy Hn B.
    assert (Gen : (forall M e, (op.2 = JInit -> M = Model_Credit.k_maintain (j_c j)) -> may (j_s j) op.2 e -> ~ drops M (jx_c op.1, inr e) d) -> backed (j_c (jstep cfg j op).1) (j_s (jstep cfg j op).1)).
    { intros Hm On.
      pose proof (jstep_staking cfg j op Hstep Hy) as K. destruct (step_del sc _ _ _ _ K) as (ls & P & F & _).
      destruct (path_on _ _ _ _ _ _ P F On) as [On0|(_ & y & Hc & Hp)].
      - apply B in On0. revert On0. intros On0.
        refine (proj1 (jstep_keeps cfg (fun c => eligible cfg c d /\ (op.2 = JInit -> Model_Credit.k_maintain c = Model_Credit.k_maintain (j_c j))) j op Hy _ _ _ _)); [auto| | |split; auto].
        + intros c e He [O HM]. split; [apply (kdo_over cc _ Hmin Hstep); [now apply Hm|exact O]|].
          intros HI. rewrite <- (HM HI). apply may_maintain with (s := j_s j) (a := op.2). exact He.
        + intros c o Ho [O HM]. split; [|intros HI; unfold own_step in Ho; rewrite HI in Ho; now apply elem_of_nil in Ho].
          apply (kdo_over cc _ Hmin Hstep); [|exact O]. intros Hd. apply Hn.
          unfold own_step in Ho. unfold takes_credit. destruct op as [x a]. cbn [fst snd] in *.
          destruct a as [ori call|e|? ?| | | | | | | |]; try (now apply elem_of_nil in Ho).
          * apply elem_of_list_singleton in Ho as ->. unfold drops in Hd. cbn [fst snd] in Hd. now destruct call.
          * destruct (staking_only e) eqn:Es; [now apply elem_of_nil in Ho|]. apply elem_of_list_singleton in Ho as ->.
            unfold drops in Hd. cbn [fst snd] in Hd. now destruct e.
      - apply passing_eligible. revert Hc Hp. unfold sop. destruct (jstep cfg j op).2; [|discriminate|discriminate].
        destruct (op.2); cbn [ctx_of]; try discriminate; intros [= <-]; auto. }
    destruct op as [x a]. cbn [fst snd] in *. unfold takes_credit in Hn. cbn [fst snd] in Hn.
    assert (Settle : forall r, (forall c s ev, r = ROk (c, s, ev) -> backed c s) ->
      backed (j_c (jsettle j r).1) (j_s (jsettle j r).1)).
    { intros [[[c s] ev]|e|] H; cbn; [exact (H c s ev eq_refl)|exact B|exact B]. }
    destruct a as [o c|e|o c| | |i|i|i|a0|os i|b].
    - apply Gen. intros M [|? [?|]| | | | | | | | | | | | |] HM He; cbn in He; try contradiction; try discriminate; auto.
    - apply Gen. intros M [|? [?|]| | | | | | | | | | | | |] HM He; cbn in He; try contradiction; try discriminate; auto.
    - destruct c as [[]|l]; try (apply Gen; intros M [|? [?|]| | | | | | | | | | | | |] HM He; cbn in He; try contradiction; try discriminate; auto; fail).
      + apply Settle. intros c s ev H. cbn [jdispatch] in H. eapply force_list_backed; eauto.
      + apply Settle. intros c s ev H. cbn [jdispatch] in H. unfold jforce_unstaking in H. split_bind H. apply lift_ok in Ha. split_bind H.
        injection H as <- <- _. intros On. destruct a0 as [s1 e1]. cbn [fst] in On.
        cbn [dispatch] in Ha0. unfold admin in Ha0. destruct o; cbn in Ha0; try discriminate. destruct (Model_Credit.kx_priv _ _ _); [|discriminate].
        injection Ha0 as <- _. destruct (decide (who = d)) as [->|Hw]; [now apply undelegate_off in On|].
        apply (slash_other_over cc _ _ (jx_c x) who _ _ d Ha Hw). apply B. now apply undelegate_on in On.
      + apply Settle. intros c s ev H. cbn [jdispatch] in H. eapply force_list_backed; eauto.
    - apply Gen. intros M [|? [?|]| | | | | | | | | | | | |] HM He; cbn in He; try contradiction; try discriminate; unfold drops; cbn [fst snd]; rewrite ?(HM eq_refl); tauto.
    - apply Gen. intros M [|? [?|]| | | | | | | | | | | | |] HM He; cbn in He; try contradiction; try discriminate; auto.
    - apply Gen. intros M [|? [?|]| | | | | | | | | | | | |] HM He; cbn in He; try contradiction; try discriminate; auto.
    - apply Settle. intros c s ev H. eapply start_backed; eauto.
    - apply Gen. intros M [|? [?|]| | | | | | | | | | | | |] HM He; cbn in He; try contradiction; try discriminate; auto.
    - apply Gen. intros M [|? [?|]| | | | | | | | | | | | |] HM He; cbn in He; try contradiction; try discriminate; auto.
    - apply Settle. intros c s ev H. eapply offence_backed; eauto.
    - apply Gen. intros M [|? [?|]| | | | | | | | | | | | |] HM He; cbn in He; try contradiction; try discriminate; auto.
  Qed.

  (** Only [delegate] makes anybody a delegator. *)
  Lemma jstep_joins j op : synced j -> takes_credit (j_c j) op d -> delegating (j_s (jstep cfg j op).1) d -> delegating (j_s j) d.
  Proof.
    intros Hy Ht On. pose proof (jstep_staking cfg j op Hstep Hy) as K. destruct (step_del sc _ _ _ _ K) as (ls & P & F & _).
    destruct (path_on _ _ _ _ _ _ P F On) as [On0|(Hk & _)]; [exact On0|]. exfalso. revert Hk. unfold sop.
    destruct (jstep cfg j op).2; [|discriminate|discriminate]. unfold takes_credit in Ht.
    destruct op as [x a]. cbn [fst snd] in *. destruct a; try contradiction; cbn; discriminate.
  Qed.
  Lemma eligible_dec c : eligible cfg c d \/ ~ eligible cfg c d.
  Proof. rewrite <- passing_eligible. destruct (passing cfg c d); [now left|right; discriminate]. Qed.
  Lemma delegating_dec s : delegating s d \/ ~ delegating s d.
  Proof.
    unfold delegating. destruct (d_recs (k_del s) !! d) as [r|]; [|right; intros (? & [=] & _)].
    destruct (dr_on r) eqn:E; [left; eauto|right; intros (? & [= <-] & H); congruence].
  Qed.
  Lemma jrun_synced h : forall j, synced j -> synced (jrun cfg j h).
  Proof. induction h as [|op h IH]; intros j H; [exact H|]. cbn [jrun]. now apply IH, jstep_synced. Qed.
  Lemma genesis_synced b p settings data : synced (jgenesis b p settings data).
  Proof.
    unfold synced, jgenesis, Model_Credit.kinit. cbn.
    assert (E : forall s, Model_Credit.k_bank (fold_left Model_Credit.update_setting settings s) = Model_Credit.k_bank s).
    { clear. induction settings as [|st l IH]; intros s; [done|]. cbn. rewrite IH. done. }
    now rewrite E.
  Qed.

  Definition short (j : jstate) : Prop := delegating (j_s j) d /\ ~ eligible cfg (j_c j) d.
  Lemma run_short g h : synced g -> ~ short g -> short (jrun cfg g h) ->
    exists h1 op h2, h = h1 ++ op :: h2 /\ takes_credit (j_c (jrun cfg g h1)) op d /\
      delegating (j_s (jrun cfg g h1)) d /\ eligible cfg (j_c (jrun cfg g h1)) d /\
      forall h3, h3 `prefix_of` h2 -> short (jrun cfg g (h1 ++ op :: h3)).
  Proof.
    intros Hg Hn. induction h as [|op h IH] using rev_ind; intros Hs; [contradiction|].
    set (j := jrun cfg g h) in *. assert (Hj : synced j) by now apply jrun_synced.
    assert (Er : jrun cfg g (h ++ [op]) = (jstep cfg j op).1) by now rewrite jrun_app.
    assert (Cases : short j \/ takes_credit (j_c j) op d /\ delegating (j_s j) d /\ eligible cfg (j_c j) d).
    { destruct (delegating_dec (j_s j)) as [Hd|Hd].
      - destruct (eligible_dec (j_c j)) as [He|He]; [|now left]. right. split; [|auto].
        assert (Dec : takes_credit (j_c j) op d \/ ~ takes_credit (j_c j) op d).
        { unfold takes_credit. destruct op as [x a]. cbn [fst snd]. destruct a as [o c|e|o c| | |i|i|i|a0|os i|b]; try (right; tauto).
          - destruct c; try (right; tauto); destruct (N.eq_dec who d); auto.
          - destruct e; try (right; tauto).
            + destruct add; [right; tauto|]. destruct (decide (Model_Credit.kx_e2d (jx_c x) user = Some d)); auto.
            + destruct (N.eq_dec who d); auto.
          - destruct (N.lt_ge_cases 0 (Model_Credit.kx_offline (jx_c x) d)) as [H1|H1]; [|right; intros [? ?]; lia].
            destruct (N.eq_dec (Model_Credit.kx_offline (jx_c x) d mod 3) 0); [|right; tauto].
            destruct (decide (d ∈ Model_Credit.k_maintain (j_c j))); [right; tauto|left; auto]. }
        destruct Dec as [T|T]; [exact T|]. exfalso. rewrite Er in Hs. destruct Hs as [H1 H2]. apply H2.
        apply (jstep_backed j op Hj T); [now intros _|exact H1].
      - exfalso. rewrite Er in Hs. destruct Hs as [H1 H2].
        assert (Bk : backed (j_c j) (j_s j)) by (intros X; contradiction).
        pose proof (jstep_backed j op Hj) as Q. pose proof (jstep_joins j op Hj) as R. apply H2. apply Q; [|exact Bk|exact H1].
        intros T. exact (Hd (R T H1)). }
    destruct Cases as [Sj|(T & Hd & He)].
    - destruct (IH Sj) as (h1 & o & h2 & E & T & A & B & C). exists h1, o, (h2 ++ [op]). split; [rewrite E, <- app_assoc; reflexivity|].
      split; [exact T|]. split; [exact A|]. split; [exact B|]. intros h3 [l Hl].
      destruct l as [|y l _] using rev_ind; [rewrite app_nil_r in Hl; subst h3|].
      + rewrite E, <- app_assoc in Hs. exact Hs.
      + rewrite app_assoc in Hl. apply app_inj_tail in Hl as [-> ->]. apply C. now exists l.
    - exists h, op, []. split; [reflexivity|]. split; [exact T|]. split; [exact Hd|]. split; [exact He|].
      intros h3 Hp. apply prefix_nil_inv in Hp. subst h3. exact Hs.
  Qed.
End chain.
