(** What lowers a credit score. *)
From Verif Require Import Base Balances Model_UserPrivileges.
From Verif Require Model_Credit Spec_Credit.
From Verif Require Import Model_StakingLedger Model_Staking Model_Chain Spec_Staking Spec_Staking2 Spec_Chain Spec_Chain3 Proofs_Arith
  Proofs_Credit Proofs_Credit2 Proofs_Credit3 Proofs_Credit6 Proofs_Credit7 Proofs_Credit8 Proofs_Staking Proofs_Staking8 Proofs_Staking10 Proofs_Staking13
  Proofs_Staking15 Proofs_Chain1 Proofs_Chain2 Proofs_Chain3 Proofs_Chain4 Proofs_Chain5 Proofs_Chain6 Proofs_Chain7.
From stdpp Require Import gmap sorting.
Open Scope N_scope.
Local Ltac split_bind H :=
  let a := fresh "a" in let Ha := fresh "Ha" in apply rbind_ok in H as (a & Ha & H).

Lemma slashes_app a b d : credit_slashes (a ++ b) d = credit_slashes a d + credit_slashes b d.
Proof. unfold credit_slashes. rewrite List.filter_app, app_length. lia. Qed.
Lemma slashes_cons a l d : credit_slashes (map KCreditSlash (a :: l)) d = (if a =? d then 1 else 0) + credit_slashes (map KCreditSlash l) d.
Proof. unfold credit_slashes. cbn. destruct (a =? d); cbn [length]; lia. Qed.

Section fall.
  Context (cfg : jcfg).
  Local Notation cc := (jc_c cfg).
  Local Notation sc := (jc_s cfg).
  Context (Hstep : Model_Credit.kc_step cc <> Model_Credit.U64MAX).
  Context (d : N).
  Local Notation st := (Model_Credit.kc_step cc).

  (** The score falls by at most a step for each slash reported. *)
  Definition falls (c c' : credit) (ev : list kev) : Prop := credit_of c d <= credit_of c' d + st * credit_slashes ev d.
  Lemma falls_refl c ev : falls c c ev.
  Proof. unfold falls. lia. Qed.
  Lemma falls_trans c1 c2 c3 e1 e2 : falls c1 c2 e1 -> falls c2 c3 e2 -> falls c1 c3 (e1 ++ e2).
  Proof. unfold falls. rewrite slashes_app. lia. Qed.
  Lemma falls_more c c' e1 e2 : falls c c' e2 -> falls c c' (e1 ++ e2).
  Proof. unfold falls. rewrite slashes_app. nia. Qed.

  Section step.
    Context (x : jctx).
    Local Notation cx := (jx_c x).
    Lemma others_falls l : forall c s c' s', jslash_others cfg x l c s = ROk (c', s') -> falls c c' (map KCreditSlash l).
    Proof.
      induction l as [|e l IH]; intros c s c' s' H; cbn [jslash_others] in H; [injection H as <- <-; apply falls_refl|].
      split_bind H. apply lift_ok in Ha. apply IH in H. unfold falls in *. rewrite slashes_cons.
      assert (A : credit_of c d <= credit_of a d + st * (if e =? d then 1 else 0)).
      { destruct (N.eqb_spec e d) as [->|Hn].
        - unfold Model_Credit.slash_credit in Ha. cbn [default] in Ha. change (default st None) with st in Ha.
          rewrite (proj2 (N.eqb_neq _ _) Hstep) in Ha. cbv zeta in Ha. unfold credit_of.
          destruct (Model_Credit.k_uc c !! d) as [r|] eqn:Er; [|lia].
          apply update_history_uc in Ha. rewrite Ha. cbn. rewrite lookup_insert. cbn. lia.
        - unfold credit_of. destruct (slash_other cc c cx e None a d Ha ltac:(congruence)) as [E _]. rewrite E. lia. }
      nia.
    Qed.
    Lemma apply_falls c s u c' s' ev : japply_slash cfg x c s u = ROk (c', s', ev) -> falls c c' ev.
    Proof.
      unfold japply_slash. destruct (do_slash _ _ _ _ _ _) as [[[s1 pay] got] e]. intros H. split_bind H. destruct a as [c2 s2]. injection H as <- <- <-.
      apply falls_more. exact (others_falls _ _ _ _ _ Ha).
    Qed.
    Lemma list_falls l : forall c s c' s' ev, japply_list cfg x l c s = ROk (c', s', ev) -> falls c c' ev.
    Proof.
      induction l as [|u l IH]; intros c s c' s' ev H; cbn [japply_list] in H; [injection H as <- <- <-; apply falls_refl|].
      split_bind H. destruct a as [[c1 s1] e1]. split_bind H. destruct a as [[c2 s2] e2]. cbn [fst snd] in *. injection H as <- <- <-.
      eapply falls_trans; [eapply apply_falls|eapply IH]; eassumption.
    Qed.
    Lemma eras_falls n : forall era c s c' s' ev, japply_eras cfg x n era c s = ROk (c', s', ev) -> falls c c' ev.
    Proof.
      induction n as [|n IH]; intros era c s c' s' ev H; cbn [japply_eras] in H; [injection H as <- <- <-; apply falls_refl|].
      cbv zeta in H. split_bind H. destruct a as [[c1 s1] e1]. split_bind H. destruct a as [[c2 s2] e2]. cbn [fst snd] in *. injection H as <- <- <-.
      eapply falls_trans; [eapply list_falls|eapply IH]; eassumption.
    Qed.
    Lemma start_falls c s i c' s' ev : jstart_session cfg x c s i = ROk (c', s', ev) -> falls c c' ev.
    Proof.
      unfold jstart_session. destruct (e_start _ !! _) as [t|]; [|intros [= <- <- _]; apply falls_refl].
      destruct (_ <=? _); [|intros [= <- <- _]; apply falls_refl]. unfold japply_unapplied. intros H.
      destruct (s_first _); [|injection H as <- <- _; apply falls_refl].
      cbv zeta in H. split_bind H. destruct a as [[c1 s1] e1]. cbn [fst snd] in H. injection H as <- <- <-.
      exact (eras_falls _ _ _ _ _ _ _ Ha).
    Qed.
    Lemma offenders_falls era w now os : forall c s c' s' ev, joffenders cfg x era w now os c s = ROk (c', s', ev) -> falls c c' ev.
    Proof.
      induction os as [|o os IH]; intros c s c' s' ev H; cbn [joffenders] in H; [injection H as <- <- _; apply falls_refl|].
      split_bind H. destruct a as [[c1 s1] e1]. split_bind H. destruct a as [[c2 s2] e2]. cbn [fst snd] in *. injection H as <- <- <-.
      eapply falls_trans; [|eapply IH; eassumption]. clear IH Ha0. revert Ha. unfold joffender1. destruct o as [[[q ex] reps] f].
      destruct (bool_decide _); [intros [= <- <- _]; apply falls_refl|].
      destruct (compute_slash _ _ _ _ _ _ _ _) as [[s3 u] e3].
      destruct u as [u|]; [|intros [= <- <- _]; apply falls_refl]. cbv zeta. destruct (_ =? 0); [|intros [= <- <- _]; apply falls_refl].
      intros H. split_bind H. destruct a as [[c4 s4] e4]. cbn [fst snd] in H. injection H as <- <- <-.
      apply falls_more. eapply apply_falls; eauto.
    Qed.
    Lemma offence_falls c s os i c' s' ev : jon_offence cfg x c s os i = ROk (c', s', ev) -> falls c c' ev.
    Proof.
      unfold jon_offence. destruct (e_act _) as [[active ?]|]; [|intros [= <- <- _]; apply falls_refl].
      destruct (slash_era _ _ _); [|intros [= <- <- _]; apply falls_refl]. cbv zeta. intros H. exact (offenders_falls _ _ _ _ _ _ _ _ _ H).
    Qed.
  End step.

  Definition out_events (o : jout) : list kev := match o with JDone ev => ev | _ => [] end.
  Lemma session_falls j op : match op.2 with JStartSession _ | JOffence _ _ => True | _ => False end ->
    falls (j_c j) (j_c (jstep cfg j op).1) (out_events (jstep cfg j op).2).
  Proof.
    destruct op as [x a]. cbn [snd]. intros T.
    assert (Settle : forall r, (forall c s ev, r = ROk (c, s, ev) -> falls (j_c j) c ev) ->
      falls (j_c j) (j_c (jsettle j r).1) (out_events (jsettle j r).2)).
    { intros [[[c s] ev]|e|] H; cbn; [exact (H c s ev eq_refl)|apply falls_refl..]. }
    destruct a; try contradiction; apply Settle; intros c s ev H; [eapply start_falls|eapply offence_falls]; exact H.
  Qed.

  Lemma jstep_over m j op : synced j -> m <= Model_Credit.U64MAX ->
    ~ lowers (j_c j) op (out_events (jstep cfg j op).2) d ->
    over m (j_c j) d -> m <= credit_of (j_c (jstep cfg j op).1) d.
  Proof.
    intros Hy Hm Hn O.
    assert (OC : forall c, over m c d -> m <= credit_of c d).
    { intros c (r & E & L). unfold credit_of. now rewrite E. }
    assert (Gen : (forall M e, (op.2 = JInit -> M = Model_Credit.k_maintain (j_c j)) -> may (j_s j) op.2 e -> ~ drops M (jx_c op.1, inr e) d) ->
      (forall M o, o ∈ own_step op -> ~ drops M o d) -> m <= credit_of (j_c (jstep cfg j op).1) d).
    { intros G1 G2. apply OC.
      refine (proj1 (jstep_keeps cfg (fun c => over m c d /\ (op.2 = JInit -> Model_Credit.k_maintain c = Model_Credit.k_maintain (j_c j))) j op Hy _ _ _ _)); [auto| | |split; auto].
      - intros c e He [Oc HM]. split; [apply (kdo_over cc _ Hm Hstep); [now apply G1|exact Oc]|].
        intros HI. rewrite <- (HM HI). apply may_maintain with (s := j_s j) (a := op.2); [exact Hstep|exact He].
      - intros c o Ho [Oc HM]. split; [|intros HI; unfold own_step in Ho; rewrite HI in Ho; now apply elem_of_nil in Ho].
        apply (kdo_over cc _ Hm Hstep); [|exact Oc]. now apply G2. }
    pose proof (session_falls j op) as F.
    destruct op as [x a]. cbn [fst snd] in *. unfold lowers in Hn. cbn [fst snd] in Hn.
    assert (none : forall a', own_step (x, a') = [] -> forall M o, o ∈ own_step (x, a') -> ~ drops M o d).
    { intros a' -> M o Ho. now apply elem_of_nil in Ho. }
    destruct a as [o c|e|o c| | |i|i|i|a0|os i|b];
      try (apply Gen; [intros M [|? [?|]| | | | | | | | | | | | |] HM He; cbn in He; try contradiction; try discriminate; auto|apply none; reflexivity]; fail).
    - apply Gen.
      + intros M [|? [?|]| | | | | | | | | | | | |] HM He; cbn in He; try contradiction; try discriminate; auto.
      + intros M q Hq. unfold own_step in Hq. cbn [snd fst] in Hq. apply elem_of_list_singleton in Hq as ->.
        unfold drops. cbn [fst snd]. destruct c; auto.
    - apply Gen.
      + intros M [|? [?|]| | | | | | | | | | | | |] HM He; cbn in He; try contradiction; try discriminate; auto.
      + intros M q Hq. unfold own_step in Hq. cbn [snd fst] in Hq. destruct (staking_only e) eqn:Es; [now apply elem_of_nil in Hq|].
        apply elem_of_list_singleton in Hq as ->. unfold drops. cbn [fst snd]. destruct e; auto; discriminate.
    - apply Gen; [|apply none; reflexivity].
      destruct c as [k|l].
      + destruct k; intros M [|? [?|]| | | | | | | | | | | | |] HM He; cbn in He; try contradiction; try discriminate; auto;
          unfold drops; cbn [fst snd].
        * destruct He as [_ ->]. now intros [_ ?].
        * destruct He as [-> _]. now intros [? _].
      + intros M [|? [?|]| | | | | | | | | | | | |] HM He; cbn in He; try contradiction; try discriminate; auto.
        unfold drops. cbn [fst snd]. intros [-> Hz]. apply Hn. eexists. split; [exact He|]. congruence.
    - apply Gen; [|apply none; reflexivity].
      intros M [|? [?|]| | | | | | | | | | | | |] HM He; cbn in He; try contradiction; try discriminate; unfold drops; cbn [fst snd]; rewrite ?(HM eq_refl); tauto.
    - specialize (F I). unfold falls in F. apply OC in O. assert (credit_slashes (out_events (jstep cfg j (x, JStartSession i)).2) d = 0) as E by lia.
      rewrite E in F. lia.
    - specialize (F I). unfold falls in F. apply OC in O. assert (credit_slashes (out_events (jstep cfg j (x, JOffence os i)).2) d = 0) as E by lia.
      rewrite E in F. lia.
  Qed.

  Lemma lowers_dec c op ev : lowers c op ev d \/ ~ lowers c op ev d.
  Proof.
    unfold lowers. destruct op as [x a]. cbn [fst snd].
    destruct a as [o k|e|o k| | |i|i|i|a0|os i|b]; try (right; tauto).
    - destruct k; try (right; tauto); destruct (N.eq_dec who d); auto.
    - destruct e; try (right; tauto).
      + destruct add; [right; tauto|]. destruct (decide (Model_Credit.kx_e2d (jx_c x) user = Some d)); auto.
      + destruct (N.eq_dec who d); auto.
    - destruct k as [k|l]; [destruct k; try (right; tauto); destruct (N.eq_dec who d); auto|].
      destruct (decide (Exists (fun p => p.1 = d /\ p.2 <> 0) l)) as [E|E].
      + left. apply Exists_exists in E as ([d0 n] & H & E1 & E2). cbn in *. subst. eauto.
      + right. intros (n & H & Hz). apply E, Exists_exists. exists (d, n). auto.
    - destruct (N.lt_ge_cases 0 (Model_Credit.kx_offline (jx_c x) d)) as [H1|H1]; [|right; intros [? ?]; lia].
      destruct (N.eq_dec (Model_Credit.kx_offline (jx_c x) d mod 3) 0); [|right; tauto].
      destruct (decide (d ∈ Model_Credit.k_maintain c)); [right; tauto|left; auto].
    - destruct (N.lt_ge_cases 0 (credit_slashes ev d)); [now left|right; lia].
    - destruct (N.lt_ge_cases 0 (credit_slashes ev d)); [now left|right; lia].
  Qed.
  Theorem jstep_fall j op : synced j -> credit_of (j_c j) d < 2 ^ 64 ->
    credit_of (j_c (jstep cfg j op).1) d < credit_of (j_c j) d ->
    lowers (j_c j) op (out_events (jstep cfg j op).2) d.
  Proof.
    intros Hy H64 Hlt. destruct (lowers_dec (j_c j) op (out_events (jstep cfg j op).2)) as [L|Hn]; [exact L|exfalso].
    apply (N.lt_irrefl (credit_of (j_c j) d)). eapply N.le_lt_trans; [|exact Hlt]. apply jstep_over; [exact Hy| |exact Hn|].
    - change Model_Credit.U64MAX with 18446744073709551615. change (2 ^ 64) with 18446744073709551616 in H64. lia.
    - unfold credit_of in *. destruct (Model_Credit.k_uc (j_c j) !! d) as [r|] eqn:E; [|lia].
      exists r. split; [exact E|lia].
  Qed.
End fall.
