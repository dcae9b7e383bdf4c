(** The length of eras, the era of a report, and the pay of an era: lemmas for properties C136-C139. *)
From Verif Require Import Base Balances Model_StakingLedger Model_Staking Spec_Staking Spec_Staking2 Spec_Staking4
  Proofs_Arith Proofs_StakingLedger Proofs_Staking Proofs_Staking2 Proofs_Staking6 Proofs_Staking12 Proofs_Staking16
  Proofs_Staking17 Proofs_Staking22 Proofs_Staking23.
From stdpp Require Import gmap.
Open Scope N_scope.

Definition ahead_of (g : stage) : N :=
  match g with Setup | Planned0 => 0 | Planned1 => 1 | Running i _ | Ended i => i + 1 | Started i => i end.

Section model.
  Context (cfg : kcfg).
  Local Notation len := (kc_sessions cfg).

  (** ** The mode *)
  Lemma step_mode s op s' out : kstep cfg s op = (s', out) -> ~ meddles op ->
    mode s' = mode s \/ (exists i, op = KNewSession i) /\ mode s = ForceNew /\ mode s' = NotForcing.
  Proof.
    intros H M. destruct op as [x o c|x| |i|x i|x i|a|x os i|b];
      try (destruct (bystander cfg _ _ _ _ H I) as (_ & _ & _ & _ & _ & [E|[E _]]); [left; exact E|contradiction]).
    - cbn [kstep] in H. destruct (new_session _ _ _) as [s1 ev] eqn:E. cbn in H. injection H as <- <-.
      destruct (new_session_spec cfg _ _ _ _ E) as (_ & _ & _ & [(-> & _)|(_ & [[_ A]|(c & _ & [[A B]|[[A B]|(A & B & _)]])] & _)]);
        [auto|auto|right; eauto|left; congruence|left; congruence].
    - left. cbn [kstep] in H. destruct (start_session _ _ _ _) as [s1 ev] eqn:E. cbn in H. injection H as <- <-.
      apply start_session_spec in E as [[-> _]|[_ E]]; [auto|]. unfold mode. now rewrite E.
  Qed.

  (** ** Following a schedule *)
  (** The current era [c] began with session [k]; the next begins with session [n]. *)
  Definition due_at (g : stage) (s : kstate) (c n : N) : Prop :=
    e_cur (k_era s) = Some c /\
    match mode s with
    | NotForcing => exists k, e_start (k_era s) !! c = Some k /\ n = N.max (k + len) (ahead_of g + 1)
    | ForceNew => n = ahead_of g + 1
    | _ => False
    end.
  Definition on_plan (g : stage) (s : kstate) (c0 n0 : N) : Prop :=
    exists c n, due_at g s c n /\
      (c = c0 /\ n = n0 \/ mode s = NotForcing /\ exists q, c = c0 + 1 + q /\ n = n0 + (q + 1) * len /\ n <= ahead_of g + len).
  (** Any plan that the next step keeps. *)
  Definition plan (m : forcing) (g : stage) (s : kstate) (c0 n0 : N) : Prop :=
    match m with
    | ForceNone => mode s = ForceNone /\ e_cur (k_era s) = Some c0
    | ForceAlways => mode s = ForceAlways /\ n0 <= ahead_of g + 1 /\ e_cur (k_era s) = Some (c0 + (ahead_of g + 1 - n0))
    | _ => on_plan g s c0 n0
    end.
  (** The era of session [j] by the plan. *)
  Definition by_plan (m : forcing) (c0 n0 j : N) : N :=
    match m with
    | ForceNone => c0
    | ForceAlways => c0 + (j + 1 - n0)
    | _ => scheduled len c0 n0 j
    end.
  Lemma plan_cur m g s c0 n0 : 0 < len -> plan m g s c0 n0 -> e_cur (k_era s) = Some (by_plan m c0 n0 (ahead_of g)).
  Proof.
    intros Hl. assert (G : on_plan g s c0 n0 -> e_cur (k_era s) = Some (scheduled len c0 n0 (ahead_of g))).
    { intros (c & n & (A & B) & C). rewrite A. f_equal. unfold scheduled.
      assert (L : ahead_of g < n) by (destruct (mode s); [destruct B as (k & _ & ->); lia|lia|contradiction..]).
      destruct C as [[-> ->]|(_ & q & -> & -> & C)]; [now rewrite (proj2 (N.ltb_lt _ _) L)|].
      rewrite (proj2 (N.ltb_ge _ _)) by lia. f_equal. apply (N.div_unique _ _ _ (ahead_of g - n0 - q * len)); lia. }
    destruct m; cbn [plan by_plan]; auto.
    - intros [_ A]. exact A.
    - intros (_ & _ & A). exact A.
  Qed.

  Lemma plain_ahead g op g' : plain op -> advance g op = Some g' -> ahead_of g' = ahead_of g.
  Proof.
    intros P A. destruct op; try contradiction P; cbn in A; try (injection A as <-; reflexivity).
    - destruct g; injection A as <-; reflexivity.
    - destruct g as [| | |j []| |]; try discriminate. destruct (N.eqb_spec i j) as [->|]; [|discriminate]. injection A as <-. reflexivity.
  Qed.
  Lemma plain_plan m s op s' out g g' T c0 n0 :
    kstep cfg s op = (s', out) -> plain op -> ~ meddles op -> advance g op = Some g' -> kept s' -> timed cfg g T s ->
    plan m g s c0 n0 -> plan m g' s' c0 n0.
  Proof.
    intros H P M A K W. pose proof (plain_ahead _ _ _ P A) as Ea.
    destruct (bystander cfg _ _ _ _ H P) as (B1 & _ & _ & B4 & _ & [B6|[B6 _]]); [|contradiction].
    assert (G : on_plan g s c0 n0 -> on_plan g' s' c0 n0).
    { intros (c & n & (C1 & C2) & C3). exists c, n. unfold due_at. rewrite B6, Ea, B1. split; [|exact C3]. split; [auto|].
      rewrite (cut_keep _ _ _ _ B4); [exact C2|]. unfold bound. rewrite C1. cbn. lia. }
    destruct m; cbn [plan]; rewrite ?B6, ?Ea, ?B1; auto.
  Qed.
  Lemma new_plan m s i s' ev g g' T c0 n0 :
    0 < len -> new_session cfg s i = (s', ev) -> advance g (KNewSession i) = Some g' -> fits cfg s -> kept s -> timed cfg g T s ->
    plan m g s c0 n0 -> plan m g' s' c0 n0.
  Proof.
    intros Hl H A F K W J.
    assert (Ei : g <> Setup -> i = ahead_of g + 1 /\ ahead_of g' = i).
    { intros Hg. destruct g as [| | |j f|j|j]; cbn in A; try discriminate A; [contradiction|..].
      - destruct (N.eqb_spec i 1) as [->|]; [|discriminate]. injection A as <-. cbn. lia.
      - destruct (N.eqb_spec i (j + 1)) as [->|]; [|discriminate]. injection A as <-. cbn. lia. }
    assert (Hc : exists c, e_cur (k_era s) = Some c).
    { pose proof (plan_cur _ _ _ _ _ Hl J). eauto. }
    destruct Hc as [c Hc].
    assert (Hg : g <> Setup) by (intros ->; destruct W as [_ (W & _)]; congruence).
    destruct (Ei Hg) as [-> E2]. clear Ei.
    destruct F as (_ & _ & F & _). unfold cur_era in F. rewrite Hc in F. cbn in F.
    destruct (new_session_spec cfg _ _ _ _ H) as (_ & _ & _ & N). unfold planned in N. rewrite Hc in N.
    rewrite add32_exact in N by lia.
    assert (G : (mode s = NotForcing \/ mode s = ForceNew) -> on_plan g s c0 n0 -> on_plan g' s' c0 n0).
    { intros Hm (c' & n & (C1 & C2) & C3). rewrite Hc in C1. injection C1 as <-.
      destruct N as [(-> & _ & c' & N1 & N2)|(N1 & N2 & N3)].
      - injection N1 as <-. destruct N2 as [N2|[N2 N4]]; [destruct Hm; congruence|]. exists c, n. unfold due_at. rewrite N2, E2 in *.
        destruct C2 as (k & C2 & C4). rewrite C2 in N4. cbn in N4. split; [split; [auto|]; exists k; split; [auto|lia]|].
        destruct C3 as [C3|(_ & q & C3 & C5 & C6)]; [auto|]. right. split; [auto|]. exists q. split; [auto|]. split; [auto|]. lia.
      - destruct N2 as [[N2 _]|(c' & N2 & N4)]; [discriminate|]. injection N2 as <-.
        destruct N3 as [N3 _]; [auto|lia|].
        assert (En : n = ahead_of g + 1 /\ mode s' = NotForcing).
        { destruct N4 as [[N4 N5]|[[N4 N5]|(N4 & N5 & N6)]]; rewrite N4 in C2.
          - auto.
          - contradiction.
          - split; [|auto]. destruct C2 as (k & C2 & C4). rewrite C2 in N6. cbn in N6. lia. }
        destruct En as [En Em]. exists (c + 1), (n + len). unfold due_at. rewrite N1, Em. split.
        + split; [auto|]. exists (ahead_of g + 1). split; [|rewrite E2; lia].
          rewrite (cut_keep _ _ _ _ N3) by lia. now rewrite lookup_insert.
        + right. split; [auto|]. destruct C3 as [[-> ->]|(_ & q & C3 & C5 & C6)].
          * exists 0. split; [lia|]. split; [lia|]. lia.
          * exists (q + 1). split; [lia|]. split; [lia|]. lia. }
    assert (G' : on_plan g s c0 n0 -> on_plan g' s' c0 n0).
    { intros J'. apply G; [|exact J']. destruct J' as (c' & n & (C1 & C2) & C3). destruct (mode s); auto; contradiction. }
    destruct m; cbn [plan] in *; auto.
    - destruct J as [J1 J2]. destruct N as [(-> & _)|(_ & [[N _]|(c' & _ & [[N _]|[[N _]|[N _]]])] & _)]; [auto|congruence..].
    - destruct J as (J1 & J2 & J3). rewrite Hc in J3. injection J3 as ->.
      destruct N as [(-> & _ & c' & _ & [N|[N _]])|(N1 & [[N _]|(c' & _ & [[N _]|[[_ N]|[N _]]])] & _)]; try congruence.
      rewrite N, N1, E2. split; [auto|]. split; [lia|]. f_equal. lia.
  Qed.
  Lemma start_plan m s x i s' ev g g' c0 n0 :
    start_session cfg x s i = (s', ev) -> advance g (KStartSession x i) = Some g' ->
    plan m g s c0 n0 -> plan m g' s' c0 n0.
  Proof.
    intros H A J. assert (Ea : ahead_of g' = ahead_of g).
    { destruct g as [| | |j f|j|j]; cbn in A; try discriminate A.
      - destruct (N.eqb_spec i 0); [|discriminate]. injection A as <-. reflexivity.
      - destruct (N.eqb_spec i (j + 1)) as [->|]; [|discriminate]. injection A as <-. reflexivity. }
    apply start_session_spec in H. cbn zeta in H.
    assert (E : e_cur (k_era s') = e_cur (k_era s) /\ mode s' = mode s /\ e_start (k_era s') = e_start (k_era s)).
    { unfold mode. destruct H as [[-> _]|[_ ->]]; auto. }
    destruct E as (E1 & E2 & E3). unfold plan, on_plan, due_at in *. rewrite E1, E2, E3, Ea. exact J.
  Qed.
  Lemma step_plan m s op s' out g g' T c0 n0 :
    0 < len -> kstep cfg s op = (s', out) -> ~ meddles op -> advance g op = Some g' -> fits cfg s -> kept s -> kept s' ->
    timed cfg g T s -> plan m g s c0 n0 -> plan m g' s' c0 n0.
  Proof.
    intros Hl H M A F K K' W J.
    destruct op as [x o c|x| |i|x i|x i|a|x os i|b]; try (eapply plain_plan; eauto; exact I).
    - cbn [kstep] in H. destruct (new_session _ _ _) as [s1 ev] eqn:E. cbn in H. injection H as <- <-. eapply new_plan; eauto.
    - cbn [kstep] in H. destruct (start_session _ _ _ _) as [s1 ev] eqn:E. cbn in H. injection H as <- <-. eapply start_plan; eauto.
  Qed.
  (** What a session start opens is the era that was planned for it. *)
  Lemma opens_plan m s op s' out g g' T c0 n0 j e :
    0 < len -> kstep cfg s op = (s', out) -> advance g op = Some g' -> timed cfg g' T s' ->
    plan m g' s' c0 n0 -> (j, e) ∈ opens op s' -> j <> 0 -> e = by_plan m c0 n0 j.
  Proof.
    intros Hl H A [_ W] J Hin Hj. destruct op as [| | | |x i| | | |]; try (cbn in Hin; now apply elem_of_nil in Hin).
    cbn [opens] in Hin. destruct (active_era s') as [a|] eqn:Ea; [|now apply elem_of_nil in Hin].
    apply elem_of_list_singleton in Hin. injection Hin as -> ->.
    destruct g as [| | |k f|k|k]; cbn in A; try discriminate A.
    - destruct (N.eqb_spec i 0); [contradiction|discriminate].
    - destruct (N.eqb_spec i (k + 1)) as [->|]; [|discriminate]. injection A as <-.
      apply (plan_cur _ _ _ _ _ Hl) in J. destruct W as (a' & f & sa & B & L1 & _ & _ & [L4|[L4 _]] & _); [|discriminate].
      unfold active_era in Ea. rewrite L1 in Ea. injection Ea as <-. rewrite L4 in J. injection J as J. exact J.
  Qed.
  Lemma run_plan m c0 n0 : 0 < len -> forall h s g g' T,
    driven g h = Some g' -> sane cfg s h -> throughout cfg kept s h -> timed cfg g T s -> plan m g s c0 n0 ->
    Forall (fun op => ~ meddles op) h ->
    forall j e, (j, e) ∈ timeline cfg s h -> j <> 0 -> e = by_plan m c0 n0 j.
  Proof.
    intros Hl. induction h as [|op h IH]; intros s g g' T D S K W J M j e Hin Hj; cbn [driven timeline krun] in *.
    { now apply elem_of_nil in Hin. }
    destruct (advance g op) as [g1|] eqn:A; [|discriminate]. destruct S as [F [_ S]].
    pose proof (always_here _ _ _ _ K) as K0. apply throughout_step in K. pose proof (always_here _ _ _ _ K) as K1.
    apply Forall_cons in M as [M0 M]. destruct (kstep cfg s op) as [s1 o] eqn:E. cbn [fst] in *.
    pose proof (step_timed _ _ _ _ _ _ _ _ E A F K0 K1 W) as W1.
    pose proof (step_plan _ _ _ _ _ _ _ _ _ _ Hl E M0 A F K0 K1 W J) as J1.
    apply elem_of_app in Hin as [Hin|Hin]; [eapply opens_plan; eauto|eapply IH; eauto].
  Qed.
End model.
