(** Proofs for property C205. *)
From Verif Require Import Base Balances Model_StakingLedger Model_Staking Spec_Staking Spec_Turns.
From Verif Require Import Proofs_Staking Proofs_Staking7 Proofs_Staking8 Proofs_Staking17.
From Verif Require Proofs_History.
From stdpp Require Import gmap.
Open Scope N_scope.

(** ** What delegations do to the eras of election *)
Definition era_in (m : gmap N cand) (v : N) : N := cd_era (default cand0 (m !! v)).
Definition low (m m' : gmap N cand) : Prop := forall v, era_in m' v = era_in m v \/ era_in m' v = 0.
Lemma low_refl m : low m m. Proof. intros v. now left. Qed.
Lemma low_trans a b c : low a b -> low b c -> low a c.
Proof. intros H1 H2 v. destruct (H2 v) as [E|E]; [rewrite E; apply H1|now right]. Qed.
Lemma leave1_low d m w : low m (leave1 d m w).
Proof.
  intros v. unfold leave1, era_in. cbn [cd_dels]. destruct (decide (w = v)) as [->|Ne].
  - destruct (bool_decide _); [rewrite lookup_delete; now right|rewrite lookup_insert; now left].
  - left. destruct (bool_decide _); [now rewrite lookup_delete_ne|now rewrite lookup_insert_ne].
Qed.
Lemma leave_low d vs : forall m, low m (leave d vs m).
Proof. induction vs as [|w vs IH]; intros m; [apply low_refl|]. cbn. eapply low_trans; [apply leave1_low|apply IH]. Qed.
Lemma enter1_low d m w : low m (enter1 d m w).
Proof.
  intros v. unfold enter1, era_in. destruct (decide (w = v)) as [->|Ne].
  - destruct (m !! v) as [c|] eqn:E; rewrite lookup_insert; now left.
  - left. destruct (m !! w); now rewrite lookup_insert_ne.
Qed.
Lemma enter_low d vs : forall m, low m (enter d vs m).
Proof. induction vs as [|w vs IH]; intros m; [apply low_refl|]. cbn. eapply low_trans; [apply enter1_low|apply IH]. Qed.
Lemma move_low k l k' : dmove k l k' -> l <> DCand -> low (d_cand k) (d_cand k').
Proof.
  intros H N. destruct H as [k k' _ E|k k' _ E| |k x d vs k' H|k era d|k x d r o _ _|k who ref k' H|k who]; try (rewrite E; apply low_refl).
  - contradiction.
  - unfold do_delegate in H. inv_bind H. injection H as <-. cbn [d_cand set_d_cand]. eapply low_trans; [|apply enter_low].
    destruct (d_recs k !! d) as [r|]; [|apply low_refl]. cbn [d_cand set_d_cand]. destruct (dr_on r); apply leave_low.
  - unfold undelegate. destruct (d_recs k !! d) as [r|]; [|apply low_refl]. destruct (dr_on r); [|apply low_refl].
    destruct (dr_since r) as [e|]; [destruct (e =? era)|]; apply leave_low.
  - unfold paid_rec. destruct (dr_on r); apply low_refl.
  - unfold set_referer in H. inv_bind H. injection H as <-. apply low_refl.
  - unfold unset_referer. destruct (d_ref k !! who); apply low_refl.
Qed.
Lemma path_low k ls k' y kd : dpath k ls k' -> Forall (dlab_ok (Some y, kd)) ls -> low (d_cand k) (d_cand k').
Proof.
  induction 1 as [k|k l k1 ls k' M _ IH]; intros F; [apply low_refl|]. inversion F as [|? ? F1 F2]; subst.
  eapply low_trans; [|apply IH, F2]. eapply move_low; [exact M|]. intros ->. discriminate F1.
Qed.
Lemma era_in_last s v : last_elected s v = era_in (d_cand (k_del s)) v.
Proof. unfold last_elected, era_in. now destruct (_ !! v). Qed.

Section model.
  Context (cfg : kcfg).
  Lemma step_low s op s' out : kstep cfg s op = (s', out) -> (forall i, op <> KNewSession i) ->
    forall v, last_elected s' v = last_elected s v \/ last_elected s' v = 0.
  Proof.
    intros H N v. rewrite !era_in_last. revert v. change (low (d_cand (k_del s)) (d_cand (k_del s'))).
    destruct (step_del cfg _ _ _ _ H) as (ls & P & F & _).
    destruct op as [x o c|x| |i|x i|x i|a|x os i|b]; try (eapply path_low; [exact P|exact F]).
    - cbn in H. injection H as <- _. unfold on_finalize. destruct (e_act _) as [[? []]|]; apply low_refl.
    - now destruct (N i).
    - cbn in H. injection H as <- _. unfold note_author. destruct (e_act _) as [[? ?]|]; [destruct (default _ _)|]; apply low_refl.
    - cbn in H. injection H as <- _. apply low_refl.
  Qed.
  (** A session elects once or not at all. *)
  Lemma session_turn s i s' ev : new_session cfg s i = (s', ev) ->
    (exists era l, ev = [KElected era l]) \/ (ev = [] /\ k_del s' = k_del s).
  Proof.
    assert (G : forall s0, k_del s0 = k_del s -> new_era cfg s0 i = (s', ev) ->
      (exists era l, ev = [KElected era l]) \/ (ev = [] /\ k_del s' = k_del s)).
    { intros s0 <- H. unfold new_era in H. cbn zeta in H. destruct (elect _ _ _) as [s1 [l|]] eqn:E; injection H as <- <-; [eauto|].
      right. split; [reflexivity|]. unfold elect in E. cbn zeta in E. destruct (_ <? _); [|discriminate]. now injection E as <-. }
    unfold new_session. destruct (e_cur (k_era s)); [|now apply G].
    destruct (e_force (k_era s)).
    - destruct (_ <=? _); [now apply G|intros [= <- <-]; auto].
    - now apply G.
    - intros [= <- <-]; auto.
    - now apply G.
  Qed.
  (** ** Elections do not look ahead *)
  Definition young (s : kstate) : Prop := forall v, last_elected s v <= match e_cur (k_era s) with Some e => e + 1 | None => 0 end.
  Lemma step_cur s op s' out : fits cfg s -> kstep cfg s op = (s', out) ->
    e_cur (k_era s') = e_cur (k_era s) \/ e_cur (k_era s') = Some (match e_cur (k_era s) with Some e => e + 1 | None => 0 end).
  Proof.
    intros F H. destruct (Proofs_History.step_records cfg _ _ _ _ H) as [[[U _] _]|[(e & v & D)|[R _]]]; [now left| |].
    - destruct D as (_ & _ & D). left. now rewrite D.
    - right. rewrite R. unfold planned. f_equal. destruct (e_cur (k_era s)) as [e|] eqn:E; [|reflexivity].
      destruct F as (_ & _ & F & _). unfold cur_era in F. rewrite E in F. cbn in F. unfold id in F. unfold add32, w32. apply N.mod_small. lia.
  Qed.
  Lemma next_exact s e : fits cfg s -> e_cur (k_era s) = Some e -> add32 e 1 = e + 1.
  Proof.
    intros (_ & _ & F & _) E. unfold cur_era in F. rewrite E in F. cbn in F. unfold id in F. unfold add32, w32. apply N.mod_small. lia.
  Qed.
  (** A step that elects nobody, and one that elects. *)
  Lemma step_turn s op s' out : fits cfg s -> fits cfg s' -> young s -> kstep cfg s op = (s', out) ->
    (match op with KNewSession _ => forall w, backing s w < 2 ^ 32 | _ => True end) ->
    young s' /\
    ((elected_by op out = [] /\ forall v, last_elected s' v = last_elected s v \/ last_elected s' v = 0) \/
     exists i l e, op = KNewSession i /\ elected_by op out = [l] /\ fair_election cfg s l /\
       (forall w, last_elected s w < e) /\ forall w, last_elected s' w = if bool_decide (w ∈ l) then e else last_elected s w).
  Proof.
    intros F F' Y H Hb. pose proof (step_cur _ _ _ _ F H) as C.
    assert (Lo : (forall v, last_elected s' v = last_elected s v \/ last_elected s' v = 0) -> young s').
    { intros L v. specialize (Y v). destruct (L v) as [->| ->]; [|lia]. destruct C as [->| ->]; [exact Y|]. destruct (e_cur (k_era s)); lia. }
    destruct op as [x o c|x| |i|x i|x i|a|x os i|b];
      try (pose proof (step_low _ _ _ _ H ltac:(discriminate)) as L; split; [exact (Lo L)|left; split; [reflexivity|exact L]]).
    cbn [kstep] in H. destruct (new_session cfg s i) as [s1 ev] eqn:E. cbn in H. injection H as <- <-.
    destruct (session_turn _ _ _ _ E) as [(era & l & ->)|[-> Ek]].
    - destruct (new_session_fair cfg _ _ _ _ era l Hb E ltac:(left)) as (A & B & _ & D & L).
      assert (Ex : add32 era 1 = era + 1) by exact (next_exact _ _ F' B).
      assert (Lt : forall w, last_elected s w < era + 1).
      { intros w. specialize (Y w). destruct (e_cur (k_era s)) as [e|] eqn:Ee; [|lia]. rewrite D, (next_exact _ _ F Ee). lia. }
      rewrite Ex in L. split.
      + intros w. rewrite B, L. specialize (Lt w). destruct (bool_decide _); lia.
      + right. exists i, l, (era + 1). auto.
    - assert (L : forall v, last_elected s1 v = last_elected s v \/ last_elected s1 v = 0) by (intros v; left; unfold last_elected; now rewrite Ek).
      split; [exact (Lo L)|]. left. split; [reflexivity|exact L].
  Qed.
  Lemma genesis_young b p : young (kgenesis b p).
  Proof. intros v. unfold last_elected. cbn. rewrite lookup_empty. lia. Qed.

  Lemma run_young : forall h s, sane cfg s h -> always cfg (fun s => forall w, backing s w < 2 ^ 32) s h -> young s -> young (krun cfg s h).
  Proof.
    induction h as [|op h IH]; intros s S A Y; [exact Y|]. destruct S as [F [T S]]. destruct A as [A1 A]. cbn [krun].
    destruct (kstep cfg s op) as [s1 out] eqn:E. cbn [fst] in *. apply IH; [exact S|exact A|].
    refine (proj1 (step_turn _ _ _ _ F _ Y E _)); [destruct h; apply S|]. destruct op; auto.
  Qed.

  (** ** Taking turns *)
  Context (v : N) (W : gset N) (n : N).
  Definition ahead (s : kstate) : gset N := filter (fun w => w <> v /\ last_elected s w <= last_elected s v) W.
  Lemma ahead_in s w : w ∈ ahead s <-> w ∈ W /\ w <> v /\ last_elected s w <= last_elected s v.
  Proof. unfold ahead. rewrite elem_of_filter. tauto. Qed.
  Lemma run_turns : forall h s, sane cfg s h -> young s -> stands cfg v W n s h -> remembered cfg s h ->
    Forall (fun l => v ∉ l) (elections cfg s h) -> n * N.of_nat (length (elections cfg s h)) <= N.of_nat (size (ahead s)).
  Proof.
    induction h as [|op h IH]; intros s S Y St R Nv; [cbn; lia|]. destruct S as [F [T S]]. destruct St as [St1 St]. destruct R as [R1 R].
    cbn [elections] in *. destruct (kstep cfg s op) as [s1 out] eqn:E. cbn [fst snd] in *.
    assert (F1 : fits cfg s1) by (destruct h; apply S).
    destruct (step_turn _ _ _ _ F F1 Y E) as [Y1 [[El L]|(i & l & e & -> & El & Fa & Lt & L)]].
    { destruct op; auto. apply St1. }
    - rewrite El in *. cbn [app] in *. specialize (IH s1 S Y1 St R Nv).
      assert (Lv : last_elected s1 v = last_elected s v) by (specialize (R1 v); destruct (L v) as [->|Z]; [reflexivity|lia]).
      assert (Sub : ahead s1 ⊆ ahead s).
      { intros w. rewrite !ahead_in, Lv. specialize (R1 w). intros (A & B & C). repeat split; auto. lia. }
      apply subseteq_size in Sub. lia.
    - rewrite El in *. cbn [app] in *. inversion Nv as [|? ? Nl Nv']; subst. specialize (IH s1 S Y1 St R Nv').
      destruct St1 as (Sv & SW & Sn & _). destruct Fa as (Nd & _ & Fe & Fb & Fl).
      assert (Lv : last_elected s1 v = last_elected s v) by (rewrite L; now rewrite bool_decide_eq_false_2).
      assert (Dis : ahead s1 ## list_to_set l).
      { intros w Hw Hl. apply elem_of_list_to_set in Hl. apply ahead_in in Hw as (_ & _ & Hw).
        rewrite Lv, L, bool_decide_eq_true_2 in Hw by exact Hl. specialize (Lt v). lia. }
      assert (Sub : ahead s1 ∪ list_to_set l ⊆ ahead s).
      { intros w Hw. apply elem_of_union in Hw as [Hw|Hw].
        - rewrite ahead_in, Lv in Hw. apply ahead_in. specialize (R1 w). destruct Hw as (A & B & C). repeat split; auto. lia.
        - apply elem_of_list_to_set in Hw. apply ahead_in. split; [apply SW, Fe, Hw|]. split; [intros ->; contradiction|].
          destruct (Fb w v Hw Sv Nl) as [Q|[Q _]]; lia. }
      apply subseteq_size in Sub. rewrite size_union in Sub by exact Dis. rewrite size_list_to_set in Sub by exact Nd.
      specialize (Fl v Sv Nl). cbn [length]. rewrite Nat2N.inj_succ. lia.
  Qed.
  Lemma ahead_size s : (size (ahead s) <= size (W ∖ {[v]}))%nat.
  Proof. apply subseteq_size. intros w. rewrite ahead_in. set_solver. Qed.
End model.
