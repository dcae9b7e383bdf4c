(** Every report of an offence counts: the invariant behind property C60. *)
From Verif Require Import Base Balances Model_StakingLedger Model_Staking Spec_Staking Spec_Staking2
  Proofs_Arith Proofs_StakingLedger Proofs_Staking Proofs_Staking2 Proofs_Staking3 Proofs_Staking5 Proofs_Staking6
  Proofs_Staking12 Proofs_Staking14 Proofs_Staking15 Proofs_Staking16 Proofs_Staking17 Proofs_Staking18.
From Verif Require Proofs_Credit3.
From Coq Require Import Sorting.Sorted.
From stdpp Require Import gmap.
Open Scope N_scope.

(** ** The worst demand *)
Lemma worst_app i a b : worst i (a ++ b) = N.max (worst i a) (worst i b).
Proof. induction a as [|d a IH]; cbn [worst foldr app]; [symmetry; apply N.max_0_l|]. fold (worst i (a ++ b)) (worst i a). rewrite IH. lia. Qed.

(** ** The eras kept *)
Definition olds (first : N) := fix old (l : list (N * N)) : list N :=
  match l with p :: r => if p.1 <? first then p.1 :: old r else [] | [] => [] end.
Definition rising (l : list (N * N)) : Prop := StronglySorted (fun p q : N * N => p.1 < q.1) l.
Lemma olds_cut first : forall l, rising l ->
  rising (drop (length (olds first l)) l) /\ Forall (fun p => first <= p.1) (drop (length (olds first l)) l) /\
  (forall e, e ∈ map fst l -> e ∈ olds first l \/ e ∈ map fst (drop (length (olds first l)) l)) /\
  Forall (fun e => e < first) (olds first l).
Proof.
  induction l as [|p l IH]; intros S; cbn [olds].
  { split; [constructor|]. split; [constructor|]. split; [|constructor]. intros e He. inversion He. }
  apply StronglySorted_inv in S as [S F].
  destruct (N.ltb_spec p.1 first) as [L|L].
  - destruct (IH S) as (A & B & C & D). cbn [length drop]. fold (olds first) in *. split; [auto|]. split; [auto|]. split; [|constructor; auto].
    intros e He. apply elem_of_cons in He as [->|He]; [left; constructor|]. destruct (C e He); [left; now constructor|auto].
  - cbn [length drop]. split; [constructor; auto|]. split; [|split; [auto|constructor]].
    constructor; [auto|]. eapply Forall_impl; [exact F|]. cbn. intros q Hq. lia.
Qed.
Lemma rising_snoc l p : rising l -> Forall (fun q => q.1 < p.1) l -> rising (l ++ [p]).
Proof.
  induction l as [|q l IH]; intros S F; cbn; [repeat constructor|].
  apply StronglySorted_inv in S as [S F0]. apply Forall_cons in F as [F1 F]. constructor; [now apply IH|].
  apply Forall_app. split; [auto|]. constructor; [auto|constructor].
Qed.

Section model.
  Context (cfg : kcfg).

  Lemma window_act s : window cfg s = ssub (act s) (kc_bonding cfg).
  Proof. unfold window, act, active_era, ssub. now destruct (e_act (k_era s)) as [[? ?]|]. Qed.
  Lemma window_le s : window cfg s <= act s.
  Proof. rewrite window_act. unfold ssub. lia. Qed.
  Lemma active_act s s' : active_era s' = active_era s -> act s' = act s /\ window cfg s' = window cfg s.
  Proof.
    intros H. assert (A : act s' = act s).
    { revert H. unfold act, active_era. destruct (e_act (k_era s)) as [[? ?]|], (e_act (k_era s')) as [[? ?]|]; cbn; congruence. }
    split; [auto|]. rewrite !window_act. congruence.
  Qed.

  Record kept (s : kstate) : Prop := {
    kp_none : active_era s = None -> e_bonded (k_era s) = [] ;
    kp_rise : rising (e_bonded (k_era s));
    kp_in : Forall (fun p : N * N => window cfg s <= p.1 <= act s) (e_bonded (k_era s));
    kp_act : forall a, active_era s = Some a -> a ∈ map fst (e_bonded (k_era s));
    kp_mark : forall e st m, s_in_era (k_stk s) !! (e, st) = Some m -> e ∈ map fst (e_bonded (k_era s)) }.
  Lemma kept_same s s' : active_era s' = active_era s -> e_bonded (k_era s') = e_bonded (k_era s) ->
    (forall e st m, s_in_era (k_stk s') !! (e, st) = Some m -> e ∈ map fst (e_bonded (k_era s))) -> kept s -> kept s'.
  Proof.
    intros A B C [K1 K2 K3 K4 K5]. destruct (active_act _ _ A) as [D F]. constructor; rewrite ?A, ?B, ?D, ?F; auto.
  Qed.
  Lemma report_in s session era : kept s -> report_era s session = Some era -> era ∈ map fst (e_bonded (k_era s)).
  Proof.
    intros K. unfold report_era. destruct (active_era s) as [a|] eqn:E; [|discriminate]. unfold slash_era.
    destruct (_ <=? _); [intros [= <-]; now apply (kp_act _ K)|].
    destruct (List.find _ _) as [p|] eqn:F; [|discriminate]. intros [= <-]. apply List.find_some in F as [F _].
    apply in_rev, elem_of_list_In in F. now apply elem_of_list_fmap_1.
  Qed.
  Lemma bonded_in s era : kept s -> era ∈ map fst (e_bonded (k_era s)) -> window cfg s <= era <= act s.
  Proof. intros K H. apply elem_of_list_fmap in H as (p & -> & H). pose proof (kp_in _ K) as F. rewrite Forall_forall in F. exact (F _ H). Qed.

  (** ** Steps other than reports *)
  Definition reports (op : kop) : Prop := match op with KOffence _ _ _ => True | _ => False end.
  Definition starts (op : kop) : Prop := match op with KStartSession _ _ => True | _ => False end.
  Lemma clear_bonded e a b : e_bonded (clear_eras e a b) = e_bonded e.
  Proof. reflexivity. Qed.
  Lemma force_bonded e f : e_bonded (set_e_force e f) = e_bonded e.
  Proof. reflexivity. Qed.
  Lemma new_session_bonded s i s' ev : new_session cfg s i = (s', ev) -> e_bonded (k_era s') = e_bonded (k_era s).
  Proof.
    assert (G : forall s0, new_era cfg s0 i = (s', ev) -> e_bonded (k_era s') = e_bonded (k_era s0)).
    { intros s0 H. unfold new_era in H. cbn zeta in H. destruct (elect _ _ _) as [s1 o] eqn:E.
      assert (K : e_bonded (k_era s1) = e_bonded (k_era s0)).
      { unfold elect in E. cbn zeta in E. destruct (_ <? _); injection E as <- _; cbn [k_era set_k_era set_k_del]; destruct (_ <=? _); reflexivity. }
      destruct o; injection H as <- <-; exact K. }
    unfold new_session. destruct (e_cur (k_era s)); [|apply G].
    destruct (e_force (k_era s)).
    - destruct (_ <=? _); [apply G|]. now intros [= <- <-].
    - intros H. apply G in H. exact H.
    - now intros [= <- <-].
    - apply G.
  Qed.
  Lemma step_frame s op s' out :
    kstep cfg s op = (s', out) -> ~ reports op -> ~ starts op ->
    active_era s' = active_era s /\ e_bonded (k_era s') = e_bonded (k_era s) /\ s_in_era (k_stk s') = s_in_era (k_stk s).
  Proof.
    intros H Nr Ns. split.
    { destruct (step_active _ _ _ _ _ H) as [A|[(x & i & ->) _]]; [auto|]. now destruct (Ns I). }
    destruct op as [x o c|x| |i|x i|x i|a|x os i|b]; cbn [kstep] in H; try (now destruct (Nr I)); try (now destruct (Ns I)).
    - destruct (dispatch cfg x s o c) as [[s1 ev]|er|] eqn:E; cbn [settle] in H; injection H as <- <-; auto.
      split; [|eapply call_marks; eauto].
      destruct (call_points _ _ _ _ _ _ _ E) as [[(f & F) _]|(v & _ & _ & e & _ & F)]; now rewrite F.
    - destruct (on_initialize cfg x s) as [[s1 ev]|er|] eqn:E; cbn [settle] in H; injection H as <- <-; auto.
      pose proof (init_pool _ _ _ _ _ E) as [_ E']. rewrite E'. split; [auto|].
      unfold on_initialize in E. destruct (0 <? _); [|now injection E as <- _].
      destruct (_ =? 0).
      + destruct (_ =? 0); [discriminate || (now injection E as <- _)|discriminate || (now injection E as <- _)].
      + unfold pay_delegators in E. destruct (_ =? 0); [now injection E as <- _|].
        destruct (pay_loop _ _ _ _ _ _ _) as [[[[s3 p3] l3] c3] e3] eqn:E3. injection E as <- _. cbn.
        apply pay_loop_stk in E3. now rewrite E3.
    - injection H as <- _. unfold on_finalize. now destruct (e_act (k_era s)) as [[? []]|].
    - destruct (new_session _ _ _) as [s1 ev] eqn:E. cbn in H. injection H as <- <-.
      rewrite (new_session_stk _ _ _ _ _ E). split; [|auto]. eapply new_session_bonded; eauto.
    - destruct (end_session _ _ _ _) as [s1 ev] eqn:E. cbn in H. injection H as <- <-.
      split; [|eapply end_session_marks; eauto].
      apply end_session_same in E as [_ E]. now rewrite E.
    - injection H as <- _. unfold note_author. destruct (e_act (k_era s)) as [[? ?]|]; [|auto].
      now destruct (default _ _).
    - injection H as <- _. auto.
  Qed.

  Lemma start_marks x s i s' ev :
    start_session cfg x s i = (s', ev) -> (match e_act (k_era s) with Some (a, _) => a + 1 < two32 | None => True end) -> kept s ->
    s' = s \/
    exists a gone, active_era s' = Some a /\ a = (match active_era s with Some b => b + 1 | None => 0 end) /\
      e_bonded (k_era s') = drop (length gone) (e_bonded (k_era s) ++ [(a, i)]) /\
      s_in_era (k_stk s') = filter (fun p => p.1.1 ∉ gone) (s_in_era (k_stk s)) /\
      gone = (if kc_bonding cfg <? a then olds (a - kc_bonding cfg) (e_bonded (k_era s) ++ [(a, i)]) else []).
  Proof.
    intros H Ha K. unfold start_session in H. destruct (e_start _ !! _); [|injection H as <- <-; auto].
    destruct (_ <=? _); [|injection H as <- <-; auto]. right.
    assert (Ea : match e_act (k_era s) with Some (i, _) => add32 i 1 | None => 0 end = match active_era s with Some b => b + 1 | None => 0 end).
    { unfold active_era. destruct (e_act (k_era s)) as [[a b]|]; cbn; [|auto]. now apply add32_exact. }
    unfold start_era in H. rewrite Ea in H. cbn zeta in H. set (a := match active_era s with Some b => _ | None => 0 end) in *.
    exists a. fold (olds (a - kc_bonding cfg)) in H. set (gone := if kc_bonding cfg <? a then _ else _) in H. exists gone.
    unfold apply_unapplied in H. cbn zeta in H. cbn [k_stk set_k_era set_k_stk s_first set_s_in_era] in H.
    assert (G : k_era s' = set_e_bonded (set_e_act (k_era s) (Some (a, false))) (drop (length gone) (e_bonded (k_era s) ++ [(a, i)])) /\
      s_in_era (k_stk s') = filter (fun p => p.1.1 ∉ gone) (s_in_era (k_stk s))).
    { destruct (s_first (k_stk s)); [|injection H as <- <-; auto].
      destruct (apply_eras _ _ _ _ _) as [s2 e1] eqn:E1. injection H as <- <-.
      pose proof (apply_eras_marks _ _ _ _ _ _ _ E1) as E2.
      apply apply_eras_same in E1 as [_ E1]. cbn in E1, E2 |- *. split; congruence. }
    destruct G as [G1 G2]. unfold active_era at 1. rewrite G1. auto 7.
  Qed.
  Lemma kept_start x s i s' ev :
    start_session cfg x s i = (s', ev) -> (match e_act (k_era s) with Some (a, _) => a + 1 < two32 | None => True end) -> kept s -> kept s'.
  Proof.
    intros H Ha K. destruct (start_marks _ _ _ _ _ H Ha K) as [->|(a & gone & A & Av & B & M & Gv)]; [auto|].
    assert (Old : Forall (fun p : N * N => window cfg s <= p.1 < a) (e_bonded (k_era s))).
    { destruct (active_era s) as [a0|] eqn:E0.
      - eapply Forall_impl; [exact (kp_in _ K)|]. unfold act, active_era in *. destruct (e_act (k_era s)) as [[? ?]|]; cbn in E0; [|discriminate].
        injection E0 as ->. cbn. intros p Hp. lia.
      - rewrite (kp_none _ K); auto. }
    assert (Ri : rising (e_bonded (k_era s) ++ [(a, i)])).
    { apply rising_snoc; [apply (kp_rise _ K)|]. eapply Forall_impl; [exact Old|]. cbn. intros p Hp. lia. }
    assert (Act : act s' = a) by (revert A; unfold act, active_era; destruct (e_act (k_era s')) as [[? ?]|]; cbn; congruence).
    assert (Win : window cfg s' = a - kc_bonding cfg) by (rewrite window_act, Act; reflexivity).
    assert (Le : Forall (fun p : N * N => p.1 <= a) (e_bonded (k_era s) ++ [(a, i)])).
    { apply Forall_app. split; [|repeat constructor; cbn; lia]. eapply Forall_impl; [exact Old|]. cbn. intros p Hp. lia. }
    assert (Q : rising (e_bonded (k_era s')) /\ Forall (fun p => a - kc_bonding cfg <= p.1) (e_bonded (k_era s')) /\
      (forall e, e ∈ map fst (e_bonded (k_era s) ++ [(a, i)]) -> e ∈ gone \/ e ∈ map fst (e_bonded (k_era s'))) /\
      Forall (fun e => e < a - kc_bonding cfg) gone).
    { rewrite B. destruct (N.ltb_spec (kc_bonding cfg) a) as [L|L]; subst gone; [now apply olds_cut|].
      cbn [length drop]. split; [auto|]. split; [|split; [auto|constructor]]. rewrite Forall_forall. intros p _. lia. }
    destruct Q as (Q1 & Q2 & Q3 & Q4).
    constructor.
    - congruence.
    - auto.
    - rewrite Win, Act. rewrite B in *. rewrite Forall_forall in *. intros p Hp. split; [now apply Q2|]. apply Le. rewrite <- (take_drop (length gone) (e_bonded (k_era s) ++ [(a, i)])). apply elem_of_app. now right.
    - intros a' E'. assert (a' = a) as -> by congruence. destruct (Q3 a) as [Q|Q]; [|rewrite Forall_forall in Q4; apply Q4 in Q; lia|auto].
      rewrite map_app. apply elem_of_app. right. cbn. constructor.
    - intros e st m Hm. rewrite M in Hm. apply map_filter_lookup_Some in Hm as [Hm Hg]. cbn in Hg.
      destruct (Q3 e) as [Q|Q]; [|contradiction|auto]. rewrite map_app. apply elem_of_app. left. eapply kp_mark; eauto.
  Qed.

  (** The spans of a stash that is not dissolved stay, and nothing is charged. *)
  Lemma step_quiet s op s' out st :
    fits cfg s -> kstep cfg s op = (s', out) -> ~ reports op ->
    act s <= act s' <= act s + 1 /\ uncharged (events [out]) /\
    (s_spans (k_stk s') !! st = s_spans (k_stk s) !! st \/
     (is_Some (s_bonded (k_stk s) !! st) /\ s_bonded (k_stk s') !! st = None /\ s_spans (k_stk s') !! st = None)).
  Proof.
    intros (_ & _ & _ & Fa) H Nr.
    assert (Hn : act s + 2 < two32).
    { unfold act. destruct (e_act (k_era s)) as [[i b]|]; [auto|reflexivity]. }
    split; [|split].
    - destruct (step_active _ _ _ _ _ H) as [A|[_ A]]; [apply active_act in A as [A _]; lia|].
      revert A Hn. unfold act, active_era. destruct (e_act (k_era s)) as [[a b]|], (e_act (k_era s')) as [[a' b']|]; cbn; intros A Hn; try discriminate.
      + injection A as ->. rewrite add32_exact by lia. lia.
      + injection A as ->. lia.
    - unfold events. cbn. destruct out as [ev| |]; [|constructor|constructor]. rewrite app_nil_r.
      assert (No : forall x os i, op <> KOffence x os i) by (intros ? ? ? ->; now apply Nr).
      destruct (match op with KCall _ _ (KWithdraw _) => true | _ => false end) eqn:Ew.
      + destruct op as [x o c|x| |i|x i|x i|a|x os i|b]; try discriminate. destruct c; try discriminate.
        cbn [kstep dispatch] in H. unfold signed in H. destruct o; try discriminate.
        destruct (withdraw_unbonded _ _ _ _ _) as [[s1 ev1]|e|] eqn:E; cbn [settle] in H; try discriminate.
        injection H as _ <-. unfold withdraw_unbonded in E. destruct (_ !! who); [|discriminate].
        destruct (bool_decide _ && _) in E; [inv_bind E|]; injection E as _ <-; destruct (_ <? _); repeat constructor.
      + destruct (match op with KCall _ _ (KUnbond _) => true | _ => false end) eqn:Eu.
        * destruct op as [x o c|x| |i|x i|x i|a|x os i|b]; try discriminate. destruct c; try discriminate.
          cbn [kstep dispatch] in H. unfold signed in H. destruct o; try discriminate.
          destruct (unbond _ _ _ _ _) as [[s1 ev1]|e|] eqn:E; cbn [settle] in H; try discriminate.
          injection H as _ <-. unfold unbond in E. destruct (_ !! who); [|discriminate]. inv_bind E.
          destruct (_ =? 0); [injection E as _ <-; constructor|].
          match type of E with context [let '(_, _) := ?e in _] => destruct e end. injection E as _ <-. repeat constructor.
        * eapply Forall_impl; [refine (proj2 (step_plain _ _ _ _ _ H _ _) No)|].
          -- intros ? ? ? ->. discriminate.
          -- intros ? ? ? ->. discriminate.
          -- now intros [].
    - destruct op as [x o c|x| |i|x i|x i|a|x os i|b]; cbn [kstep] in H; try (now destruct (Nr I)).
      + destruct (dispatch cfg x s o c) as [[s1 ev]|er|] eqn:E; cbn [settle] in H; injection H as <- <-; auto.
        apply call_books in E as [_ [B|(st0 & B1 & B2 & B3 & B4)]]; [left; apply (B st)|].
        destruct (decide (st = st0)) as [->|Hne]; [|left; now apply B1].
        destruct B2 as [B2|B2]; [right; auto|left; apply B2].
      + destruct (on_initialize cfg x s) as [[s1 ev]|er|] eqn:E; cbn [settle] in H; injection H as <- <-; auto. left.
        unfold on_initialize in E. destruct (0 <? _); [|now injection E as <- _].
        destruct (_ =? 0).
        * destruct (_ =? 0); [discriminate || (now injection E as <- _)|discriminate || (now injection E as <- _)].
        * unfold pay_delegators in E. destruct (_ =? 0); [now injection E as <- _|].
          destruct (pay_loop _ _ _ _ _ _ _) as [[[[s3 p3] l3] c3] e3] eqn:E3. injection E as <- _. cbn.
          apply pay_loop_stk in E3. now rewrite E3.
      + left. injection H as <- _. unfold on_finalize. now destruct (e_act (k_era s)) as [[? []]|].
      + left. destruct (new_session _ _ _) as [s1 ev] eqn:E. cbn in H. injection H as <- <-. now rewrite (new_session_stk _ _ _ _ _ E).
      + left. destruct (start_session _ _ _ _) as [s1 ev] eqn:E. cbn in H. injection H as <- <-. apply start_session_same in E as [E _]. apply (E st).
      + left. destruct (end_session _ _ _ _) as [s1 ev] eqn:E. cbn in H. injection H as <- <-. apply end_session_same in E as [E _]. apply (E st).
      + left. injection H as <- _. unfold note_author. destruct (e_act (k_era s)) as [[? ?]|]; [|auto]. now destruct (default _ _).
      + left. injection H as <- _. auto.
  Qed.

  (** ** The span of an era over steps *)
  Lemma kidx_later w w' k k' st e : s_spans k' !! st = s_spans k !! st -> w <= w' <= e -> kidx w' k' st e = kidx w k st e.
  Proof.
    intros H L. unfold kidx. rewrite H. destruct (s_spans k !! st); [reflexivity|]. cbn. unfold idx, era_span, spans_iter, spans_new. cbn.
    rewrite !contains_open. rewrite (proj2 (N.leb_le w e)), (proj2 (N.leb_le w' e)) by lia. reflexivity.
  Qed.
  Lemma idx_open sp e : sp_start sp <= e -> is_Some (idx sp e).
  Proof.
    intros L. unfold idx, era_span, spans_iter. cbn. rewrite contains_open, (proj2 (N.leb_le _ _) L). cbn. eauto.
  Qed.
  Definition covered (s : kstate) (st : N) : Prop :=
    forall e, window cfg s <= e <= act s -> is_Some (kidx (window cfg s) (k_stk s) st e).
  Lemma covered_quiet s s' st : ok_at (act s) st (k_stk s) -> covered s st -> act s <= act s' <= act s + 1 ->
    (s_spans (k_stk s') !! st = s_spans (k_stk s) !! st \/ s_spans (k_stk s') !! st = None) -> covered s' st.
  Proof.
    intros K C A B e He. destruct B as [B|B].
    2: { unfold kidx. rewrite B. apply idx_open. cbn. lia. }
    assert (window cfg s <= window cfg s') by (rewrite !window_act; unfold ssub; lia).
    rewrite (kidx_later (window cfg s) _ _ _ _ _ B) by lia.
    destruct (decide (e <= act s)) as [L|L]; [apply C; lia|].
    unfold kidx. unfold ok_at in K. destruct (s_spans (k_stk s) !! st) as [sp|]; apply idx_open; cbn; [|lia].
    pose proof (so_start _ _ K). lia.
  Qed.

  Lemma offence_idx x s os session s' ev st e :
    on_offence cfg x s os session = (s', ev) -> act s + 1 < two32 -> (forall st0, ok_at (act s) st0 (k_stk s)) ->
    window cfg s <= e <= act s -> kidx (window cfg s) (k_stk s') st e = kidx (window cfg s) (k_stk s) st e.
  Proof.
    intros H Hn Ok He. pose proof (window_le s) as Hw. rewrite window_act in *. unfold on_offence in H.
    destruct (e_act (k_era s)) as [[a b]|] eqn:Ea; [|now injection H as <- _].
    assert (Ha : act s = a) by (unfold act; now rewrite Ea). rewrite Ha in *.
    destruct (slash_era _ _ _) as [era|]; [|now injection H as <- _]. cbn zeta in H.
    assert (G : forall l s0 ev0, fold_left (offender1 cfg x era (ssub a (kc_bonding cfg)) a) l (s0, ev0) = (s', ev) ->
      (forall st0, ok_at a st0 (k_stk s0)) -> kidx (ssub a (kc_bonding cfg)) (k_stk s') st e = kidx (ssub a (kc_bonding cfg)) (k_stk s0) st e).
    { clear H Ok. induction l as [|o l IH]; intros s0 ev0 H Ok; cbn [fold_left] in H; [now injection H as <- _|].
      destruct (offender1 _ _ _ _ _ _ o) as [s1 e1] eqn:E1 in H. rewrite (IH _ _ H).
      2: { intros st0. eapply offender_ok; eauto. }
      clear IH H. destruct o as [[[st0 ex] reps] frac]. cbn [offender1] in E1.
      destruct (bool_decide _); [now injection E1 as <- _|].
      destruct (compute_slash _ _ _ _ _ _ _ _) as [[s3 u] e3] eqn:E3.
      pose proof (compute_idx _ _ _ _ _ _ _ _ _ _ _ st e E3 (Ok st0) Hn Hw He) as I3.
      destruct u as [u|]; [|now injection E1 as <- _].
      destruct (_ =? 0); [|injection E1 as <- _; exact I3].
      destruct (apply_slash _ _ _ _) as [s4 e4] eqn:E4. injection E1 as <- _.
      apply apply_slash_same in E4 as [E4 _]. rewrite <- I3. unfold kidx. now rewrite (proj1 (E4 st)). }
    rewrite (G _ _ _ H); [|intros st0; specialize (Ok st0); cbn; destruct (s_first (k_stk s)); exact Ok].
    cbn. now destruct (s_first (k_stk s)).
  Qed.
  Lemma step_reports op : reports op -> exists x os i, op = KOffence x os i.
  Proof. destruct op; cbn; try contradiction. eauto. Qed.
  Lemma reports_dec op : reports op \/ ~ reports op.
  Proof. destruct op; cbn; auto. Qed.
  Lemma fits_lt s : fits cfg s -> act s + 1 < two32.
  Proof. intros (_ & _ & _ & F). unfold act. destruct (e_act (k_era s)) as [[? ?]|]; [lia|reflexivity]. Qed.
  Lemma step_covered s op s' out : fits cfg s -> kstep cfg s op = (s', out) ->
    (forall st, ok_at (act s) st (k_stk s)) -> (forall st, covered s st) -> forall st, covered s' st.
  Proof.
    intros F H Ok Cov st. destruct (reports_dec op) as [R|R].
    - apply step_reports in R as (x & os & i & ->). cbn [kstep] in H.
      destruct (on_offence cfg x s os i) as [s1 ev1] eqn:E. cbn [settle] in H. injection H as <- _.
      assert (A : active_era s1 = active_era s) by (unfold active_era; now rewrite (on_offence_act _ _ _ _ _ _ _ E)).
      destruct (active_act _ _ A) as [A1 A2]. intros e. rewrite A1, A2. intros He.
      rewrite (offence_idx _ _ _ _ _ _ _ _ E (fits_lt _ F) Ok He). now apply Cov.
    - destruct (step_quiet _ _ _ _ st F H R) as (Q1 & _ & Q3). apply (covered_quiet s); auto.
      destruct Q3 as [Q3|(_ & _ & Q3)]; auto.
  Qed.
  Lemma run_covered : forall h s, sane cfg s h -> (forall st, ok_at (act s) st (k_stk s) /\ covered s st) ->
    (forall st, ok_at (act (krun cfg s h)) st (k_stk (krun cfg s h))) /\ (forall st, covered (krun cfg s h) st).
  Proof.
    induction h as [|op h IH]; intros s [F S] Ok; cbn [krun]; [split; apply Ok|].
    destruct S as [T S]. apply IH; [auto|]. destruct (kstep cfg s op) as [s' out] eqn:E. intros st. split.
    - eapply step_ok; eauto. apply Ok.
    - eapply step_covered; eauto; apply Ok.
  Qed.
  Lemma genesis_covered b p st : covered (kgenesis b p) st.
  Proof. intros e He. unfold kidx. change (s_spans (k_stk (kgenesis b p))) with (∅ : gmap N spans). rewrite lookup_empty. apply idx_open. cbn. lia. Qed.
  Lemma step_settled s op s' out st era : fits cfg s -> kstep cfg s op = (s', out) ->
    (forall st, ok_at (act s) st (k_stk s)) -> (forall st, covered s st) ->
    (is_Some (s_bonded (k_stk s) !! st) -> is_Some (s_bonded (k_stk s') !! st)) ->
    window cfg s' <= era <= default 0 (active_era s) ->
    exists i, span_at cfg s st era = Some i /\ span_at cfg s' st era = Some i.
  Proof.
    intros F H Ok Cov Nd He.
    assert (Ha : default 0 (active_era s) = act s) by (unfold active_era, act; now destruct (e_act (k_era s)) as [[? ?]|]).
    rewrite Ha in He.
    assert (G : window cfg s <= window cfg s' /\ kidx (window cfg s') (k_stk s') st era = kidx (window cfg s) (k_stk s) st era).
    { destruct (reports_dec op) as [R|R].
      - apply step_reports in R as (x & os & i & ->). cbn [kstep] in H.
        destruct (on_offence cfg x s os i) as [s1 ev1] eqn:E. cbn [settle] in H. injection H as <- _.
        assert (A : active_era s1 = active_era s) by (unfold active_era; now rewrite (on_offence_act _ _ _ _ _ _ _ E)).
        destruct (active_act _ _ A) as [A1 A2]. rewrite A2 in *. split; [lia|].
        exact (offence_idx _ _ _ _ _ _ _ _ E (fits_lt _ F) Ok He).
      - destruct (step_quiet _ _ _ _ st F H R) as (Q1 & _ & Q3).
        assert (Wl : window cfg s <= window cfg s') by (rewrite !window_act; unfold ssub; lia).
        split; [auto|]. apply kidx_later; [|lia].
        destruct Q3 as [Q3|(Q3 & Q4 & _)]; [auto|]. apply Nd in Q3. rewrite Q4 in Q3. now destruct Q3. }
    destruct G as [G1 G2]. destruct (Cov st era ltac:(lia)) as [i Hi]. exists i.
    unfold span_at. unfold kidx, idx in *. split; congruence.
  Qed.

  (** ** Reports *)
  Context (st : N) (own : N -> N).
  Record told (s : kstate) (ev : list kev) (ds : list (N * N)) : Prop := {
    td_books : st_inv (act s) st (k_stk s) ev;
    td_kept : kept s;
    td_cov : covered s st;
    td_worst : forall i, largest st i ev = worst i ds;
    td_mark : forall e p q, s_in_era (k_stk s) !! (e, st) = Some (p, q) ->
      exists i, kidx (window cfg s) (k_stk s) st e = Some i /\ frac_mul p PERBILL (own e) <= worst i ds }.
  Lemma inv_ok now k ev : st_inv now st k ev -> ok_at now st k.
  Proof. unfold st_inv, ok_at. destruct (s_spans k !! st); [apply bk_ok|auto]. Qed.
  Lemma told_same s s' ev ds : told s ev ds -> k_era s' = k_era s -> s_in_era (k_stk s') = s_in_era (k_stk s) ->
    same_books (k_stk s) (k_stk s') st -> told s' ev ds.
  Proof.
    intros [T1 T2 T3 T4 T5] E M B.
    assert (A : active_era s' = active_era s) by (unfold active_era; congruence).
    destruct (active_act _ _ A) as [A1 A2].
    assert (Kx : forall e, kidx (window cfg s) (k_stk s') st e = kidx (window cfg s) (k_stk s) st e).
    { intros e. unfold kidx. now rewrite (proj1 B). }
    constructor.
    - rewrite A1. eapply same_inv; eauto.
    - apply (kept_same s); auto; [congruence|]. rewrite M. apply (kp_mark _ T2).
    - intros e. rewrite A1, A2, Kx. apply T3.
    - auto.
    - rewrite M, A2. intros e p q H. rewrite Kx. eauto.
  Qed.
  Lemma told_more s ev ds e2 : uncharged e2 -> told s ev ds -> told s (ev ++ e2) ds.
  Proof.
    intros U [T1 T2 T3 T4 T5]. constructor; auto.
    - now apply st_inv_more.
    - intros i. rewrite largest_app, (proj2 (uncharged_0 st i e2 U)), T4. lia.
  Qed.
  Lemma largest_one i j era o d : largest st i [KCharge st era j o d] = worst i [(j, o)].
  Proof. cbn. rewrite N.eqb_refl. cbn. reflexivity. Qed.
  Lemma worst_le i d ds : d <= worst i ds -> worst i (ds ++ [(i, d)]) = worst i ds.
  Proof. intros H. rewrite worst_app. cbn. rewrite N.eqb_refl. lia. Qed.
  Lemma worst_mono i a b : worst i a <= worst i (a ++ b).
  Proof. rewrite worst_app. lia. Qed.

  Lemma compute_told x s st0 f ex era s' u e1 ev ds :
    compute_slash x s st0 f ex era (window cfg s) (act s) = (s', u, e1) -> act s + 1 < two32 ->
    (st0 = st -> x_own ex = own era /\ x_own ex <= x_total ex) ->
    era ∈ map fst (e_bonded (k_era s)) -> told s ev ds -> (forall st0, ok_at (act s) st0 (k_stk s)) ->
    active_era s' = active_era s /\ e_bonded (k_era s') = e_bonded (k_era s) /\
    exists i, kidx (window cfg s) (k_stk s) st era = Some i /\
      told s' (ev ++ e1) (ds ++ (if st0 =? st then [(i, frac_mul f PERBILL (x_own ex))] else [])).
  Proof.
    intros H Hn Hx He T Ok. pose proof (bonded_in _ _ (td_kept _ _ _ T) He) as Hw.
    pose proof (td_cov _ _ _ T era Hw) as [i Hi].
    assert (Ix : forall e, window cfg s <= e <= act s -> kidx (window cfg s) (k_stk s') st e = kidx (window cfg s) (k_stk s) st e).
    { intros e Hwe. eapply compute_idx; eauto. apply window_le. }
    destruct (compute_marks _ _ _ _ _ _ _ _ _ _ _ H Hn (window_le s) (Ok st0)) as ((g & G) & M). cbn zeta in M.
    pose proof (compute_books _ _ _ _ _ _ _ _ _ _ _ ev st H Hn (window_le s) (td_books _ _ _ T)) as Bk.
    assert (A : active_era s' = active_era s) by (unfold active_era; now rewrite G).
    assert (B : e_bonded (k_era s') = e_bonded (k_era s)) by now rewrite G.
    destruct (active_act _ _ A) as [A1 A2].
    split; [auto|]. split; [auto|]. exists i. split; [auto|].
    destruct T as [T1 T2 T3 T4 T5].
    assert (Cov : covered s' st).
    { intros e. rewrite A1, A2. intros Hwe. rewrite Ix by auto. auto. }
    destruct M as [(-> & M & Why)|(M & diff & ->)].
    - assert (W : forall j, worst j (ds ++ (if st0 =? st then [(i, frac_mul f PERBILL (x_own ex))] else [])) = worst j ds).
      { intros j. destruct (N.eqb_spec st0 st) as [->|Hne]; [|now rewrite app_nil_r].
        destruct (Hx eq_refl) as [X1 X2].
        assert (L : frac_mul f PERBILL (x_own ex) <= worst i ds).
        { destruct Why as [Why|Why].
          - pose proof (Proofs_Credit3.frac_mul_mono f f PERBILL (x_own ex) (x_total ex) ltac:(discriminate) ltac:(lia) X2). lia.
          - destruct (s_in_era (k_stk s) !! (era, st)) as [[p q]|] eqn:Em; cbn in Why.
            + destruct (T5 _ _ _ Em) as (i' & I1 & I2). assert (i' = i) as -> by congruence. etransitivity; [|exact I2].
              rewrite <- X1. apply Proofs_Credit3.frac_mul_mono; [discriminate|lia|lia].
            + replace f with 0 by lia. unfold frac_mul. rewrite !N.mul_0_r. cbn. lia. }
        destruct (N.eq_dec j i) as [->|Hji]; [now apply worst_le|].
        rewrite worst_app. cbn. destruct (N.eqb_spec i j); [congruence|]. lia. }
      constructor.
      + now rewrite A1.
      + apply (kept_same s); auto. rewrite M. apply (kp_mark _ T2).
      + auto.
      + intros j. rewrite app_nil_r, W. auto.
      + rewrite M, A2. intros e p q Hm. destruct (T5 _ _ _ Hm) as (j & J1 & J2). exists j. rewrite W. split; [|auto].
        rewrite Ix; [auto|]. apply (bonded_in s); [auto|]. eapply kp_mark; eauto.
    - assert (W : forall j, worst j ds <= worst j (ds ++ (if st0 =? st then [(i, frac_mul f PERBILL (x_own ex))] else []))) by (intros j; apply worst_mono).
      constructor.
      + now rewrite A1.
      + apply (kept_same s); auto. rewrite M. intros e st1 m. destruct (decide ((era, st0) = (e, st1))) as [Eq|Ne].
        * injection Eq as <- <-. auto.
        * rewrite lookup_insert_ne by auto. apply (kp_mark _ T2).
      + auto.
      + intros j. rewrite largest_app, worst_app, T4. f_equal.
        destruct (N.eqb_spec st0 st) as [->|Hne]; [rewrite Hi; apply largest_one|].
        destruct (kidx _ _ st0 era); [|auto]. cbn. destruct (N.eqb_spec st0 st); [congruence|]. reflexivity.
      + rewrite M, A2. intros e p q Hm. destruct (decide ((era, st0) = (e, st))) as [Eq|Ne].
        * injection Eq as <- ->. rewrite lookup_insert in Hm. injection Hm as <- <-. exists i. rewrite Ix by auto. split; [auto|].
          rewrite N.eqb_refl, worst_app. cbn. rewrite N.eqb_refl. destruct (Hx eq_refl) as [<- _]. lia.
        * rewrite lookup_insert_ne in Hm by auto. destruct (T5 _ _ _ Hm) as (j & J1 & J2). exists j. split; [|specialize (W j); lia].
          rewrite Ix; [auto|]. apply (bonded_in s); [auto|]. eapply kp_mark; eauto.
  Qed.

  Lemma credits_par x l : forall s, k_par (fold_left (credit_slash x) l s) = k_par s.
  Proof. induction l as [|a l IH]; intros s; cbn; [auto|]. rewrite IH. unfold credit_slash. now destruct (kx_pass x a). Qed.
  Lemma apply_slash_par x s u s' ev : apply_slash cfg x s u = (s', ev) -> k_par s' = k_par s.
  Proof.
    unfold apply_slash. destruct (do_slash _ _ _ _ _ _) as [[[s1 p] g] e] eqn:E. intros [= <- _]. cbn.
    rewrite credits_par. revert E. unfold do_slash. destruct (_ !! u_val u) as [c|]; [|now intros [= <- _ _ _]].
    destruct (_ !! c) as [l|]; [|now intros [= <- _ _ _]].
    destruct (slash_ledger _ _ _) as [l' v']. destruct (_ =? 0); [now intros [= <- _ _ _]|].
    destruct (cslash _ _ _ _ _) as [[b g0] m]. intros [= <- _ _ _]. now rewrite update_ledger_par.
  Qed.
  Lemma compute_par x s st0 f ex era w now s' u e1 : compute_slash x s st0 f ex era w now = (s', u, e1) -> k_par s' = k_par s.
  Proof.
    unfold compute_slash. destruct (_ =? 0).
    { intros [= <- _ _]. unfold kick_out. destruct (fetch_spans _ _ _). destruct (era_span _ _); [|auto].
      destruct (_ =? _); [|auto]. now destruct (kick _ _ _ _ _ _ _) as [[[? ?] ?] ?]. }
    destruct (_ <=? _); [now intros [= <- _ _]|].
    destruct (fetch_spans _ _ _). destruct (update_span _ _ _ _ _ _) as [[[[[? ?] ?] ?] ?] t].
    destruct (if bool_decide _ then _ else _) as [[[? ?] ?] ?]. now intros [= <- _ _].
  Qed.
  (** What one entry of a report demands. *)
  Definition demand1 (inv : list N) (i : N) (o : N * expo * list N * N) : list (N * N) :=
    let '(a, ex, _, f) := o in
    if bool_decide (a ∈ inv) then [] else if a =? st then [(i, frac_mul f PERBILL (x_own ex))] else [].
  Lemma offender_told x era s o s' ev0 ev' ev ds :
    offender1 cfg x era (window cfg s) (act s) (s, ev0) o = (s', ev') -> act s + 1 < two32 ->
    (forall ex reps f, o = (st, ex, reps, f) -> x_own ex = own era /\ x_own ex <= x_total ex) ->
    era ∈ map fst (e_bonded (k_era s)) -> told s (ev ++ ev0) ds -> (forall st0, ok_at (act s) st0 (k_stk s)) ->
    active_era s' = active_era s /\ e_bonded (k_era s') = e_bonded (k_era s) /\ k_par s' = k_par s /\
    kidx (window cfg s) (k_stk s') st era = kidx (window cfg s) (k_stk s) st era /\
    (forall st0, ok_at (act s) st0 (k_stk s')) /\
    exists i, kidx (window cfg s) (k_stk s) st era = Some i /\ told s' (ev ++ ev') (ds ++ demand1 (p_invul (k_par s)) i o).
  Proof.
    intros H Hn Hx He T Ok.
    pose proof (bonded_in _ _ (td_kept _ _ _ T) He) as Hw.
    assert (Ok' : forall st0, ok_at (act s) st0 (k_stk s')).
    { intros st0. eapply offender_ok; eauto. apply window_le. }
    destruct o as [[[st0 ex] reps] frac]. cbn [offender1] in H. unfold demand1.
    destruct (bool_decide (st0 ∈ p_invul (k_par s))).
    { injection H as <- <-. repeat (split; [auto|]). destruct (td_cov _ _ _ T era Hw) as [i Hi]. exists i. rewrite app_nil_r. auto. }
    destruct (compute_slash _ _ _ _ _ _ _ _) as [[s1 u] e1] eqn:E1.
    destruct (compute_told _ _ _ _ _ _ _ _ _ (ev ++ ev0) ds E1 Hn) as (A & B & i & Hi & T1); auto.
    { intros ->. eapply Hx; eauto. }
    pose proof (compute_par _ _ _ _ _ _ _ _ _ _ _ E1) as P1.
    pose proof (compute_idx _ _ _ _ _ _ _ _ _ _ _ st era E1 (Ok st0) Hn (window_le s) Hw) as I1.
    rewrite <- app_assoc in T1.
    destruct u as [u|].
    2: { injection H as <- <-. repeat (split; [auto|]). eauto. }
    destruct (kc_defer cfg =? 0).
    - destruct (apply_slash _ _ _ _) as [s2 e2] eqn:E2. injection H as <- <-.
      pose proof (apply_slash_plain _ _ _ _ _ _ E2) as Pl.
      pose proof (apply_slash_par _ _ _ _ _ E2) as P2. pose proof (apply_slash_marks _ _ _ _ _ _ E2) as M2.
      apply apply_slash_same in E2 as [A2 B2].
      split; [unfold active_era in *; congruence|]. split; [congruence|]. split; [congruence|].
      split; [unfold kidx in *; now rewrite (proj1 (A2 st))|]. split; [auto|]. exists i. split; [auto|].
      apply (told_same s1); auto. rewrite !app_assoc in *. apply told_more; [|auto].
      eapply Forall_impl; [exact Pl|now intros []].
    - injection H as <- <-. split; [auto|]. split; [auto|]. split; [auto|]. split; [auto|]. split; [auto|]. exists i. split; [auto|].
      apply (told_same s1); auto. split; reflexivity.
  Qed.
  Lemma offenders_told x era i : forall os s s' ev0 ev' ev ds,
    fold_left (offender1 cfg x era (window cfg s) (act s)) os (s, ev0) = (s', ev') -> act s + 1 < two32 ->
    (forall ex reps f, (st, ex, reps, f) ∈ os -> x_own ex = own era /\ x_own ex <= x_total ex) ->
    era ∈ map fst (e_bonded (k_era s)) -> told s (ev ++ ev0) ds -> (forall st0, ok_at (act s) st0 (k_stk s)) ->
    kidx (window cfg s) (k_stk s) st era = Some i ->
    active_era s' = active_era s /\ (forall st0, ok_at (act s) st0 (k_stk s')) /\
    told s' (ev ++ ev') (ds ++ concat (map (demand1 (p_invul (k_par s)) i) os)).
  Proof.
    induction os as [|o os IH]; intros s s' ev0 ev' ev ds H Hn Hx He T Ok Hi; cbn [fold_left map concat] in *.
    { injection H as <- <-. rewrite app_nil_r. auto. }
    destruct (offender1 _ _ _ _ _ _ o) as [s1 e1] eqn:E1 in H.
    destruct (offender_told _ _ _ _ _ _ _ ev ds E1) as (A & B & P & Kx & Ok1 & j & Hj & T1); auto.
    { intros ex reps f ->. eapply Hx. constructor. }
    assert (j = i) as -> by congruence. destruct (active_act _ _ A) as [A1 A2].
    rewrite <- A1, <- A2 in H. destruct (IH s1 s' _ _ ev (ds ++ demand1 (p_invul (k_par s)) i o) H) as (C & D & F).
    - now rewrite A1.
    - intros ex reps f Hin. eapply Hx. constructor. eauto.
    - now rewrite B.
    - exact T1.
    - now rewrite A1.
    - rewrite A2. congruence.
    - rewrite A1 in D. split; [congruence|]. split; [auto|]. rewrite app_assoc. rewrite P in F. exact F.
  Qed.
  Lemma demand_list s x os session era i :
    report_era s session = Some era -> kidx (window cfg s) (k_stk s) st era = Some i ->
    demand cfg s (KOffence x os session) st = concat (map (demand1 (p_invul (k_par s)) i) os).
  Proof.
    intros Hr Hi. cbn [demand]. rewrite Hr. unfold span_at. unfold kidx, idx in Hi. rewrite Hi.
    case_bool_decide as Hinv.
    - induction os as [|[[[a ex] reps] f] os IH]; cbn [map concat demand1]; [auto|]. rewrite <- IH.
      case_bool_decide; [auto|]. destruct (N.eqb_spec a st); [congruence|auto].
    - induction os as [|[[[a ex] reps] f] os IH]; cbn [List.filter map concat demand1]; [auto|].
      destruct (N.eqb_spec a st) as [->|Hne].
      + cbn [map]. rewrite IH, bool_decide_false by auto. reflexivity.
      + rewrite IH. now case_bool_decide.
  Qed.

  Lemma step_told s op s' out ev ds :
    fits cfg s -> kstep cfg s op = (s', out) -> (forall st0, ok_at (act s) st0 (k_stk s)) ->
    (is_Some (s_bonded (k_stk s) !! st) -> is_Some (s_bonded (k_stk s') !! st)) ->
    match op with
    | KOffence _ os session =>
        forall era ex reps f, report_era s session = Some era -> (st, ex, reps, f) ∈ os ->
          x_own ex = own era /\ x_own ex <= x_total ex
    | _ => True
    end ->
    told s ev ds -> told s' (ev ++ events [out]) (ds ++ demand cfg s op st).
  Proof.
    intros F H Ok Nd Hx T.
    assert (Fa : match e_act (k_era s) with Some (i, _) => i + 2 < two32 | None => True end) by apply F.
    assert (Hn : act s + 1 < two32) by (unfold act; destruct (e_act (k_era s)) as [[? ?]|]; [lia|reflexivity]).
    assert (Cs : (exists x os i, op = KOffence x os i) \/ ~ reports op).
    { destruct op; try (right; intros R; exact R). left. eauto. }
    destruct Cs as [(x & os & session & ->)|Nr'].
    - cbn [kstep] in H. destruct (on_offence cfg x s os session) as [s1 ev1] eqn:E. cbn [settle] in H. injection H as <- <-.
      unfold events. cbn [map concat app]. rewrite app_nil_r.
      unfold on_offence in E. destruct (e_act (k_era s)) as [[a b]|] eqn:Ea.
      2: { injection E as <- <-. cbn [demand]. unfold report_era, active_era. rewrite Ea. cbn. now rewrite !app_nil_r. }
      assert (Hr : report_era s session = slash_era (k_era s) a session) by (unfold report_era, active_era; now rewrite Ea).
      destruct (slash_era (k_era s) a session) as [era|] eqn:Es.
      2: { injection E as <- <-. cbn [demand]. rewrite Hr. now rewrite !app_nil_r. }
      cbn zeta in E. set (s0 := set_k_stk s _) in E.
      assert (T0 : told s0 ev ds).
      { apply (told_same s); auto; [|split]; unfold s0; cbn; now destruct (s_first (k_stk s)). }
      assert (Sp : s_spans (k_stk s0) = s_spans (k_stk s)) by (unfold s0; cbn; now destruct (s_first (k_stk s))).
      assert (He : era ∈ map fst (e_bonded (k_era s))) by (eapply report_in; [apply (td_kept _ _ _ T)|eauto]).
      pose proof (bonded_in _ _ (td_kept _ _ _ T) He) as Hw.
      destruct (td_cov _ _ _ T era Hw) as [i Hi].
      rewrite (demand_list _ _ _ _ _ i Hr Hi).
      assert (Ea' : act s0 = a) by (unfold act; change (k_era s0) with (k_era s); now rewrite Ea).
      assert (Ew : window cfg s0 = ssub a (kc_bonding cfg)) by (rewrite window_act; congruence).
      assert (Ew' : window cfg s = window cfg s0) by reflexivity.
      rewrite <- Ew, <- Ea' in E. rewrite Ew' in Hi.
      refine (proj2 (proj2 (offenders_told x era i os s0 s1 [] ev1 ev ds E _ _ _ _ _ _))).
      + exact Hn.
      + intros ex reps f. apply Hx. congruence.
      + exact He.
      + now rewrite app_nil_r.
      + intros st0. unfold ok_at. rewrite Sp. apply Ok.
      + unfold kidx. rewrite Sp. exact Hi.
    - assert (Dm : demand cfg s op st = []) by (destruct op; auto; now destruct (Nr' I)).
      rewrite Dm, app_nil_r.
      destruct (step_quiet _ _ _ _ st F H Nr') as (Q1 & Q2 & Q3).
      assert (Sp : s_spans (k_stk s') !! st = s_spans (k_stk s) !! st).
      { destruct Q3 as [Q3|(Q3 & Q4 & _)]; [auto|]. apply Nd in Q3. rewrite Q4 in Q3. now destruct Q3. }
      assert (Wl : window cfg s <= window cfg s') by (rewrite !window_act; unfold ssub; lia).
      assert (Kp : kept s').
      { destruct op as [x o c|x| |i|x i|x i|a|x os i|b];
          try (destruct (step_frame _ _ _ _ H ltac:(auto) ltac:(auto)) as (A & B & M);
               apply (kept_same s); auto; [rewrite M; apply (kp_mark _ (td_kept _ _ _ T))|apply T]).
        - cbn [kstep] in H. destruct (start_session cfg x s i) as [s1 ev1] eqn:E. cbn [settle] in H. injection H as <- <-.
          eapply kept_start; eauto; [|apply T]. destruct (e_act (k_era s)) as [[? ?]|]; [lia|auto]. }
      assert (Mk : forall e m, s_in_era (k_stk s') !! (e, st) = Some m -> s_in_era (k_stk s) !! (e, st) = Some m).
      { destruct op as [x o c|x| |i|x i|x i|a|x os i|b];
          try (destruct (step_frame _ _ _ _ H ltac:(auto) ltac:(auto)) as (A & B & M); now rewrite M).
        - cbn [kstep] in H. destruct (start_session cfg x s i) as [s1 ev1] eqn:E. cbn [settle] in H. injection H as <- <-.
          apply start_marks in E as [->|(a & gone & _ & _ & _ & M & _)]; [auto| | |apply T].
          + intros e m. rewrite M. intros Hm. now apply map_filter_lookup_Some in Hm as [Hm _].
          + destruct (e_act (k_era s)) as [[? ?]|]; [lia|auto]. }
      constructor.
      + destruct (step_books _ _ _ _ _ st F H) as [_ [(st0 & S1 & S2 & -> & _)|G]]; [|apply G, T].
        apply Nd in S1. rewrite S2 in S1. now destruct S1.
      + auto.
      + apply (covered_quiet s); auto. apply T.
      + intros i. rewrite largest_app, (proj2 (uncharged_0 st i _ Q2)), (td_worst _ _ _ T). lia.
      + intros e p q Hm. pose proof (kp_mark _ Kp _ _ _ Hm) as Hb. apply bonded_in in Hb; [|auto].
        apply Mk in Hm. destruct (td_mark _ _ _ T _ _ _ Hm) as (i & I1 & I2). exists i. split; [|auto].
        rewrite <- I1. apply kidx_later; [auto|lia].
  Qed.

  Lemma run_told : forall h s ev ds,
    sane cfg s h -> never_dissolved cfg s h st -> same_exposure cfg own s h st ->
    (forall st0, ok_at (act s) st0 (k_stk s)) -> told s ev ds ->
    told (krun cfg s h) (ev ++ events (kouts cfg s h)) (ds ++ demands cfg s h st).
  Proof.
    induction h as [|op h IH]; intros s ev ds [F S] Nd Se Ok T; cbn [krun kouts demands]; [now rewrite !app_nil_r|].
    destruct S as [Ty S]. destruct Nd as [N1 Nd]. destruct Se as [S1 Se].
    rewrite events_cons, !app_assoc.
    destruct (kstep cfg s op) as [s' out] eqn:E. cbn [fst snd] in *.
    apply IH; auto.
    - intros st0. eapply step_ok; eauto.
    - eapply step_told; eauto.
  Qed.
  Lemma genesis_told b p : told (kgenesis b p) [] [].
  Proof.
    constructor.
    - apply genesis_books.
    - constructor; [reflexivity|apply SSorted_nil|apply Forall_nil_2|discriminate|].
      intros e st0 m. cbn. rewrite lookup_empty. discriminate.
    - apply genesis_covered.
    - reflexivity.
    - intros e q r. cbn. rewrite lookup_empty. discriminate.
  Qed.
End model.
