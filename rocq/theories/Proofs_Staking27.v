(** Leaving the staking pallet. *)
From Verif Require Import Base Balances Model_StakingLedger Model_Staking Spec_Staking Spec_Staking2 Spec_Staking3 Spec_Staking5
  Proofs_Arith Proofs_StakingLedger Proofs_Staking Proofs_Staking2 Proofs_Staking3 Proofs_Staking4 Proofs_Staking6
  Proofs_Staking15 Proofs_Staking16 Proofs_Staking17 Proofs_Staking20 Proofs_Staking21 Proofs_Staking22.
From stdpp Require Import gmap.
Open Scope N_scope.

Local Instance payee_dec : EqDecision payee.
Proof. solve_decision. Defined.

(** What others leave of the chunks. *)
Definition chunks_within (old new : list chunk) : Prop :=
  forall ch, ch ∈ new -> exists ch', ch' ∈ old /\ c_era ch' = c_era ch.
Lemma within_refl l : chunks_within l l.
Proof. intros ch H. eauto. Qed.
Lemma within_trans a b c : chunks_within a b -> chunks_within b c -> chunks_within a c.
Proof. intros A B ch H. destruct (B _ H) as (c1 & H1 & E1). destruct (A _ H1) as (c2 & H2 & E2). exists c2. split; [auto|congruence]. Qed.
Lemma front_within m old new : front_taken m old new -> chunks_within old new.
Proof.
  intros [gone [->|(v & v' & e & r & -> & -> & _)]] ch H.
  - exists ch. split; [apply elem_of_app; auto|auto].
  - apply elem_of_cons in H as [->|H].
    + exists (Chunk v e). split; [apply elem_of_app; right; left|reflexivity].
    + exists ch. split; [apply elem_of_app; right; now right|auto].
Qed.

Lemma back_within old new : back_taken old new -> chunks_within old new.
Proof.
  intros [gone [->|(v & v' & e & r & -> & -> & _)]] ch H.
  - exists ch. split; [apply elem_of_app; auto|auto].
  - apply elem_of_app in H as [H|H].
    + exists ch. split; [apply elem_of_app; now left|auto].
    + apply elem_of_list_singleton in H as ->. exists (Chunk v e). split; [apply elem_of_app; right; left|reflexivity].
Qed.
Lemma within_free e old new : chunks_within (l_unl old) (l_unl new) -> free_by e old -> free_by e new.
Proof. intros W F ch H. destruct (W _ H) as (c & Hc & <-). exact (F _ Hc). Qed.

Section model.
  Context (cfg : kcfg).
  Local Notation ed := (kc_ed cfg).

  Lemma fits_active s : fits cfg s -> act s + 2 < two32.
  Proof. intros (_ & _ & _ & A). unfold act. destruct (e_act (k_era s)) as [[i b]|]; [exact A|reflexivity]. Qed.
  (** ** Slashes *)
  Lemma punish_some l v : sound l -> exists l', punish ed (Some l) v = Some l' /\ sound l' /\
    l_active l' <= l_active l /\ chunks_within (l_unl l) (l_unl l').
  Proof.
    intros S. cbn. destruct (slash_ledger v ed l) as [l' got] eqn:E.
    destruct (slash_ledger_spec _ _ _ _ _ S E) as (A & _ & _ & _ & _ & D & F & _).
    destruct (got =? 0).
    - exists l. split; [auto|]. split; [auto|]. split; [lia|apply within_refl].
    - exists l'. split; [auto|]. split; [auto|]. split; [destruct D as [->|[->|[_ D]]]; lia|eapply front_within; eauto].
  Qed.
  Lemma punish_all : forall vs l, sound l -> exists l', fold_left (punish ed) vs (Some l) = Some l' /\
    l_active l' <= l_active l /\ chunks_within (l_unl l) (l_unl l').
  Proof.
    induction vs as [|v vs IH]; intros l S; cbn [fold_left].
    - exists l. split; [auto|]. split; [lia|apply within_refl].
    - destruct (punish_some l v S) as (l1 & -> & S1 & A1 & W1). destruct (IH l1 S1) as (l2 & -> & A2 & W2).
      exists l2. split; [auto|]. split; [lia|eapply within_trans; eauto].
  Qed.

  (** ** Rewards *)
  Definition paired (k : stk) : Prop :=
    forall st c, s_bonded k !! st = Some c -> exists l, s_ledger k !! c = Some l /\ l_stash l = st.
  Definition chunks_of (s : kstate) (st : N) : option (list chunk) := l_unl <$> stake_of s st.
  Lemma payout_stake x s v am s' ev st :
    paired (k_stk s) -> validator_payout cfg x s v am = (s', ev) ->
    paired (k_stk s') /\ s_bonded (k_stk s') = s_bonded (k_stk s) /\ s_payee (k_stk s') = s_payee (k_stk s) /\
    chunks_of s' st = chunks_of s st /\
    (default PStaked (payee_at s st) <> PStaked -> stake_of s' st = stake_of s st).
  Proof.
    intros P H. unfold validator_payout in H. unfold payee_at.
    assert (Q : forall b, s' = set_k_bank s b -> paired (k_stk s') /\ s_bonded (k_stk s') = s_bonded (k_stk s) /\
      s_payee (k_stk s') = s_payee (k_stk s) /\ chunks_of s' st = chunks_of s st /\
      (default PStaked (s_payee (k_stk s) !! st) <> PStaked -> stake_of s' st = stake_of s st)).
    { intros b ->. repeat split; auto. }
    assert (Q0 : s' = s -> paired (k_stk s') /\ s_bonded (k_stk s') = s_bonded (k_stk s) /\
      s_payee (k_stk s') = s_payee (k_stk s) /\ chunks_of s' st = chunks_of s st /\
      (default PStaked (s_payee (k_stk s) !! st) <> PStaked -> stake_of s' st = stake_of s st)).
    { intros ->. repeat split; auto. }
    destruct (default PStaked (s_payee (k_stk s) !! v)) as [| | |a] eqn:Ep.
    - destruct (s_bonded (k_stk s) !! v) as [c|] eqn:Eb; [|injection H as <- _; now apply Q0].
      destruct (P _ _ Eb) as (l & El & Es). rewrite El in H.
      destruct (mint_existing cfg (k_bank s) v am) as [b g]. injection H as <- _.
      set (l' := Ledger _ _ _ _). set (s0 := set_k_bank s b).
      assert (B : s_bonded (k_stk (update_ledger cfg x s0 c l')) = s_bonded (k_stk s)).
      { unfold update_ledger, set_lock. now destruct (_ =? 0). }
      assert (Y : s_payee (k_stk (update_ledger cfg x s0 c l')) = s_payee (k_stk s)).
      { unfold update_ledger, set_lock. now destruct (_ =? 0). }
      assert (L : s_ledger (k_stk (update_ledger cfg x s0 c l')) = <[c := l']> (s_ledger (k_stk s))).
      { unfold update_ledger, set_lock. now destruct (_ =? 0). }
      split; [|split; [exact B|split; [exact Y|]]].
      + intros st0 c0 H0. rewrite B in H0. rewrite L. destruct (P _ _ H0) as (l0 & E0 & E1).
        destruct (decide (c = c0)) as [<-|Hn]; [|rewrite lookup_insert_ne by auto; eauto].
        rewrite lookup_insert. exists l'. split; [auto|]. cbn. congruence.
      + unfold chunks_of, stake_of. rewrite B, L. destruct (s_bonded (k_stk s) !! st) as [c0|] eqn:E0; [|auto].
        destruct (decide (c = c0)) as [<-|Hn]; [|rewrite lookup_insert_ne by auto; auto].
        rewrite lookup_insert, El. split; [reflexivity|]. intros Hp. exfalso. apply Hp.
        destruct (P _ _ E0) as (l0 & E1 & E2). replace st with v by congruence. exact Ep.
    - destruct (mint_existing cfg (k_bank s) v am) as [b g]. injection H as <- _. now apply (Q b).
    - destruct (s_bonded (k_stk s) !! v); [|injection H as <- _; now apply Q0].
      destruct (Model_Operation.mint _ _ _ _) as [b g]. injection H as <- _. now apply (Q b).
    - destruct (Model_Operation.mint _ _ _ _) as [b g]. injection H as <- _. now apply (Q b).
  Qed.
  Lemma pay_each_stake x pts po st : forall vs s t s' t' ev,
    paired (k_stk s) -> pay_each cfg x pts po vs s t = (s', t', ev) ->
    s_bonded (k_stk s') = s_bonded (k_stk s) /\ s_payee (k_stk s') = s_payee (k_stk s) /\
    chunks_of s' st = chunks_of s st /\
    (default PStaked (payee_at s st) <> PStaked -> stake_of s' st = stake_of s st).
  Proof.
    induction vs as [|v vs IH]; intros s t s' t' ev P H; cbn [pay_each] in H; [injection H as <- _ _; auto|].
    destruct (_ =? 0); [eapply IH; eauto|].
    destruct (validator_payout _ _ _ _ _) as [s1 e1] eqn:E1. destruct (pay_each _ _ _ _ _ s1 _) as [[s2 t2] e2] eqn:E2.
    injection H as <- _ _. destruct (payout_stake _ _ _ _ _ _ st P E1) as (P1 & A1 & A2 & A3 & A4).
    destruct (IH _ _ _ _ _ P1 E2) as (B1 & B2 & B3 & B4). split; [congruence|]. split; [congruence|]. split; [congruence|].
    intros Hp. rewrite B4, A4; auto. unfold payee_at in *. congruence.
  Qed.
  Lemma end_session_stake x s i s' ev st :
    paired (k_stk s) -> end_session cfg x s i = (s', ev) ->
    s_bonded (k_stk s') = s_bonded (k_stk s) /\ chunks_of s' st = chunks_of s st /\
    (default PStaked (payee_at s st) <> PStaked -> stake_of s' st = stake_of s st).
  Proof.
    intros P. unfold end_session. destruct (e_act (k_era s)) as [[j b]|]; [|intros [= <- _]; auto].
    destruct (_ !! _); [|intros [= <- _]; auto]. destruct (_ && _); [|intros [= <- _]; auto].
    unfold pay_validators. destruct (_ =? 0); [intros [= <- _]; auto|]. cbn zeta.
    destruct (pay_each _ _ _ _ _ _ _) as [[s1 t] e1] eqn:E. intros [= <- _].
    destruct (pay_each_stake _ _ _ st _ _ _ _ _ _ P E) as (A & _ & B & C). auto.
  Qed.

  (** ** Calls *)
  (** A call of somebody else leaves a stake as it is, or dissolves it. *)
  Lemma call_away x o c s s' out st ct l :
    fits cfg s -> linv (view s) -> kstep cfg s (KCall x o c) = (s', out) -> away st ct (KCall x o c) ->
    controls s ct st -> stake_of s st = Some l ->
    ~ bonded s' st \/ (controls s' ct st /\ stake_of s' st = Some l).
  Proof.
    intros (Ty & _) I H A B E. destruct (step_path cfg _ _ _ _ Ty H) as (ls & P & L & N0). cbn in N0.
    unfold controls, bonded in *. change (s_bonded (k_stk s')) with (v_bonded (view s')).
    change (stake_of s' st) with (stakev (view s') st). change (stake_of s st) with (stakev (view s) st) in E.
    change (s_bonded (k_stk s)) with (v_bonded (view s)) in B.
    destruct ls as [|lb [|]]; [|apply lpath_one_inv in P; apply Forall_cons in L as [L _]|cbn in N0; lia].
    { apply lpath_nil_inv in P. rewrite P. auto. }
    set (m' := view s') in *. clearbody m'. pose proof (lmove_moved _ _ _ _ st I P) as M.
    assert (Hs : stakev m' st = stakev (view s) st \/ lb = LKill st).
    { inversion M as [lb0 E0|c0 v Hn E0|c0 h l0 Hb Hl Hc E0|E0]; subst; auto.
      - congruence.
      - exfalso. assert (c0 = ct) as -> by congruence. destruct h; cbn in L.
        + destruct L as (x0 & n & Eo & _). injection Eo as -> -> ->. cbn in A. tauto.
        + destruct L as (x0 & st0 & v0 & Eo & Hb0 & _). injection Eo as -> -> ->.
          assert (st0 = st) as -> by (destruct (li_bonded _ I _ _ Hb) as (l1 & A1 & B1); destruct (li_bonded _ I _ _ Hb0) as (l2 & A2 & B2); congruence).
          cbn in A. tauto.
        + destruct L as (x0 & v0 & l1 & Eo & _). injection Eo as -> -> ->. cbn in A. tauto.
        + destruct L as (x0 & n & Eo & _). injection Eo as -> -> ->. cbn in A. tauto.
        + destruct L as (x0 & Eo). injection Eo as -> -> ->. cbn in A. tauto.
        + destruct L as [(x0 & i & Eo)|(x0 & os & i & Eo & _)]; discriminate.
        + destruct L as (x0 & Eo). injection Eo as -> -> ->. cbn in A. tauto.
        + destruct L as ((x0 & i & Eo) & _). discriminate. }
    assert (Hk : lb = LKill st \/ lb <> LKill st).
    { destruct lb as [| |a|]; try (right; discriminate). destruct (decide (a = st)) as [->|]; [auto|right; congruence]. }
    destruct Hk as [->|Hk].
    - left. inversion P; subst. cbn. rewrite lookup_delete. intros [? ?]. discriminate.
    - right. destruct Hs as [Hs|Hs]; [|contradiction]. rewrite Hs. split; [|exact E].
      inversion P; subst; cbn; auto.
      + destruct (decide (st0 = st)) as [->|Hn]; [|now rewrite lookup_insert_ne]. congruence.
      + destruct (decide (st0 = st)) as [->|Hn]; [contradiction|now rewrite lookup_delete_ne].
      + destruct (decide (st0 = st)) as [->|Hn]; [|now rewrite lookup_insert_ne].
        exfalso. destruct L as (x0 & Eo). injection Eo as -> -> ->. cbn in A. tauto.
  Qed.

  (** ** Steps *)
  Lemma step_away s op s' out st ct l :
    fits cfg s -> linv (view s) -> qinv s -> kstep cfg s op = (s', out) -> away st ct op ->
    controls s ct st -> stake_of s st = Some l ->
    ~ bonded s' st \/
    (controls s' ct st /\ payee_at s' st = payee_at s st /\
     exists l', stake_of s' st = Some l' /\ chunks_within (l_unl l) (l_unl l') /\
       (default PStaked (payee_at s st) <> PStaked ->
        l_active l' <= l_active l /\ l_total l' + slashed_over cfg st s [op] = l_total l)).
  Proof.
    intros F I Q H A B E.
    assert (Y : ~ bonded s' st \/ payee_at s' st = payee_at s st).
    { destruct (decide (payee_at s' st = payee_at s st)) as [|Hn]; [auto|]. left.
      destruct (step_payee cfg _ _ _ _ st I H Hn) as (x & o & c & -> & [(ct0 & v & d & -> & -> & _)|[(ct0 & d & -> & Hc & -> & _)|(_ & Nb & _)]]); [| |exact Nb].
      - cbn in A. tauto.
      - unfold controls in *. assert (ct0 = ct) as -> by congruence. cbn in A. tauto. }
    assert (Same : (match op with KStartSession _ _ | KOffence _ _ _ => False | _ => True end) ->
      ~ bonded s' st \/ (controls s' ct st /\ stake_of s' st = Some l) ->
      ~ bonded s' st \/ (controls s' ct st /\ payee_at s' st = payee_at s st /\
       exists l', stake_of s' st = Some l' /\ chunks_within (l_unl l) (l_unl l') /\
       (default PStaked (payee_at s st) <> PStaked ->
        l_active l' <= l_active l /\ l_total l' + slashed_over cfg st s [op] = l_total l))).
    { intros Ho [Nb|[C St]]; [auto|]. destruct Y as [Y|Y]; [auto|]. right. split; [auto|]. split; [auto|].
      exists l. split; [auto|]. split; [apply within_refl|]. intros _. cbn. destruct op; try contradiction; lia. }
    assert (View : (match op with KStartSession _ _ | KOffence _ _ _ => False | _ => True end) -> view s' = view s ->
      ~ bonded s' st \/ (controls s' ct st /\ stake_of s' st = Some l)).
    { intros _ V. right. unfold controls. change (s_bonded (k_stk s')) with (v_bonded (view s')).
      change (stake_of s' st) with (stakev (view s') st). rewrite V. auto. }
    assert (Slash : forall vs ev, (match op with KStartSession _ _ | KOffence _ _ _ => True | _ => False end) -> out = KDone ev ->
      s_bonded (k_stk s') = s_bonded (k_stk s) -> stake_of s' st = fold_left (punish ed) vs (stake_of s st) ->
      slash_sum st ev + total_of s' st = total_of s st ->
      ~ bonded s' st \/ (controls s' ct st /\ payee_at s' st = payee_at s st /\
       exists l', stake_of s' st = Some l' /\ chunks_within (l_unl l) (l_unl l') /\
       (default PStaked (payee_at s st) <> PStaked ->
        l_active l' <= l_active l /\ l_total l' + slashed_over cfg st s [op] = l_total l))).
    { intros vs ev Ho Eo Eb Es Et. destruct Y as [Y|Y]; [auto|]. right.
      split; [unfold controls in *; now rewrite Eb|]. split; [auto|].
      assert (S : sound l). { destruct (stakev_some _ st l I E) as (c & _ & Hl & _). exact (li_sound _ I _ _ Hl). }
      rewrite E in Es. destruct (punish_all vs l S) as (l' & El & A1 & W). rewrite El in Es. exists l'. split; [auto|]. split; [auto|].
      intros _. split; [auto|]. unfold total_of in Et. rewrite E, Es in Et. cbn [slashed_over].
      destruct op; try contradiction; rewrite H, Eo; cbn [fst snd]; lia. }
    destruct op as [x o c|x| |i|x i|x i|a|x os i|b].
    - apply (Same Logic.I). eapply call_away; eauto.
    - apply (Same Logic.I), (View Logic.I). destruct F as (Ty & _). destruct (step_path cfg _ _ _ _ Ty H) as (ls & P & _ & N0). cbn in N0. subst. now apply lpath_nil_inv in P.
    - apply (Same Logic.I), (View Logic.I). destruct F as (Ty & _). destruct (step_path cfg _ _ _ _ Ty H) as (ls & P & _ & N0). cbn in N0. subst. now apply lpath_nil_inv in P.
    - apply (Same Logic.I), (View Logic.I). destruct F as (Ty & _). destruct (step_path cfg _ _ _ _ Ty H) as (ls & P & _ & N0). cbn in N0. subst. now apply lpath_nil_inv in P.
    - pose proof H as H0. cbn [kstep] in H0. destruct (start_session cfg x s i) as [s1 ev] eqn:Es. cbn [settle] in H0. injection H0 as <- <-.
      assert (Eb : s_bonded (k_stk s1) = s_bonded (k_stk s)) by (apply start_session_keeps in Es; apply Es).
      destruct (start_stake _ _ _ _ _ _ (linv_pairs _ I) Q (fits_active _ F) Es) as [[-> ->]|(a & _ & _ & _ & A4 & A5 & _)].
      + now apply (Slash [] [] Logic.I eq_refl Eb).
      + eapply Slash; eauto.
    - pose proof H as H0. cbn [kstep] in H0. destruct (end_session cfg x s i) as [s1 ev] eqn:Es. cbn [settle] in H0. injection H0 as <- <-.
      destruct (end_session_stake _ _ _ _ _ st (li_bonded _ I) Es) as (A1 & A2 & A3).
      destruct Y as [Y|Y]; [auto|]. right. split; [unfold controls in *; now rewrite A1|]. split; [auto|].
      unfold chunks_of in A2. rewrite E in A2, A3. destruct (stake_of s1 st) as [l'|]; [|discriminate].
      cbn in A2. injection A2 as A2. exists l'. split; [auto|]. split; [rewrite A2; apply within_refl|].
      intros Hp. specialize (A3 Hp). injection A3 as ->. cbn. lia.
    - apply (Same Logic.I), (View Logic.I). destruct F as (Ty & _). destruct (step_path cfg _ _ _ _ Ty H) as (ls & P & _ & N0). cbn in N0. subst. now apply lpath_nil_inv in P.
    - pose proof H as H0. cbn [kstep] in H0. destruct (on_offence cfg x s os i) as [s1 ev] eqn:Es. cbn [settle] in H0. injection H0 as <- <-.
      assert (Eb : s_bonded (k_stk s1) = s_bonded (k_stk s)) by (apply on_offence_chilled in Es; apply Es).
      destruct (offence_queue _ _ _ _ _ _ _ (linv_pairs _ I) Es) as (new & _ & _ & C & D & _).
      destruct (_ =? 0); destruct D as [_ D].
      + eapply Slash; eauto.
      + apply (Slash [] ev Logic.I eq_refl Eb); [exact (D st)|exact (C st)].
    - apply (Same Logic.I), (View Logic.I). destruct F as (Ty & _). destruct (step_path cfg _ _ _ _ Ty H) as (ls & P & _ & N0). cbn in N0. subst. now apply lpath_nil_inv in P.
  Qed.

  (** ** Histories *)
  Lemma step_unbonded s op s' out st ct :
    fits cfg s -> kstep cfg s op = (s', out) -> away st ct op -> ~ bonded s st -> ~ bonded s' st.
  Proof.
    intros (Ty & _) H A Nb. destruct (step_path cfg _ _ _ _ Ty H) as (ls & P & L & _).
    unfold bonded in *. change (s_bonded (k_stk s')) with (v_bonded (view s')). change (s_bonded (k_stk s)) with (v_bonded (view s)) in Nb.
    revert P Nb L. generalize (view s). generalize (view s'). intros m' m P.
    induction P as [m|m lb m1 ls m2 M P IH]; intros Nb L; [exact Nb|]. apply Forall_cons in L as [L1 L2]. apply IH; [|exact L2].
    clear IH P L2. destruct M; cbn in *; auto.
    - destruct L1 as (x & v0 & d & -> & _). cbn in A. rewrite lookup_insert_ne by tauto. exact Nb.
    - destruct (decide (st0 = st)) as [->|Hn]; [rewrite lookup_delete; intros [? ?]; discriminate|now rewrite lookup_delete_ne].
    - destruct L1 as (x & ->). cbn in A. rewrite lookup_insert_ne by tauto. exact Nb.
  Qed.
  Lemma run_unbonded st ct : forall h s, sane cfg s h -> Forall (away st ct) h -> ~ bonded s st -> ~ bonded (krun cfg s h) st.
  Proof.
    induction h as [|op h IH]; intros s [F S] A Nb; [exact Nb|]. destruct S as [_ S]. apply Forall_cons in A as [A1 A2]. cbn [krun].
    apply IH; auto. destruct (kstep cfg s op) as [s' out] eqn:E. eapply step_unbonded; eauto.
  Qed.
  Lemma run_away st ct : forall h s l,
    sane cfg s h -> linv (view s) -> qinv s -> Forall (away st ct) h -> controls s ct st -> stake_of s st = Some l ->
    let s' := krun cfg s h in
    ~ bonded s' st \/
    (controls s' ct st /\ payee_at s' st = payee_at s st /\
     exists l', stake_of s' st = Some l' /\ chunks_within (l_unl l) (l_unl l') /\
       (default PStaked (payee_at s st) <> PStaked ->
        l_active l' <= l_active l /\ l_total l' + slashed_over cfg st s h = l_total l)).
  Proof.
    induction h as [|op h IH]; intros s l [F S] I Q A C E; cbn zeta.
    - right. split; [exact C|]. split; [auto|]. exists l. split; [exact E|]. split; [apply within_refl|]. cbn. intros _. lia.
    - destruct S as [T S]. apply Forall_cons in A as [A1 A2].
      assert (Sp : slashed_over cfg st s (op :: h) = slashed_over cfg st s [op] + slashed_over cfg st (kstep cfg s op).1 h).
      { cbn [slashed_over]. rewrite N.add_0_r. reflexivity. }
      rewrite Sp. clear Sp. cbn [krun]. destruct (kstep cfg s op) as [s1 out] eqn:H. cbn [fst snd] in *.
      pose proof (step_linv cfg _ _ _ _ F T I H) as I1. pose proof (step_qinv cfg _ _ _ _ F I H Q) as Q1.
      destruct (step_away _ _ _ _ _ _ _ F I Q H A1 C E) as [Nb|(C1 & Y1 & l1 & E1 & W1 & X1)].
      + left. eapply run_unbonded; eauto.
      + destruct (IH s1 l1 S I1 Q1 A2 C1 E1) as [Nb|(C2 & Y2 & l2 & E2 & W2 & X2)]; [auto|]. right.
        split; [auto|]. split; [congruence|]. exists l2. split; [auto|]. split; [eapply within_trans; eauto|].
        intros Hp. destruct (X1 Hp) as [G1 G2]. rewrite Y1 in X2. destruct (X2 Hp) as [G3 G4]. split; lia.
  Qed.

  (** ** When chunks become free *)
  Lemma cur_era_grows s op s' out : fits cfg s -> kstep cfg s op = (s', out) ->
    cur_era s <= cur_era s' /\ (is_Some (e_cur (k_era s)) -> is_Some (e_cur (k_era s'))).
  Proof.
    intros F H. unfold cur_era.
    destruct (match op with KNewSession _ | KStartSession _ _ => true | _ => false end) eqn:Eo.
    - destruct op as [x o c|x| |i|x i|x i|a|x os i|b]; try discriminate; cbn [kstep] in H.
      + destruct (new_session cfg s i) as [s1 ev] eqn:E. cbn in H. injection H as <- <-.
        apply new_session_spec in E as (_ & _ & _ & [(-> & _)|(E & _)]); [split; [lia|auto]|].
        rewrite E. cbn. split; [|eauto]. unfold planned. destruct F as (_ & _ & F & _). unfold cur_era in F.
        destruct (e_cur (k_era s)) as [c|]; cbn in *; [|lia]. rewrite add32_exact by lia. lia.
      + destruct (start_session cfg x s i) as [s1 ev] eqn:E. cbn in H. injection H as <- <-.
        apply start_session_spec in E as [[-> _]|[_ ->]]; cbn; split; auto; lia.
    - assert (P : plain op) by (destruct op; try discriminate; exact I). destruct (bystander cfg _ _ _ _ H P) as [-> _]. split; [lia|auto].
  Qed.
  Lemma run_cur_era : forall h s, sane cfg s h -> cur_era s <= cur_era (krun cfg s h).
  Proof.
    induction h as [|op h IH]; intros s [F S]; [cbn; lia|]. destruct S as [_ S]. cbn [krun].
    destruct (kstep cfg s op) as [s1 out] eqn:E. pose proof (cur_era_grows _ _ _ _ F E) as [G _]. specialize (IH _ S). cbn in *. lia.
  Qed.
  Definition timely (e : N) (m : lview) : Prop := forall c l, v_ledger m !! c = Some l -> free_by e l.
  Lemma change_timely e h l : sound l -> l_total l < two128 -> (forall v, h = HRebond v -> v < two128) ->
    (forall v era, h = HUnbond v era -> era <= e) -> free_by e l -> free_by e (change ed h l).
  Proof.
    intros S T B U F. destruct h as [|v|v era|era|v|v|v|v]; cbn [change]; auto.
    - intros ch Hch. cbn in Hch. apply elem_of_app in Hch as [Hch|Hch]; [now apply F|]. apply elem_of_list_singleton in Hch as ->. cbn. now apply (U v era).
    - intros ch Hch. apply F. cbn in Hch. apply elem_of_list_In in Hch. apply List.filter_In in Hch as [Hch _]. now apply elem_of_list_In.
    - destruct (rebond_spec v l S T (B v eq_refl)) as (_ & _ & _ & _ & H). apply back_within in H. eapply within_free; eauto.
    - destruct (slash_ledger v ed l) as [l' g] eqn:E. destruct (slash_ledger_spec _ _ _ _ _ S E) as (_ & _ & _ & _ & _ & _ & H & _).
      apply front_within in H. eapply within_free; eauto.
    - destruct (slash_ledger v ed l) as [l' g] eqn:E. destruct (slash_ledger_spec _ _ _ _ _ S E) as (_ & _ & _ & _ & _ & _ & H & _).
      apply front_within in H. eapply within_free; eauto.
  Qed.
  Lemma lmove_timely e m lb m' : linv m -> lmove ed m lb m' ->
    (forall c v, lb = LUpd c (HRebond v) -> v < two128) -> (forall c v era, lb = LUpd c (HUnbond v era) -> era <= e) ->
    timely e m -> timely e m'.
  Proof.
    intros I M B U T. destruct M as [m st c v Hb Hl|m c h l Hl Hc|m st c Hb|m st c old l Hb Hl Hne Ho]; intros c' l' E; cbn in E.
    - destruct (decide (c = c')) as [<-|Hn]; [rewrite lookup_insert in E; injection E as <-; intros ch Hch; inversion Hch|].
      rewrite lookup_insert_ne in E by auto. exact (T _ _ E).
    - destruct (decide (c = c')) as [<-|Hn]; [|rewrite lookup_insert_ne in E by auto; exact (T _ _ E)].
      rewrite lookup_insert in E. injection E as <-. apply change_timely.
      + exact (li_sound _ I _ _ Hl).
      + exact (li_small _ I _ _ Hl).
      + intros v ->. exact (B _ _ eq_refl).
      + intros v era ->. exact (U _ _ _ eq_refl).
      + exact (T _ _ Hl).
    - destruct (decide (c = c')) as [<-|Hn]; [now rewrite lookup_delete in E|]. rewrite lookup_delete_ne in E by auto. exact (T _ _ E).
    - destruct l as [l|]; [|exact (T _ _ E)]. destruct (decide (c = c')) as [<-|Hn].
      + rewrite lookup_insert in E. injection E as <-. exact (T _ _ Ho).
      + rewrite lookup_insert_ne in E by auto. apply lookup_delete_Some in E as [_ E]. exact (T _ _ E).
  Qed.
  Lemma step_timely s op s' out :
    fits cfg s -> op_typed op -> linv (view s) -> kstep cfg s op = (s', out) ->
    timely (cur_era s + kc_bonding cfg) (view s) -> timely (cur_era s' + kc_bonding cfg) (view s').
  Proof.
    intros F Ty I H T. pose proof (cur_era_grows _ _ _ _ F H) as [G _].
    assert (T1 : timely (cur_era s + kc_bonding cfg) (view s')).
    { pose proof F as (Fb & _ & Fe & _). destruct (step_path cfg _ _ _ _ Fb H) as (ls & P & L & _). rewrite Forall_forall in L.
      destruct (match op with KEndSession _ _ => true | _ => false end) eqn:Eo.
      - assert (R : forall lb, lb ∈ ls -> exists c v, lb = LUpd c (HReward v)).
        { intros lb Hin. specialize (L lb Hin). destruct op; try discriminate. destruct lb as [st c v|c []|st|st c]; cbn in L;
            try (repeat match goal with H : exists _, _ |- _ => destruct H as [? H] | H : _ /\ _ |- _ => destruct H
                 | H : _ \/ _ |- _ => destruct H end; discriminate). eauto. }
        clear L. revert R T. revert P. generalize (cur_era s + kc_bonding cfg). generalize (view s) (view s'). clear. intros mv mv' e P.
        induction P as [m|m lb m1 ls m2 M P IH]; intros R T; [exact T|].
        apply IH; [intros lb0 Hin; apply R; now right|].
        destruct (R lb) as (c & v & ->); [left|]. inversion M as [|m0 c0 h l Hl Hc E1 E2 E3| |]; subst.
        intros c' l' E. cbn in E. destruct (decide (c = c')) as [<-|Hn]; [|rewrite lookup_insert_ne in E by auto; exact (T _ _ E)].
        rewrite lookup_insert in E. injection E as <-. exact (T _ _ Hl).
      - assert (R : forall lb, lb ∈ ls -> (forall c v, lb = LUpd c (HRebond v) -> v < two128) /\
          (forall c v era, lb = LUpd c (HUnbond v era) -> era <= cur_era s + kc_bonding cfg) /\ (forall m, lab_fits m lb)).
        { intros lb Hin. specialize (L lb Hin). split; [|split].
          - intros c v ->. cbn in L. destruct L as (x & ->). exact Ty.
          - intros c v era ->. cbn in L. destruct L as (x & v0 & l & _ & _ & -> & _). rewrite add32_exact by lia. lia.
          - intros m. destruct lb as [st c v|c []|st|st c]; cbn in L |- *; auto.
            + destruct L as (x & v0 & d & _ & -> & _). pose proof (Fb st). lia.
            + destruct L as (x & ->). exact Ty.
            + destruct L as ((x & i & ->) & _). discriminate. }
        clear L. revert R I T. revert P. generalize (cur_era s + kc_bonding cfg). generalize (view s) (view s'). clear. intros mv mv' e P.
        induction P as [m|m lb m1 ls m2 M P IH]; intros R I T; [exact T|].
        destruct (R lb) as (R1 & R2 & R3); [left|]. apply IH; [intros lb0 Hin; apply R; now right| |].
        + eapply lmove_inv; eauto.
        + eapply lmove_timely; eauto. }
    intros c l E ch Hch. specialize (T1 c l E ch Hch). lia.
  Qed.
  Lemma run_timely : forall h s, sane cfg s h -> linv (view s) -> timely (cur_era s + kc_bonding cfg) (view s) ->
    timely (cur_era (krun cfg s h) + kc_bonding cfg) (view (krun cfg s h)).
  Proof.
    induction h as [|op h IH]; intros s [F S] I T; [exact T|]. destruct S as [Ty S]. cbn [krun].
    destruct (kstep cfg s op) as [s1 out] eqn:E. apply IH; [exact S| |].
    - eapply step_linv; eauto.
    - eapply step_timely; eauto.
  Qed.
  Lemma genesis_timely b p : timely (cur_era (kgenesis b p) + kc_bonding cfg) (view (kgenesis b p)).
  Proof. intros c l E. cbn in E. now rewrite lookup_empty in E. Qed.

  (** ** Leaving *)
  Lemma leave_calls x s ct st l v dest :
    linv (view s) -> controls s ct st -> stake_of s st = Some l -> (length (l_unl l) < 32)%nat -> l_active l <= v ->
    let h := [KCall x (Signed ct) (KSetPayee dest); KCall x (Signed ct) (KUnbond v)] in
    let s1 := krun cfg s h in
    Forall accepted (kouts cfg s h) /\ controls s1 ct st /\ payee_at s1 st = Some dest /\ k_era s1 = k_era s /\
    exists l1, stake_of s1 st = Some l1 /\ l_total l1 = l_total l /\ l_active l1 = 0 /\
      (forall ch, ch ∈ l_unl l1 -> ch ∈ l_unl l \/ c_era ch = add32 (cur_era s) (kc_bonding cfg)).
  Proof.
    intros I C E Hl Hv h s1. unfold controls in C. cbn in C.
    destruct (stakev_some _ st l I E) as (c & Hb & Hc & Hst). cbn in Hb, Hc. assert (c = ct) as -> by congruence.
    subst h s1. cbn [krun kouts kstep dispatch]. unfold controlled, signed. rewrite Hc, Hst. cbn [settle fst snd].
    set (sp := set_k_stk s _). unfold unbond. replace (s_ledger (k_stk sp) !! ct) with (Some l) by (symmetry; exact Hc).
    unfold ensure. destruct (N.ltb_spec (N.of_nat (length (l_unl l))) MAX_CHUNKS) as [_|Hx]; [|unfold MAX_CHUNKS in Hx; lia].
    cbn [rbind]. rewrite (N.min_r _ _ Hv).
    destruct (N.eqb_spec (l_active l) 0) as [Ha|Ha]; cbn [settle fst snd].
    - split; [repeat constructor; eexists; reflexivity|]. split; [exact C|]. split; [unfold payee_at; cbn; now rewrite lookup_insert|].
      split; [reflexivity|]. exists l. split; [exact E|]. split; [auto|]. split; [auto|]. auto.
    - rewrite N.sub_diag. cbn zeta.
      destruct (if 0 <? p_ed (k_par sp) then _ else _) as [v2 a2] eqn:E2.
      assert (v2 = l_active l /\ a2 = 0) as [-> ->].
      { destruct (0 <? p_ed (k_par sp)); injection E2 as <- <-; split; auto; lia. }
      cbn [settle fst snd]. set (l1 := Ledger _ _ _ _).
      assert (B : s_bonded (k_stk (update_ledger cfg x sp ct l1)) = s_bonded (k_stk s) /\
        s_payee (k_stk (update_ledger cfg x sp ct l1)) = <[st := dest]> (s_payee (k_stk s)) /\
        s_ledger (k_stk (update_ledger cfg x sp ct l1)) = <[ct := l1]> (s_ledger (k_stk s)) /\
        k_era (update_ledger cfg x sp ct l1) = k_era s).
      { unfold update_ledger, set_lock. now destruct (_ =? 0). }
      destruct B as (B1 & B2 & B3 & B4).
      split; [repeat constructor; eexists; reflexivity|]. split; [unfold controls; now rewrite B1|].
      split; [unfold payee_at; now rewrite B2, lookup_insert|]. split; [exact B4|]. exists l1.
      split; [unfold stake_of; now rewrite B1, C, B3, lookup_insert|]. split; [reflexivity|]. split; [reflexivity|].
      intros ch Hch. cbn in Hch. apply elem_of_app in Hch as [Hch|Hch]; [auto|]. right. apply elem_of_list_singleton in Hch as ->. reflexivity.
  Qed.
  (** A withdrawal of everything. *)
  Lemma unstake_frz x s st n s' : unstake cfg x s st n = ROk s' -> frz (acct_of (k_bank s') st) <= kx_other x st.
  Proof.
    unfold unstake. intros H. inv_bind H. injection H as <-. cbn. unfold freeze, acct_of, put. cbn.
    destruct (_ && _); cbn.
    - rewrite lookup_delete. cbn. lia.
    - rewrite lookup_insert. cbn. lia.
  Qed.
End model.
