(** Lemmas for property C199. *)
From Verif Require Import Base Balances Model_StakingLedger Model_Staking Spec_Staking Spec_Staking2 Spec_Staking4 Spec_History
  Proofs_Arith Proofs_StakingLedger Proofs_Staking Proofs_Staking2 Proofs_Staking6 Proofs_Staking12 Proofs_Staking16
  Proofs_Staking17 Proofs_Staking19 Proofs_Staking22 Proofs_Staking23 Proofs_Reporter2 Proofs_Reporter3.
From stdpp Require Import gmap.
Open Scope N_scope.

Lemma keep_lookup {A} (a b : N) (m : gmap N A) k :
  filter (fun p : N * A => keep_out a b p.1) m !! k = if (a <=? k) && (k <? b) then None else m !! k.
Proof.
  destruct ((a <=? k) && (k <? b)) eqn:E.
  - apply map_filter_lookup_None. right. intros v _ H. unfold keep_out in H. cbn in H. lia.
  - destruct (m !! k) as [v|] eqn:F; [apply map_filter_lookup_Some|apply map_filter_lookup_None; auto].
    split; [exact F|]. unfold keep_out. cbn. lia.
Qed.
Lemma keep_lookup2 {A} (a b : N) (m : gmap (N * N) A) k v :
  filter (fun p : N * N * A => keep_out a b p.1.1) m !! (k, v) = if (a <=? k) && (k <? b) then None else m !! (k, v).
Proof.
  destruct ((a <=? k) && (k <? b)) eqn:E.
  - apply map_filter_lookup_None. right. intros w _ H. unfold keep_out in H. cbn in H. lia.
  - destruct (m !! (k, v)) as [w|] eqn:F; [apply map_filter_lookup_Some|apply map_filter_lookup_None; auto].
    split; [exact F|]. unfold keep_out. cbn. lia.
Qed.

Section model.
  Context (cfg : kcfg).

  (** What a step does to the records. *)
  Definition untouched (s s' : kstate) : Prop :=
    e_cur (k_era s') = e_cur (k_era s) /\ p_depth (k_par s') = p_depth (k_par s) /\
    e_start (k_era s') = e_start (k_era s) /\ e_vals (k_era s') = e_vals (k_era s) /\
    e_stakers (k_era s') = e_stakers (k_era s) /\ e_stake (k_era s') = e_stake (k_era s).
  Definition deepened (s s' : kstate) (e v : N) : Prop :=
    e_cur (k_era s) = Some e /\ p_depth (k_par s') = v /\
    k_era s' = clear_eras (k_era s) (e - p_depth (k_par s)) (e - v).
  Definition renewed (s s' : kstate) : Prop :=
    let d := add32 (p_depth (k_par s)) 1 in
    let n := planned s in
    let c i := (d <=? n) && ((n - d <=? i) && (i <? n - d + 1)) in
    e_cur (k_era s') = Some n /\ p_depth (k_par s') = p_depth (k_par s) /\
    forall i, i <> n ->
      e_start (k_era s') !! i = (if c i then None else e_start (k_era s) !! i) /\
      e_vals (k_era s') !! i = (if c i then None else e_vals (k_era s) !! i) /\
      e_stake (k_era s') !! i = (if c i then None else e_stake (k_era s) !! i) /\
      (forall v, e_stakers (k_era s') !! (i, v) = if c i then None else e_stakers (k_era s) !! (i, v)) /\
      e_points (k_era s') !! i = (if c i then None else e_points (k_era s) !! i).

  Lemma put_all {A} (f : N -> A) (n i v : N) (l : list N) : i <> n -> forall m : gmap (N * N) A,
    fold_left (fun m v => <[(n, v) := f v]> m) l m !! (i, v) = m !! (i, v).
  Proof. intros Hn. induction l as [|a l IH]; intros m; [reflexivity|]. cbn. rewrite IH. apply lookup_insert_ne. congruence. Qed.
  Lemma new_era_renewed s i s' ev : new_era cfg s i = (s', ev) -> renewed s s'.
  Proof.
    intros H. unfold new_era in H. cbn zeta in H. fold (planned s) in H. set (n := planned s) in *.
    set (d := add32 (p_depth (k_par s)) 1) in *. set (e2 := if _ <=? _ then _ else _) in H.
    assert (Q : e_cur e2 = Some n /\ forall j, j <> n ->
      let c := (d <=? n) && ((n - d <=? j) && (j <? n - d + 1)) in
      e_start e2 !! j = (if c then None else e_start (k_era s) !! j) /\
      e_vals e2 !! j = (if c then None else e_vals (k_era s) !! j) /\
      e_stake e2 !! j = (if c then None else e_stake (k_era s) !! j) /\
      (forall v, e_stakers e2 !! (j, v) = if c then None else e_stakers (k_era s) !! (j, v)) /\
      e_points e2 !! j = (if c then None else e_points (k_era s) !! j)).
    { unfold e2. destruct (d <=? n); (split; [reflexivity|]); intros j Hj; cbn [andb]; cbv zeta.
      - unfold clear_eras. cbn [e_start e_vals e_stake e_stakers e_points set_e_start set_e_cur].
        rewrite !keep_lookup. rewrite lookup_insert_ne by congruence.
        repeat (split; [reflexivity|]). split; [|reflexivity]. intros v. apply keep_lookup2.
      - cbn. rewrite lookup_insert_ne by congruence. auto. }
    clearbody e2. destruct (elect cfg (set_k_era s e2) n) as [s1 o] eqn:E.
    assert (R : e_cur (k_era s1) = e_cur e2 /\ k_par s1 = k_par s /\ e_start (k_era s1) = e_start e2 /\
      e_vals (k_era s1) = e_vals e2 /\ e_points (k_era s1) = e_points e2 /\
      forall j, j <> n -> e_stake (k_era s1) !! j = e_stake e2 !! j /\ forall v, e_stakers (k_era s1) !! (j, v) = e_stakers e2 !! (j, v)).
    { unfold elect in E. cbn zeta in E. destruct (_ <? _); injection E as <- _; [auto 10|]. cbn.
      do 5 (split; [reflexivity|]). intros j Hj. split; [now rewrite lookup_insert_ne by congruence|]. intros v.
      apply put_all. exact Hj. }
    destruct R as (R1 & R2 & R3 & R4 & R5 & R6). destruct Q as [Q1 Q2].
    assert (G : e_cur (k_era s') = e_cur (k_era s1) /\ k_par s' = k_par s1 /\ e_start (k_era s') = e_start (k_era s1) /\
      e_points (k_era s') = e_points (k_era s1) /\ e_stake (k_era s') = e_stake (k_era s1) /\ e_stakers (k_era s') = e_stakers (k_era s1) /\
      forall j, j <> n -> e_vals (k_era s') !! j = e_vals (k_era s1) !! j).
    { destruct o as [l|]; injection H as <- _; [|auto 10]. cbn. do 6 (split; [reflexivity|]). intros j Hj. now rewrite lookup_insert_ne by congruence. }
    destruct G as (G1 & G2 & G3 & G4 & G5 & G6 & G7). unfold renewed. fold n d. split; [congruence|]. split; [congruence|].
    intros j Hj. destruct (Q2 j Hj) as (P1 & P2 & P3 & P4 & P5). destruct (R6 j Hj) as [R7 R8].
    rewrite G3, G4, G5, G7, R3, R4, R5, R7 by exact Hj. split; [exact P1|]. split; [exact P2|]. split; [exact P3|]. split; [|exact P5].
    intros v. rewrite G6, R8. apply P4.
  Qed.
  Lemma new_session_renewed s i s' ev : new_session cfg s i = (s', ev) -> s' = s \/ renewed s s'.
  Proof.
    unfold new_session. destruct (e_cur (k_era s)) as [c|] eqn:Ec; [|intros H; right; eapply new_era_renewed, H].
    destruct (e_force (k_era s)).
    - destruct (_ <=? _); intros H; [right; eapply new_era_renewed, H|left; now injection H].
    - intros H. right. apply new_era_renewed in H. exact H.
    - intros H. left. now injection H.
    - intros H. right. eapply new_era_renewed, H.
  Qed.

  Lemma step_records s op s' out : kstep cfg s op = (s', out) ->
    (untouched s s' /\ (e_points (k_era s') = e_points (k_era s) \/
       exists a v, active_era s = Some a /\ active_era s' = Some a /\ e_points (k_era s') = <[a := v]> (e_points (k_era s)))) \/
    (exists e v, deepened s s' e v) \/ renewed s s'.
  Proof.
    assert (R : forall s s', k_era s' = k_era s -> p_depth (k_par s') = p_depth (k_par s) -> untouched s s' /\ (e_points (k_era s') = e_points (k_era s) \/
       exists a v, active_era s = Some a /\ active_era s' = Some a /\ e_points (k_era s') = <[a := v]> (e_points (k_era s)))).
    { intros a b E F. unfold untouched. rewrite E. auto 10. }
    intros H. destruct op as [x o c|x| |i|x i|x i|a|x os i|b]; cbn [kstep] in H.
    - destruct (dispatch cfg x s o c) as [[s1 ev]|er|] eqn:E; cbn [settle] in H; injection H as <- _; [|left; now apply R..].
      apply call_forced in E as [[(f & A & F) B]|(v & -> & B & e & C & A)].
      + left. unfold untouched. rewrite A. cbn. auto 10.
      + right. left. exists e, v. unfold deepened. rewrite B. auto.
    - left. destruct (on_initialize cfg x s) as [[s1 ev]|er|] eqn:E; cbn [settle] in H; injection H as <- _; [|now apply R..].
      pose proof (init_pool cfg _ _ _ _ E) as [_ Q]. apply R; [exact Q|].
      unfold on_initialize in E. destruct (0 <? _); [|now injection E as <- _].
      destruct (_ =? 0).
      + destruct (_ =? 0); [discriminate || (now injection E as <- _)|discriminate || (now injection E as <- _)].
      + unfold pay_delegators in E. destruct (_ =? 0); [now injection E as <- _|].
        destruct (pay_loop _ _ _ _ _ _ _) as [[[[s3 p3] l3] c3] e3] eqn:E3. injection E as <- _. cbn.
        apply pay_loop_par in E3. now rewrite E3.
    - left. injection H as <- _. unfold on_finalize, untouched. destruct (e_act (k_era s)) as [[? []]|]; cbn; auto 10.
    - destruct (new_session _ _ _) as [s1 ev] eqn:E. cbn in H. injection H as <- _.
      apply new_session_renewed in E as [->|E]; [left; now apply R|auto].
    - left. destruct (start_session _ _ _ _) as [s1 ev] eqn:E. cbn in H. injection H as <- _.
      assert (P : k_par s1 = k_par s).
      { clear R. unfold start_session in E. destruct (_ !! _); [|now injection E as <- _].
        destruct (_ <=? i); [|now injection E as <- _]. unfold start_era in E. cbn zeta in E.
        unfold apply_unapplied in E. cbn zeta in E. destruct (s_first _); [|now injection E as <- _].
        destruct (apply_eras _ _ _ _ _) as [s2 e2] eqn:E2. injection E as <- _. apply apply_eras_par in E2. cbn in *. now rewrite E2. }
      apply start_session_spec in E. cbn zeta in E. unfold untouched. rewrite P. destruct E as [[-> _]|[_ ->]]; cbn; auto 10.
    - left. destruct (end_session _ _ _ _) as [s1 ev] eqn:E. cbn in H. injection H as <- _.
      pose proof (end_session_same cfg _ _ _ _ _ E) as [_ Q]. apply R; [exact Q|].
      unfold end_session in E. destruct (e_act (k_era s)) as [[? ?]|]; [|now injection E as <- _].
      destruct (_ !! _); [|now injection E as <- _]. destruct (_ && _); [|now injection E as <- _].
      unfold pay_validators in E. destruct (_ =? 0); [now injection E as <- _|].
      destruct (pay_each _ _ _ _ _ _ _) as [[s2 t2] e2] eqn:E2. injection E as <- _. apply pay_each_par in E2. cbn. now rewrite E2.
    - left. injection H as <- _. unfold note_author, untouched, active_era. destruct (e_act (k_era s)) as [[a0 f]|] eqn:E; [|rewrite E; auto 10].
      destruct (default _ _) as [t m]. cbn. rewrite E. cbn. split; [auto 10|]. right. eauto.
    - left. destruct (on_offence _ _ _ _ _) as [s1 ev] eqn:E. cbn in H. injection H as <- _.
      apply on_offence_jolt in E as [[E|(A & E & F)] B]; [apply R; [exact E|now rewrite B]|].
      unfold untouched. rewrite E, B. cbn. auto 10.
    - left. injection H as <- _. now apply R.
  Qed.

  (** ** Records stay *)
  Lemma planned_next s c : fits cfg s -> e_cur (k_era s) = Some c -> planned s = c + 1.
  Proof. intros (_ & _ & F & _) E. unfold planned, cur_era in *. rewrite E in *. cbn in F. apply add32_exact. unfold two32 in *. lia. Qed.
  Lemma step_kept_record s op s' out i : kstep cfg s op = (s', out) -> fits cfg s -> p_depth (k_par s) < two32 -> in_history i s -> in_history i s' ->
    same_record s s' i /\ (e_points (k_era s') !! i = e_points (k_era s) !! i \/ active_era s = Some i).
  Proof.
    intros H F Hd (c & Hc & Hl) (c' & Hc' & Hl'). unfold same_record.
    apply step_records in H as [[(_ & _ & A1 & A2 & A3 & A4) P]|[(e & v & A1 & A2 & A3)|(A1 & A2 & A3)]].
    - rewrite A1, A2, A3, A4. split; [auto|]. destruct P as [->|(a & w & P1 & _ & P2)]; [auto|].
      destruct (decide (a = i)) as [->|Hn]; [auto|]. left. rewrite P2. now apply lookup_insert_ne.
    - rewrite A3 in Hc' |- *. cbn in Hc'. rewrite Hc in A1. injection A1 as <-. rewrite Hc in Hc'. injection Hc' as <-.
      assert (L : ((c - p_depth (k_par s) <=? i) && (i <? c - v)) = false) by (rewrite A2 in Hl'; lia).
      unfold clear_eras. cbn [e_start e_vals e_stake e_stakers e_points]. rewrite !keep_lookup, L.
      split; [|auto]. do 3 (split; [reflexivity|]). intros w. now rewrite keep_lookup2, L.
    - rewrite (planned_next s c F Hc) in *. rewrite A1 in Hc'. injection Hc' as <-.
      assert (L : (add32 (p_depth (k_par s)) 1 <=? c + 1) && ((c + 1 - add32 (p_depth (k_par s)) 1 <=? i) && (i <? c + 1 - add32 (p_depth (k_par s)) 1 + 1)) = false).
      { rewrite A2 in Hl'. unfold add32, w32. destruct (N.lt_ge_cases (p_depth (k_par s) + 1) two32) as [D|D].
        - rewrite N.mod_small by exact D. lia.
        - assert (p_depth (k_par s) + 1 = two32) as -> by lia. rewrite N.mod_same by discriminate. lia. }
      destruct (A3 i ltac:(lia)) as (B1 & B2 & B3 & B4 & B5). rewrite L in *. auto 10.
  Qed.
  Lemma run_kept_record i : forall h s, sane cfg s h ->
    throughout cfg (fun s => p_depth (k_par s) < 2 ^ 32 /\ in_history i s) s h -> same_record s (krun cfg s h) i.
  Proof.
    induction h as [|op h IH]; intros s S T; [split; [reflexivity|]; auto|]. cbn [krun].
    pose proof (always_here cfg _ _ _ T) as [D0 H0]. pose proof (throughout_step cfg _ _ _ _ T) as T1.
    pose proof (always_here cfg _ _ _ T1) as [D1 H1]. destruct (kstep cfg s op) as [s1 out] eqn:E. cbn [fst] in *.
    destruct (step_kept_record s op s1 out i E (proj1 S) D0 H0 H1) as [(A1 & A2 & A3 & A4) _].
    pose proof (proj2 (proj2 S)) as S1. rewrite E in S1. destruct (IH s1 S1 T1) as (B1 & B2 & B3 & B4).
    split; [congruence|]. split; [congruence|]. split; [congruence|]. intros v. rewrite B4. apply A4.
  Qed.
  Lemma run_kept_points i : forall h s, sane cfg s h ->
    throughout cfg (fun s => p_depth (k_par s) < 2 ^ 32 /\ in_history i s /\ active_era s <> Some i) s h ->
    e_points (k_era (krun cfg s h)) !! i = e_points (k_era s) !! i.
  Proof.
    induction h as [|op h IH]; intros s S T; [reflexivity|]. cbn [krun].
    pose proof (always_here cfg _ _ _ T) as (D0 & H0 & N0). pose proof (throughout_step cfg _ _ _ _ T) as T1.
    pose proof (always_here cfg _ _ _ T1) as (D1 & H1 & _). destruct (kstep cfg s op) as [s1 out] eqn:E. cbn [fst] in *.
    destruct (step_kept_record s op s1 out i E (proj1 S) D0 H0 H1) as [_ [P|P]]; [|contradiction].
    pose proof (proj2 (proj2 S)) as S1. rewrite E in S1. rewrite (IH s1 S1 T1). exact P.
  Qed.

  (** ** Nothing older is kept *)
  Definition trimmed (s : kstate) : Prop :=
    forall i, i + p_depth (k_par s) < cur_era s -> no_record s i.
  Lemma cut_case d n i : d < two32 -> n + 1 < two32 -> i + d < n + 1 ->
    (add32 d 1 <=? n + 1) && ((n + 1 - add32 d 1 <=? i) && (i <? n + 1 - add32 d 1 + 1)) = true \/ i + d < n.
  Proof. intros D L H. rewrite add32_exact by lia. lia. Qed.
  Lemma step_trimmed s op s' out : kstep cfg s op = (s', out) -> fits cfg s -> p_depth (k_par s) < two32 -> trimmed s -> trimmed s'.
  Proof.
    intros H F Hd T i Hi. unfold no_record.
    apply step_records in H as [[(A0 & A & A1 & A2 & A3 & A4) P]|[(e & v & A1 & A2 & A3)|(A1 & A2 & A3)]].
    - rewrite A1, A2, A3, A4. apply T. unfold cur_era in *. rewrite <- A0, <- A. exact Hi.
    - unfold cur_era in Hi. rewrite A2, A3 in Hi. cbn in Hi. rewrite A1 in Hi. cbn in Hi. rewrite A3.
      unfold clear_eras. cbn [e_start e_vals e_stake e_stakers]. rewrite !keep_lookup.
      destruct ((e - p_depth (k_par s) <=? i) && (i <? e - v)) eqn:L.
      + do 3 (split; [reflexivity|]). intros w. now rewrite keep_lookup2, L.
      + destruct (T i) as (B1 & B2 & B3 & B4); [unfold cur_era; rewrite A1; cbn; lia|].
        do 3 (split; [assumption|]). intros w. now rewrite keep_lookup2, L.
    - unfold cur_era in Hi. rewrite A1, A2 in Hi. cbn in Hi. destruct (A3 i ltac:(lia)) as (B1 & B2 & B3 & B4 & B5).
      destruct (e_cur (k_era s)) as [c|] eqn:Hc; [|unfold planned in Hi; rewrite Hc in Hi; lia].
      rewrite (planned_next s c F Hc) in *. destruct F as (_ & _ & F & _). unfold cur_era in F. rewrite Hc in F. cbn in F.
      destruct (cut_case (p_depth (k_par s)) c i Hd ltac:(lia) Hi) as [L|L]; [rewrite L in *; auto|].
      destruct (T i) as (C1 & C2 & C3 & C4); [unfold cur_era; rewrite Hc; exact L|].
      rewrite B1, B2, B3. do 3 (split; [now destruct (_ && _)|]). intros w. rewrite B4. now destruct (_ && _).
  Qed.
  Lemma run_trimmed : forall h s, sane cfg s h -> throughout cfg (fun s => p_depth (k_par s) < 2 ^ 32) s h -> trimmed s ->
    trimmed (krun cfg s h).
  Proof.
    induction h as [|op h IH]; intros s S T K; [exact K|]. cbn [krun].
    pose proof (always_here cfg _ _ _ T) as D0. pose proof (throughout_step cfg _ _ _ _ T) as T1.
    destruct (kstep cfg s op) as [s1 out] eqn:E. cbn [fst] in *.
    pose proof (proj2 (proj2 S)) as S1. rewrite E in S1. apply (IH s1 S1 T1).
    eapply step_trimmed; [exact E|exact (proj1 S)|exact D0|exact K].
  Qed.

  (** Reward points. *)
  Definition tidy (s : kstate) : Prop :=
    forall i, i + p_depth (k_par s) < cur_era s -> e_points (k_era s) !! i = None.
  Lemma step_tidy s op s' out : kstep cfg s op = (s', out) -> fits cfg s -> p_depth (k_par s) < two32 -> guaranteed s -> tidy s -> tidy s'.
  Proof.
    intros H F Hd G T i Hi.
    apply step_records in H as [[(A0 & A & A1 & A2 & A3 & A4) P]|[(e & v & A1 & A2 & A3)|(A1 & A2 & A3)]].
    - assert (Hi' : i + p_depth (k_par s) < cur_era s) by (unfold cur_era in *; rewrite <- A0, <- A; exact Hi).
      destruct P as [->|(a & w & P1 & P2 & ->)]; [now apply T|]. destruct (G a P1) as (c & Hc & Hl).
      unfold cur_era in Hi'. rewrite Hc in Hi'. cbn in Hi'. rewrite lookup_insert_ne by lia. apply T. unfold cur_era. now rewrite Hc.
    - unfold cur_era in Hi. rewrite A2, A3 in Hi. cbn in Hi. rewrite A1 in Hi. cbn in Hi. rewrite A3.
      unfold clear_eras. cbn [e_points]. rewrite keep_lookup.
      destruct ((e - p_depth (k_par s) <=? i) && (i <? e - v)) eqn:L; [reflexivity|].
      apply T. unfold cur_era. rewrite A1. cbn. lia.
    - unfold cur_era in Hi. rewrite A1, A2 in Hi. cbn in Hi. destruct (A3 i ltac:(lia)) as (B1 & B2 & B3 & B4 & B5).
      destruct (e_cur (k_era s)) as [c|] eqn:Hc; [|unfold planned in Hi; rewrite Hc in Hi; lia].
      rewrite (planned_next s c F Hc) in *. destruct F as (_ & _ & F & _). unfold cur_era in F. rewrite Hc in F. cbn in F.
      rewrite B5. destruct (cut_case (p_depth (k_par s)) c i Hd ltac:(lia) Hi) as [L|L]; [now rewrite L|].
      rewrite T; [now destruct (_ && _)|]. unfold cur_era. rewrite Hc. exact L.
  Qed.
  Lemma run_tidy : forall h s, sane cfg s h -> throughout cfg (fun s => p_depth (k_par s) < 2 ^ 32 /\ guaranteed s) s h -> tidy s ->
    tidy (krun cfg s h).
  Proof.
    induction h as [|op h IH]; intros s S T K; [exact K|]. cbn [krun].
    pose proof (always_here cfg _ _ _ T) as [D0 G0]. pose proof (throughout_step cfg _ _ _ _ T) as T1.
    destruct (kstep cfg s op) as [s1 out] eqn:E. cbn [fst] in *.
    pose proof (proj2 (proj2 S)) as S1. rewrite E in S1. apply (IH s1 S1 T1).
    eapply step_tidy; [exact E|exact (proj1 S)|exact D0|exact G0|exact K].
  Qed.
End model.
