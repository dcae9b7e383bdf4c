(** The eras of a delegator: none is asked for twice, none is left out while the
    delegator stays, and the credit history reaches back to the first one unpaid. *)
From Verif Require Import Base Balances Model_UserPrivileges.
From Verif Require Model_Credit Spec_Credit.
From Verif Require Import Model_StakingLedger Model_Staking Model_Chain Spec_Staking Spec_Staking2 Spec_Chain Proofs_Arith
  Proofs_Credit Proofs_Credit2 Proofs_Credit3 Proofs_Credit9 Proofs_Staking Proofs_Staking8 Proofs_Staking10 Proofs_Staking13
  Proofs_Staking26 Proofs_Chain1 Proofs_Chain2 Proofs_Chain3 Proofs_Chain6 Proofs_Chain7 Proofs_Chain8.
From stdpp Require Import gmap sorting.
Open Scope N_scope.

Section chain.
  Context (cfg : jcfg).
  Local Notation cc := (jc_c cfg).
  Local Notation sc := (jc_s cfg).
  Context (Hstep : Model_Credit.kc_step cc <> Model_Credit.U64MAX) (Hbpe : Model_Credit.kc_bpe cc <> 0).

  Lemma sop_parts j op d : parts (sop cfg j op) d -> quits op d.
  Proof.
    unfold sop. destruct (jstep cfg j op).2; [|done|done]. destruct op as [x a]. unfold quits. cbn [fst snd].
    destruct a as [| |o [c|l]| | | | | | | |]; done.
  Qed.
  Lemma jstep_dated e j op ev d r f :
    e <= era_in cfg op -> era_in cfg op < 65536 -> sound e j ev ->
    d_recs (k_del (j_s j)) !! d = Some r -> dr_since r = Some f ->
    let j' := (jstep cfg j op).1 in let out := jevents [(jstep cfg j op).2] in
    (exists r', d_recs (k_del (j_s j')) !! d = Some r' /\ dr_since r' = Some f /\ asks d out = []) \/
    (d_recs (k_del (j_s j')) !! d = None /\ f = cur_era (j_s j) /\ quits op d /\ asks d out = []) \/
    (op.2 = JInit /\ f < era_in cfg op /\ asks d out = [(f, era_in cfg op - 1)] /\
     d_recs (k_del (j_s j')) !! d = if dr_on r then Some (DRec (dr_vals r) (Some (era_in cfg op)) true) else None).
  Proof.
    intros He Hlt (Hy & _ & _ & _ & _ & Ha) Hr Hf j' out.
    pose proof (jstep_staking cfg j op Hstep Hy) as K.
    assert (Eo : asks d (events [KDone (match (jstep cfg j op).2 with JDone ev => ev | _ => [] end)]) = asks d out) by reflexivity.
    destruct (step_dated sc _ _ _ _ d r f K Hr Hf) as [A|[(A & B & C & D)|(y & A & B & C & D)]].
    - left. rewrite Eo in A. exact A.
    - right. left. rewrite Eo in D. apply sop_parts in C. auto.
    - right. right. rewrite Eo in C. unfold sop in A. destruct (jstep cfg j op).2; try discriminate. destruct op as [x a].
      destruct a; try discriminate. injection A as <-. change (kx_era _) with (era_in cfg (x, JInit)) in *.
      assert (L : f <= era_in cfg (x, JInit)) by (destruct (Ha d r f Hr Hf); lia).
      split; [done|]. split; [lia|]. split; [|exact D]. rewrite C. f_equal. f_equal. apply sub32_exact; unfold two32; lia.
  Qed.

  Lemma run_tiles d h : forall e j ev r f,
    (forall op l, h = op :: l -> e <= era_in cfg op) -> (exists from, orderly cfg from h) -> sound e j ev ->
    d_recs (k_del (j_s j)) !! d = Some r -> dr_since r = Some f ->
    (forall h', h' `prefix_of` h -> is_Some (d_recs (k_del (j_s (jrun cfg j h'))) !! d)) ->
    exists r' f', d_recs (k_del (j_s (jrun cfg j h))) !! d = Some r' /\ dr_since r' = Some f' /\
      tiles f (asks d (jevents (jouts cfg j h))) f'.
  Proof.
    induction h as [|op h IH]; intros e j ev r f He [from Hord] Hs Hr Hf Hp; [exists r, f; cbn; auto|].
    cbn [orderly] in Hord. destruct Hord as (O1 & O2 & O3 & O4). pose proof (He op h eq_refl) as He'.
    pose proof (jstep_sound cfg Hstep Hbpe e j op ev He' O2 O3 Hs) as Hs'.
    assert (Nx : forall op' l, h = op' :: l -> era_in cfg op <= era_in cfg op').
    { intros op' l ->. cbn [orderly] in O4. destruct O4 as (L & _). unfold era_in. apply N.div_le_mono; [exact Hbpe|exact L]. }
    assert (Hp' : forall h', h' `prefix_of` h -> is_Some (d_recs (k_del (j_s (jrun cfg (jstep cfg j op).1 h'))) !! d)).
    { intros h' [l ->]. apply (Hp (op :: h')). exists l. done. }
    assert (S1 : is_Some (d_recs (k_del (j_s (jstep cfg j op).1)) !! d)) by (apply (Hp' []); apply prefix_nil).
    cbn [jrun jouts]. change (jevents ((jstep cfg j op).2 :: jouts cfg (jstep cfg j op).1 h)) with (out_events (jstep cfg j op).2 ++ jevents (jouts cfg (jstep cfg j op).1 h)).
    rewrite asks_app. assert (Ej : out_events (jstep cfg j op).2 = jevents [(jstep cfg j op).2]) by (unfold jevents; cbn; now rewrite app_nil_r).
    rewrite Ej.
    destruct (jstep_dated e j op ev d r f He' O2 Hs Hr Hf) as [(r1 & A1 & A2 & A3)|[(A & _)|(_ & B & C & D)]].
    - rewrite A3. exact (IH _ _ _ _ _ Nx (ex_intro (fun from => orderly cfg from h) _ O4) Hs' A1 A2 Hp').
    - rewrite A in S1. now destruct S1.
    - rewrite C. destruct (dr_on r); [|rewrite D in S1; now destruct S1].
      destruct (IH _ _ _ _ _ Nx (ex_intro (fun from => orderly cfg from h) _ O4) Hs' D eq_refl Hp') as (r' & f' & E1 & E2 & E3).
      exists r', f'. split; [exact E1|]. split; [exact E2|]. cbn [app tiles]. split; [done|]. split; [lia|].
      replace (era_in cfg op - 1 + 1) with (era_in cfg op) by lia. exact E3.
  Qed.

  Lemma run_tiles_from d h1 h2 : forall e j ev r f,
    (forall op l, h1 ++ h2 = op :: l -> e <= era_in cfg op) -> (exists from, orderly cfg from (h1 ++ h2)) -> sound e j ev ->
    d_recs (k_del (j_s (jrun cfg j h1))) !! d = Some r -> dr_since r = Some f ->
    (forall h', h' `prefix_of` h2 -> is_Some (d_recs (k_del (j_s (jrun cfg j (h1 ++ h')))) !! d)) ->
    exists r' f', d_recs (k_del (j_s (jrun cfg j (h1 ++ h2)))) !! d = Some r' /\ dr_since r' = Some f' /\
      tiles f (asks d (jevents (jouts cfg (jrun cfg j h1) h2))) f'.
  Proof.
    induction h1 as [|op h1 IH]; intros e j ev r f He Hord Hs Hr Hf Hp; [exact (run_tiles d h2 e j ev r f He Hord Hs Hr Hf Hp)|].
    destruct Hord as [from Hord]. cbn [app orderly] in Hord. destruct Hord as (O1 & O2 & O3 & O4). pose proof (He op (h1 ++ h2) eq_refl) as He'.
    cbn [app jrun] in *.
    refine (IH (era_in cfg op) _ _ r f _ (ex_intro (fun from => orderly cfg from (h1 ++ h2)) _ O4) (jstep_sound cfg Hstep Hbpe e j op ev He' O2 O3 Hs) Hr Hf Hp).
    intros op2 l E. rewrite E in O4. cbn [orderly] in O4. destruct O4 as (L & _). unfold era_in. apply N.div_le_mono; [exact Hbpe|exact L].
  Qed.

  (** A new delegator is unpaid from the era of joining on. *)
  Lemma path_since k ls k' y d : dpath k ls k' -> Forall (dlab_ok (Some y, KdJoin)) ls ->
    (forall r, d_recs k !! d = Some r -> dr_since r = Some (kx_era y)) -> forall r, d_recs k' !! d = Some r -> dr_since r = Some (kx_era y).
  Proof.
    intros P F. induction P as [|k l k1 ls k' M P IH]; intros H; [exact H|].
    apply Forall_cons in F as [F1 F2]. apply IH; [done|]. clear IH P F2.
    destruct M as [k k1 E1 E2|k k1 E1 E2|k k1 E1 E2|k z d0 vs k1 E|k era d0|k z d0 r0 o E1 E2|k who ref k1 E|k who];
      try (rewrite E1; exact H); try discriminate F1.
    - injection F1 as <-. unfold do_delegate in E. inv_bind E. injection E as <-. cbn [d_recs set_d_cand]. intros r.
      destruct (decide (d0 = d)) as [->|Hn].
      + destruct (d_recs k !! d) as [r0|] eqn:Er; [pose proof (H _ eq_refl) as H0; destruct (dr_on r0)|]; cbn; rewrite lookup_insert; intros [= <-]; cbn; try done; now rewrite H0.
      + destruct (d_recs k !! d0) as [r0|] eqn:Er; [destruct (dr_on r0)|]; cbn; rewrite lookup_insert_ne by congruence; apply H.
    - unfold set_referer in E. inv_bind E. now injection E as <-.
    - unfold unset_referer. now destruct (d_ref k !! who).
  Qed.
  Lemma jstep_since j op d r : synced j -> d_recs (k_del (j_s j)) !! d = None ->
    d_recs (k_del (j_s (jstep cfg j op).1)) !! d = Some r -> dr_since r = Some (era_in cfg op).
  Proof.
    intros Hy Hn Hr. pose proof (jstep_staking cfg j op Hstep Hy) as K. destruct (step_del sc _ _ _ _ K) as (ls & P & F & _).
    destruct (kind_of (sop cfg j op)) eqn:Ek.
    2: { pose proof (path_recs _ _ _ _ _ d P F ltac:(discriminate) Hn). congruence. }
    2: { pose proof (path_recs _ _ _ _ _ d P F ltac:(discriminate) Hn). congruence. }
    unfold sop in Ek, F. destruct (jstep cfg j op).2; try discriminate. destruct op as [x a]. cbn [fst snd] in *.
    destruct a; try discriminate. cbn [ctx_of] in F.
    refine (path_since _ _ _ _ d P F _ r Hr). congruence.
  Qed.

  Definition reaches (d : N) (j : jstate) : Prop :=
    forall r, d_recs (k_del (j_s j)) !! d = Some r -> exists f e0, dr_since r = Some f /\ start (j_c j) d = Some e0 /\ e0 <= f.
  Lemma jstep_reaches e j op ev d :
    e <= era_in cfg op -> era_in cfg op < 65536 -> sound e j ev -> ~ rewrites op d -> reaches d j -> reaches d (jstep cfg j op).1.
  Proof.
    intros He Hlt Hs Hw R r' Hr'. pose proof (proj1 Hs) as Hy. destruct (jstep_start cfg Hstep d j op Hy Hw) as [A B].
    { intros [r Hr]. destruct (R r Hr) as (f & e0 & _ & -> & _). discriminate. }
    destruct (d_recs (k_del (j_s j)) !! d) as [r|] eqn:Hr.
    - destruct (R r Hr) as (f & e0 & E1 & E2 & E3). rewrite <- (B (ex_intro _ r eq_refl)) in E2.
      destruct (jstep_dated e j op ev d r f He Hlt Hs Hr E1) as [(r1 & A1 & A2 & _)|[(A1 & _)|(_ & A1 & _ & A2)]].
      + rewrite A1 in Hr'. injection Hr' as <-. eauto.
      + congruence.
      + rewrite A2 in Hr'. destruct (dr_on r); [|discriminate]. injection Hr' as <-. exists (era_in cfg op), e0. cbn. split; [done|]. split; [done|]. lia.
    - pose proof (jstep_since j op d r' Hy Hr Hr') as E. destruct (A eq_refl) as [[A1 _]|[_ A2]]; [congruence|].
      exists (era_in cfg op), (era_in cfg op). split; [exact E|]. split; [exact A2|lia].
  Qed.
  Lemma visited_reaches d h : forall e j ev,
    (forall op l, h = op :: l -> e <= era_in cfg op) -> (exists from, orderly cfg from h) -> sound e j ev ->
    Forall (fun op => ~ rewrites op d) h -> reaches d j ->
    forall j' op out, (j', op, out) ∈ visited cfg j h -> reaches d j'.
  Proof.
    induction h as [|op h IH]; intros e j ev He [from Hord] Hs F R j' op' out Hin; [now apply elem_of_nil in Hin|].
    cbn [orderly] in Hord. destruct Hord as (O1 & O2 & O3 & O4). pose proof (He op h eq_refl) as He'. apply Forall_cons in F as [F1 F2].
    cbn [visited] in Hin. apply elem_of_cons in Hin as [[= -> -> ->]|Hin]; [exact R|].
    refine (IH (era_in cfg op) _ _ _ (ex_intro (fun from => orderly cfg from h) _ O4) (jstep_sound cfg Hstep Hbpe e j op ev He' O2 O3 Hs) F2 (jstep_reaches e j op ev d He' O2 Hs F1 R) _ _ _ Hin).
    intros op2 l ->. cbn [orderly] in O4. destruct O4 as (L & _). unfold era_in. apply N.div_le_mono; [exact Hbpe|exact L].
  Qed.
End chain.

(** A history that starts by then has a record in force. *)
Lemma force_from (l : list (N * Model_Credit.cdata)) e0 r0 e : e0 <= e -> is_Some (Spec_Credit.in_force ((e0, r0) :: l) e).
Proof.
  intros L. unfold Spec_Credit.in_force. rewrite filter_cons_True by exact L.
  destruct (last ((e0, r0) :: filter _ l)) eqn:E; [cbn; eauto|]. now apply last_None in E.
Qed.
