(** What delegators are paid is what their credit has earned. *)
From Verif Require Import Base Balances Model_UserPrivileges.
From Verif Require Model_Credit Spec_Credit.
From Verif Require Import Model_StakingLedger Model_Staking Model_Chain Spec_Staking Spec_Chain Proofs_Arith
  Proofs_Credit Proofs_Credit2 Proofs_Credit3 Proofs_Credit6 Proofs_Staking Proofs_Staking8 Proofs_Staking10 Proofs_Staking13
  Proofs_Chain1 Proofs_Chain2.
From stdpp Require Import gmap sorting.
Open Scope N_scope.

Lemma paid_app d a b : paid d (a ++ b) = paid d a + paid d b.
Proof. unfold paid. rewrite map_app. induction (map _ a) as [|v l IH]; cbn; [done|]. rewrite IH. lia. Qed.
Definition asked_sum (x : kctx) (d : N) (l : list (N * N)) : N :=
  lsum (map (fun q => default 0 (kx_reward x d q.1 q.2)) l).
Lemma asked_sum_app x d a b : asked_sum x d (a ++ b) = asked_sum x d a + asked_sum x d b.
Proof. unfold asked_sum. rewrite map_app. induction (map _ a) as [|v l IH]; cbn; [done|]. rewrite IH. lia. Qed.

Section staking.
  Context (cfg : kcfg).
  Lemma mint_le ed b w v b' got : Model_Operation.mint ed b w v = (b', got) -> got <= v.
  Proof.
    unfold Model_Operation.mint. destruct (N.eqb_spec v 0); [intros [= <- <-]; lia|].
    destruct (_ && _); [intros [= <- <-]; lia|]. destruct (_ <=? _); intros [= <- <-]; lia.
  Qed.
  Lemma pay_delegator_paid x s d0 r pool s' p ev d :
    pay_delegator cfg x s d0 r pool = (s', p, ev) -> paid d ev <= asked_sum x d (asks d ev).
  Proof.
    unfold pay_delegator. destruct (_ =? _); [intros [= <- <- <-]; cbn; lia|].
    destruct (kx_reward x d0 _ _) as [q|] eqn:Eq.
    - destruct (Model_Operation.mint _ _ _ _) as [b got] eqn:E. intros [= <- <- <-]. apply mint_le in E.
      unfold paid, asks. cbn. destruct (N.eqb_spec d0 d) as [->|]; cbn; [|lia]. rewrite Eq. cbn.
      destruct (_ <=? _); unfold id; lia.
    - intros [= <- <- <-]. unfold paid. cbn. lia.
  Qed.
  Lemma pay_referer_paid s d0 rw pool s' p ev d : pay_referer cfg s d0 rw pool = (s', p, ev) -> paid d ev = 0 /\ asks d ev = [].
  Proof.
    unfold pay_referer. destruct (_ !! d0); [|now intros [= <- <- <-]]. destruct (bonus_rate _); [|now intros [= <- <- <-]].
    destruct (Model_Operation.mint _ _ _ _). now intros [= <- <- <-].
  Qed.
  Lemma pay_loop_paid x d : forall n l s pool last ct s' p' la' c' ev,
    pay_loop cfg x n l s pool last ct = (s', p', la', c', ev) -> paid d ev <= asked_sum x d (asks d ev).
  Proof.
    induction n as [|n IH]; intros [|[d0 r] l] s pool last ct s' p' la' c' ev H; cbn [pay_loop] in H;
      try (injection H as _ _ _ _ <-; cbn; lia).
    destruct (pay_delegator cfg x s d0 r pool) as [[s1 q] e1] eqn:E1. apply (pay_delegator_paid _ _ _ _ _ _ _ _ d) in E1.
    destruct (_ =? 0); [now injection H as _ _ _ _ <-|].
    destruct (pay_referer cfg s1 d0 q _) as [[s2 q2] e2] eqn:E2. apply (pay_referer_paid _ _ _ _ _ _ _ d) in E2 as [P2 A2].
    destruct (_ =? 0).
    { injection H as _ _ _ _ <-. rewrite paid_app, asks_app, asked_sum_app, P2, A2. cbn. lia. }
    destruct (pay_loop _ _ _ _ _ _ _) as [[[[s3 p3] l3] c3] e3] eqn:E3 in H. injection H as _ _ _ _ <-.
    apply IH in E3. rewrite !paid_app, !asks_app, !asked_sum_app, P2, A2. cbn. lia.
  Qed.
  Lemma pay_loop_asks x d f t : forall n l s pool last ct s' p' la' c' ev,
    pay_loop cfg x n l s pool last ct = (s', p', la', c', ev) -> (f, t) ∈ asks d ev ->
    t = sub32 (kx_era x) 1 /\ f <> kx_era x /\ exists r, (d, r) ∈ l /\ dr_since r = Some f.
  Proof.
    induction n as [|n IH]; intros [|[d0 r] l] s pool last ct s' p' la' c' ev H Hin; cbn [pay_loop] in H;
      try (injection H as _ _ _ _ <-; now apply elem_of_nil in Hin).
    destruct (pay_delegator cfg x s d0 r pool) as [[s1 q] e1] eqn:E1.
    assert (D : (f, t) ∈ asks d e1 -> t = sub32 (kx_era x) 1 /\ f <> kx_era x /\ exists r', (d, r') ∈ (d0, r) :: l /\ dr_since r' = Some f).
    { clear - E1. intros Hin. apply asks_elem in Hin. revert E1. unfold pay_delegator.
      destruct (N.eqb_spec (default (kx_era x) (dr_since r)) (kx_era x)) as [|Hn]; [intros [= _ _ <-]; now apply elem_of_nil in Hin|].
      assert (G : forall e, KAsk d f t ∉ e -> KAsk d0 (default (kx_era x) (dr_since r)) (sub32 (kx_era x) 1) :: e = e1 ->
        d = d0 /\ f = default (kx_era x) (dr_since r) /\ t = sub32 (kx_era x) 1).
      { intros e He <-. apply elem_of_cons in Hin as [Hin|]; [|contradiction]. now injection Hin as -> -> ->. }
      intros H. assert (E : d = d0 /\ f = default (kx_era x) (dr_since r) /\ t = sub32 (kx_era x) 1).
      { destruct (kx_reward x d0 _ _); [destruct (Model_Operation.mint _ _ _ _)|]; injection H as _ _ <-; eapply G; try reflexivity;
          [intros ?%elem_of_list_singleton; discriminate|apply not_elem_of_nil]. }
      destruct E as (-> & -> & ->).
      split; [done|]. split; [exact Hn|]. exists r. split; [left|]. destruct (dr_since r); cbn in Hn |- *; congruence. }
    assert (W : (f, t) ∈ asks d e1 \/ (exists r', (d, r') ∈ l /\ dr_since r' = Some f) /\ t = sub32 (kx_era x) 1 /\ f <> kx_era x ->
      t = sub32 (kx_era x) 1 /\ f <> kx_era x /\ exists r', (d, r') ∈ (d0, r) :: l /\ dr_since r' = Some f).
    { intros [?|((r' & H1 & H2) & H3 & H4)]; [auto|]. split; [auto|]. split; [auto|]. exists r'. split; [now right|auto]. }
    apply W. clear D W.
    destruct (_ =? 0); [injection H as _ _ _ _ <-; now left|].
    destruct (pay_referer cfg s1 d0 q _) as [[s2 q2] e2] eqn:E2. apply (pay_referer_paid _ _ _ _ _ _ _ d) in E2 as [P2 A2].
    destruct (_ =? 0).
    { injection H as _ _ _ _ <-. rewrite asks_app, A2, app_nil_r in Hin. now left. }
    destruct (pay_loop _ _ _ _ _ _ _) as [[[[s3 p3] l3] c3] e3] eqn:E3 in H. injection H as _ _ _ _ <-.
    rewrite !asks_app, A2 in Hin. apply elem_of_app in Hin as [Hin|Hin]; [now left|]. right.
    destruct (IH _ _ _ _ _ _ _ _ _ _ E3 Hin) as (H1 & H2 & H3). auto.
  Qed.
  Lemma init_paid x s s' ev d :
    on_initialize cfg x s = ROk (s', ev) -> paid d ev <= asked_sum x d (asks d ev).
  Proof.
    unfold on_initialize. destruct (0 <? _); [|intros [= _ <-]; cbn; lia].
    destruct (_ =? 0); [destruct (_ =? 0); [discriminate|]; intros [= _ <-]; cbn; lia|].
    unfold pay_delegators. destruct (_ =? 0); [intros [= _ <-]; cbn; lia|].
    destruct (pay_loop _ _ _ _ _ _ _) as [[[[s1 p1] l1] c1] e1] eqn:E. intros [= _ <-]. eapply pay_loop_paid, E.
  Qed.
  Lemma init_asks x s s' ev d f t :
    on_initialize cfg x s = ROk (s', ev) -> (f, t) ∈ asks d ev ->
    t = sub32 (kx_era x) 1 /\ f <> kx_era x /\ exists r, d_recs (k_del s) !! d = Some r /\ dr_since r = Some f.
  Proof.
    intros H Hin. revert H. unfold on_initialize.
    destruct (0 <? _); [|intros [= _ <-]; now apply elem_of_nil in Hin].
    destruct (_ =? 0); [destruct (_ =? 0); [discriminate|]; intros [= _ <-]; now apply elem_of_nil in Hin|].
    unfold pay_delegators. destruct (_ =? 0); [intros [= _ <-]; now apply elem_of_nil in Hin|].
    destruct (pay_loop _ _ _ _ _ _ _) as [[[[s1 p1] l1] c1] e1] eqn:E. intros [= _ <-].
    destruct (pay_loop_asks _ _ _ _ _ _ _ _ _ _ _ _ _ _ _ E Hin) as (H1 & H2 & r & H3 & H4).
    split; [auto|]. split; [auto|]. exists r. split; [|auto]. apply delegators_elem in H3. apply H3.
  Qed.
  (** Only the payments of a block pay delegators. *)
  Lemma step_quiet s op s' out d :
    kstep cfg s op = (s', out) -> (forall x, op <> KInit x) ->
    paid d (events [out]) = 0 /\ asks d (events [out]) = [].
  Proof.
    intros H Hn. destruct (step_del cfg _ _ _ _ H) as (ls & _ & F & A & _).
    assert (Hl : forall l, l ∈ ls -> lab_asks l = []).
    { intros l Hl. rewrite Forall_forall in F. specialize (F l Hl). destruct l; try done.
      destruct op as [y o c|y| | | | | | |]; cbn in F; try (now destruct F); try (now injection F).
      - destruct (is_join c); try discriminate F; try now injection F.
      - now destruct (Hn y). }
    assert (E : ask_part (events [out]) = []).
    { rewrite A. clear - Hl. induction ls as [|l ls IH]; [done|]. cbn. rewrite (Hl l) by left. apply IH. intros; apply Hl; now right. }
    split; [|now rewrite <- asks_part, E].
    generalize (events [out]) E. intros ev. clear. induction ev as [|e ev IH]; [done|]. cbn.
    destruct e as [m a v| | | | | | | | | | |]; cbn; try apply IH; try discriminate. destruct m; cbn; try discriminate; apply IH.
  Qed.
End staking.

Section chain.
  Context (cfg : jcfg).
  Local Notation cc := (jc_c cfg).
  Local Notation sc := (jc_s cfg).
  Context (Hstep : Model_Credit.kc_step cc <> Model_Credit.U64MAX) (Hbpe : Model_Credit.kc_bpe cc <> 0).

  (** What the chain keeps. *)
  Definition sound (e : N) (j : jstate) (ev : list kev) : Prop :=
    synced j /\ book_ordered (cr (j_c j)) e /\ poc_ok (j_c j) /\ aok e (k_del (j_s j)) ev.

  Lemma calm_past op : calm cfg op -> Forall (Spec_Credit.past_only cc) (own_step op).
  Proof.
    unfold calm, own_step. destruct op as [x [o c|e| | | | | | | | |]]; cbn [fst snd]; intros H; try constructor; [|constructor|].
    - unfold Spec_Credit.past_only. cbn. now destruct c.
    - destruct (staking_only e); constructor; [|constructor]. unfold Spec_Credit.past_only. cbn. done.
  Qed.
  Lemma calm_typed op : calm cfg op -> Forall Spec_Credit.typed_op (own_step op).
  Proof.
    unfold calm, own_step. destruct op as [x [o c|e| | | | | | | | |]]; cbn [fst snd]; intros H; try constructor; [|constructor|].
    - unfold Spec_Credit.typed_op. cbn. now destruct c.
    - destruct (staking_only e); constructor; [|constructor]. unfold Spec_Credit.typed_op. cbn. done.
  Qed.
  Lemma sop_era j op : at_era (era_in cfg op) (ctx_of (sop cfg j op)) \/ 2 ^ 32 <= era_in cfg op.
  Proof.
    destruct (N.lt_ge_cases (era_in cfg op) (2 ^ 32)) as [L|L]; [left|now right].
    unfold sop. destruct (jstep cfg j op).2; [|exact Logic.I..]. destruct op as [x []]; cbn; try exact Logic.I; split; try reflexivity; exact L.
  Qed.
  Definition out_events (o : jout) : list kev := match o with JDone ev => ev | _ => [] end.
  Lemma jstep_sound e j op ev :
    e <= era_in cfg op -> era_in cfg op < 65536 -> calm cfg op ->
    sound e j ev -> sound (era_in cfg op) (jstep cfg j op).1 (ev ++ out_events (jstep cfg j op).2).
  Proof.
    intros He Hlt Hc (Hy & Ho & Hp & Ha). split; [now apply jstep_synced|]. split; [|split].
    - apply (jstep_ordered cfg j op e Hy Hstep Hbpe); [now apply calm_past|exact He|exact Ho].
    - apply (jstep_poc cfg); [exact Hy|exact Hstep|now apply calm_typed|exact Hp].
    - pose proof (step_aok sc (era_in cfg op) (j_s j) (sop cfg j op) ev) as S.
      rewrite (jstep_staking cfg j op Hstep Hy) in S. cbn [fst snd] in S.
      unfold events in S. cbn [map concat] in S. rewrite app_nil_r in S. apply S; [|eapply aok_later; eassumption].
      destruct (sop_era j op); [auto|lia].
  Qed.
  Lemma era_le from op : from <= at_block op -> from / Model_Credit.kc_bpe cc <= era_in cfg op.
  Proof. intros H. now apply N.div_le_mono. Qed.

  (** The reward the staking pallet is told is the one the credit has earned. *)
  Lemma init_claim e j x d f :
    e <= era_in cfg (x, JInit) -> era_in cfg (x, JInit) < 65536 -> claimable (j_c j) d ->
    book_ordered (cr (j_c j)) e -> poc_ok (j_c j) ->
    f < era_in cfg (x, JInit) ->
    forall c1, kx_reward (sctx2 cfg x (j_c j) c1) d f (era_in cfg (x, JInit) - 1) =
      Spec_Credit.claim_reward cc (j_c j) d f (era_in cfg (x, JInit) - 1).
  Proof.
    intros He Hlt (C1 & C2 & C3) Ho Hp Hf c1. cbn [kx_reward sctx2].
    destruct (get_reward_spec cc (j_c j) (jx_c x) d f (era_in cfg (x, JInit) - 1)) as (c' & E); try done.
    - apply (book_ordered_mono _ _ _ He) in Ho. exact Ho.
    - lia.
    - unfold era_in, at_block in *. unfold Model_Credit.era_of. cbn [fst] in *. lia.
    - lia.
    - now rewrite E.
  Qed.

  (** One round of payments. *)
  Lemma jstep_asks e j op ev d f t :
    e <= era_in cfg op -> era_in cfg op < 65536 -> sound e j ev ->
    (f, t) ∈ asks d (out_events (jstep cfg j op).2) ->
    op.2 = JInit /\ t = era_in cfg op - 1 /\ f < era_in cfg op /\
    exists r, d_recs (k_del (j_s j)) !! d = Some r /\ dr_since r = Some f.
  Proof.
    intros He Hlt (Hy & _ & _ & _ & _ & Hr) Hin.
    pose proof (jstep_staking cfg j op Hstep Hy) as S.
    destruct (jstep cfg j op).2 as [evs| |] eqn:Eo; cbn [out_events] in *; try now apply elem_of_nil in Hin.
    assert (K : op.2 = JInit).
    { unfold sop in S. rewrite Eo in S.
      destruct (op.2) eqn:E2; try reflexivity; exfalso; apply (step_quiet sc _ _ _ _ d) in S as [_ S];
        try discriminate; unfold events in S; cbn [map concat] in S; rewrite app_nil_r in S; rewrite S in Hin;
        now apply elem_of_nil in Hin. }
    split; [exact K|]. unfold sop in S. rewrite Eo, K in S. cbn [kstep] in S.
    destruct (on_initialize sc _ (j_s j)) as [[s1 e1]| |] eqn:E; cbn [settle] in S; try discriminate.
    injection S as _ ->. destruct (init_asks sc _ _ _ _ _ _ _ E Hin) as (-> & Hn & r & R1 & R2).
    change (kx_era _) with (era_in cfg op) in Hn |- *.
    assert (Hf : f <= era_in cfg op) by (destruct (Hr d r f R1 R2); lia).
    split; [|split; [lia|eauto]].
    apply sub32_exact; unfold two32; lia.
  Qed.
  Definition due_sum (c : credit) (d : N) (l : list (N * N)) : N :=
    lsum (map (fun q => default 0 (Spec_Credit.claim_reward cc c d q.1 q.2)) l).
  Lemma jstep_paid e j op ev d :
    e <= era_in cfg op -> era_in cfg op < 65536 -> sound e j ev -> claimable (j_c j) d ->
    paid d (out_events (jstep cfg j op).2) <= due_sum (j_c j) d (asks d (out_events (jstep cfg j op).2)).
  Proof.
    intros He Hlt Hs Hc. pose proof (fun f t => jstep_asks e j op ev d f t He Hlt Hs) as A.
    destruct Hs as (Hy & Ho & Hp & Ha). pose proof (jstep_staking cfg j op Hstep Hy) as S.
    destruct (jstep cfg j op).2 as [evs| |] eqn:Eo; cbn [out_events] in *; [|cbn; lia..].
    unfold sop in S. rewrite Eo in S.
    assert (Q : (forall y, match op.2 with JInit => KInit y | _ => KFinal end <> KInit y) -> paid d evs = 0).
    { intros Hq. destruct (op.2) eqn:E2; try (now destruct (Hq (KCtx 0 (fun _ => false) (fun _ _ _ => None) (fun _ => None) (fun _ => []) (fun _ => []) 0 (fun _ => false) (fun _ => false) (fun _ => false) (fun _ => false) (fun _ => false) (fun _ => 0) (fun _ => false) (fun _ => false) (fun _ => false) (fun _ => false))));
        apply (step_quiet sc _ _ _ _ d) in S as [S _]; try discriminate; unfold events in S; cbn [map concat] in S;
        rewrite app_nil_r in S; exact S. }
    destruct op as [x a]. cbn [fst snd] in *. destruct a; try (rewrite Q by discriminate; lia). clear Q.
    cbn [kstep] in S. destruct (on_initialize sc _ (j_s j)) as [[s1 e1]| |] eqn:E; cbn [settle] in S; try discriminate.
    injection S as _ ->. pose proof (init_paid sc _ _ _ _ d E) as P.
    eapply N.le_trans; [exact P|]. apply N.eq_le_incl. unfold asked_sum, due_sum. f_equal.
    apply map_ext_in. intros [f t] Hin%elem_of_list_In. cbn [fst snd].
    destruct (A f t Hin) as (_ & -> & Hf & _). f_equal. eapply init_claim; eauto.
  Qed.

  (** Whole histories. *)
  Fixpoint dues (j : jstate) (h : list jop) (d : N) : list (credit * (N * N)) :=
    match h with
    | [] => []
    | op :: r => map (pair (j_c j)) (asks d (out_events (jstep cfg j op).2)) ++ dues (jstep cfg j op).1 r d
    end.
  Lemma dues_asks h : forall j d, map snd (dues j h d) = asks d (jevents (jouts cfg j h)).
  Proof.
    induction h as [|op h IH]; intros j d; [done|]. cbn [dues jouts]. unfold jevents. cbn [map concat].
    rewrite map_app, map_map, asks_app, IH. cbn [snd]. now rewrite map_id.
  Qed.
  Lemma jrun_sound h : forall e j ev,
    (forall op r, h = op :: r -> e <= era_in cfg op) ->
    (exists from, orderly cfg from h) -> sound e j ev ->
    (forall j' op out, (j', op, out) ∈ visited cfg j h -> exists e' ev', sound e' j' ev' /\ e' <= era_in cfg op /\
        era_in cfg op < 65536 /\ out = (jstep cfg j' op).2) /\
    exists e', sound e' (jrun cfg j h) (ev ++ jevents (jouts cfg j h)).
  Proof.
    induction h as [|op h IH]; intros e j ev He [from Hord] Hs.
    - split; [intros ? ? ? Hin; now apply elem_of_nil in Hin|]. exists e. unfold jevents. cbn. now rewrite app_nil_r.
    - cbn [orderly] in Hord. destruct Hord as (O1 & O2 & O3 & O4).
      pose proof (He op h eq_refl) as He'. pose proof (jstep_sound e j op ev He' O2 O3 Hs) as Hs'.
      assert (H1 : forall op' r, h = op' :: r -> era_in cfg op <= era_in cfg op').
      { intros op' r ->. cbn in O4. destruct O4 as (O4 & _). now apply N.div_le_mono. }
      destruct (IH (era_in cfg op) _ _ H1 (ex_intro (fun from => orderly cfg from h) _ O4) Hs') as [I1 I2].
      split.
      + intros j' op' out Hin. cbn [visited] in Hin. apply elem_of_cons in Hin as [Hin|Hin]; [|eauto].
        injection Hin as -> -> ->. exists e, ev. auto.
      + cbn [jrun jouts]. unfold jevents. cbn [map concat]. rewrite app_assoc. exact I2.
  Qed.
  Lemma jrun_paid h : forall e j ev d,
    (forall op r, h = op :: r -> e <= era_in cfg op) ->
    (exists from, orderly cfg from h) -> sound e j ev ->
    (forall j' op out, (j', op, out) ∈ visited cfg j h -> claimable (j_c j') d) ->
    paid d (jevents (jouts cfg j h)) <=
      lsum (map (fun q => default 0 (Spec_Credit.claim_reward cc q.1 d q.2.1 q.2.2)) (dues j h d)).
  Proof.
    induction h as [|op h IH]; intros e j ev d He [from Hord] Hs Hc; [cbn; lia|].
    cbn [orderly] in Hord. destruct Hord as (O1 & O2 & O3 & O4). pose proof (He op h eq_refl) as He'.
    pose proof (jstep_sound e j op ev He' O2 O3 Hs) as Hs'. cbn [visited] in Hc.
    pose proof (jstep_paid e j op ev d He' O2 Hs (Hc _ _ _ ltac:(left))) as P.
    assert (R : paid d (jevents (jouts cfg (jstep cfg j op).1 h)) <=
      lsum (map (fun q => default 0 (Spec_Credit.claim_reward cc q.1 d q.2.1 q.2.2)) (dues (jstep cfg j op).1 h d))).
    { eapply IH; [| |exact Hs'|].
      - intros op' r ->. cbn in O4. destruct O4 as (O4 & _). now apply N.div_le_mono.
      - eauto.
      - intros j' op' out Hin. eapply Hc. right. exact Hin. }
    cbn [dues jouts]. unfold jevents in *. cbn [map concat]. rewrite paid_app, map_app, map_map. cbn [fst snd].
    assert (L : forall a b, lsum (a ++ b) = lsum a + lsum b).
    { induction a as [|v a IHa]; intros b; cbn; [done|]. rewrite IHa. lia. }
    rewrite L. unfold due_sum, out_events in *. lia.
  Qed.

  (** Per era. *)
  Lemma claim_split c d f t :
    exists l : list N,
      StronglySorted N.lt l /\ Forall (fun e => f <= e <= t /\ in_period c d e) l /\
      default 0 (Spec_Credit.claim_reward cc c d f t) <= lsum (map (fun e => default 0 (Spec_Credit.era_pay cc c d e)) l).
  Proof.
    unfold Spec_Credit.claim_reward, Spec_Credit.paid_eras.
    destruct (Model_Credit.k_uc c !! d) as [r|] eqn:Eu.
    2: { exists []. split; [constructor|]. split; [constructor|]. cbn. lia. }
    destruct (default [] (Model_Credit.k_hist c !! d)) as [|[e0 r0] l0] eqn:Eh.
    { exists []. split; [constructor|]. split; [constructor|]. cbn. lia. }
    destruct (N.eqb_spec (Model_Credit.cd_eras r) 0) as [|Hne].
    { exists []. split; [constructor|]. split; [constructor|]. cbn. lia. }
    set (m := N.min t (e0 + Model_Credit.cd_eras r - 1)).
    exists (Spec_Credit.eras f m). split; [|split].
    - unfold Spec_Credit.eras. generalize (N.to_nat (m + 1 - f)). intros n. generalize 0%nat at 1.
      induction n as [|n IH]; intros k; cbn; constructor; [apply IH|].
      apply Forall_forall. intros e He. apply elem_of_list_fmap in He as (i & -> & Hi). apply elem_of_seq in Hi. lia.
    - apply Forall_forall. intros e He.
      unfold Spec_Credit.eras in He. apply elem_of_list_fmap in He as (i & -> & Hi). apply elem_of_seq in Hi. subst m. split; [lia|]. exists r, e0, r0, l0. split; [done|]. split; [done|]. lia.
    - generalize (Spec_Credit.eras f m). intros l.
      assert (S : lsum (omap (Spec_Credit.era_pay cc c d) l) = lsum (map (fun e => default 0 (Spec_Credit.era_pay cc c d e)) l)).
      { induction l as [|e l IH]; [done|]. cbn. destruct (Spec_Credit.era_pay cc c d e); cbn; rewrite IH; unfold id; lia. }
      rewrite <- S. destruct (omap _ _); cbn [default]; [lia|]. unfold id. lia.
  Qed.
  Lemma sorted_app l l' :
    StronglySorted N.lt l -> StronglySorted N.lt l' -> (forall a b, a ∈ l -> b ∈ l' -> a < b) -> StronglySorted N.lt (l ++ l').
  Proof.
    induction 1 as [|a l S IH F]; intros S' H; [done|]. cbn. constructor.
    - apply IH; [done|]. intros; apply H; [now right|done].
    - apply Forall_app. split; [done|]. apply Forall_forall. intros b Hb. apply H; [left|done].
  Qed.
  Lemma dues_split d (l : list (credit * (N * N))) :
    successive (map snd l) ->
    exists q : list (N * credit),
      StronglySorted N.lt (map fst q) /\
      Forall (fun p => exists f t, (p.2, (f, t)) ∈ l /\ f <= p.1 <= t /\ in_period p.2 d p.1) q /\
      lsum (map (fun p => default 0 (Spec_Credit.claim_reward cc p.1 d p.2.1 p.2.2)) l) <=
      lsum (map (fun p => default 0 (Spec_Credit.era_pay cc p.2 d p.1)) q).
  Proof.
    induction l as [|[c [f t]] l IH]; intros S.
    { exists []. split; [constructor|]. split; [constructor|]. cbn. lia. }
    cbn [map snd successive] in S. destruct S as (S1 & S2 & S3). destruct (IH S3) as (q & Q1 & Q2 & Q3).
    destruct (claim_split c d f t) as (es & E1 & E2 & E3).
    exists (map (fun e => (e, c)) es ++ q). rewrite !map_app, !map_map. cbn [fst snd]. rewrite map_id.
    split; [|split].
    - apply sorted_app; [done|done|]. intros a b Ha Hb.
      pose proof (proj1 (Forall_forall _ _) E2) as E2'. pose proof (proj1 (Forall_forall _ _) Q2) as Q2'. destruct (E2' a Ha) as [[_ ?] _].
      apply elem_of_list_fmap in Hb as ([b' c'] & -> & Hb). destruct (Q2' _ Hb) as (f' & t' & Hin & [? _] & _). cbn in *.
      rewrite Forall_forall in S2. assert (t < f'); [|lia]. apply (S2 (f', t')). apply elem_of_list_fmap. exists (c', (f', t')). auto.
    - apply Forall_app. split.
      + apply Forall_forall. intros p Hp. apply elem_of_list_fmap in Hp as (e & -> & He). rewrite Forall_forall in E2.
        exists f, t. cbn. split; [left|]. now apply E2.
      + eapply Forall_impl; [exact Q2|]. intros p (f' & t' & ? & ?). exists f', t'. split; [now right|done].
    - assert (L : forall a b, lsum (a ++ b) = lsum a + lsum b).
      { induction a as [|v a IHa]; intros b; cbn; [done|]. rewrite IHa. lia. }
      rewrite L. cbn [map lsum fst snd]. unfold lsum at 1. cbn [foldr]. fold lsum. lia.
  Qed.
  Lemma dues_elem h : forall j c d q, (c, q) ∈ dues j h d ->
    exists j' op out, (j', op, out) ∈ visited cfg j h /\ c = j_c j' /\ q ∈ asks d (out_events out).
  Proof.
    induction h as [|op h IH]; intros j c d q Hin; [now apply elem_of_nil in Hin|].
    cbn [dues visited] in *. apply elem_of_app in Hin as [Hin|Hin].
    - apply elem_of_list_fmap in Hin as (q' & [= -> ->] & Hq). exists j, op, (jstep cfg j op).2. split; [left|done].
    - destruct (IH _ _ _ _ Hin) as (j' & op' & out & H & H'). exists j', op', out. split; [now right|done].
  Qed.

  (** Genesis. *)
  Lemma genesis_sound b p settings data :
    Forall Spec_Credit.setting_typed settings -> sound 0 (jgenesis b p settings data) [].
  Proof.
    intros Hs. split; [|split; [|split]].
    - unfold synced, jgenesis, Model_Credit.kinit. cbn.
      assert (E : forall s, Model_Credit.k_bank (fold_left Model_Credit.update_setting settings s) = Model_Credit.k_bank s).
      { clear. induction settings as [|st l IH]; intros s; [done|]. cbn. rewrite IH. done. }
      now rewrite E.
    - intros w. unfold jgenesis, Model_Credit.kinit, cr. cbn.
      rewrite (proj2 (fold_setting_credit settings _)). cbn. rewrite lookup_empty. split; [exact Logic.I|discriminate].
    - unfold jgenesis, Model_Credit.kinit, poc_ok. cbn.
      apply (fold_setting_poc settings); [exact Hs|]. intros k a c E. cbn in E. rewrite lookup_empty in E. discriminate.
    - split; [cbn; auto|]. split; [intros; constructor|]. intros d' r s H. cbn in H. now rewrite lookup_empty in H.
  Qed.
End chain.
