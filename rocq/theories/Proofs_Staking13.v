(** A delegator who is reached is paid in full. *)
From Verif Require Import Base Balances Model_StakingLedger Model_Staking Spec_Staking
  Proofs_Arith Proofs_StakingLedger Proofs_Staking Proofs_Staking8 Proofs_Staking9 Proofs_Staking10.
From stdpp Require Import gmap sorting.
Open Scope N_scope.

Lemma asks_elem d f t ev : (f, t) ∈ asks d ev <-> KAsk d f t ∈ ev.
Proof.
  unfold asks. rewrite elem_of_list_omap. split.
  - intros (e & He & H). destruct e as [| |a f' t'| | | | | | | | |]; try discriminate.
    destruct (N.eqb_spec a d) as [->|]; [|discriminate]. now injection H as -> ->.
  - intros H. exists (KAsk d f t). split; [auto|]. now rewrite N.eqb_refl.
Qed.
Lemma free_put ed b w a who : free_of (put ed b w a) who <= if who =? w then free a else free_of b who.
Proof.
  unfold put, free_of, acct_of. destruct (_ && _); cbn.
  - destruct (N.eqb_spec who w) as [->|Hn]; [rewrite lookup_delete; cbn; lia|now rewrite lookup_delete_ne by congruence].
  - destruct (N.eqb_spec who w) as [->|Hn]; [rewrite lookup_insert; cbn; lia|now rewrite lookup_insert_ne by congruence].
Qed.
Lemma mint_free ed b w v b' got who :
  Model_Operation.mint ed b w v = (b', got) -> free_of b' who <= free_of b who + v.
Proof.
  unfold Model_Operation.mint. destruct (N.eqb_spec v 0); [intros H; injection H as <- <-; lia|].
  destruct (_ && _); [intros H; injection H as <- <-; lia|].
  destruct (_ <=? _); intros H; injection H as <- <-; [lia|].
  pose proof (free_put ed b w (Acct (free (acct_of b w) + v) (rsv (acct_of b w)) (frz (acct_of b w))) who) as F.
  destruct (N.eqb_spec who w) as [->|]; cbn in F; unfold free_of in *; lia.
Qed.
Lemma mint_full ed b w v b' got :
  Model_Operation.mint ed b w v = (b', got) -> ed <= v -> free_of b w + v < two128 -> got = v.
Proof.
  unfold Model_Operation.mint, free_of. intros H He Hf. destruct (N.eqb_spec v 0); [now injection H as <- <-|].
  destruct (N.ltb_spec v ed); [lia|]. rewrite andb_false_r in H.
  destruct (N.leb_spec two128 (free (acct_of b w) + v)); [lia|]. now injection H as <- <-.
Qed.

Section model.
  Context (cfg : kcfg).
  Local Notation ed := (kc_ed cfg).

  Lemma pay_delegator_bank x s d r pool s' p ev who :
    pay_delegator cfg x s d r pool = (s', p, ev) -> p <= pool ->
    free_of (k_bank s') who + (pool - p) <= free_of (k_bank s) who + pool /\ d_black (k_del s') = d_black (k_del s).
  Proof.
    intros H L. revert H. unfold pay_delegator. destruct (_ =? _); [intros H; injection H as <- <- _; split; [lia|auto]|].
    destruct (kx_reward x d _ _); [|intros H; injection H as <- <- _; cbn [k_bank set_k_bank set_k_del]; split; [lia|now destruct (dr_on r)]].
    destruct (Model_Operation.mint _ _ _ _) eqn:E. intros H; injection H as <- <- _. apply (mint_free _ _ _ _ _ _ who) in E.
    split; [cbn [k_bank set_k_bank set_k_del]; lia|now destruct (dr_on r)].
  Qed.
  Lemma pay_referer_bank s d rw pool s' p ev who :
    pay_referer cfg s d rw pool = (s', p, ev) ->
    p <= pool /\ free_of (k_bank s') who + (pool - p) <= free_of (k_bank s) who + pool.
  Proof.
    unfold pay_referer. destruct (_ !! d); [|intros H; injection H as <- <- _; split; lia].
    destruct (bonus_rate _); [|intros H; injection H as <- <- _; split; lia].
    destruct (Model_Operation.mint _ _ _ _) eqn:E. intros H; injection H as <- <- _. apply (mint_free _ _ _ _ _ _ who) in E.
    cbn [k_bank set_k_bank]. split; lia.
  Qed.
  Lemma pay_delegator_le x s d r pool s' p ev : pay_delegator cfg x s d r pool = (s', p, ev) -> p <= pool.
  Proof.
    unfold pay_delegator. destruct (_ =? _); [intros H; injection H as <- <- _; lia|].
    destruct (kx_reward x d _ _); [|intros H; injection H as <- <- _; lia].
    destruct (Model_Operation.mint _ _ _ _). intros H; injection H as <- <- _. destruct (_ <=? _); lia.
  Qed.
  (** The ask of a delegator and its payment. *)
  Lemma pay_delegator_full x s d0 r pool s' p ev d f t poc :
    pay_delegator cfg x s d0 r pool = (s', p, ev) -> KAsk d f t ∈ ev ->
    kx_reward x d f t = Some poc -> default 0 (d_black (k_del s) !! d) < kx_era x ->
    ssub pool p <> 0 -> ed <= poc -> free_of (k_bank s) d + poc < two128 -> KMint MDelegator d poc ∈ ev.
  Proof.
    unfold pay_delegator. intros H Hin Hr Hb Hp He Hf. destruct (_ =? _); [injection H as <- <- <-; now apply elem_of_nil in Hin|].
    destruct (kx_reward x d0 _ _) as [q|] eqn:Eq.
    - destruct (Model_Operation.mint _ _ _ _) as [b got] eqn:E. injection H as <- <- <-.
      apply elem_of_cons in Hin as [Hin|Hin]; [|apply elem_of_list_singleton in Hin; discriminate].
      injection Hin as <- -> ->. rewrite Eq in Hr. injection Hr as ->.
      destruct (N.leb_spec (kx_era x) (default 0 (d_black (k_del s) !! d))); [lia|].
      assert (M : N.min pool poc = poc) by (unfold ssub in Hp; lia). rewrite M in E.
      rewrite (mint_full _ _ _ _ _ _ E He Hf). right. left.
    - injection H as <- <- <-. apply elem_of_list_singleton in Hin. injection Hin as <- -> ->. congruence.
  Qed.
  Lemma pay_loop_full x d f t poc : forall n l s pool last ct s' p' la' c' ev,
    pay_loop cfg x n l s pool last ct = (s', p', la', c', ev) -> p' <> 0 -> KAsk d f t ∈ ev ->
    kx_reward x d f t = Some poc -> default 0 (d_black (k_del s) !! d) < kx_era x ->
    ed <= poc -> free_of (k_bank s) d + pool + poc < two128 -> KMint MDelegator d poc ∈ ev.
  Proof.
    induction n as [|n IH]; intros [|[d0 r] l] s pool last ct s' p' la' c' ev H Hp Hin Hr Hb He Hf; cbn [pay_loop] in H;
      try (injection H as <- <- <- <- <-; now apply elem_of_nil in Hin).
    destruct (pay_delegator cfg x s d0 r pool) as [[s1 q] e1] eqn:E1.
    pose proof (pay_delegator_le _ _ _ _ _ _ _ _ E1) as L1.
    pose proof (pay_delegator_bank _ _ _ _ _ _ _ _ d E1 L1) as [B1 K1].
    destruct (N.eqb_spec (ssub pool q) 0) as [Z|Z]; [injection H as <- <- _ _ _; congruence|].
    destruct (pay_referer cfg s1 d0 q _) as [[s2 q2] e2] eqn:E2.
    pose proof (pay_referer_bank _ _ _ _ _ _ _ d E2) as [L2 B2]. apply pay_referer_del in E2 as [K2 A2].
    destruct (N.eqb_spec (ssub (ssub pool q) q2) 0) as [Z2|Z2]; [injection H as <- <- _ _ _; congruence|].
    destruct (pay_loop _ _ _ _ _ _ _) as [[[[s3 p3] l3] c3] e3] eqn:E3 in H. injection H as <- <- <- <- <-.
    unfold ssub in *. apply elem_of_app in Hin as [Hin|Hin].
    { apply elem_of_app. left. eapply pay_delegator_full; eauto; unfold ssub; lia. }
    apply elem_of_app. right. apply elem_of_app in Hin as [Hin|Hin].
    { apply asks_elem in Hin. rewrite <- asks_part, A2 in Hin. now apply elem_of_nil in Hin. }
    apply elem_of_app. right. eapply IH; eauto; [now rewrite K2, K1|lia].
  Qed.
  Lemma init_full x s s' ev d f t poc :
    on_initialize cfg x s = ROk (s', ev) -> mining_pool cfg s' <> 0 -> (f, t) ∈ asks d ev ->
    kx_reward x d f t = Some poc -> default 0 (d_black (k_del s) !! d) < kx_era x ->
    ed <= poc -> free_of (k_bank s) d + mining_pool cfg s + poc < two128 -> KMint MDelegator d poc ∈ ev.
  Proof.
    unfold on_initialize. intros H Hp Hin Hr Hb He Hf. apply asks_elem in Hin.
    destruct (0 <? _); [|injection H as <- <-; now apply elem_of_nil in Hin].
    destruct (_ =? 0); [destruct (_ =? 0); [discriminate|]; injection H as <- <-; now apply elem_of_nil in Hin|].
    injection H as H. unfold pay_delegators in H.
    destruct (_ =? 0); [injection H as <- <-; now apply elem_of_nil in Hin|].
    destruct (pay_loop _ _ _ _ _ _ _) as [[[[s1 p1] l1] c1] e1] eqn:E in H. injection H as <- <-.
    eapply pay_loop_full; eauto.
  Qed.
  Lemma step_full s op s' out x d f t poc :
    kstep cfg s op = (s', out) -> ctx_of op = Some x -> mining_pool cfg s' <> 0 -> (f, t) ∈ asks d (events [out]) ->
    kx_reward x d f t = Some poc -> default 0 (d_black (k_del s) !! d) < kx_era x ->
    ed <= poc -> free_of (k_bank s) d + mining_pool cfg s + poc < two128 -> KMint MDelegator d poc ∈ events [out].
  Proof.
    intros H Hx Hp Hin Hr Hb He Hf.
    destruct (step_del cfg _ _ _ _ H) as (ls & _ & F & A & _).
    assert (K : kind_of op = KdInit).
    { rewrite <- asks_part, A in Hin. clear - F Hin. induction ls as [|l ls IH]; [now apply elem_of_nil in Hin|].
      apply Forall_cons in F as [F1 F2]. cbn [map concat] in Hin. rewrite asks_app in Hin. apply elem_of_app in Hin as [Hin|Hin]; [|auto].
      destruct l; try (now apply elem_of_nil in Hin). now injection F1. }
    destruct op as [y o c|y| | | | | | |]; cbn in K; try discriminate; [destruct (is_join c); discriminate|].
    cbn in Hx. injection Hx as ->. cbn [kstep] in H.
    destruct (on_initialize cfg x s) as [[s1 ev]|e|] eqn:E; cbn [settle] in H; injection H as <- <-; try now apply elem_of_nil in Hin.
    unfold events in *. cbn [map concat] in *. rewrite app_nil_r in *. eapply init_full; eauto.
  Qed.
  Lemma run_full e d f t poc : forall h s,
    within e h -> (f, t) ∈ asks d (events (kouts cfg s h)) ->
    (forall op x, op ∈ h -> ctx_of op = Some x -> kx_reward x d f t = Some poc) ->
    throughout cfg (fun s => mining_pool cfg s <> 0 /\ default 0 (d_black (k_del s) !! d) < e /\
                             free_of (k_bank s) d + mining_pool cfg s + poc < two128) s h ->
    ed <= poc -> KMint MDelegator d poc ∈ events (kouts cfg s h).
  Proof.
    induction h as [|op h IH]; intros s W Hin Hr [T1 T2] He; [now apply elem_of_nil in Hin|].
    apply Forall_cons in W as [W1 W2]. destruct T1 as [(P1 & P2 & P3) T1]. cbn [krun kouts] in *.
    rewrite events_cons in *. rewrite asks_app in Hin. apply elem_of_app. apply elem_of_app in Hin as [Hin|Hin].
    - left. destruct (kstep cfg s op) as [s' out] eqn:E. cbn [fst snd] in *.
      assert (P : mining_pool cfg s' <> 0) by (destruct h; [apply T2|apply T1]).
      destruct (ctx_of op) as [x|] eqn:Ex.
      + eapply step_full; eauto; [apply (Hr op); [left|auto]|now rewrite W1].
      + exfalso. destruct (step_del cfg _ _ _ _ E) as (ls & _ & F & A & _). rewrite Ex in F.
        rewrite <- asks_part, A in Hin. clear - F Hin. induction ls as [|l ls IH]; [now apply elem_of_nil in Hin|].
        apply Forall_cons in F as [F1 F2]. cbn [map concat] in Hin. rewrite asks_app in Hin. apply elem_of_app in Hin as [Hin|Hin]; [|auto].
        destruct l; try (now apply elem_of_nil in Hin). discriminate F1.
    - right. apply IH; auto; [|now split]. intros op' x Hop. apply Hr. now right.
  Qed.
End model.

(** ** From genesis *)
Lemma genesis_dinv b p : dinv (k_del (kgenesis b p)).
Proof.
  assert (E : forall A (P : A -> bool), having P (∅ : gmap N A) = ∅).
  { intros A P. apply set_eq. intros d. rewrite having_elem. split; [|set_solver]. intros (r & H & _). now rewrite lookup_empty in H. }
  split; [|split].
  - intros d v. split; [intros H; now apply not_elem_of_empty in H|]. intros (r & H & _). discriminate H.
  - split; [reflexivity|]. cbn. now rewrite E.
  - split; [|intros w H; discriminate H]. intros a. cbn [kgenesis k_del d_refc d_ref]. rewrite lookup_empty, E. reflexivity.
Qed.
Lemma mirror_names s : mirror (k_del s) -> forall d v, backs s d v <-> names s d v.
Proof.
  intros M d v. unfold names. rewrite <- (M d v). unfold backs, dels_in. destruct (_ !! v); cbn; [tauto|set_solver].
Qed.
Lemma referees_having s a : referees s a = having (fun r => r =? a) (d_ref (k_del s)).
Proof.
  apply set_eq. intros d. rewrite having_elem. unfold referees. rewrite elem_of_dom. split.
  - intros [r H]. apply map_filter_lookup_Some in H as [H1 H2]. exists r. split; [auto|]. now apply N.eqb_eq.
  - intros (r & H1 & H2). exists r. apply map_filter_lookup_Some. split; [auto|]. now apply N.eqb_eq.
Qed.
