(** No hook of the joined chain panics while credit records are kept. *)
From Verif Require Import Base Balances Model_UserPrivileges.
From Verif Require Model_Credit Spec_Credit.
From Verif Require Import Model_StakingLedger Model_Staking Model_Chain Spec_Staking Spec_Staking2 Spec_Chain Proofs_Arith
  Proofs_Credit Proofs_Credit2 Proofs_Credit3 Proofs_Credit6 Proofs_Credit7 Proofs_Staking Proofs_Staking8 Proofs_Staking10 Proofs_Staking13
  Proofs_Staking15 Proofs_Chain1 Proofs_Chain2 Proofs_Chain3 Proofs_Chain4 Proofs_Chain5.
From stdpp Require Import gmap sorting.
Open Scope N_scope.

Lemma jrun_app cfg j a b : jrun cfg j (a ++ b) = jrun cfg (jrun cfg j a) b.
Proof. revert j. induction a as [|op a IH]; intros j; [done|]. cbn. apply IH. Qed.
Lemma visited_split cfg h : forall j j' op out,
  (j', op, out) ∈ visited cfg j h ->
  exists h1 h2, h = h1 ++ op :: h2 /\ j' = jrun cfg j h1 /\ out = (jstep cfg j' op).2.
Proof.
  induction h as [|o h IH]; intros j j' op out Hin; [now apply elem_of_nil in Hin|].
  cbn [visited] in Hin. apply elem_of_cons in Hin as [[= -> -> ->]|Hin].
  - now exists [], h.
  - destruct (IH _ _ _ _ Hin) as (h1 & h2 & -> & -> & ->). exists (o :: h1), h2. auto.
Qed.
Lemma visited_mid cfg h1 op h2 : forall j, (jrun cfg j h1, op, (jstep cfg (jrun cfg j h1) op).2) ∈ visited cfg j (h1 ++ op :: h2).
Proof. induction h1 as [|o h1 IH]; intros j; cbn; [left|right; apply IH]. Qed.

Definition priced (c : credit) : Prop := Forall (fun p => p <> 0) (Model_Credit.k_prices c) /\ Model_Credit.k_price c <> Some 0.

Lemma fold_add128 l : forall a, a + lsum l < 2 ^ 128 -> fold_left add128 l a = a + lsum l.
Proof.
  induction l as [|y l IH]; intros a H; cbn [fold_left]; [cbn; lia|].
  change (lsum (y :: l)) with (y + lsum l) in *. rewrite add128_exact by (unfold two128; lia). rewrite IH by lia. lia.
Qed.
Lemma lsum_ge l : Forall (fun p => p <> 0) l -> N.of_nat (length l) <= lsum l.
Proof. induction 1 as [|y l H F IH]; [cbn; lia|]. change (lsum (y :: l)) with (y + lsum l). cbn [length]. lia. Qed.
Lemma set_price_priced c : lsum (Model_Credit.k_prices c) < 2 ^ 128 -> priced c -> priced (Model_Credit.set_price c).
Proof.
  intros L [P Q]. unfold Model_Credit.set_price. destruct (Model_Credit.k_prices c) as [|p l] eqn:E; [split; [now rewrite E|done]|].
  split; [constructor|]. intros H. assert (H' : fold_left add128 (p :: l) 0 / N.of_nat (length (p :: l)) = 0) by exact (f_equal (default 0) H). clear H. rename H' into H.
  rewrite (fold_add128 (p :: l) 0 L), N.add_0_l in H. apply lsum_ge in P.
  revert H. apply N.neq_0_lt_0. apply N.div_str_pos. split; [cbn; lia|exact P].
Qed.

Section chain.
  Context (cfg : jcfg).
  Local Notation cc := (jc_c cfg).
  Local Notation sc := (jc_s cfg).
  Context (Hstep : Model_Credit.kc_step cc <> Model_Credit.U64MAX) (Hbpe : Model_Credit.kc_bpe cc <> 0).

  (** ** Records *)
  Lemma jstep_records j op : synced j -> ~ erases op.2 -> forall d, has_record (j_c j) d -> has_record (j_c (jstep cfg j op).1) d.
  Proof.
    intros Hy Hn d. apply (jstep_keeps cfg (fun c => has_record c d)); [done|done| |].
    - intros c e He H. apply (kdo_record cc c (jx_c op.1, inr e) Hstep); [|exact H].
      cbn. destruct e as [|w [n|]| | | | | | | | | | | | |] eqn:Ee; auto; cbn in He; try contradiction.
      + intros ->. apply Hn. destruct (op.2) as [| |o [[]|l]| | | | | | | |]; try contradiction; cbn; auto.
        * destruct He as [_ He]. discriminate.
        * eauto.
    - intros c o Ho H. apply (kdo_record cc c o Hstep); [|exact H].
      unfold own_step in Ho. destruct (op.2) as [ori call|e|? ?| | | | | | | |]; try (now apply elem_of_nil in Ho).
      + apply elem_of_list_singleton in Ho as ->. auto.
      + destruct (staking_only e) eqn:Es; [now apply elem_of_nil in Ho|]. apply elem_of_list_singleton in Ho as ->.
        cbn. destruct e; try discriminate; auto.
  Qed.
  Lemma jstep_priced j op : synced j -> lsum (Model_Credit.k_prices (j_c j)) < 2 ^ 128 -> priced (j_c j) -> priced (j_c (jstep cfg j op).1).
  Proof.
    intros Hy L P.
    assert (K : forall c o, (o.2 = inr Model_Credit.KFinalize -> lsum (Model_Credit.k_prices c) < 2 ^ 128) -> priced c -> priced (Model_Credit.kdo cc c o)).
    { intros c o Hf [P1 P2]. destruct (kdo_prices cc c o Hstep) as [E|[(p & Hp & E)|[E1 E2]]].
      - injection E as E1 E2. split; [now rewrite E1|now rewrite E2].
      - injection E as E1 E2. split; [rewrite E1; apply Forall_app; split; [done|constructor; [done|constructor]]|now rewrite E2].
      - rewrite E2. apply set_price_priced; [auto|now split]. }
    assert (D : op.2 = JEntry Model_Credit.KFinalize \/ op.2 <> JEntry Model_Credit.KFinalize).
    { destruct op.2 as [|e| | | | | | | | |]; try (right; discriminate). destruct e; try (right; discriminate). now left. }
    destruct D as [E|E].
    - destruct op as [x a]. cbn in E. subst a. unfold jstep, jact_step. cbn [fst snd staking_only].
      change (priced (Model_Credit.set_price (j_c j))). now apply set_price_priced.
    - apply (jstep_keeps cfg priced); [done|auto| | |done].
      + intros c e He. apply K. cbn. intros [= ->]. contradiction.
      + intros c o Ho. apply K. intros Hf. exfalso. apply E.
        unfold own_step in Ho. destruct (op.2) as [ori call|e|? ?| | | | | | | |]; try (now apply elem_of_nil in Ho).
        * apply elem_of_list_singleton in Ho as ->. discriminate.
        * destruct (staking_only e) eqn:Es; [now apply elem_of_nil in Ho|]. apply elem_of_list_singleton in Ho as ->. cbn in Hf. now injection Hf as ->.
  Qed.

  (** ** Payouts *)
  Lemma pay_total x n : forall l c s pool last ct,
    Model_Credit.era_of cc (Model_Credit.kx_now (jx_c x)) < 65536 ->
    book_ordered (cr c) (Model_Credit.era_of cc (Model_Credit.kx_now (jx_c x))) -> Model_Credit.k_price c <> Some 0 ->
    (forall d r f, (d, r) ∈ l -> dr_since r = Some f -> f <= Model_Credit.era_of cc (Model_Credit.kx_now (jx_c x))) ->
    exists r, jpay_loop cfg x n l c s pool last ct = ROk r.
  Proof.
    induction n as [|n IH]; intros [|[d r] l] c s pool last ct He Ho Hp Hl; cbn [jpay_loop]; eauto.
    assert (P : exists c1 s1 paid ev, jpay_delegator cfg x c s d r pool = ROk (c1, s1, paid, ev) /\
      book_ordered (cr c1) (Model_Credit.era_of cc (Model_Credit.kx_now (jx_c x))) /\ Model_Credit.k_price c1 <> Some 0).
    { unfold jpay_delegator. cbv zeta. destruct (pay_delegator _ _ _ _ _ _) as [[s1 p] e].
      destruct (N.eqb_spec (default (Model_Credit.era_of cc (Model_Credit.kx_now (jx_c x))) (dr_since r)) (Model_Credit.era_of cc (Model_Credit.kx_now (jx_c x)))) as [E|E].
      { eexists _, _, _, _. eauto. }
      destruct (dr_since r) as [f|] eqn:Ef; [|done]. pose proof (Hl d r f (elem_of_list_here _ _) Ef) as Hf.
      change (default (Model_Credit.era_of cc (Model_Credit.kx_now (jx_c x))) (Some f)) with f in *.
      set (era := Model_Credit.era_of cc (Model_Credit.kx_now (jx_c x))) in *.
      assert (T : sub32 era 1 = era - 1) by (apply sub32_exact; unfold two32; lia). rewrite T.
      destruct (get_reward_total cc c (jx_c x) d f (era - 1) Hstep Ho ltac:(lia) Hp) as (c' & rw & E').
      rewrite E'. cbn [lift rbind fst snd]. eexists _, _, _, _. split; [reflexivity|].
      assert (D : Model_Credit.kdo cc c (jx_c x, inr (Model_Credit.KGetReward d f (era - 1))) = c').
      { unfold Model_Credit.kdo, Model_Credit.kentry_step. cbn [snd fst Model_Credit.kentry_exec]. now rewrite E'. }
      split.
      - rewrite <- D. apply (kdo_ordered cc c (jx_c x, inr (Model_Credit.KGetReward d f (era - 1))) era Hstep Hbpe); [done|apply N.le_refl|exact Ho].
      - destruct (kdo_prices cc c (jx_c x, inr (Model_Credit.KGetReward d f (era - 1))) Hstep) as [E2|[(p0 & Hp0 & E2)|[E2 _]]]; [| |discriminate];
          rewrite D in E2; injection E2 as _ E2; now rewrite E2. }
    destruct P as (c1 & s1 & paid & ev & -> & Ho1 & Hp1). cbn [rbind].
    destruct (_ =? 0); [eauto|]. destruct (pay_referer _ _ _ _ _) as [[s2 p2] e2]. destruct (_ =? 0); [eauto|].
    destruct (IH l c1 s2 (ssub (ssub pool paid) p2) (CKey (kc_dkey sc d)) (ct + 1) He Ho1 Hp1) as [[[[[[c3 s3] p3] l3] n3] e3] ->].
    { intros d' r' f Hin. apply (Hl d' r' f). now right. }
    cbn [rbind]. eauto.
  Qed.
  Lemma init_total x c s :
    sub32 (w32 (kc_bpe sc)) 2 <> 0 ->
    Model_Credit.era_of cc (Model_Credit.kx_now (jx_c x)) < 65536 ->
    book_ordered (cr c) (Model_Credit.era_of cc (Model_Credit.kx_now (jx_c x))) -> Model_Credit.k_price c <> Some 0 ->
    (forall d r f, d_recs (k_del s) !! d = Some r -> dr_since r = Some f -> f <= Model_Credit.era_of cc (Model_Credit.kx_now (jx_c x))) ->
    exists r, jon_initialize cfg x c s = ROk r.
  Proof.
    intros Hn He Ho Hp Hl. unfold jon_initialize.
    destruct (_ && _) eqn:Eb.
    - unfold jpay_delegators. cbv zeta. destruct (pool_of sc (k_del s) =? 0); [eauto|].
      match goal with |- context [jpay_loop cfg x ?n ?l c ?s0 ?p ?la ?ct] =>
        destruct (pay_total x n l c s0 p la ct He Ho Hp) as [[[[[[c3 s3] p3] l3] n3] e3] ->] end.
      { intros d r f Hin. apply delegators_elem in Hin as [_ Hin]. eauto. }
      eexists; reflexivity.
    - unfold on_initialize. change (kx_block (sctx cfg x c)) with (Model_Credit.kx_now (jx_c x)).
      destruct (0 <? cur_era s) eqn:E0; [|cbn; eauto]. cbn in Eb. apply negb_false_iff in Eb. rewrite Eb.
      cbv zeta. destruct (N.eqb_spec (sub32 (w32 (kc_bpe sc)) 2) 0); [contradiction|]. cbn; eauto.
  Qed.

  (** ** Offences *)
  Lemma offenders_total x era w now os : forall c s,
    reports (has_record c) os -> exists r, joffenders cfg x era w now os c s = ROk r.
  Proof.
    induction os as [|[[[st ex] reps] f] os IH]; intros c s R; cbn [joffenders]; [eauto|].
    assert (R' : forall c', same_recs c c' -> reports (has_record c') os).
    { intros c' Q st' ex' reps' f' Hin. eapply Forall_impl; [apply (R st' ex' reps' f'); now right|]. intros v. apply Q. }
    assert (P : exists c1 s1 e1, joffender1 cfg x era w now c s (st, ex, reps, f) = ROk (c1, s1, e1) /\ same_recs c c1).
    { unfold joffender1. destruct (bool_decide _).
      { eexists _, _, _. split; [reflexivity|apply same_recs_refl]. }
      destruct (compute_slash _ _ _ _ _ _ _ _) as [[s1 u] e1] eqn:Ec.
      destruct u as [u|]; [|eexists _, _, _; split; [reflexivity|apply same_recs_refl]].
      apply compute_others in Ec. cbv zeta. destruct (_ =? 0).
      2:{ eexists _, _, _; split; [reflexivity|apply same_recs_refl]. }
      destruct (slash_apply cfg x Hstep c s1 (USlash (u_val u) (u_own u) (u_others u) reps (u_pay u))) as [(F & c2 & s2 & e2 & E2 & Q2 & _)|(F & _)].
      - rewrite E2. cbn [rbind fst snd]. eexists _, _, _. split; [reflexivity|done].
      - exfalso. apply F. cbn [u_others]. rewrite Ec. apply (R st ex reps f). left. }
    destruct P as (c1 & s1 & e1 & -> & Q). cbn [rbind fst snd].
    destruct (IH c1 s1 (R' _ Q)) as [[[c2 s2] e2] ->]. cbn [rbind]. eauto.
  Qed.

  (** ** Hooks *)
  Definition good (j : jstate) : Prop := owned (has_record (j_c j)) (j_s j) /\ priced (j_c j).
  Lemma settle_panic j r : (exists q, r = ROk q) -> (jsettle j r).2 <> JPanic.
  Proof. intros [[[c s] ev] ->]. discriminate. Qed.
  Lemma hook_ok e j ev op :
    sub32 (w32 (kc_bpe sc)) 2 <> 0 ->
    sound e j ev -> e <= era_in cfg op -> era_in cfg op < 65536 -> good j ->
    (forall x os i, op = (x, JOffence os i) -> reports (has_record (j_c j)) os) ->
    hook op.2 -> (jstep cfg j op).2 <> JPanic.
  Proof.
    intros Hn (Hy & Ho & _ & (_ & _ & Ha)) He Hl [(_ & _ & Hq) [_ Hp]] Hr Hh. destruct op as [x a]. unfold jstep. cbn [fst snd] in *.
    change (Model_Credit.era_of cc (Model_Credit.kx_now (jx_c x))) with (era_in cfg (x, a)) in *.
    destruct a as [o c|en|o c| | |i|i|i|a0|os i|b]; try contradiction; cbn [jact_step].
    - destruct en; try contradiction; cbn; discriminate.
    - apply settle_panic. apply init_total; [done|exact Hl| |exact Hp|].
      + exact (book_ordered_mono _ _ _ He Ho).
      + intros d r f Hd Hf. destruct (Ha d r f Hd Hf) as [L _]. etransitivity; [exact L|exact He].
    - discriminate.
    - cbn. now destruct (new_session sc (j_s j) i).
    - apply settle_panic. destruct (start_result cfg x Hstep (j_c j) (j_s j) i) as [H1 H2].
      destruct (jstart_session cfg x (j_c j) (j_s j) i) as [q|er|] eqn:E; [eauto|exfalso; now apply (H2 er)|].
      exfalso. destruct (proj1 H1 eq_refl) as (_ & u & d & (f0 & e0 & _ & _ & _ & Hu) & Hd & Hnone).
      pose proof (Hq e0 u Hu) as F. rewrite Forall_forall in F. destruct (F d Hd) as [? ?]. congruence.
    - cbn. now destruct (end_session sc _ (j_s j) i).
    - discriminate.
    - apply settle_panic. unfold jon_offence. destruct (e_act _) as [[active ?]|]; [|eauto].
      destruct (slash_era _ _ _) as [era|]; [|eauto]. cbv zeta. eapply offenders_total; eauto.
  Qed.

  Lemma good_step e j ev op :
    sound e j ev -> ~ erases op.2 -> lsum (Model_Credit.k_prices (j_c j)) < 2 ^ 128 -> good j ->
    (forall x os i, op = (x, JOffence os i) -> reports (has_record (j_c j)) os) ->
    good (jstep cfg j op).1.
  Proof.
    intros (Hy & _) Hn Hl [Ho Hp] Hr. split; [|now apply jstep_priced].
    pose proof (jstep_records j op Hy Hn) as M.
    apply (owned_mono _ _ _ M) in Ho.
    eapply (step_owned sc); [exact (jstep_staking cfg j op Hstep Hy)| | |exact Ho].
    - intros y d Hc Hpass. assert (P : passing cfg (j_c (jstep cfg j op).1) d = true).
      { revert Hc Hpass. unfold sop. destruct (jstep cfg j op).2; [|discriminate|discriminate].
        destruct (op.2); cbn [ctx_of]; try discriminate; intros [= <-]; auto. }
      unfold passing in P. unfold has_record. destruct (_ !! d); [eauto|discriminate].
    - intros y os i Hs st ex reps f Hin. destruct op as [x a].
      assert (E : a = JOffence os i).
      { revert Hs. unfold sop. destruct (jstep cfg j (x, a)).2; [|discriminate|discriminate]. cbn [snd].
        destruct a; try discriminate. now intros [= _ -> ->]. }
      subst a. eapply Forall_impl; [eapply (Hr x os i eq_refl); exact Hin|]. exact M.
  Qed.

  (** ** Histories *)
  Lemma genesis_good b p settings data : good (jgenesis b p settings data).
  Proof.
    split; [apply genesis_owned|].
    assert (E : forall s0 l, prices (fold_left Model_Credit.update_setting l s0) = prices s0) by (intros; apply fold_setting_prices).
    unfold jgenesis, Model_Credit.kinit, priced. cbn [j_c]. cbn zeta.
    match goal with |- context [fold_left Model_Credit.update_setting settings ?s0] =>
      specialize (E s0 settings); set (s1 := fold_left Model_Credit.update_setting settings s0) in * end.
    clearbody s1. injection E as E1 E2.
    change (Forall (fun p => p <> 0) (Model_Credit.k_prices s1) /\ Model_Credit.k_price s1 <> Some 0).
    rewrite E1, E2. split; [constructor|discriminate].
  Qed.
  Lemma orderly_app h1 : forall h2 from, orderly cfg from (h1 ++ h2) -> orderly cfg from h1.
  Proof. induction h1 as [|op h1 IH]; intros h2 from; cbn; [done|]. intros (A & B & C & D). eauto. Qed.

  Lemma run_good b p settings data h :
    Forall Spec_Credit.setting_typed settings -> (exists from, orderly cfg from h) ->
    (forall op, op ∈ h -> ~ erases op.2) ->
    faithful_reports cfg (jgenesis b p settings data) h ->
    (forall j op out, (j, op, out) ∈ visited cfg (jgenesis b p settings data) h -> lsum (Model_Credit.k_prices (j_c j)) < 2 ^ 128) ->
    good (jrun cfg (jgenesis b p settings data) h) /\
    forall h0 h1 k ex, h = h0 ++ h1 -> e_stakers (k_era (j_s (jrun cfg (jgenesis b p settings data) h0))) !! k = Some ex ->
      Forall (has_record (j_c (jrun cfg (jgenesis b p settings data) h))) (x_others ex).
  Proof.
    set (g := jgenesis b p settings data). intros Hset. induction h as [|op h IH] using rev_ind; intros Hord Hn Hf Hl.
    { split; [apply genesis_good|]. intros h0 h1 k ex E. symmetry in E. apply app_eq_nil in E as [-> ->].
      apply (genesis_good b p settings data). }
    destruct Hord as [from Hord].
    assert (IH' := IH (ex_intro _ from (orderly_app _ _ _ Hord)) (fun o Ho => Hn o (proj2 (elem_of_app _ _ _) (or_introl Ho)))).
    destruct IH' as [Hg Hx].
    { intros h1 x os i h2 st ex reps f -> Hin Hne. eapply (Hf h1 x os i (h2 ++ [op])); eauto. now rewrite <- app_assoc. }
    { intros j o out Hin. apply visited_split in Hin as (h1 & h2 & -> & -> & ->).
      eapply (Hl _ o). rewrite <- app_assoc. cbn. apply visited_mid. }
    destruct (jrun_sound cfg Hstep Hbpe (h ++ [op]) 0 g [] ltac:(intros; lia) (ex_intro _ from Hord) (genesis_sound b p settings data Hset)) as [Hs _].
    destruct (Hs _ _ _ (visited_mid cfg h op [] g)) as (e' & ev' & Sd & L1 & L2 & _).
    assert (M : forall d, has_record (j_c (jrun cfg g h)) d -> has_record (j_c (jrun cfg g (h ++ [op]))) d).
    { rewrite jrun_app. cbn [jrun]. apply jstep_records; [apply Sd|]. apply Hn. apply elem_of_app. right. left. }
    assert (Hg' : good (jrun cfg g (h ++ [op]))).
    { rewrite jrun_app. cbn [jrun]. eapply good_step; [exact Sd| | |exact Hg|].
      - apply Hn. apply elem_of_app. right. left.
      - eapply Hl, visited_mid.
      - intros x os i -> st ex reps f Hin. destruct (x_others ex) eqn:Ex; [constructor|]. rewrite <- Ex.
        destruct (Hf h x os i [] st ex reps f eq_refl Hin) as (h0 & k & [h1 Hh] & Hk); [now rewrite Ex|]. eauto. }
    split; [exact Hg'|]. intros h0 h1 k ex E Hk. destruct h1 as [|o h1 _] using rev_ind.
    - rewrite app_nil_r in E. subst h0. eapply Hg', Hk.
    - rewrite app_assoc in E. apply app_inj_tail in E as [E _]. eapply Forall_impl; [eapply Hx; eauto|]. exact M.
  Qed.
  Lemma hooks_ok b p settings data h :
    sub32 (w32 (kc_bpe sc)) 2 <> 0 ->
    Forall Spec_Credit.setting_typed settings -> (exists from, orderly cfg from h) ->
    (forall op, op ∈ h -> ~ erases op.2) ->
    faithful_reports cfg (jgenesis b p settings data) h ->
    (forall j op out, (j, op, out) ∈ visited cfg (jgenesis b p settings data) h -> lsum (Model_Credit.k_prices (j_c j)) < 2 ^ 128) ->
    forall j op out, (j, op, out) ∈ visited cfg (jgenesis b p settings data) h -> hook op.2 -> out <> JPanic.
  Proof.
    set (g := jgenesis b p settings data). intros Hb Hset [from Hord] Hn Hf Hl j op out Hin Hh.
    destruct (jrun_sound cfg Hstep Hbpe h 0 g [] ltac:(intros; lia) (ex_intro _ from Hord) (genesis_sound b p settings data Hset)) as [Hs _].
    destruct (Hs _ _ _ Hin) as (e' & ev' & Sd & L1 & L2 & ->).
    apply visited_split in Hin as (h1 & h2 & -> & -> & _).
    destruct (run_good b p settings data h1 Hset (ex_intro _ from (orderly_app _ _ _ Hord))) as [Hg Hx].
    { intros o Ho. apply Hn. apply elem_of_app. now left. }
    { intros h0 x os i h3 st ex reps f -> Hi Hne. eapply (Hf h0 x os i (h3 ++ op :: h2)); eauto. now rewrite <- app_assoc. }
    { intros j o out Hi. apply visited_split in Hi as (h0 & h3 & -> & -> & ->).
      eapply (Hl _ o). rewrite <- app_assoc. cbn. apply visited_mid. }
    eapply hook_ok; eauto. intros x os i -> st ex reps f Hi. destruct (x_others ex) eqn:Ex; [constructor|]. rewrite <- Ex.
    destruct (Hf h1 x os i h2 st ex reps f eq_refl Hi) as (h0 & k & [h3 Hh3] & Hk); [now rewrite Ex|]. eauto.
  Qed.
End chain.
