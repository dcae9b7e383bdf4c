(** The mining pool. *)
From Verif Require Import Base Balances Model_Adsc Model_StakingLedger Model_Staking Spec_Staking
  Proofs_Arith Proofs_Adsc3 Proofs_Adsc4 Proofs_StakingLedger Proofs_Staking Proofs_Staking6 Proofs_Staking7.
From stdpp Require Import gmap sorting.
Open Scope N_scope.

Lemma minted_app a b : minted (a ++ b) = minted a + minted b.
Proof. unfold minted. now rewrite map_app, lsum_app. Qed.
Lemma raised_app a b : raised (a ++ b) = raised a + raised b.
Proof. unfold raised. now rewrite map_app, lsum_app. Qed.
Definition still (ev : list kev) : Prop := minted ev = 0 /\ raised ev = 0.
Lemma still_nil : still [].
Proof. split; reflexivity. Qed.
Lemma still_app a b : still a -> still b -> still (a ++ b).
Proof. intros [A B] [C D]. split; [rewrite minted_app|rewrite raised_app]; lia. Qed.
Lemma still_credit l : still (map KCreditSlash l).
Proof. induction l; [apply still_nil|]. now apply (still_app [_]). Qed.
Lemma mint_le ed b who v b' got : Model_Operation.mint ed b who v = (b', got) -> got <= v.
Proof.
  unfold Model_Operation.mint. destruct (N.eqb_spec v 0); [intros H; injection H as <- <-; lia|].
  destruct (_ && _); [intros H; injection H as <- <-; lia|].
  destruct (_ <=? _); intros H; injection H as <- <-; lia.
Qed.

(** ** Shares *)
Definition psum (m : gmap N N) (vs : list N) : N := lsum (map (fun v => default 0 (m !! v)) vs).
Lemma psum_insert_fresh a y m l : a ∉ l -> psum (<[a := y]> m) l = psum m l.
Proof.
  unfold psum. induction l as [|b l IH]; intros H; [auto|]. cbn. apply not_elem_of_cons in H as [H1 H2].
  rewrite IH by auto. now rewrite lookup_insert_ne.
Qed.
Lemma psum_le (m : gmap N N) : forall l, NoDup l -> psum m l <= msum (fun _ v => v) m.
Proof.
  induction m as [|a y m Ha IH] using map_ind; intros l Hl.
  - rewrite msum_empty. clear Hl. unfold psum. induction l as [|b l IH]; [cbn; lia|]. cbn. rewrite lookup_empty. cbn. exact IH.
  - rewrite msum_insert by auto. destruct (decide (a ∈ l)) as [Hin|Hn].
    + apply elem_of_list_split in Hin as (l1 & l2 & ->).
      assert (P : l1 ++ a :: l2 ≡ₚ a :: (l1 ++ l2)) by (symmetry; apply Permutation_middle).
      assert (Q : psum (<[a:=y]> m) (l1 ++ a :: l2) = psum (<[a:=y]> m) (a :: (l1 ++ l2))).
      { unfold psum. rewrite !map_app, !lsum_app. cbn [map lsum]. rewrite map_app, lsum_app. lia. }
      rewrite Q. rewrite P in Hl. apply NoDup_cons in Hl as [H1 H2]. specialize (IH _ H2).
      assert (R : psum (<[a:=y]> m) (a :: (l1 ++ l2)) = y + psum (<[a:=y]> m) (l1 ++ l2)).
      { unfold psum. cbn [map lsum]. now rewrite lookup_insert. }
      rewrite R, psum_insert_fresh by auto. lia.
    + rewrite psum_insert_fresh by auto. specialize (IH l Hl). lia.
Qed.

(** ** Points and validators of an era *)
Definition tally (e : eras) : Prop :=
  (forall era t m, e_points e !! era = Some (t, m) -> msum (fun _ v => v) m <= t) /\
  (forall era l, e_vals e !! era = Some l -> NoDup l).
Lemma tally_clear e a b : tally e -> tally (clear_eras e a b).
Proof.
  intros [A B]. split; cbn.
  - intros era t m H. apply map_filter_lookup_Some in H as [H _]. eauto.
  - intros era l H. apply map_filter_lookup_Some in H as [H _]. eauto.
Qed.

Lemma tally_new e : tally e -> tally (ensure_new_era e).
Proof. unfold ensure_new_era. destruct (e_force e); auto. Qed.

Section model.
  Context (cfg : kcfg).
  Local Notation pool := (mining_pool cfg).
  (** The pool is left alone and nothing minted. *)
  Definition calm (s s' : kstate) (ev : list kev) : Prop := d_pool (k_del s') = d_pool (k_del s) /\ still ev.
  Lemma calm_refl s : calm s s [].
  Proof. split; [auto|apply still_nil]. Qed.
  Lemma calm_trans s1 s2 s3 a b : calm s1 s2 a -> calm s2 s3 b -> calm s1 s3 (a ++ b).
  Proof. intros [A B] [C D]. split; [congruence|now apply still_app]. Qed.
  Lemma undelegate_pool era k d : d_pool (undelegate era k d) = d_pool k.
  Proof.
    unfold undelegate. destruct (d_recs k !! d) as [r|]; [|auto]. destruct (dr_on r); [|auto]. cbn zeta.
    destruct (dr_since r); [destruct (_ =? _)|]; auto.
  Qed.
  Lemma do_delegate_pool x k d vs k' : do_delegate x k d vs = ROk k' -> d_pool k' = d_pool k.
  Proof.
    unfold do_delegate. intros E. inv_bind E. injection E as <-.
    destruct (d_recs k !! d) as [r|]; [destruct (dr_on r)|]; auto.
  Qed.
  Lemma delegate_any_pool x s d k : delegate_any cfg x s d = ROk k -> d_pool k = d_pool (k_del s).
  Proof.
    unfold delegate_any. intros E. inv_bind E. destruct (_ !! _); [|discriminate]. now apply do_delegate_pool in E.
  Qed.
  Lemma update_ledger_del x s c l : k_del (update_ledger cfg x s c l) = k_del s.
  Proof. unfold update_ledger, set_lock. now destruct (_ =? 0). Qed.
  Lemma credit_fold_pool x l : forall s, d_pool (k_del (fold_left (credit_slash x) l s)) = d_pool (k_del s).
  Proof.
    induction l as [|d l IH]; intros s; cbn; [auto|]. rewrite IH. unfold credit_slash.
    destruct (kx_pass x d); [auto|]. apply undelegate_pool.
  Qed.
  Lemma do_slash_calm x s st v pay s' pay' got ev :
    do_slash cfg x s st v pay = (s', pay', got, ev) -> calm s s' ev.
  Proof.
    unfold do_slash. destruct (_ !! st) as [c|]; [|intros H; injection H as <- _ _ <-; apply calm_refl].
    destruct (_ !! c); [|intros H; injection H as <- _ _ <-; apply calm_refl].
    destruct (slash_ledger _ _ _). destruct (_ =? 0); [intros H; injection H as <- _ _ <-; apply calm_refl|].
    destruct (cslash _ _ _ _ _) as [[? ?] ?]. intros H. injection H as <- _ _ <-.
    split; [now rewrite update_ledger_del|split; reflexivity].
  Qed.
  Lemma apply_slash_calm x s u s' ev : apply_slash cfg x s u = (s', ev) -> calm s s' ev.
  Proof.
    unfold apply_slash. destruct (do_slash _ _ _ _ _ _) as [[[s1 p1] g1] e1] eqn:E.
    intros H. injection H as <- <-. apply do_slash_calm in E as [A B]. split.
    - cbn [k_del set_k_bank]. now rewrite credit_fold_pool.
    - apply still_app; [auto|apply still_credit].
  Qed.
  Lemma apply_list_calm x : forall l s s' ev, apply_list cfg x l s = (s', ev) -> calm s s' ev.
  Proof.
    induction l as [|u l IH]; intros s s' ev H; cbn in H; [injection H as <- <-; apply calm_refl|].
    destruct (apply_slash cfg x s u) as [s1 e1] eqn:E1.
    destruct (apply_list cfg x l s1) as [s2 e2] eqn:E2. injection H as <- <-.
    eapply calm_trans; [eapply apply_slash_calm; eauto|eauto].
  Qed.
  Lemma apply_eras_calm x : forall n era s s' ev, apply_eras cfg x n era s = (s', ev) -> calm s s' ev.
  Proof.
    induction n as [|n IH]; intros era s s' ev H; cbn [apply_eras] in H; [injection H as <- <-; apply calm_refl|].
    cbn zeta in H. destruct (apply_list cfg x _ _) as [s1 e1] eqn:E1.
    destruct (apply_eras cfg x n (era + 1) s1) as [s2 e2] eqn:E2. injection H as <- <-.
    eapply calm_trans; [exact (apply_list_calm _ _ _ _ _ E1)|eauto].
  Qed.
  Lemma start_session_calm x s i s' ev : start_session cfg x s i = (s', ev) -> calm s s' ev.
  Proof.
    unfold start_session. destruct (e_start _ !! _); [|intros H; injection H as <- <-; apply calm_refl].
    destruct (_ <=? _); [|intros H; injection H as <- <-; apply calm_refl].
    unfold start_era, apply_unapplied. cbn zeta. cbn [k_stk set_k_era set_k_stk s_first set_s_in_era].
    destruct (s_first (k_stk s)); [|intros H; injection H as <- <-; split; [auto|apply still_nil]].
    destruct (apply_eras _ _ _ _ _) as [s1 e1] eqn:E. intros H. injection H as <- <-.
    exact (apply_eras_calm _ _ _ _ _ _ E).
  Qed.
  Lemma compute_calm x s st f ex era w now s' u ev :
    compute_slash x s st f ex era w now = (s', u, ev) -> calm s s' ev.
  Proof.
    unfold compute_slash. destruct (_ =? 0).
    { intros H. injection H as <- _ <-. split; [|apply still_nil]. unfold kick_out. destruct (fetch_spans _ _ _).
      destruct (era_span _ _); [|auto]. destruct (_ =? _); [|auto]. now destruct (kick _ _ _ _ _ _ _) as [[[? ?] ?] ?]. }
    destruct (_ <=? _); [intros H; injection H as <- _ <-; apply calm_refl|].
    destruct (fetch_spans _ _ _). destruct (update_span _ _ _ _ _ _) as [[[[[? ?] ?] ?] ?] t].
    destruct (if bool_decide _ then _ else _) as [[[? ?] ?] ?]. intros H. injection H as <- _ <-. split; [auto|].
    destruct t; [split; reflexivity|apply still_nil].
  Qed.
  Lemma on_offence_calm x s os i s' ev : on_offence cfg x s os i = (s', ev) -> calm s s' ev.
  Proof.
    unfold on_offence. destruct (e_act (k_era s)) as [[a b]|]; [|intros H; injection H as <- <-; apply calm_refl].
    destruct (slash_era _ _ _) as [era|]; [|intros H; injection H as <- <-; apply calm_refl].
    cbn zeta.
    enough (G : forall os s0 ev0 s' ev', fold_left (offender1 cfg x era (ssub a (kc_bonding cfg)) a) os (s0, ev0) = (s', ev') ->
      exists e, ev' = ev0 ++ e /\ calm s0 s' e).
    { intros H. destruct (G _ _ _ _ _ H) as (e & -> & E). exact E. }
    clear. induction os as [|o os IH]; intros s ev0 s' ev' H; cbn [fold_left] in H.
    { injection H as <- <-. exists []. rewrite app_nil_r. split; [auto|apply calm_refl]. }
    destruct (offender1 _ _ _ _ _ _ o) as [s1 e1] eqn:E1 in H.
    destruct (IH _ _ _ _ H) as (e & -> & E).
    assert (S1 : exists e', e1 = ev0 ++ e' /\ calm s s1 e').
    { clear - E1. destruct o as [[[st0 ex] reps] frac]. cbn [offender1] in E1.
      destruct (bool_decide _); [injection E1 as <- <-; exists []; rewrite app_nil_r; split; [auto|apply calm_refl]|].
      destruct (compute_slash _ _ _ _ _ _ _ _) as [[s3 u] e3] eqn:E3. apply compute_calm in E3.
      destruct u as [u|]; [|injection E1 as <- <-; exists e3; auto].
      destruct (_ =? 0).
      - destruct (apply_slash _ _ _ _) as [s4 e4] eqn:E4. injection E1 as <- <-.
        exists (e3 ++ e4). split; [auto|]. eapply calm_trans; [eauto|eapply apply_slash_calm; eauto].
      - injection E1 as <- <-. exists e3. split; [auto|]. exact E3. }
    destruct S1 as (e' & -> & S1). exists (e' ++ e). rewrite app_assoc. split; [auto|]. eapply calm_trans; eauto.
  Qed.
  Lemma compute_tally x s st f ex era w now s' u ev :
    compute_slash x s st f ex era w now = (s', u, ev) -> tally (k_era s) -> tally (k_era s').
  Proof.
    unfold compute_slash. intros H T. destruct (_ =? 0).
    { injection H as <- _ _. unfold kick_out. destruct (fetch_spans _ _ _).
      destruct (era_span _ _); [|auto]. destruct (_ =? _); [|auto]. destruct (kick _ _ _ _ _ _ _) as [[[? e'] ?] ?] eqn:K.
      cbn. unfold kick in K. destruct (end_span _ _); destruct (kx_disable _ _); injection K as _ <- _ _; first [exact T|apply tally_new; exact T]. }
    destruct (_ <=? _); [injection H as <- _ _; auto|].
    destruct (fetch_spans _ _ _). destruct (update_span _ _ _ _ _ _) as [[[[[? ?] ?] ?] ?] t].
    destruct (if bool_decide _ then _ else _) as [[[? e'] ?] ?] eqn:K. injection H as <- _ _. cbn.
    unfold kick in K. destruct (bool_decide _); [destruct (end_span _ _); destruct (kx_disable _ _)|]; injection K as _ <- _ _; first [exact T|apply tally_new; exact T].
  Qed.
  Lemma on_offence_tally x s os i s' ev : on_offence cfg x s os i = (s', ev) -> tally (k_era s) -> tally (k_era s').
  Proof.
    unfold on_offence. destruct (e_act (k_era s)) as [[a b]|]; [|intros H; now injection H as <- _].
    destruct (slash_era _ _ _) as [era|]; [|intros H; now injection H as <- _].
    cbn zeta. set (s0 := set_k_stk s _). change (k_era s) with (k_era s0). generalize (@nil kev) at 1. generalize s0.
    clear. induction os as [|o os IH]; intros s ev0 H T; cbn [fold_left] in H.
    { now injection H as <- _. }
    destruct (offender1 _ _ _ _ _ _ o) as [s1 e1] eqn:E1 in H. apply (IH _ _ H). clear IH H.
    destruct o as [[[st0 ex] reps] frac]. cbn [offender1] in E1.
    destruct (bool_decide _); [now injection E1 as <- _|].
    destruct (compute_slash _ _ _ _ _ _ _ _) as [[s3 u] e3] eqn:E3. apply compute_tally in E3; [|auto].
    destruct u as [u|]; [|now injection E1 as <- _].
    destruct (_ =? 0); [|now injection E1 as <- _].
    destruct (apply_slash _ _ _ _) as [s4 e4] eqn:E4. injection E1 as <- _.
    apply apply_slash_same in E4 as [_ E4]. now rewrite E4.
  Qed.
  Lemma elect_nodup s era s' l : elect cfg s era = (s', Some l) -> NoDup l.
  Proof.
    intros H. unfold elect in H. cbn zeta in H.
    set (ok := List.filter (trusted (k_par s)) (validators_in_order cfg (k_stk s))) in *.
    destruct (_ <? _); [discriminate|]. injection H as _ <-. set (n := N.to_nat _).
    assert (Nd : NoDup (map (fun r : N * N * N => r.1.1) (rsort (map (rank_of (k_del s)) ok)))).
    { rewrite (rsort_perm (map (rank_of (k_del s)) ok)). rewrite map_map. cbn. rewrite map_id.
      unfold ok. apply NoDup_ListNoDup, List.NoDup_filter, NoDup_ListNoDup, validators_nodup. }
    rewrite <- (take_drop n (rsort (map (rank_of (k_del s)) ok))), map_app in Nd. now apply NoDup_app in Nd as [Nd _].
  Qed.
  Lemma new_session_calm s i s' ev : new_session cfg s i = (s', ev) -> tally (k_era s) -> calm s s' ev /\ tally (k_era s').
  Proof.
    assert (G : forall s0, d_pool (k_del s0) = d_pool (k_del s) -> tally (k_era s0) -> new_era cfg s0 i = (s', ev) -> calm s s' ev /\ tally (k_era s')).
    { intros s0 D T H. unfold new_era in H. cbn zeta in H. set (e2 := if _ <=? _ then _ else _) in H.
      set (er := match e_cur _ with Some e => _ | None => 0 end) in *.
      destruct (elect cfg (set_k_era s0 e2) er) as [s1 o] eqn:E.
      assert (T2 : tally e2) by (unfold e2; destruct (_ <=? _); [apply tally_clear|]; exact T).
      assert (K : d_pool (k_del s1) = d_pool (k_del s0) /\ e_points (k_era s1) = e_points e2 /\ e_vals (k_era s1) = e_vals e2).
      { unfold elect in E. cbn zeta in E. destruct (_ <? _); injection E as <- _; auto. }
      destruct K as (K1 & K2 & K3). destruct T2 as [A B].
      destruct o as [l|]; injection H as <- <-.
      - apply elect_nodup in E as Nd. split; [split; [cbn; congruence|split; reflexivity]|].
        split; cbn; [rewrite K2; exact A|]. rewrite K3. intros era l0 H.
        apply lookup_insert_Some in H as [[_ <-]|[_ H]]; [auto|eauto].
      - split; [split; [cbn; congruence|split; reflexivity]|]. split; [rewrite K2; exact A|rewrite K3; exact B]. }
    unfold new_session. destruct (e_cur (k_era s)); [|intros H T; apply (G s); auto].
    destruct (e_force (k_era s)).
    - destruct (_ <=? _); [intros H T; apply (G s); auto|intros H T; injection H as <- <-; split; [apply calm_refl|auto]].
    - intros H T; refine (G _ _ _ H); [reflexivity|exact T].
    - intros H T; injection H as <- <-; split; [apply calm_refl|auto].
    - intros H T; refine (G _ _ _ H); [reflexivity|exact T].
  Qed.

  (** ** Validators *)
  Lemma payout_pool x s st v s' ev :
    validator_payout cfg x s st v = (s', ev) ->
    d_pool (k_del s') = d_pool (k_del s) /\ minted ev <= v /\ raised ev = 0.
  Proof.
    assert (one : forall m w g, g <= v -> minted [KMint m w g] <= v /\ raised [KMint m w g] = 0).
    { intros. unfold minted, raised. cbn. lia. }
    assert (me : forall b w b' g, mint_existing cfg b w v = (b', g) -> g <= v).
    { intros b w b' g. unfold mint_existing. destruct (N.eqb_spec v 0); [intros H; injection H as <- <-; lia|].
      destruct (is_new _); [intros H; injection H as <- <-; lia|]. destruct (_ <=? _); intros H; injection H as <- <-; lia. }
    assert (no : d_pool (k_del s) = d_pool (k_del s) /\ minted [] <= v /\ raised [] = 0) by (cbn; repeat split; lia).
    unfold validator_payout. destruct (default PStaked _).
    - destruct (_ !! st) as [c|]; [|intros H; injection H as <- <-; exact no].
      destruct (_ !! c); [|intros H; injection H as <- <-; exact no].
      destruct (mint_existing _ _ _ _) eqn:E. apply me in E. intros H; injection H as <- <-. rewrite update_ledger_del. split; [auto|now apply one].
    - destruct (mint_existing _ _ _ _) eqn:E. apply me in E. intros H; injection H as <- <-. split; [auto|now apply one].
    - destruct (_ !! st) as [c|]; [|intros H; injection H as <- <-; exact no].
      destruct (Model_Operation.mint _ _ _ _) eqn:E. apply mint_le in E. intros H; injection H as <- <-. split; [auto|now apply one].
    - destruct (Model_Operation.mint _ _ _ _) eqn:E. apply mint_le in E. intros H; injection H as <- <-. split; [auto|now apply one].
  Qed.
  Definition amount (pts : N * gmap N N) (po v : N) : N := frac_mul (perbill_of (default 0 (pts.2 !! v)) pts.1) PERBILL po.
  Definition amounts (pts : N * gmap N N) (po : N) (vs : list N) : N :=
    lsum (map (amount pts po) (List.filter (fun v => negb (default 0 (pts.2 !! v) =? 0)) vs)).
  Lemma pay_each_pool x pts po : forall vs s t s' t' ev,
    t + amounts pts po vs < two128 ->
    pay_each cfg x pts po vs s t = (s', t', ev) ->
    d_pool (k_del s') = d_pool (k_del s) /\ raised ev = 0 /\ t' = t + amounts pts po vs /\ minted ev <= amounts pts po vs.
  Proof.
    induction vs as [|v vs IH]; intros s t s' t' ev B H; cbn [pay_each] in H.
    { injection H as <- <- <-. cbn. repeat split; lia. }
    unfold amounts in *. cbn [List.filter] in *. destruct (_ =? 0); cbn [negb] in *; [eauto|]. cbn [map lsum] in *.
    destruct (validator_payout _ _ _ _ _) as [s1 e1] eqn:E1.
    destruct (pay_each _ _ _ _ _ _ _) as [[s2 t2] e2] eqn:E2 in H. injection H as <- <- <-.
    apply payout_pool in E1 as (A1 & A2 & A3). fold (amount pts po v) in *.
    rewrite add128_exact in E2 by lia. apply IH in E2 as (B1 & B2 & B3 & B4); [|lia].
    rewrite minted_app, raised_app. repeat split; try congruence; lia.
  Qed.
  Lemma amounts_bound pts po vs :
    pts.1 <= PERBILL -> psum pts.2 vs <= pts.1 ->
    2 * amounts pts po vs <= 2 * po + N.of_nat (length vs).
  Proof.
    intros H1 H2. unfold amounts. destruct (N.eq_dec pts.1 0) as [Z|Z].
    { assert (List.filter (fun v => negb (default 0 (pts.2 !! v) =? 0)) vs = []) as ->; [|cbn; lia].
      rewrite Z in H2. clear - H2. unfold psum in H2. induction vs as [|v vs IH]; [auto|]. cbn in H2 |- *.
      destruct (default 0 (pts.2 !! v)) eqn:E; cbn; [apply IH; lia|lia]. }
    enough (G : forall vs, psum pts.2 vs <= pts.1 ->
      PERBILL * (2 * lsum (map (amount pts po) (List.filter (fun v => negb (default 0 (pts.2 !! v) =? 0)) vs))) * pts.1
      <= (2 * po * psum pts.2 vs + N.of_nat (length vs) * pts.1) * PERBILL).
    { specialize (G vs H2). set (S := lsum _) in *.
      assert (G2 : 2 * po * psum pts.2 vs <= 2 * po * pts.1) by (apply N.mul_le_mono_l; exact H2).
      assert (G3 : (2 * S) * (PERBILL * pts.1) <= (2 * po + N.of_nat (length vs)) * (PERBILL * pts.1)) by nia.
      apply N.mul_le_mono_pos_r in G3; [exact G3|]. apply N.mul_pos_pos; [reflexivity|lia]. }
    clear vs H2. induction vs as [|v vs IH]; intros H2; [cbn; lia|].
    unfold psum in H2. cbn [map lsum] in H2. fold (psum pts.2 vs) in H2.
    specialize (IH ltac:(lia)). unfold psum. cbn [map lsum]. fold (psum pts.2 vs).
    cbn [List.filter length]. rewrite Nat2N.inj_succ.
    set (p := default 0 (pts.2 !! v)) in *. destruct (N.eqb_spec p 0) as [->|Hp]; cbn [negb].
    { set (S := lsum _) in *. nia. }
    cbn [map lsum]. set (S := lsum _) in *.
    pose proof (frac_mul_nearest (perbill_of p pts.1) PERBILL po ltac:(discriminate)) as [_ N4].
    fold p in N4. change (frac_mul (perbill_of p pts.1) PERBILL po) with (amount pts po v) in N4.
    pose proof (perbill_near p pts.1 Z H1) as [N5 _]. rewrite N.min_l in N5 by lia.
    revert N4 N5 IH. generalize (amount pts po v) (perbill_of p pts.1) (psum pts.2 vs) (N.of_nat (length vs)).
    intros a f ps n N4 N5 IH.
    assert (G1 : PERBILL * (2 * a) * pts.1 <= (2 * f * po + PERBILL) * pts.1) by (apply N.mul_le_mono_r; exact N4).
    assert (G2 : 2 * po * (f * pts.1) <= 2 * po * (p * PERBILL)) by (apply N.mul_le_mono_l; exact N5).
    nia.
  Qed.
  Lemma end_session_pool x s i s' ev :
    end_session cfg x s i = (s', ev) -> tally (k_era s) -> small_points cfg s ->
    minted ev + pool s' <= pool s + raised ev + overdraft cfg s (KEndSession x i) /\ k_era s' = k_era s.
  Proof.
    intros H T [B1 B2]. assert (no : minted [] + pool s <= pool s + raised [] + overdraft cfg s (KEndSession x i)) by (cbn; lia).
    pose proof (end_session_same cfg _ _ _ _ _ H) as [_ Ke].
    split; [|exact Ke].
    unfold end_session in H. unfold overdraft, on_duty in *. destruct (e_act (k_era s)) as [[i0 st]|]; [|injection H as <- <-; exact no].
    destruct (e_start _ !! _) as [se|]; [|injection H as <- <-; exact no].
    destruct (_ && _); [|injection H as <- <-; exact no].
    unfold pay_validators in H. change (pool_of cfg (k_del s)) with (pool s) in H.
    destruct (N.eqb_spec (pool s) 0) as [Z|Z]; [injection H as <- <-; exact no|]. cbn zeta in H.
    set (pts := default (0, ∅) (e_points (k_era s) !! i0)) in *.
    set (vs := default [] (e_vals (k_era s) !! i0)) in *.
    set (po := N.min (p_reward (k_par s)) (pool s)) in *.
    assert (Hp : pts.1 <= PERBILL /\ psum pts.2 vs <= pts.1).
    { destruct T as [T1 T2].
      assert (Nd : NoDup vs). { unfold vs. destruct (e_vals (k_era s) !! i0) as [l|] eqn:E; cbn; [eauto|constructor]. }
      unfold pts. destruct (e_points (k_era s) !! i0) as [[t m]|] eqn:E; cbn [default from_option id fst snd].
      - specialize (B1 _ _ _ E). change (10 ^ 9) with PERBILL in B1. split; [lia|].
        etransitivity; [now apply psum_le|eauto].
      - split; [lia|]. etransitivity; [now apply psum_le|]. rewrite msum_empty. lia. }
    destruct Hp as [Hp1 Hp2]. pose proof (amounts_bound pts po vs Hp1 Hp2) as HA.
    destruct (pay_each _ _ _ _ _ _ _) as [[s1 t] e1] eqn:E. injection H as <- <-.
    assert (Hpo : po <= pool s) by (unfold po; lia).
    apply pay_each_pool in E as (A1 & A2 & A3 & A4); [|change two128 with (2 ^ 128); lia].
    unfold mining_pool. cbn [k_del set_k_del d_pool set_d_pool default from_option id]. unfold ssub. fold (pool s).
    rewrite A2, A3. set (S := amounts pts po vs) in *. set (n := N.of_nat (length vs)) in *.
    pose proof (N.div_mod n 2 ltac:(discriminate)). pose proof (N.mod_lt n 2 ltac:(discriminate)).
    destruct (N.leb_spec (p_reward (k_par s) + n / 2) (pool s)); [|lia].
    assert (po <= p_reward (k_par s)) by (unfold po; lia). lia.
  Qed.

  (** ** Delegators *)
  Lemma pay_delegator_pool x s d r p s' q ev :
    pay_delegator cfg x s d r p = (s', q, ev) -> q <= p /\ minted ev <= q /\ raised ev = 0.
  Proof.
    unfold pay_delegator. destruct (_ =? _); [intros H; injection H as <- <- <-; cbn; lia|].
    destruct (kx_reward x d _ _) as [v|]; [|intros H; injection H as <- <- <-; cbn; lia].
    destruct (Model_Operation.mint _ _ _ _) as [b g] eqn:E. intros H. injection H as <- <- <-.
    apply mint_le in E. revert E. unfold minted, raised. cbn. set (m := if _ <=? _ then _ else _) in *.
    assert (m <= p) by (unfold m; destruct (_ <=? _); lia). lia.
  Qed.
  Lemma pay_referer_pool s d r p s' q ev :
    pay_referer cfg s d r p = (s', q, ev) -> q <= p /\ minted ev <= q /\ raised ev = 0.
  Proof.
    unfold pay_referer. destruct (d_ref _ !! d); [|intros H; injection H as <- <- <-; cbn; lia].
    destruct (bonus_rate _); [|intros H; injection H as <- <- <-; cbn; lia].
    destruct (Model_Operation.mint _ _ _ _) as [b g] eqn:E. intros H. injection H as <- <- <-.
    apply mint_le in E. unfold minted, raised. cbn. lia.
  Qed.
  Lemma pay_loop_pool x : forall n l s p la ct s' p' la' c' ev,
    pay_loop cfg x n l s p la ct = (s', p', la', c', ev) -> minted ev + p' <= p /\ raised ev = 0.
  Proof.
    induction n as [|n IH]; intros [|[d r] l] s p la ct s' p' la' c' ev H; cbn [pay_loop] in H;
      try (injection H as <- <- _ _ <-; cbn; lia).
    destruct (pay_delegator cfg x s d r p) as [[s1 q] e1] eqn:E1. apply pay_delegator_pool in E1 as (A1 & A2 & A3).
    unfold ssub in H. destruct (_ =? 0); [injection H as <- <- _ _ <-; lia|].
    destruct (pay_referer cfg s1 d q _) as [[s2 q2] e2] eqn:E2. apply pay_referer_pool in E2 as (B1 & B2 & B3).
    destruct (_ =? 0); [injection H as <- <- _ _ <-; rewrite minted_app, raised_app; lia|].
    destruct (pay_loop _ _ _ _ _ _ _) as [[[[s3 p3] l3] c3] e3] eqn:E3 in H. apply IH in E3 as [C1 C2].
    injection H as <- <- _ _ <-. rewrite !minted_app, !raised_app. lia.
  Qed.
  Lemma init_pool x s s' ev :
    on_initialize cfg x s = ROk (s', ev) -> minted ev + pool s' <= pool s + raised ev /\ k_era s' = k_era s.
  Proof.
    assert (no : minted [] + pool s <= pool s + raised []) by (cbn; lia).
    unfold on_initialize. destruct (0 <? _); [|intros H; injection H as <- <-; auto].
    destruct (_ =? 0); [destruct (_ =? 0); [discriminate|]; intros H; injection H as <- <-; auto|].
    unfold pay_delegators. destruct (_ =? 0); [intros H; injection H as <- <-; auto|].
    destruct (pay_loop _ _ _ _ _ _ _) as [[[[s1 p1] l1] c1] e1] eqn:E. intros H. injection H as <- <-.
    pose proof (pay_loop_era cfg _ _ _ _ _ _ _ _ _ _ _ _ E) as Ke.
    apply pay_loop_pool in E as [A B]. split; [|exact Ke].
    unfold mining_pool at 1. cbn. change (pool_of cfg (k_del s)) with (pool s) in A. lia.
  Qed.

  (** ** Calls *)
  Lemma call_pool x s o c s' ev :
    dispatch cfg x s o c = ROk (s', ev) ->
    minted ev + pool s' <= pool s + raised ev /\ (tally (k_era s) -> tally (k_era s')).
  Proof.
    intros H.
    assert (quiet : forall s1 e, calm s s1 e -> minted e + pool s1 <= pool s + raised e).
    { intros s1 e [A [B C]]. unfold mining_pool. rewrite A. lia. }
    assert (same : forall s1 e, calm s s1 e -> k_era s1 = k_era s -> minted e + pool s1 <= pool s + raised e /\ (tally (k_era s) -> tally (k_era s1))).
    { intros s1 e A E. split; [auto|]. now rewrite E. }
    assert (kill : forall st0 n s1, unstake cfg x s st0 n = ROk s1 -> calm s s1 [] /\ k_era s1 = k_era s).
    { intros st0 n s1 E. unfold unstake in E. inv_bind E. injection E as <-. split; [split; [auto|apply still_nil]|auto]. }
    assert (upd : forall s1 c l e, calm s s1 e -> k_era s1 = k_era s ->
      minted e + pool (update_ledger cfg x s1 c l) <= pool s + raised e /\ (tally (k_era s) -> tally (k_era (update_ledger cfg x s1 c l)))).
    { intros s1 c0 l e [A B] E. apply same; [split; [now rewrite update_ledger_del|auto]|now rewrite update_ledger_era]. }
    assert (mk : forall s1 e, d_pool (k_del s1) = d_pool (k_del s) -> minted e = 0 -> raised e = 0 -> calm s s1 e) by (intros; now split).
    destruct c; cbn [dispatch] in H; unfold admin, controlled, signed, root, Model_Staking.quiet, with_par, with_del, with_stk in H;
      try (destruct o; try discriminate H; []);
      repeat match type of H with rbind (ensure _ _) _ = _ => inv_bind H end;
      try (injection H as <- <-; apply same; [apply mk|]; reflexivity);
      try (injection H as <- <-; split; [apply quiet; now apply mk|exact (fun T => T)]);
      try (destruct (s_ledger _ !! _); [|discriminate]; injection H as <- <-; apply same; [apply mk|]; reflexivity).
    - unfold staking_delegate in H. inv_bind H. inv_bind H.
      destruct (kx_level x who); [|discriminate]. inv_bind H.
      destruct (kx_dpr x who !! N.to_nat level); [|discriminate].
      destruct (kx_dpr x who !! N.to_nat n); [|discriminate].
      destruct (transfer_keep _ _ _ _ _); [|discriminate]. inv_bind H.
      injection H as <- <-. apply delegate_any_pool in E3. apply same; [apply mk|]; auto.
    - unfold usdt_delegate in H. inv_bind H. inv_bind H. destruct v as [cur rest].
      destruct (0 <? _); [inv_bind H|]; injection H as <- <-; [apply delegate_any_pool in E2|]; (apply same; [apply mk|]; auto).
    - inv_bind H. injection H as <- <-. unfold bond in E.
      repeat match type of E with rbind (ensure _ _) _ = _ => inv_bind E end.
      injection E as <-. apply upd; [apply mk|]; auto.
    - inv_bind H. injection H as <- <-. unfold bond_extra in E.
      destruct (s_bonded (k_stk s) !! who) as [c|]; [|discriminate].
      destruct (s_ledger (k_stk s) !! c) as [l|]; [|discriminate].
      destruct (_ <? _); [injection E as <-; apply same; [apply calm_refl|auto]|].
      inv_bind E. injection E as <-. apply upd; [apply calm_refl|]; auto.
    - unfold unbond in H. destruct (s_ledger (k_stk s) !! who) as [l|]; [|discriminate].
      inv_bind H. destruct (_ =? 0); [injection H as <- <-; apply same; [apply calm_refl|auto]|].
      match type of H with context [let '(_, _) := ?e in _] => destruct e end. injection H as <- <-.
      apply upd; [apply mk|]; auto.
    - unfold withdraw_unbonded in H. destruct (s_ledger (k_stk s) !! who) as [l0|]; [|discriminate].
      assert (W : forall b st v, minted (if (b : bool) then [KWithdrawn st v] else []) = 0 /\ raised (if b then [KWithdrawn st v] else []) = 0).
      { intros [] st v; auto. }
      destruct (bool_decide _ && _) in H.
      + inv_bind H. injection H as <- <-. apply kill in E as [[A _] B]. apply same; [|auto].
        split; [auto|]. split; apply W.
      + injection H as <- <-. apply upd; [|auto]. split; [auto|split; apply W].
    - inv_bind H. injection H as <- <-. apply same; [apply mk|]; auto.
    - inv_bind H. injection H as <- <-. apply kill in E as [A B]. apply same; auto.
    - injection H as <- <-. split; [|auto]. unfold mining_pool at 1, minted, raised. cbn.
      change (pool_of cfg (k_del s)) with (pool s). unfold add128, w128. pose proof (N.mod_le (pool s + v) two128 ltac:(discriminate)). lia.
    - inv_bind H. injection H as <- <-. apply same; [apply mk|]; auto.
    - inv_bind H. injection H as <- <-. unfold do_rebond in E.
      destruct (s_ledger (k_stk s) !! who) as [l|]; [|discriminate].
      inv_bind E. inv_bind E. injection E as <-. apply upd; [apply calm_refl|auto].
    - destruct (e_cur (k_era s)); injection H as <- <-; (split; [apply quiet; now apply mk|]); [apply tally_clear|auto].
    - inv_bind H. injection H as <- <-. apply kill in E0 as [A B]. apply same; auto.
    - inv_bind H. injection H as <- <-. unfold delegate in E.
      repeat match type of E with rbind (ensure _ _) _ = _ => inv_bind E end.
      apply do_delegate_pool in E. apply same; [apply mk|]; auto.
    - injection H as <- <-. apply same; [apply mk|]; auto. apply undelegate_pool.
    - injection H as <- <-.
      assert (G : forall l s, d_pool (k_del (fold_left undelegate_in l s)) = d_pool (k_del s) /\ k_era (fold_left undelegate_in l s) = k_era s).
      { clear. induction l as [|d l IH]; intros s; cbn; [auto|]. destruct (IH (undelegate_in s d)) as [-> ->]. split; [apply undelegate_pool|auto]. }
      destruct (G l s) as [A B]. apply same; [|auto]. split; [auto|apply still_credit].
    - unfold compensate in H. inv_bind H. destruct (Model_Operation.mint _ _ _ _) as [b g] eqn:E1. injection H as <- <-.
      apply mint_le in E1. split; [|auto]. unfold mining_pool at 1, minted, raised. cbn.
      change (pool_of cfg (k_del s)) with (pool s) in *. unfold ssub. lia.
    - inv_bind H. injection H as <- <-. unfold set_referer in E0. inv_bind E0. injection E0 as <-. apply same; [apply mk|]; auto.
    - injection H as <- <-. apply same; [apply mk|]; auto. unfold unset_referer. now destruct (d_ref _ !! _).
    - unfold npow_mint in H. inv_bind H. destruct (Model_Operation.mint _ _ _ _) as [b g] eqn:E1. injection H as <- <-.
      apply mint_le in E1. apply N.leb_le in E0. split; [|auto]. unfold mining_pool at 1, minted, raised. cbn.
      change (pool_of cfg (k_del s)) with (pool s) in *. unfold ssub. lia.
    - unfold validator_burn in H. destruct (s_ledger (k_stk s) !! who) as [l|]; [|discriminate].
      cbn zeta in H. destruct (slash_ledger v _ l) as [l' am].
      destruct (cslash _ _ _ _ _) as [[b g] m]. injection H as <- <-. apply upd; [|auto]. apply mk; auto.
    - injection H as <- <-. apply same; [apply mk|]; auto. apply undelegate_pool.
  Qed.

  (** ** Every step *)
  Lemma step_pool s op :
    tally (k_era s) -> small_points cfg s ->
    minted (events [(kstep cfg s op).2]) + pool (kstep cfg s op).1 <=
      pool s + raised (events [(kstep cfg s op).2]) + overdraft cfg s op /\
    tally (k_era (kstep cfg s op).1).
  Proof.
    intros T B. destruct (kstep cfg s op) as [s' out] eqn:H. cbn [fst snd].
    assert (N1 : forall ev, events [KDone ev] = ev) by (intros ev; unfold events; cbn; apply app_nil_r).
    assert (no : minted (events []) + pool s <= pool s + raised (events []) + overdraft cfg s op) by (cbn; lia).
    assert (set : forall r, settle s r = (s', out) ->
      (forall s1 ev, r = ROk (s1, ev) -> minted ev + pool s1 <= pool s + raised ev + overdraft cfg s op /\ tally (k_era s1)) ->
      minted (events [out]) + pool s' <= pool s + raised (events [out]) + overdraft cfg s op /\ tally (k_era s')).
    { intros [[s1 ev]|e|] E G; injection E as <- <-; [rewrite N1; now apply G| |]; (split; [exact no|auto]). }
    assert (quiet : forall s1 e, calm s s1 e -> minted e + pool s1 <= pool s + raised e + overdraft cfg s op).
    { intros s1 e [A [C D]]. unfold mining_pool. rewrite A. lia. }
    destruct op as [x o c|x| |i|x i|x i|a|x os i|b]; cbn [kstep] in *.
    - eapply set; [exact H|]. intros s1 ev E. apply call_pool in E as [A C]. split; [cbn; lia|auto].
    - eapply set; [exact H|]. intros s1 ev E. apply init_pool in E as [A C]. split; [cbn; lia|now rewrite C].
    - injection H as <- <-. unfold on_finalize. destruct (e_act _) as [[? []]|]; (split; [exact no|exact T]).
    - eapply set; [exact H|]. intros s1 ev [= E]. apply new_session_calm in E as [A C]; [|auto]. split; [now apply quiet|auto].
    - eapply set; [exact H|]. intros s1 ev [= E]. split; [apply quiet; eapply start_session_calm; eauto|].
      unfold start_session in E. destruct (e_start _ !! _); [|injection E as <- <-; auto].
      destruct (_ <=? _); [|injection E as <- <-; auto].
      unfold start_era, apply_unapplied in E. cbn zeta in E. cbn [k_stk set_k_era set_k_stk s_first set_s_in_era] in E.
      destruct (s_first (k_stk s)); [|injection E as <- <-; exact T].
      destruct (apply_eras _ _ _ _ _) as [s2 e1] eqn:E1. injection E as <- <-.
      apply apply_eras_same in E1 as [_ E1]. cbn in E1 |- *. now rewrite E1.
    - eapply set; [exact H|]. intros s1 ev [= E]. apply end_session_pool in E as [A C]; [|auto|auto]. split; [exact A|now rewrite C].
    - injection H as <- <-. unfold note_author. destruct (e_act _) as [[i b]|]; [|split; [exact no|exact T]].
      destruct (default _ _) as [t m] eqn:Ed. split; [exact no|]. destruct T as [T1 T2]. split; [|exact T2].
      cbn. intros era t' m' Hl. apply lookup_insert_Some in Hl as [[<- [= <- <-]]|[_ Hl]]; [|eauto].
      assert (Q : msum (fun _ v => v) m <= t /\ t + 20 <= 10 ^ 9).
      { destruct (e_points (k_era s) !! i) as [[t1 m1]|] eqn:Ei; cbn in Ed; injection Ed as Et Em; subst.
        - split; [eauto|]. exact (proj1 B _ _ _ Ei).
        - rewrite msum_empty. split; [lia|discriminate]. }
      destruct Q as [Q1 Q2]. change (10 ^ 9) with PERBILL in Q2. assert (PERBILL < two32) by reflexivity.
      rewrite (add32_exact t 20) by lia.
      destruct (m !! a) as [z|] eqn:Ea; cbn [default from_option id].
      + pose proof (msum_le (fun _ v => v) m a z Ea) as L. cbn in L. rewrite add32_exact by lia.
        pose proof (msum_insert_over (fun _ v => v) m a z (z + 20) Ea) as I. cbn beta in I. lia.
      + rewrite add32_exact by lia. rewrite msum_insert by auto. lia.
    - eapply set; [exact H|]. intros s1 ev [= E]. split; [apply quiet; eapply on_offence_calm; eauto|].
      eapply on_offence_tally; eauto.
    - injection H as <- <-. split; [exact no|exact T].
  Qed.
  Lemma run_pool : forall h s, tally (k_era s) -> always cfg (small_points cfg) s h ->
    minted (events (kouts cfg s h)) + pool (krun cfg s h) <= pool s + raised (events (kouts cfg s h)) + overdrafts cfg s h.
  Proof.
    induction h as [|op h IH]; intros s T B; [cbn; lia|]. destruct B as [B1 B2].
    destruct (step_pool s op T B1) as [A C]. specialize (IH _ C B2). cbn [krun kouts overdrafts].
    rewrite events_cons, minted_app, raised_app. lia.
  Qed.
  Lemma genesis_tally b p : tally (k_era (kgenesis b p)).
  Proof. split; intros era; cbn; rewrite lookup_empty; discriminate. Qed.
End model.
