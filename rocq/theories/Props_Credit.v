(** Properties C18-C20, C22-C29 and C71-C74 (pallets/credit). *)
From Verif Require Import Base Balances Proofs_Balances Proofs_Arith Model_UserPrivileges Model_Credit
  Spec_Credit Proofs_Credit Proofs_Credit2 Proofs_Credit3 Proofs_Credit4 Proofs_Credit5.
From stdpp Require Import gmap.
Open Scope N_scope.

(** Example chain: an era has 10 blocks of 5 seconds, account 99 is the treasury,
    account 7 administers credit and submits prices, EVM address 501 is bound to
    account 1 and 503 to account 3; user 2 has been offline for three eras. *)
Definition xkcfg : kcfg := KCfg 5 10 5 100 1 50 99.
Definition xkbank : bank :=
  Bank (list_to_map [(1, Acct (1000 * DPR) 0 0); (2, Acct (800 * DPR) 0 0); (99, Acct 1000 0 0)]) 0.
Definition xk (now : N) : kctx :=
  KCtx now (now * 5) (fun a => if a =? 1 then Some 0 else None)
    (fun a => if a =? 2 then 3 else 0)
    (fun e => if e =? 501 then Some 1 else if e =? 503 then Some 3 else None)
    (fun a _ => a =? 7) (fun a _ => a =? 700).
Definition xksettings : list setting :=
  [Setting 4 1 (10000 * DPR) 20 10 5 0 0 0; Setting 4 2 (20000 * DPR) 30 10 5 0 0 0;
   Setting 8 1 (5000 * DPR) 5 0 0 0 1 0].
Definition xkdata : list (N * cdata) :=
  [(1, CData 4 150 1 0 0 1 270); (2, CData 4 205 2 9 0 2 270)].
Definition xs0 : kstate := kinit xkbank xksettings xkdata.
Definition call (now who : N) (c : kcall) : kop := (xk now, inl (Signed who, c)).
Definition root (now : N) (c : kcall) : kop := (xk now, inl (Root, c)).
Definition entry (now : N) (e : kentry) : kop := (xk now, inr e).
Definition xkhist : list kop :=
  [ entry 11 (KInitHistory 1); entry 12 (KInitHistory 2); entry 25 (KTraffic 1);
    entry 36 (KSlash 1 (Some 20)); entry 37 (KTraffic 1); entry 58 (KTip 1 75);
    root 59 (KForceHistory 1 2); entry 60 (KSlash 1 (Some 10)); call 61 1 (KBurnForCredit 3) ].

(** C18. *)
Theorem C18_levels :
  forall cfg b settings data h who d,
    kc_step cfg <> U64MAX ->
    (forall w d', (w, d') ∈ data -> level_ok d') ->
    k_uc (krun cfg (kinit b settings data) h) !! who = Some d ->
    cd_level d = N.min (cd_credit d / 100) 8.
Proof.
  intros cfg b settings data h who d Hstep Hdata H.
  apply (krun_levels cfg (kinit b settings data) h Hstep) in H; [exact H|].
  clear H. intros w d'. unfold kinit. cbn [k_uc set_k_uc].
  assert (G : forall m : gmap N cdata, (forall w d', m !! w = Some d' -> level_ok d') ->
    forall w d', fold_left (fun m p => <[p.1 := p.2]> m) data m !! w = Some d' -> level_ok d').
  { clear w d'. induction data as [|[a da] l IH]; intros m Hm; [exact Hm|]. cbn [fold_left].
    apply IH; [intros w d' Hin; apply (Hdata w d'); now right|].
    intros w d' H. cbn [fst snd] in H. apply lookup_insert_Some in H as [[-> <-]|[_ Hw]]; [|eapply Hm; exact Hw].
    apply (Hdata w da). left. }
  apply G. intros w' d'' E. now rewrite lookup_empty in E.
Qed.
Print Assumptions C18_levels.
Example C18_example :
  let s := krun xkcfg xs0 xkhist in
  k_uc xs0 !! 1 = Some (CData 4 150 1 0 0 1 270) /\
  k_uc s !! 1 = Some (CData 4 200 1 0 0 2 270) /\ k_uc s !! 2 = Some (CData 4 205 2 9 0 2 270).
Proof. vm_compute. repeat split. Qed.

(** C19. If block numbers never go down and root only moves the start of a
    history to an era already reached, then every history is strictly increasing
    in its eras, none of which lies ahead, and its last entry is the current
    record of the user. *)
Theorem C19_history_ordered :
  forall cfg b settings data h t who,
    kc_step cfg <> U64MAX -> kc_bpe cfg <> 0 -> chrono 0 h t -> Forall (past_only cfg) h ->
    let s := krun cfg (kinit b settings data) h in
    let hist := default [] (k_hist s !! who) in
    increasing hist /\
    (forall e d, (e, d) ∈ hist -> e <= era_at cfg t) /\
    (forall e d, last hist = Some (e, d) -> k_uc s !! who = Some d).
Proof.
  intros cfg b settings data h t who Hstep Hb Hc Hf. cbv zeta.
  assert (H0 : book_ordered (cr (kinit b settings data)) (era_at cfg 0)).
  { intros w. unfold kinit, cr. cbn [fst snd k_uc k_hist set_k_uc].
    assert (E : k_hist (fold_left update_setting settings (KState b ∅ ∅ ∅ ∅ 0 ∅ ∅ ∅ ∅ ∅ ∅ ∅ def_balances
      def_usdt_balances def_gen_balances ∅ 8 5 None None ∅ [] [] 0 (50 * DPR) 5 ∅ ∅)) = ∅).
    { rewrite (proj2 (fold_setting_credit settings _)). reflexivity. }
    rewrite E, lookup_empty. split; [exact Logic.I|discriminate]. }
  pose proof (krun_ordered cfg _ h 0 t Hstep Hb Hc Hf H0 who) as [Hi Hl]. cbn [cr fst snd] in Hi, Hl.
  split; [exact Hi|]. split; [|intros e d E; now apply (Hl e d)].
  intros e d Hin. destruct (last (default [] (k_hist (krun cfg (kinit b settings data) h) !! who))) as [[e1 d1]|] eqn:El.
  - specialize (Hl e1 d1 eq_refl) as [_ Hle]. apply last_Some in El as [h0 E0].
    rewrite E0 in Hin, Hi. apply elem_of_app in Hin as [Hin|Hin].
    + pose proof (increasing_after h0 (e1, d1) [] (e, d) Hi Hin) as Hlt. cbn in Hlt. lia.
    + apply elem_of_list_singleton in Hin. injection Hin as -> ->. exact Hle.
  - apply last_None in El. rewrite El in Hin. now apply elem_of_nil in Hin.
Qed.
Print Assumptions C19_history_ordered.
Example C19_example :
  chrono 0 xkhist 70 /\ Forall (past_only xkcfg) xkhist /\
  fst <$> default [] (k_hist (krun xkcfg xs0 (take 6 xkhist)) !! 1) = [1; 2; 3; 5] /\
  fst <$> default [] (k_hist (krun xkcfg xs0 xkhist) !! 1) = [2; 3; 5; 6] /\
  snd <$> last (default [] (k_hist (krun xkcfg xs0 xkhist) !! 1)) = k_uc (krun xkcfg xs0 xkhist) !! 1.
Proof.
  split; [vm_compute; repeat split; discriminate|].
  split; [repeat constructor; vm_compute; discriminate|vm_compute; repeat split].
Qed.
(** The condition on root is needed: moved into the future, the next entry
    comes before. *)
Example C19_condition_needed :
  fst <$> default [] (k_hist (krun xkcfg xs0
    [entry 11 (KInitHistory 1); root 12 (KForceHistory 1 9); entry 25 (KSlash 1 None)]) !! 1) = [9; 2].
Proof. vm_compute. reflexivity. Qed.

Lemma kinit_poc b settings data : Forall setting_typed settings -> poc_ok (kinit b settings data).
Proof.
  intros Hs. unfold kinit, poc_ok. cbn [k_poc set_k_uc].
  apply (fold_setting_poc settings); [exact Hs|]. intros k a c E. cbn in E. rewrite lookup_empty in E. discriminate.
Qed.

(** C20. A reward computation returns exactly the sum, over the eras of the range
    up to the end of the reward period, of the daily reward of the record in
    force in that era (the last one made at or before it), counting an era only
    if that record is at the delegation threshold. Nothing is due (None) if no
    era counts. *)
Theorem C20_reward :
  forall cfg b settings data h x who from to,
    kc_step cfg <> U64MAX -> kc_bpe cfg <> 0 ->
    Forall setting_typed settings -> Forall typed_op h ->
    chrono 0 h (kx_now x) -> Forall (past_only cfg) h ->
    let s := krun cfg (kinit b settings data) h in
    from <= to -> to < era_at cfg (kx_now x) -> to + 1 - from < 65536 ->
    k_price s <> Some 0 ->
    (forall p, k_price s = Some p -> staked_dollars s who * DPR / p < two128) ->
    (forall d e0 d0 r, k_uc s !! who = Some d -> default [] (k_hist s !! who) = (e0, d0) :: r ->
       e0 + cd_eras d < two32) ->
    snd (kentry_step cfg s x (KGetReward who from to)) = ROk (KReward (claim_reward cfg s who from to)).
Proof.
  intros cfg b settings data h x who from to Hstep Hb Hset Htyp Hc Hf. cbv zeta.
  intros Hft Hto Hrange Hprice Hfit Hper.
  assert (Hord : book_ordered (cr (krun cfg (kinit b settings data) h)) (era_of cfg (kx_now x))).
  { apply (krun_ordered cfg _ h 0 (kx_now x) Hstep Hb Hc Hf). intros w.
    unfold kinit, cr. cbn [fst snd k_uc k_hist set_k_uc].
    assert (E : forall s, k_hist (fold_left update_setting settings s) = k_hist s)
      by (intros s; apply (fold_setting_credit settings s)).
    rewrite E. cbn [k_hist]. rewrite lookup_empty. split; [exact Logic.I|discriminate]. }
  assert (Hpoc : poc_ok (krun cfg (kinit b settings data) h)).
  { apply krun_poc; [done|done|]. now apply kinit_poc. }
  destruct (get_reward_spec cfg (krun cfg (kinit b settings data) h) x who from to) as (s' & E); try assumption.
  unfold kentry_step. cbn [kentry_exec]. rewrite E. reflexivity.
Qed.
Print Assumptions C20_reward.
(** Era 1 pays for 150 points, era 2 for 151, era 3 for 132, era 4 again for 132
    (all of level one, ranked), era 5 for 207 points (level two). *)
Example C20_example :
  let s := krun xkcfg xs0 (take 6 xkhist) in
  Forall setting_typed xksettings /\ Forall typed_op xkhist /\ chrono 0 (take 6 xkhist) 70 /\
  paid_eras xkcfg s 1 0 4 = [8219176516133943000; 8219176516133943000; 8219176516133943000; 8219176516133943000] /\
  paid_eras xkcfg s 1 0 6 = [8219176516133943000; 8219176516133943000; 8219176516133943000; 8219176516133943000;
                             19178078537645867000; 19178078537645867000] /\
  snd (kentry_step xkcfg s (xk 70) (KGetReward 1 0 6))
    = ROk (KReward (Some (4 * 8219176516133943000 + 2 * 19178078537645867000))).
Proof.
  split; [repeat constructor; vm_compute; discriminate|].
  split; [repeat constructor|]. split; [vm_compute; repeat split; discriminate|vm_compute; repeat split].
Qed.
(** Adjacent claims made in the same state share no era and miss none. *)
Theorem C20_claims_add_up :
  forall cfg s who from m to,
    from <= m + 1 -> m <= to ->
    paid_eras cfg s who from to = paid_eras cfg s who from m ++ paid_eras cfg s who (m + 1) to.
Proof. exact paid_eras_split. Qed.
Print Assumptions C20_claims_add_up.
Example C20_claims_example :
  let s := krun xkcfg xs0 (take 6 xkhist) in
  length (paid_eras xkcfg s 1 0 3) = 3%nat /\ length (paid_eras xkcfg s 1 4 6) = 3%nat.
Proof. vm_compute. repeat split. Qed.

(** C22. A slash of a user with credit lowers the score by the penalty (the
    configured step if none is given) or to zero, and touches nobody else; the
    largest penalty removes record and history. No slash raises a score. *)
Theorem C22_slash :
  forall cfg s x who c penalty,
    score_of s who = Some c ->
    let p := default (kc_step cfg) penalty in
    let s' := kdo cfg s (x, inr (KSlash who penalty)) in
    accepted cfg s (x, inr (KSlash who penalty)) = true /\
    score_of s' who = (if decide (p = U64MAX) then None else Some (c - p)) /\
    (forall d', k_uc s' !! who = Some d' -> level_ok d') /\
    (forall w, w <> who -> k_uc s' !! w = k_uc s !! w /\ k_hist s' !! w = k_hist s !! w) /\
    k_bank s' = k_bank s /\ k_settings s' = k_settings s /\ k_ustake s' = k_ustake s.
Proof.
  intros cfg s x who c penalty Hc. cbv zeta. unfold score_of in Hc.
  destruct (k_uc s !! who) as [d|] eqn:Ed; [|discriminate]. injection Hc as <-.
  unfold accepted, kdo, kentry_step. cbn [fst snd kentry_exec].
  destruct (decide (default (kc_step cfg) penalty = U64MAX)) as [Hp|Hp].
  - assert (E : slash_credit cfg s x who penalty =
        ROk (set_k_hist (set_k_uc s (delete who (k_uc s))) (delete who (k_hist s)))).
    { unfold slash_credit. now rewrite Hp, N.eqb_refl. }
    rewrite E. cbn [rbind fst snd is_ok]. split; [done|]. unfold score_of. cbn.
    rewrite lookup_delete. split; [done|]. split; [discriminate|].
    split; [|auto]. intros w Hw. now rewrite !lookup_delete_ne by congruence.
  - rewrite (slash_eq _ _ _ _ _ d Ed Hp). cbn [rbind fst snd is_ok]. split; [done|]. unfold score_of. cbn.
    rewrite lookup_insert. split; [done|]. split; [intros d' [= <-]; apply update_level_ok|].
    split; [|auto]. intros w Hw. rewrite lookup_insert_ne by congruence. split; [done|]. now apply recorded_other.
Qed.
Print Assumptions C22_slash.
Example C22_example :
  score_of (krun xkcfg xs0 [entry 11 (KSlash 1 None)]) 1 = Some 149 /\
  score_of (krun xkcfg xs0 [entry 11 (KSlash 1 (Some 151))]) 1 = Some 0 /\
  score_of (krun xkcfg xs0 [entry 11 (KSlash 1 (Some U64MAX))]) 1 = None.
Proof. vm_compute. repeat split. Qed.

(** C23 is false: a contract allowed to change credit that subtracts points from
    an address bound to an account without credit brings down the block. *)
Theorem C23_slash_without_credit_refuted :
  exists cfg s x, score_of s 3 = None /\
    snd (kentry_step cfg s x (KSlash 3 None)) = RPanic /\
    snd (kentry_step cfg s x (KEvmUpdate 700 503 5 false)) = RPanic.
Proof. exists xkcfg, (krun xkcfg xs0 xkhist), (xk 70). vm_compute. repeat split. Qed.
Print Assumptions C23_slash_without_credit_refuted.
(** What does hold: a slash panics exactly if the user has no record and the
    penalty is not the largest one; and a privileged subtraction from a bound
    address panics in the same case. Missing: the panic itself. *)
Theorem C23_slash_without_credit_partial :
  forall cfg s x who penalty caller user points,
    (snd (kentry_step cfg s x (KSlash who penalty)) = RPanic <->
       score_of s who = None /\ default (kc_step cfg) penalty <> U64MAX) /\
    (snd (kentry_step cfg s x (KEvmUpdate caller user points false)) = RPanic <->
       kx_evm_priv x caller EvmCreditOperation = true /\
       exists w, kx_e2d x user = Some w /\ score_of s w = None /\ points <> U64MAX).
Proof.
  intros cfg s x who penalty caller user points.
  assert (H : forall w pen, slash_credit cfg s x w pen = RPanic <->
     score_of s w = None /\ default (kc_step cfg) pen <> U64MAX).
  { intros w pen. unfold score_of. destruct (N.eq_dec (default (kc_step cfg) pen) U64MAX) as [E|E].
    - split; [|tauto]. unfold slash_credit. rewrite E, N.eqb_refl. discriminate.
    - destruct (k_uc s !! w) as [d|] eqn:Ed.
      + rewrite (slash_eq _ _ _ _ _ d Ed E). split; [discriminate|]. intros [? _]. discriminate.
      + rewrite slash_none by done. split; auto. }
  unfold kentry_step. cbn [kentry_exec]. split.
  - rewrite <- H. destruct (slash_credit cfg s x who penalty); cbn; split; try discriminate; auto.
  - unfold evm_update. destruct (kx_evm_priv x caller EvmCreditOperation); cbn [negb].
    2: { cbn. split; [discriminate|]. intros []. discriminate. }
    destruct (kx_e2d x user) as [w|].
    2: { cbn. split; [discriminate|]. intros [_ (? & ? & _)]. discriminate. }
    specialize (H w (Some points)). change (default (kc_step cfg) (Some points)) with points in H.
    split.
    + destruct (slash_credit cfg s x w (Some points)); cbn; try discriminate. intros _.
      split; [done|]. exists w. split; [done|]. now apply H.
    + intros [_ (w' & [= <-] & Hs & Hp)]. rewrite (proj2 H) by auto. reflexivity.
Qed.
Print Assumptions C23_slash_without_credit_partial.
Example C23_example :
  score_of xs0 3 = None /\ kx_evm_priv (xk 70) 700 EvmCreditOperation = true /\ kx_e2d (xk 70) 503 = Some 3.
Proof. vm_compute. repeat split. Qed.

(** C24 is false: for a user of an old campaign the switch to the new campaign
    writes back the record read before the slash, so the slash is lost. *)
Theorem C24_offline_slash_refuted :
  exists cfg h x who from to c,
    let s := krun cfg xs0 h in
    kx_offline x who = 3 /\ who ∉ k_maintain s /\
    score_of s who = Some c /\ c <> 0 /\
    snd (kentry_step cfg s x (KGetReward who from to)) = ROk (KReward (Some 16438353032267886000)) /\
    score_of (kdo cfg s (x, inr (KGetReward who from to))) who = Some c.
Proof.
  exists xkcfg, [call 5 7 (KSetSwitch [4] [8]); entry 12 (KInitHistory 2)], (xk 50), 2, 1, 1, 205.
  vm_compute. repeat split; try discriminate. intros H. inversion H.
Qed.
Print Assumptions C24_offline_slash_refuted.
(** What does hold: unless the claim moves the user to another campaign, the
    score after it is lower by the step. The rest of the claim (the user is
    moved at the end of the reward period, or belongs to one of the campaigns
    0-6, and a target campaign is configured) is missing. *)
Theorem C24_offline_slash_partial :
  forall cfg s x who from to d,
    kc_step cfg <> U64MAX ->
    k_uc s !! who = Some d -> cd_eras d <> 0 -> from <= to -> to < era_at cfg (kx_now x) ->
    (let e0 := match default [] (k_hist s !! who) with (e, _) :: _ => e | [] => era_at cfg (kx_now x) end in
     e0 + cd_eras d < two32) ->
    accepted cfg s (x, inr (KGetReward who from to)) = true ->
    let s' := kdo cfg s (x, inr (KGetReward who from to)) in
    (* a device is slashed in every third era offline, except in maintenance *)
    let slashed := kx_offline x who <> 0 /\ kx_offline x who mod 3 = 0 /\ who ∉ k_maintain s in
    let switched := k_noswitch s !! who = None /\ is_Some (k_switch s !! cd_camp d) /\
      (cd_camp d <= 6 \/
       let e0 := match default [] (k_hist s !! who) with (e, _) :: _ => e | [] => era_at cfg (kx_now x) end in
       from + 1 = e0 + cd_eras d) in
    (slashed -> ~ switched -> score_of s' who = Some (cd_credit d - kc_step cfg)) /\
    (~ slashed -> score_of s' who = Some (cd_credit d)).
Proof.
  intros cfg s x who from to d Hstep Hd He Hft Hto H32 Hacc. cbv zeta.
  destruct (kdo_entry _ _ _ _ Hacc) as [r E]. cbn [kentry_exec] in E. inv_bind E. destruct a as [s1 q].
  cbn [fst snd] in E. injection E as E _. rewrite <- E.
  destruct (get_reward_score cfg s x who from to s1 q d Hstep Hd He Hft Hto H32 Ha) as [H1 H2].
  assert (Hdue : offline_slash_due s x who = true <->
    kx_offline x who <> 0 /\ kx_offline x who mod 3 = 0 /\ who ∉ k_maintain s).
  { unfold offline_slash_due. rewrite !andb_true_iff, N.ltb_lt, N.eqb_eq, negb_true_iff, bool_decide_eq_false.
    split; intros H; [destruct H as [[? ?] ?]|destruct H as (? & ? & ?)]; repeat split; try done; lia. }
  split.
  - intros Hs Hn. apply H2; [now apply Hdue|exact Hn].
  - intros Hn. apply H1. apply not_true_iff_false. now rewrite Hdue.
Qed.
Print Assumptions C24_offline_slash_partial.
Example C24_example :
  let s := krun xkcfg xs0 [entry 12 (KInitHistory 2)] in
  score_of (kdo xkcfg s (entry 50 (KGetReward 2 1 1))) 2 = Some 204 /\
  score_of (kdo xkcfg s (entry 50 (KGetReward 1 1 1))) 1 = Some 150 /\
  score_of (krun xkcfg s [call 45 7 (KSetMaintain 2); entry 50 (KGetReward 2 1 1)]) 2 = Some 205.
Proof. vm_compute. repeat split. Qed.

(** C25 is false: the sum of the submitted prices wraps around, and the stored
    price can be zero. *)
Theorem C25_price_refuted :
  exists cfg s h x,
    block_prices cfg s h [] = [2 ^ 127; 2 ^ 127] /\
    k_price (kdo cfg (krun cfg s h) (x, inr KFinalize)) = Some 0.
Proof.
  exists xkcfg, xs0, [call 5 7 (KSetPrice (2 ^ 127)); call 5 7 (KSetPrice (2 ^ 127))], (xk 5).
  vm_compute. repeat split.
Qed.
Print Assumptions C25_price_refuted.
(** What does hold: if the sum of the prices submitted in the block fits in 128
    bits, the new price is their average rounded down, and so lies between the
    smallest and the largest. Without submissions the price stays. Missing: sums
    that do not fit. *)
Theorem C25_price_partial :
  forall cfg s h x,
    kc_step cfg <> U64MAX -> k_prices s = [] ->
    let ps := block_prices cfg s h [] in
    let before := krun cfg s h in
    let after := kdo cfg before (x, inr KFinalize) in
    lsum ps < two128 ->
    (ps = [] -> k_price after = k_price before) /\
    (ps <> [] -> exists p, k_price after = Some p /\ p = lsum ps / N.of_nat (length ps) /\
       (forall lo, Forall (fun q => lo <= q) ps -> lo <= p) /\
       (forall hi, Forall (fun q => q <= hi) ps -> p <= hi)).
Proof.
  intros cfg s h x Hstep Hp. cbv zeta. pose proof (krun_prices cfg s h Hstep) as Ep.
  rewrite Hp in Ep. rewrite <- Ep. intros Hs.
  change (kdo cfg (krun cfg s h) (x, inr KFinalize)) with (set_price (krun cfg s h)). split.
  - intros E. unfold set_price. now rewrite E.
  - intros Hne. destruct (set_price_avg (krun cfg s h) Hne Hs) as (E & Hlo & Hhi). eauto.
Qed.
Print Assumptions C25_price_partial.
(** Every accepted submission comes from a price oracle, is not zero, and is
    within the configured rate of the current price. *)
Theorem C25_submission :
  forall cfg s x o p,
    accepted cfg s (x, inl (o, KSetPrice p)) = true ->
    p <> 0 /\ (exists a, o = Signed a /\ kx_priv x a OracleWorker = true) /\
    (forall rate old, k_rate s = Some rate -> k_price s = Some old ->
       p <= old + frac_mul rate 100 old /\ old <= p + frac_mul rate 100 old) /\
    k_price (kdo cfg s (x, inl (o, KSetPrice p))) = k_price s.
Proof.
  intros cfg s x o p Ha. apply kdo_call in Ha. pose proof (kexec_rest _ _ _ _ _ _ Ha) as (a & -> & Hp & Hz & Hr & E).
  split; [done|]. split; [eauto|]. split; [done|]. rewrite E. reflexivity.
Qed.
Print Assumptions C25_submission.
Example C25_example :
  let h := [call 5 7 (KSetPrice 100); call 5 7 (KSetPrice 103); entry 5 KFinalize;
            call 6 7 (KSetRate 10); call 6 7 (KSetPrice 111); call 6 7 (KSetPrice 112); call 6 8 (KSetPrice 100);
            call 6 7 (KSetPrice 92)] in
  block_prices xkcfg xs0 h [] = [111; 92] /\
  k_price (krun xkcfg xs0 h) = Some 101 /\ k_price (krun xkcfg xs0 (h ++ [entry 6 KFinalize])) = Some 101 /\
  k_price (krun xkcfg xs0 (take 6 h ++ [entry 6 KFinalize])) = Some 111.
Proof. vm_compute. repeat split. Qed.

(** C26 is false for large purchases: the number of points is truncated to 32
    bits when the price is computed. *)
Theorem C26_burn_for_credit_refuted :
  exists cfg s x a score c,
    accepted cfg s (x, inl (Signed a, KBurnForCredit score)) = true /\ score <> 0 /\
    score_of s a = Some c /\ k_dpr_per_credit s <> 0 /\
    let s' := kdo cfg s (x, inl (Signed a, KBurnForCredit score)) in
    score_of s' a = Some (c + score) /\ free_of (k_bank s') a = free_of (k_bank s) a.
Proof.
  exists xkcfg, (krun xkcfg xs0 [root 5 (KAddData 1 (CData 4 (2 ^ 33) 8 0 0 8 270)); entry 6 (KInitHistory 1);
                                 entry 17 (KSlash 1 (Some (2 ^ 32)))]), (xk 20), 1, (2 ^ 32), (2 ^ 32).
  vm_compute. repeat split; discriminate.
Qed.
Print Assumptions C26_burn_for_credit_refuted.
(** What does hold, for fewer than 2^32 points: the caller gets exactly the points
    and pays exactly points times unit price to the treasury; the new score is at
    most the threshold or a score the caller had before. Missing: larger
    purchases. *)
Theorem C26_burn_for_credit_partial :
  forall cfg s x a score c,
    accepted cfg s (x, inl (Signed a, KBurnForCredit score)) = true ->
    score_of s a = Some c -> score < two32 -> c + score < two64 ->
    let amount := k_dpr_per_credit s * score in
    let b := k_bank s in
    amount < two128 -> money b < two128 -> a <> kc_treasury cfg ->
    kc_ed cfg <= free_of b a \/ rsv (acct_of b a) <> 0 -> kc_ed cfg <= free_of b (kc_treasury cfg) ->
    let s' := kdo cfg s (x, inl (Signed a, KBurnForCredit score)) in
    score_of s' a = Some (c + score) /\
    (c + score <= kc_min cfg \/
     exists e d, (e, d) ∈ default [] (k_hist s !! a) /\ c + score <= cd_credit d) /\
    amount <= free_of b a /\ free_of (k_bank s') a = free_of b a - amount /\
    free_of (k_bank s') (kc_treasury cfg) = free_of b (kc_treasury cfg) + amount /\
    (forall w, w <> a -> w <> kc_treasury cfg -> acct_of (k_bank s') w = acct_of b w) /\
    (forall w, w <> a -> score_of s' w = score_of s w).
Proof.
  intros cfg s x a score c Hacc Hc Hs32 Hs64. cbv zeta. intros Ham Hmon Hat Hlive Htr.
  destruct (burn_for_credit_eq _ _ _ _ _ Hacc) as (d & b' & Ed & Hmax & Hrest). cbv zeta in Hrest.
  destruct Hrest as [Ew ->].
  unfold score_of in Hc. rewrite Ed in Hc. injection Hc as <-.
  assert (Es : sadd64 (cd_credit d) score = cd_credit d + score) by (unfold sadd64, two64 in *; lia).
  assert (Ea : smul128 (k_dpr_per_credit s) (w32 score) = k_dpr_per_credit s * score).
  { rewrite w32_small by done. unfold smul128, two128 in *. lia. }
  rewrite Es in *. rewrite Ea in *. set (amount := k_dpr_per_credit s * score) in *.
  destruct (withdraw_exact _ _ _ _ _ _ Ew Hlive eq_refl) as [Hle Hacct].
  pose proof (withdraw_money _ _ _ _ _ _ Ew) as Hm.
  assert (Et : free_of b' (kc_treasury cfg) = free_of (k_bank s) (kc_treasury cfg)).
  { unfold free_of. erewrite withdraw_ne; [reflexivity|exact Ew|]. intros E. symmetry in E. contradiction. }
  unfold score_of, burn_record. cbn [k_uc k_bank set_k_daily_burn set_k_total_burn set_k_hist set_k_uc set_k_bank].
  rewrite lookup_insert. split; [reflexivity|]. split; [now apply max_credit_le|]. split; [exact Hle|].
  split. { unfold free_of. rewrite deposit_ne by done. rewrite Hacct. reflexivity. }
  split.
  { unfold free_of at 1. rewrite deposit_eq; [cbn [free]; now rewrite Et|lia|lia|right; left; lia]. }
  split.
  - intros w H1 H2. rewrite deposit_ne by done. eapply withdraw_ne; eassumption.
  - intros w Hw. now rewrite lookup_insert_ne by congruence.
Qed.
Print Assumptions C26_burn_for_credit_partial.
Example C26_example :
  let s := krun xkcfg xs0 [entry 11 (KInitHistory 1); entry 25 (KSlash 1 (Some 10))] in
  let s' := kdo xkcfg s (call 30 1 (KBurnForCredit 4)) in
  score_of s 1 = Some 140 /\ score_of s' 1 = Some 144 /\
  free_of (k_bank s') 1 = 800 * DPR /\ free_of (k_bank s') 99 = 200 * DPR + 1000 /\
  k_total_burn s' = 200 * DPR /\
  accepted xkcfg s (call 30 1 (KBurnForCredit 11)) = false /\ accepted xkcfg s (call 30 1 (KBurnForCredit 10)) = true.
Proof. vm_compute. repeat split. Qed.

(** C27 is false: the running total wraps around. *)
Theorem C27_nft_cap_refuted :
  exists cfg h who,
    nft_points cfg xs0 h who > kc_maxburn cfg /\ Forall no_nft_reset h /\
    score_of (krun cfg xs0 h) who = Some U64MAX.
Proof.
  exists xkcfg, [call 5 7 (KNftClassCredit 1 45); call 5 7 (KNftClassCredit 2 U64MAX);
                 entry 5 (KNftSet 1 1 (Some 1)); entry 5 (KNftSet 2 1 (Some 1));
                 call 6 1 (KBurnNft 1 1); call 7 1 (KBurnNft 2 1)], 1.
  split; [vm_compute; reflexivity|]. split; [repeat constructor|vm_compute; reflexivity].
Qed.
Print Assumptions C27_nft_cap_refuted.
(** What does hold: if no class is worth 2^63 points or more and the administrator
    does not reset totals, the points an account gets for burned NFTs never
    exceed the cap. Missing: absurd class values and resets. *)
Theorem C27_nft_cap_partial :
  forall cfg b settings data h who,
    kc_step cfg <> U64MAX -> kc_maxburn cfg < 2 ^ 63 ->
    Forall no_nft_reset h -> Forall nft_value_small h ->
    nft_points cfg (kinit b settings data) h who <= kc_maxburn cfg.
Proof.
  intros cfg b settings data h who Hstep Hm Hr Hv.
  assert (E1 : k_from_nft (kinit b settings data) = ∅).
  { unfold kinit. cbn [k_from_nft set_k_uc]. rewrite (fold_setting_frame k_from_nft) by done. reflexivity. }
  assert (E2 : k_nft_credit (kinit b settings data) = ∅).
  { unfold kinit. cbn [k_nft_credit set_k_uc]. rewrite (fold_setting_frame k_nft_credit) by done. reflexivity. }
  pose proof (krun_nft cfg (kinit b settings data) h who Hstep Hm Hr Hv) as H.
  unfold nft_ok in H. rewrite E1, E2, lookup_empty in H. cbn in H. apply H; [|lia].
  intros class v E. rewrite lookup_empty in E. discriminate.
Qed.
Print Assumptions C27_nft_cap_partial.
Example C27_example :
  let h := [call 5 7 (KNftClassCredit 1 20); entry 5 (KNftSet 1 1 (Some 1)); entry 5 (KNftSet 1 2 (Some 1));
            entry 5 (KNftSet 1 3 (Some 1)); call 6 1 (KBurnNft 1 1); call 7 1 (KBurnNft 1 2); call 8 1 (KBurnNft 1 3)] in
  Forall no_nft_reset h /\ Forall nft_value_small h /\
  nft_points xkcfg xs0 h 1 = 40 /\ score_of (krun xkcfg xs0 h) 1 = Some 190.
Proof. split; [repeat constructor|]. split; [repeat constructor|vm_compute; repeat split]. Qed.

(** C28. Traffic updates that change the score of a user are at least one era's
    duration apart, whatever happens in between; each adds exactly one point to
    that user and changes nobody else; and the first one comes at least one era
    after the device came on board. *)
Theorem C28_traffic_interval :
  forall cfg s h who,
    kc_step cfg <> U64MAX -> kc_bpe cfg * kc_secs cfg < two64 ->
    spaced (kc_bpe cfg * kc_secs cfg) (raise_times cfg s h who).
Proof.
  intros cfg s h who Hstep Hg. pose proof (raise_times_spaced cfg s h who Hstep) as H.
  replace (smul64 (kc_bpe cfg) (kc_secs cfg)) with (kc_bpe cfg * kc_secs cfg) in H; [exact H|].
  unfold smul64, two64 in *. lia.
Qed.
Print Assumptions C28_traffic_interval.
Theorem C28_traffic_one_point :
  forall cfg s x who w,
    let s' := kdo cfg s (x, inr (KTraffic who)) in
    (forall c, score_of s who = Some c -> c < two64) ->
    score_of s' w <> score_of s w ->
    w = who /\ (exists c, score_of s who = Some c /\ score_of s' who = Some (c + 1)) /\
    (k_last_ts s !! who = None -> k_last_era s !! who = None ->
       exists b, kx_onboard x who = Some b /\ era_at cfg b + 1 <= era_at cfg (kx_now x)).
Proof.
  intros cfg s x who w. cbv zeta. intros Htyp H.
  destruct (by_traffic_score cfg s x who) as [[E _]|(d & Ed & E & _ & _ & Hfirst)].
  { destruct H. unfold score_of. now rewrite E. }
  unfold score_of in *. rewrite E in *. destruct (decide (w = who)) as [->|Hw].
  2: { destruct H. now rewrite lookup_insert_ne by congruence. }
  split; [done|]. rewrite lookup_insert, Ed in *. split.
  - exists (cd_credit d). split; [done|]. specialize (Htyp _ eq_refl).
    cbn [fmap option_fmap option_map cd_update cd_credit] in H |- *. f_equal. unfold sadd64 in *.
    destruct (N.le_gt_cases (cd_credit d + 1) (two64 - 1)); [lia|].
    exfalso. apply H. f_equal. lia.
  - intros H1 H2. destruct (Hfirst H1) as (b & Eb & Hle). rewrite H2 in Hle. exists b. split; [done|exact Hle].
Qed.
Print Assumptions C28_traffic_one_point.
Example C28_example :
  let h := [entry 9 (KTraffic 1); entry 10 (KTraffic 1); entry 15 (KTraffic 1); entry 20 (KTraffic 1);
            entry 29 (KTraffic 1); entry 31 (KTraffic 1); entry 31 (KTraffic 2)] in
  raise_times xkcfg xs0 h 1 = [50; 100; 155] /\ raise_times xkcfg xs0 h 2 = [] /\
  kc_bpe xkcfg * kc_secs xkcfg = 50 /\ score_of (krun xkcfg xs0 h) 1 = Some 153.
Proof. vm_compute. repeat split. Qed.

(** C29. In every reachable table the daily reward with bonus is at least the one
    without, and a ranked user's daily reward is at least that of the same user
    without rank. *)
Theorem C29_bonus_helps :
  forall cfg b settings data h,
    kc_step cfg <> U64MAX -> Forall setting_typed settings -> Forall typed_op h ->
    let s := krun cfg (kinit b settings data) h in
    (forall camp lvl, base_reward s camp lvl <= bonus_reward s camp lvl) /\
    (forall who camp credit init rank refs lvl er rank',
       rank <= st_maxrank (the_setting s camp init) -> st_maxrank (the_setting s camp init) < rank' ->
       daily s who (CData camp credit init rank' refs lvl er) <= daily s who (CData camp credit init rank refs lvl er) /\
       (camp <> 5 -> daily s who (CData camp credit init rank refs init er) = bonus_reward s camp init) /\
       (camp <> 5 -> daily s who (CData camp credit init rank' refs init er) = base_reward s camp init)).
Proof.
  intros cfg b settings data h Hstep Hset Htyp. cbv zeta.
  assert (Hpoc : poc_ok (krun cfg (kinit b settings data) h)).
  { apply krun_poc; [done|done|]. now apply kinit_poc. }
  set (s := krun cfg (kinit b settings data) h) in *.
  assert (H : forall camp lvl, base_reward s camp lvl <= bonus_reward s camp lvl).
  { intros camp lvl. unfold base_reward, bonus_reward.
    destruct (k_poc s !! (camp, lvl)) as [[x y]|] eqn:E; cbn; [|lia]. now apply (Hpoc _ _ _ E). }
  split; [exact H|]. intros who camp credit init rank refs lvl er rank' H1 H2.
  unfold daily. cbn [cd_camp cd_level cd_rank cd_init].
  destruct (N.leb_spec rank (st_maxrank (the_setting s camp init))); [|lia].
  destruct (N.leb_spec rank' (st_maxrank (the_setting s camp init))); [lia|].
  specialize (H camp init).
  destruct (N.eqb_spec camp 5) as [->|]; [split; [lia|split; contradiction]|].
  split; [lia|]. split; intros _; lia.
Qed.
Print Assumptions C29_bonus_helps.
Example C29_example :
  base_reward xs0 4 1 = 5479451010755962000 /\ bonus_reward xs0 4 1 = 8219176516133943000 /\
  st_maxrank (the_setting xs0 4 1) = 5 /\ Forall setting_typed xksettings /\ Forall typed_op xkhist.
Proof.
  split; [vm_compute; reflexivity|]. split; [vm_compute; reflexivity|]. split; [vm_compute; reflexivity|].
  split; [repeat constructor; vm_compute; discriminate|repeat constructor].
Qed.

(** C71. The total of burned DPR is the sum of the daily totals as long as it does
    not reach the largest number, and it never goes down. *)
Theorem C71_burn_totals :
  forall cfg b settings data h h',
    kc_step cfg <> U64MAX ->
    let s := krun cfg (kinit b settings data) h in
    (k_total_burn s < two128 - 1 -> k_total_burn s = msum (fun _ v => v) (k_daily_burn s)) /\
    k_total_burn s <= k_total_burn (krun cfg s h').
Proof.
  intros cfg b settings data h h' Hstep. cbv zeta.
  assert (E1 : k_total_burn (kinit b settings data) = 0).
  { unfold kinit. cbn [k_total_burn set_k_uc]. rewrite (fold_setting_frame k_total_burn) by done. reflexivity. }
  assert (E2 : k_daily_burn (kinit b settings data) = ∅).
  { unfold kinit. cbn [k_daily_burn set_k_uc]. rewrite (fold_setting_frame k_daily_burn) by done. reflexivity. }
  split.
  - apply krun_burn; [done|]. unfold burn_ok. rewrite E1, E2, msum_empty. done.
  - apply krun_total_mono; [done|]. apply krun_total_mono; [done|]. rewrite E1. reflexivity.
Qed.
Print Assumptions C71_burn_totals.
Example C71_example :
  let s := krun xkcfg xs0 [entry 11 (KInitHistory 1); entry 25 (KSlash 1 (Some 10)); call 30 1 (KBurnForCredit 4);
                           call 35 1 (KBurnForCredit 1); entry 41 (KBurnRecord 7)] in
  k_daily_burn s !! 3 = Some (250 * DPR) /\ k_daily_burn s !! 4 = Some 7 /\ k_total_burn s = 250 * DPR + 7.
Proof. vm_compute. repeat split. Qed.

(** C72. A call signed by an account without privileges changes no record and no
    history but the caller's own, never lowers the caller's score, and changes no
    setting, reward table, price, campaign, balance table or NFT value; a rejected
    call changes nothing. *)
Theorem C72_unprivileged :
  forall cfg s x a c,
    (forall p, kx_priv x a p = false) ->
    let s' := kdo cfg s (x, inl (Signed a, c)) in
    (accepted cfg s (x, inl (Signed a, c)) = false -> s' = s) /\
    (forall w, w <> a -> k_uc s' !! w = k_uc s !! w /\ k_hist s' !! w = k_hist s !! w /\
       k_from_nft s' !! w = k_from_nft s !! w) /\
    (forall n, score_of s a = Some n -> n < two64 -> exists n', score_of s' a = Some n' /\ n <= n') /\
    (score_of s a = None -> s' = s) /\
    k_settings s' = k_settings s /\ k_poc s' = k_poc s /\ k_price s' = k_price s /\ k_prices s' = k_prices s /\
    k_rate s' = k_rate s /\ k_switch s' = k_switch s /\ k_noswitch s' = k_noswitch s /\
    k_balances s' = k_balances s /\ k_usdt_balances s' = k_usdt_balances s /\ k_default_id s' = k_default_id s /\
    k_ustake s' = k_ustake s /\ k_stakebal s' = k_stakebal s /\ k_maintain s' = k_maintain s /\
    k_nft_credit s' = k_nft_credit s /\ k_dpr_per_credit s' = k_dpr_per_credit s /\
    (forall w, w <> a -> w <> kc_treasury cfg -> acct_of (k_bank s') w = acct_of (k_bank s) w).
Proof.
  intros cfg s x a c Hp. cbv zeta.
  destruct (accepted cfg s (x, inl (Signed a, c))) eqn:Ea.
  2: { rewrite (kdo_call_not _ _ _ _ _ Ea). repeat split; eauto. }
  split; [discriminate|].
  destruct (unprivileged_call _ _ _ _ _ Hp Ea) as [[score ->]|(class & item & ->)].
  - destruct (burn_for_credit_eq _ _ _ _ _ Ea) as (d & b & Ed & _ & H). cbv zeta in H. destruct H as [Ew ->].
    unfold score_of. rewrite Ed. unfold burn_record.
    split; [|split; [|split; [discriminate|repeat split; auto]]].
    + intros w Hw. cbn. rewrite lookup_insert_ne by congruence. split; [done|]. split; [now apply recorded_other|done].
    + intros n [= <-] Hn. cbn. rewrite lookup_insert. eexists. split; [reflexivity|].
      cbn. unfold sadd64, two64 in *. lia.
    + intros w H1 H2. cbn [k_bank set_k_daily_burn set_k_total_burn set_k_hist set_k_uc set_k_bank].
      rewrite deposit_ne by done. eapply withdraw_ne; eassumption.
  - destruct (burn_nft_eq _ _ _ _ _ _ Ea) as (d & v & Ed & _ & H). cbv zeta in H. rewrite H.
    unfold score_of. rewrite Ed.
    split; [|split; [|split; [discriminate|repeat split; auto]]].
    + intros w Hw. cbn. rewrite !lookup_insert_ne by congruence. split; [done|]. split; [now apply recorded_other|done].
    + intros n [= <-] Hn. cbn. rewrite lookup_insert. eexists. split; [reflexivity|].
      cbn. unfold sadd64, two64 in *. lia.
Qed.
Print Assumptions C72_unprivileged.
Example C72_example :
  (forall p, kx_priv (xk 30) 1 p = false) /\
  accepted xkcfg (krun xkcfg xs0 [entry 11 (KInitHistory 1); entry 25 (KSlash 1 (Some 10))])
    (call 30 1 (KBurnForCredit 4)) = true /\
  accepted xkcfg xs0 (call 30 1 (KSetPrice 5)) = false /\ accepted xkcfg xs0 (call 30 7 (KSetPrice 5)) = true.
Proof. split; [reflexivity|]. vm_compute. repeat split. Qed.

(** C73. The genesis campaign (7) pays ten points more than campaign 8 at the
    start, one point less after each 180 eras, five times: in the first block of
    era [start + 180 t], for t from 1 to 5, its rates become those of campaign 8
    plus 10 - t; the settings of other campaigns stay, and no other block changes
    any setting. *)
Theorem C73_genesis_schedule_partial :
  forall cfg s x,
    kc_bpe cfg <> 0 ->
    let s' := kdo cfg s (x, inr KInitialize) in
    (forall t, kx_now x mod kc_bpe cfg = 0 -> k_change_era s <> 0 -> 1 <= t <= 5 ->
       era_at cfg (kx_now x) = k_change_era s + 180 * t ->
       (forall lvl, 1 <= lvl <= 8 -> st_apy (the_setting s' 7 lvl) = rate8 lvl + 10 - t) /\
       (forall camp lvl, camp <> 7 -> the_setting s' camp lvl = the_setting s camp lvl)) /\
    (~ (kx_now x mod kc_bpe cfg = 0 /\ k_change_era s <> 0 /\
        exists t, 1 <= t <= 5 /\ era_at cfg (kx_now x) = k_change_era s + 180 * t) -> s' = s).
Proof.
  intros cfg s x Hb. cbv zeta. unfold kdo, kentry_step. cbn [fst snd kentry_exec]. split.
  - intros t Hm Hc Ht He. rewrite (on_initialize_due cfg s x t) by done.
    destruct (fold7_rates (sub_genesis_apy t) s (campaign7_keys t) (campaign7_nodup t)) as [H1 H2].
    unfold the_setting. split.
    + intros lvl Hl. destruct (campaign7_rate t lvl Ht Hl) as (st & Hin & Hk & Ha).
      specialize (H1 st Hin). rewrite Hk in H1. rewrite H1. exact Ha.
    + intros camp lvl Hne. now rewrite H2.
  - intros Hn. now apply on_initialize_not_due.
Qed.
Print Assumptions C73_genesis_schedule_partial.
Example C73_example :
  let s := set_k_change_era xs0 100 in
  let s1 := kdo xkcfg s (entry 2800 KInitialize) in
  let s5 := kdo xkcfg s1 (entry 10000 KInitialize) in
  st_apy (the_setting s1 7 1) = 14 /\ st_apy (the_setting s5 7 1) = 10 /\ st_apy (the_setting s5 7 8) = 20.
Proof. vm_compute. repeat split. Qed.
(** The runtime upgrade does not keep to the schedule: applied a thousand and
    eighty eras after the start it gives campaign 8 plus 4, where the blocks
    before and after it leave plus 5. *)
Theorem C73_genesis_schedule_refuted :
  exists cfg s x,
    k_version s = 4 /\ era_at cfg (kx_now x) = k_change_era s + 180 * 6 /\
    st_apy (the_setting s 7 1) = rate8 1 + 5 /\
    kdo cfg s (x, inr KInitialize) = s /\
    st_apy (the_setting (kdo cfg s (x, inr KUpgrade)) 7 1) = rate8 1 + 4.
Proof.
  exists xkcfg, (kdo xkcfg (set_k_version (set_k_change_era xs0 100) 4) (entry 10000 KInitialize)), (xk 11800).
  split; [vm_compute; reflexivity|]. split; [vm_compute; reflexivity|]. split; [vm_compute; reflexivity|].
  split; [|vm_compute; reflexivity].
  unfold kdo at 1, kentry_step. cbn [fst snd kentry_exec]. apply on_initialize_not_due; [discriminate|].
  intros (_ & _ & t & Ht & E). vm_compute in E. assert (H : 1180 = 100 + 180 * t) by exact E. lia.
Qed.
Print Assumptions C73_genesis_schedule_refuted.

(** C74. Unstaking takes away exactly the points gained by staking since the last
    unstaking (or all points if there are fewer), once: a second unstaking is
    refused. *)
Theorem C74_unstaking :
  forall cfg b settings data h x who c,
    kc_step cfg <> U64MAX -> Forall no_staking_set h ->
    let s0 := kinit b settings data in
    let s := krun cfg s0 h in
    let pts := staked_points cfg s0 h who 0 in
    pts < two64 -> score_of s who = Some c ->
    accepted cfg s (x, inr (KUnstaking who)) = true ->
    let s' := kdo cfg s (x, inr (KUnstaking who)) in
    score_of s' who = Some (c - pts) /\
    (forall w, w <> who -> score_of s' w = score_of s w) /\
    (forall x', snd (kentry_step cfg s' x' (KUnstaking who)) = RErr KStakingCreditNotSet).
Proof.
  intros cfg b settings data h x who c Hstep Hf. cbv zeta. intros Hpts Hc Hacc.
  assert (E0 : default 0 (k_ustake (kinit b settings data) !! who) = w64 0).
  { unfold kinit. cbn [k_ustake set_k_uc]. rewrite (fold_setting_frame k_ustake) by done. reflexivity. }
  pose proof (krun_ustake cfg _ h who 0 Hstep Hf E0) as Hst. rewrite w64_small in Hst by done.
  set (s := krun cfg (kinit b settings data) h) in *.
  unfold score_of in *. destruct (k_uc s !! who) as [d|] eqn:Ed; [|discriminate]. injection Hc as <-.
  destruct (kdo_entry _ _ _ _ Hacc) as [r E]. cbn [kentry_exec] in E.
  destruct (k_ustake s !! who) as [st|] eqn:Est.
  2: { unfold unstaking_slash in E. rewrite Est in E. discriminate. }
  rewrite (unstaking_eq cfg s x who d st Ed Est) in E. cbv zeta in E. cbn [rbind] in E. injection E as E _.
  rewrite <- E. cbn in Hst. subst st.
  cbn [k_uc set_k_hist set_k_ustake set_k_uc]. rewrite lookup_insert. split; [reflexivity|].
  split; [intros w Hw; now rewrite lookup_insert_ne by congruence|].
  intros x'. unfold kentry_step. cbn [kentry_exec]. unfold unstaking_slash.
  cbn [k_ustake set_k_hist set_k_ustake set_k_uc]. now rewrite lookup_delete.
Qed.
Print Assumptions C74_unstaking.
Example C74_example :
  let h := [entry 11 (KAddOrUpdate 1 30 None); entry 12 (KAddOrUpdate 1 12 (Some 4)); entry 13 (KTip 1 5)] in
  Forall no_staking_set h /\ staked_points xkcfg xs0 h 1 0 = 42 /\
  score_of (krun xkcfg xs0 h) 1 = Some 197 /\
  score_of (krun xkcfg xs0 (h ++ [entry 14 (KUnstaking 1)])) 1 = Some 155.
Proof. split; [repeat constructor|]. vm_compute. repeat split. Qed.
