(** The purchase of credit levels. *)
From Verif Require Import Base Balances Model_UserPrivileges.
From Verif Require Model_Credit Spec_Credit.
From Verif Require Import Model_StakingLedger Model_Staking Model_Chain Spec_Staking Spec_Chain Spec_Chain2 Proofs_Arith
  Proofs_Credit Proofs_Staking Proofs_Operation3 Proofs_Chain1 Proofs_Chain8.
From stdpp Require Import gmap.
Open Scope N_scope.

Local Ltac split_bind H :=
  let a := fresh "a" in let Ha := fresh "Ha" in apply rbind_ok in H as (a & Ha & H).

Lemma band_le s : Spec_Credit.band s <= 8.
Proof. unfold Spec_Credit.band. lia. Qed.
Lemma as_level_id n : n <= 8 -> as_level n = n.
Proof. intros H. unfold as_level. rewrite N.mod_small by lia. destruct (N.leb_spec n 8); [done|lia]. Qed.
Lemma level_gap_id n m : n <= 8 -> m <= 8 -> level_gap n m = 100 * (n - m).
Proof. intros. unfold level_gap. now rewrite !as_level_id. Qed.
Lemma band_raise s n : Spec_Credit.band s <= n -> n <= 8 -> Spec_Credit.band s = n \/ s < 800 ->
  Spec_Credit.band (s + 100 * (n - Spec_Credit.band s)) = n.
Proof.
  intros H1 H2 [H3|H3].
  - rewrite H3. replace (100 * (n - n)) with 0 by lia. now rewrite N.add_0_r.
  - assert (Hs : s / 100 < 8) by (apply N.div_lt_upper_bound; lia).
    unfold Spec_Credit.band in *. rewrite (N.min_l (s / 100)) in * by lia.
    rewrite N.mul_comm, N.div_add by lia. lia.
Qed.
Lemma band_800 s : Spec_Credit.band s < 8 -> s < 800.
Proof.
  unfold Spec_Credit.band. intros H. destruct (N.lt_ge_cases s 800) as [|Hs]; [done|].
  assert (800 / 100 <= s / 100) by (apply N.div_le_mono; lia). change (800 / 100) with 8 in *. lia.
Qed.

Lemma lift_ok' {A} (r : res Model_Credit.kerr A) a : lift r = ROk a -> r = ROk a.
Proof. destruct r; cbn; congruence. Qed.

Section chain.
  Context (cfg : jcfg).
  Local Notation cc := (jc_c cfg).
  Local Notation sc := (jc_s cfg).

  Lemma do_add_uc c cx w d c' : Model_Credit.do_add_credit cc c cx w d = ROk c' ->
    Model_Credit.k_uc c' = <[w := d]> (Model_Credit.k_uc c) /\ Model_Credit.k_ustake c' = Model_Credit.k_ustake c.
  Proof.
    unfold Model_Credit.do_add_credit. destruct (Model_Credit.k_uc c !! w); [|intros [= <-]; now cbn].
    destruct (Model_Credit.hist_of _ w) as [|q l]; [intros [= <-]; now cbn|].
    unfold Model_Credit.update_history. cbn. rewrite lookup_insert.
    destruct (last _) as [[e u]|]; intros [= <-]; now cbn.
  Qed.
  Lemma joined_uc' x c s s' d : Model_Credit.k_uc (joined cfg x c s s' d) = Model_Credit.k_uc c /\
    Model_Credit.k_ustake (joined cfg x c s s' d) = Model_Credit.k_ustake c.
  Proof.
    unfold joined. destruct (d_recs (k_del s) !! d); [done|]. destruct (d_recs (k_del s') !! d); [|done].
    unfold Model_Credit.init_delegator_history. now destruct (Model_Credit.k_uc c !! d).
  Qed.
  (** The credit after add_or_update_credit. *)
  Definition raised (c : credit) (w gap id : N) : Model_Credit.cdata :=
    match Model_Credit.k_uc c !! w with
    | Some d => Model_Credit.cd_update d (Model_Credit.sadd64 (Model_Credit.cd_credit d) gap)
    | None => Model_Credit.cd_new id gap
    end.
  Lemma add_or_update_uc c cx w gap id c' : Model_Credit.add_or_update cc c cx w gap (Some id) = ROk c' ->
    Model_Credit.k_uc c' = <[w := raised c w gap id]> (Model_Credit.k_uc c) /\
    Model_Credit.k_ustake c' = <[w := add64 (default 0 (Model_Credit.k_ustake c !! w)) gap]> (Model_Credit.k_ustake c).
  Proof.
    unfold Model_Credit.add_or_update. intros H. split_bind H. injection H as <-. apply do_add_uc in Ha as [A B].
    split; [|cbn; now rewrite B]. cbn. rewrite A. unfold raised. now destruct (Model_Credit.k_uc c !! w).
  Qed.
  Lemma table_eq c m :
    (if (m =? 0) || (m =? 1) then Model_Credit.k_gen_balances c
     else if (m =? 2) || (m =? 4) then Model_Credit.k_balances c
     else if m =? 5 then Model_Credit.k_usdt_balances c
     else if (m =? 6) || (m =? 7) || (m =? 8) then Model_Credit.k_balances c else []) = tariff c m.
  Proof.
    unfold tariff.
    destruct (N.eqb_spec m 0); [now subst|]. destruct (N.eqb_spec m 1); [now subst|]. destruct (N.leb_spec m 1); [lia|].
    destruct (N.eqb_spec m 2); [now subst|]. destruct (N.eqb_spec m 4); [now subst|]. destruct (N.eqb_spec m 5); [now subst|].
    destruct (N.eqb_spec m 6); [now subst|]. destruct (N.eqb_spec m 7); [now subst|]. destruct (N.eqb_spec m 8); [now subst|].
    cbn. destruct (N.eqb_spec m 3); [done|]. destruct (N.leb_spec m 8); [lia|done].
  Qed.
  Lemma balance_tariff c w id l : Model_Credit.get_credit_balance c w (Some id) = l -> l <> [] ->
    l = tariff c (match Model_Credit.k_uc c !! w with Some d => Model_Credit.cd_camp d | None => id end).
  Proof.
    intros <-. unfold Model_Credit.get_credit_balance.
    destruct (Model_Credit.k_uc c !! w) as [d|]; cbn [fmap option_fmap option_map].
    - destruct (Model_Credit.same_campaign_type _ _); [|intros H; exfalso; now apply H]. intros _. apply table_eq.
    - intros _. apply table_eq.
  Qed.

  (** Buying a level with DPR. *)
  Lemma purchase x j w n j' ev : jstep cfg j (x, JCall (Signed w) (JOf (KStakeDelegate n))) = (j', JDone ev) -> n <= 8 ->
    exists d lo hi, let from := Spec_Credit.band (Model_Credit.cd_credit d) in
    record_of j w = Some d /\ from < n /\
    tariff (j_c j) (Model_Credit.cd_camp d) !! N.to_nat from = Some lo /\
    tariff (j_c j) (Model_Credit.cd_camp d) !! N.to_nat n = Some hi /\
    record_of j' w = Some (Model_Credit.CData (Model_Credit.cd_camp d) (Model_Credit.cd_credit d + 100 * (n - from))
      (Model_Credit.cd_init d) (Model_Credit.cd_rank d) (Model_Credit.cd_refs d) n (Model_Credit.cd_eras d)) /\
    Spec_Credit.band (score_of j' w) = n /\
    bought j' w = (bought j w + 100 * (n - from)) mod 2 ^ 64 /\
    (w <> kc_account sc -> hi - lo <= purse j w /\ purse j' w + (hi - lo) = purse j w /\
       purse j' (kc_account sc) = purse j (kc_account sc) + (hi - lo)) /\
    delegating j' w /\
    (forall a, a <> w -> record_of j' a = record_of j a /\ bought j' a = bought j a) /\
    (forall a, a <> w -> a <> kc_account sc -> purse j' a = purse j a).
  Proof.
    intros H Hn. unfold jstep, jact_step in H. cbn [fst snd jdispatch] in H. unfold jsettle in H.
    destruct (jstaking_delegate _ _ _ _ _ _) as [[[c' s'] ev']| |] eqn:E; try discriminate. injection H as <- <-.
    unfold jstaking_delegate in E. cbn [signed] in E. split_bind E. apply lift_ok' in Ha. apply add_or_update_uc in Ha as [U1 U2].
    split_bind E. destruct a0 as [s1 e1]. cbn [fst snd] in E. injection E as <- <- <-. rename Ha into E.
    assert (T := staking_delegate_in _ _ _ _ _ _ _ E).
    cbn [dispatch signed] in E. unfold staking_delegate in E. split_bind E. clear Ha. cbn zeta in E.
    split_bind E. apply ensure_ok in Ha. apply negb_true_iff, bool_decide_eq_false in Ha.
    cbn [kx_dpr sctx2] in E, Ha. assert (Tr := balance_tariff _ _ _ _ eq_refl Ha).
    split_bind E. apply ensure_ok, N.ltb_lt in Ha0.
    cbn [kx_level sctx2] in E. unfold Model_Credit.credit_score in E, U1, U2.
    destruct (Model_Credit.k_uc (j_c j) !! w) as [d|] eqn:Ed; [|discriminate].
    cbn [fmap option_fmap option_map default] in E, U1, U2. rewrite level_of_band in E, U1, U2.
    set (from := Spec_Credit.band (Model_Credit.cd_credit d)) in *.
    split_bind E. apply ensure_ok, N.ltb_lt in Ha1. rewrite Tr in E.
    destruct (_ !! N.to_nat n) as [hi|] eqn:Ehi; [|discriminate].
    destruct (_ !! N.to_nat from) as [lo|] eqn:Elo; [|discriminate].
    destruct (transfer_keep _ _ _ _ _) as [b|] eqn:Eb; [|discriminate].
    assert (Es : k_bank s1 = b /\ is_Some (d_recs (k_del s1) !! w)).
    { split_bind E. injection E as <- _.
      match goal with H : delegate_any _ _ _ _ = _ |- _ => apply delegate_any_recs in H as (_ & Hd & _) end. now split. }
    destruct Es as [Es Hd]. clear E T.
    exists d, lo, hi. cbn zeta. fold from.
    assert (Hf : from <= 8) by (unfold from; apply band_le).
    change (id from) with from in *. rewrite (level_gap_id n from) in U1, U2 by lia.
    assert (Hs : Model_Credit.cd_credit d < 800) by (apply band_800; fold from; lia).
    assert (Hr : raised (j_c j) w (100 * (n - from)) (Model_Credit.k_default_id (j_c j)) =
      Model_Credit.CData (Model_Credit.cd_camp d) (Model_Credit.cd_credit d + 100 * (n - from))
      (Model_Credit.cd_init d) (Model_Credit.cd_rank d) (Model_Credit.cd_refs d) n (Model_Credit.cd_eras d)).
    { unfold raised. rewrite Ed. unfold Model_Credit.cd_update. rewrite level_of_band.
      replace (Model_Credit.sadd64 (Model_Credit.cd_credit d) (100 * (n - from))) with (Model_Credit.cd_credit d + 100 * (n - from))
        by (unfold Model_Credit.sadd64, two64; lia).
      f_equal. apply band_raise; fold from; lia. }
    rewrite Hr in U1.
    assert (R : record_of (J (Model_Credit.set_k_bank (joined cfg x a (j_s j) s1 w) (k_bank s1)) s1) w =
      Some (Model_Credit.CData (Model_Credit.cd_camp d) (Model_Credit.cd_credit d + 100 * (n - from))
      (Model_Credit.cd_init d) (Model_Credit.cd_rank d) (Model_Credit.cd_refs d) n (Model_Credit.cd_eras d))).
    { unfold record_of. cbn [j_c]. rewrite bank_uc. rewrite (proj1 (joined_uc' _ _ _ _ _)), U1. apply lookup_insert. }
    split; [exact Ed|]. split; [exact Ha1|]. split; [exact Elo|]. split; [exact Ehi|]. split; [exact R|].
    split. { unfold score_of. rewrite R. cbn. apply band_raise; fold from; lia. }
    split. { unfold bought. cbn [j_c].
      match goal with |- context [Model_Credit.set_k_bank ?c ?b] => change (Model_Credit.k_ustake (Model_Credit.set_k_bank c b)) with (Model_Credit.k_ustake c) end.
      rewrite (proj2 (joined_uc' _ _ _ _ _)), U2, lookup_insert. reflexivity. }
    split.
    { intros Hw. unfold purse. cbn [j_s]. rewrite Es.
      apply transfer_keep_spec in Eb as (A1 & A2 & A3 & _ & _); [|exact Hw]. unfold ssub in *.
      rewrite A2, A3. destruct A1; lia. }
    split. { unfold delegating. cbn [j_s]. exact Hd. }
    split.
    { intros a' Hne. unfold record_of, bought. cbn [j_c]. rewrite bank_uc.
      match goal with |- context [Model_Credit.set_k_bank ?c ?b] => change (Model_Credit.k_ustake (Model_Credit.set_k_bank c b)) with (Model_Credit.k_ustake c) end.
      rewrite (proj1 (joined_uc' _ _ _ _ _)), (proj2 (joined_uc' _ _ _ _ _)), U1, U2. now rewrite !lookup_insert_ne by congruence. }
    intros a' H1 H2. unfold purse. cbn [j_s]. rewrite Es.
    destruct (decide (w = kc_account sc)) as [He|He].
    - unfold transfer_keep in Eb. rewrite He, N.eqb_refl, orb_true_r in Eb. injection Eb as <-. reflexivity.
    - apply transfer_keep_spec in Eb as (_ & _ & _ & A & _); [|exact He]. unfold free_of. now rewrite A.
  Qed.

  (** How far an amount in USDT reaches. *)
  Lemma climb_spec bals base rest fuel : forall dst0 dst,
    (forall l, dst0 < l -> l <= dst -> l < N.of_nat (length bals) /\ default 0 (bals !! N.to_nat l) - base <= rest) ->
    dst0 <= dst -> (N.of_nat (length bals) <= dst + N.of_nat fuel + 1) ->
    let n := climb fuel bals base rest dst in
    dst0 <= n /\ (forall l, dst0 < l -> l <= n -> l < N.of_nat (length bals) /\ default 0 (bals !! N.to_nat l) - base <= rest) /\
    (N.of_nat (length bals) <= n + 1 \/ rest < default 0 (bals !! N.to_nat (n + 1)) - base).
  Proof.
    induction fuel as [|f IH]; intros dst0 dst H1 H2 H3; cbn [climb]; cbv zeta.
    - split; [done|]. split; [done|]. left. lia.
    - destruct (N.ltb_spec dst (N.of_nat (length bals) - 1)) as [Hl|Hl].
      + unfold ssub. destruct (N.leb_spec (default 0 (bals !! N.to_nat (dst + 1)) - base) rest) as [Hr|Hr].
        * apply (IH dst0 (dst + 1)); [|lia|lia]. intros l L1 L2. destruct (N.eq_dec l (dst + 1)) as [->|]; [split; [lia|done]|apply H1; lia].
        * split; [done|]. split; [done|]. now right.
      + split; [done|]. split; [done|]. left. lia.
  Qed.

  Lemma usdt_purchase x j o w usdt dpr j' ev :
    jstep cfg j (x, JCall o (JOf (KUsdtDelegate w usdt dpr))) = (j', JDone ev) ->
    let from := Spec_Credit.band (score_of j w) in
    exists n rest, reach (usdt_prices j w) from rest n /\
    (match record_of j w with
     | Some _ => rest = usdt
     | None => rest + default 0 (head (usdt_prices j w)) = usdt
     end) /\
    (n <= 8 -> score_of j w < 2 ^ 64 ->
     score_of j' w = score_of j w + 100 * (n - from) /\ Spec_Credit.band (score_of j' w) = n /\
     bought j' w = (bought j w + 100 * (n - from)) mod 2 ^ 64 /\ (0 < n -> delegating j' w)) /\
    (forall a, a <> w -> record_of j' a = record_of j a /\ bought j' a = bought j a) /\
    (forall a, purse j' a = purse j a).
  Proof.
    intros H from. unfold jstep, jact_step in H. cbn [fst snd jdispatch] in H. unfold jsettle in H.
    destruct (jusdt_delegate _ _ _ _ _ _ _ _) as [[[c' s'] ev']| |] eqn:E; try discriminate. injection H as <- <-.
    unfold jusdt_delegate in E. cbn [kx_usdt kx_level sctx sctx2] in E. cbv zeta in E.
    match type of E with (let '(_, _) := ?p in _) = _ => destruct p as [cur rest] eqn:Ep end.
    set (bals := Model_Credit.get_credit_balance (j_c j) w (Some (Model_Credit.k_usdt_id (j_c j)))) in *.
    set (n := climb (length bals) bals (default 0 (bals !! N.to_nat cur)) rest cur) in *.
    split_bind E. apply lift_ok' in Ha. apply add_or_update_uc in Ha as [U1 U2].
    split_bind E. destruct a0 as [s1 e1]. cbn [fst snd] in E. injection E as <- <- <-. rename Ha into E.
    cbn [dispatch] in E. unfold admin in E. destruct o as [|y|]; try discriminate. cbn [signed] in E.
    match type of E with (if ?b then _ else _) = _ => destruct b; [|discriminate] | rbind _ _ = _ => split_bind E end.
    unfold usdt_delegate in E. cbn [kx_usdt kx_level sctx2] in E. fold bals in E. cbv zeta in E.
    split_bind E. match goal with H : ensure _ _ = ROk _ |- _ => apply ensure_ok in H; apply negb_true_iff, bool_decide_eq_false in H; rename H into Hb end.
    assert (Tr : bals = usdt_prices j w) by (unfold usdt_prices, record_of; eapply balance_tariff; [reflexivity|exact Hb]).
    split_bind E.
    match goal with H : _ = ROk ?p |- _ => match type of p with (N * N)%type => destruct p as [cur' rest']; rename H into Hp end end.
    assert (Hc : cur' = cur /\ rest' = rest /\ cur = from /\
      match record_of j w with Some _ => rest = usdt | None => rest + default 0 (head bals) = usdt end).
    { unfold from, score_of, record_of. unfold Model_Credit.credit_score in Hp, Ep.
      destruct (Model_Credit.k_uc (j_c j) !! w) as [d|]; cbn [fmap option_fmap option_map default] in *.
      - injection Ep as <- <-. injection Hp as <- <-. cbn. now rewrite level_of_band.
      - injection Ep as <- <-. split_bind Hp. apply ensure_ok, N.leb_le in Ha0. injection Hp as <- <-. unfold ssub. cbn. repeat split; lia. }
    destruct Hc as (-> & -> & -> & Hrest). cbn [fst snd] in E. fold n in E.
    assert (Hcl := climb_spec bals (default 0 (bals !! N.to_nat from)) rest (length bals) from from ltac:(lia) ltac:(lia) ltac:(lia)).
    cbv zeta in Hcl. fold n in Hcl.
    assert (Es : k_bank s1 = k_bank (j_s j) /\ (0 < n -> is_Some (d_recs (k_del s1) !! w))).
    { destruct (N.ltb_spec 0 n) as [Hn|Hn]; cbv zeta in E.
      - split_bind E. injection E as <- _. match goal with H : delegate_any _ _ _ _ = _ |- _ => apply delegate_any_recs in H as (_ & Hd & _) end. now split.
      - injection E as <- _. split; [done|lia]. }
    destruct Es as [Es1 Es2].
    exists n, rest. rewrite <- Tr. split; [exact Hcl|]. split; [exact Hrest|].
    assert (R : forall b, Model_Credit.k_uc (Model_Credit.set_k_bank (joined cfg x (Model_Credit.set_staking_balance a w usdt dpr) (j_s j) s1 w) b) = Model_Credit.k_uc a).
    { intros b. rewrite bank_uc, (proj1 (joined_uc' _ _ _ _ _)). unfold Model_Credit.set_staking_balance. now cbn. }
    assert (St : forall b, Model_Credit.k_ustake (Model_Credit.set_k_bank (joined cfg x (Model_Credit.set_staking_balance a w usdt dpr) (j_s j) s1 w) b) = Model_Credit.k_ustake a).
    { intros b. match goal with |- context [Model_Credit.set_k_bank ?c ?b] => change (Model_Credit.k_ustake (Model_Credit.set_k_bank c b)) with (Model_Credit.k_ustake c) end.
      rewrite (proj2 (joined_uc' _ _ _ _ _)). unfold Model_Credit.set_staking_balance. now cbn. }
    split; [|split].
    - intros Hn H64. assert (Hf : from <= n) by apply Hcl. assert (Hf8 : from <= 8) by lia.
      rewrite level_gap_id in U1, U2 by lia.
      assert (Hs : score_of j w < 800 \/ n = from).
      { destruct (N.eq_dec n from); [now right|left]. apply band_800. fold from. lia. }
      assert (Esc : score_of (J (Model_Credit.set_k_bank (joined cfg x (Model_Credit.set_staking_balance a w usdt dpr) (j_s j) s1 w) (k_bank s1)) s1) w
        = score_of j w + 100 * (n - from)).
      { unfold score_of at 1, record_of. cbn [j_c]. rewrite R, U1, lookup_insert. unfold raised.
        assert (Hg : 100 * (n - from) <= 800) by lia. assert (Hg0 : n = from -> 100 * (n - from) = 0) by lia.
        clearbody from. generalize dependent (100 * (n - from)). intros g _ _ Hg Hg0.
        unfold score_of, record_of in *. change (2 ^ 64) with 18446744073709551616 in H64.
        destruct (Model_Credit.k_uc (j_c j) !! w) as [d|]; cbn in *; [|lia].
        unfold Model_Credit.sadd64, two64. destruct Hs as [Hs|Hs]; [lia|]. specialize (Hg0 Hs). lia. }
      split; [exact Esc|]. split; [rewrite Esc; apply band_raise; fold from; [lia|lia|destruct Hs; auto]|].
      split; [|intros H0; unfold delegating; cbn [j_s]; auto].
      unfold bought. cbn [j_c]. now rewrite St, U2, lookup_insert.
    - intros e He. unfold record_of, bought. cbn [j_c]. rewrite R, St, U1, U2. now rewrite !lookup_insert_ne by congruence.
    - intros e. unfold purse. cbn [j_s]. now rewrite Es1.
  Qed.
End chain.
