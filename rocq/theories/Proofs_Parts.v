(** Proofs about levels paid for in parts. *)
From Verif Require Import Base Balances Model_UserPrivileges.
From Verif Require Model_Credit Spec_Credit.
From Verif Require Import Model_StakingLedger Model_Staking Model_Chain Proofs_Arith
  Proofs_Credit Proofs_Chain1 Proofs_Chain2 Proofs_Chain10 Spec_Chain2 Spec_Dollars Proofs_Dollars.
From stdpp Require Import gmap.
Open Scope N_scope.

Local Ltac split_bind H :=
  let a := fresh "a" in let Ha := fresh "Ha" in apply rbind_ok in H as (a & Ha & H).

Lemma reach_parts prices from r1 r2 n1 n2 n :
  reach prices from r1 n1 -> reach prices n1 r2 n2 -> reach prices from (r1 + r2) n -> n2 <= n.
Proof.
  intros (A1 & A2 & _) (B1 & B2 & _) (C1 & C2 & C3). destruct (N.le_gt_cases n2 n) as [|Hn]; [assumption|exfalso].
  destruct (N.le_gt_cases (n + 1) n1) as [H1|H1].
  - destruct (A2 (n + 1) ltac:(lia) H1). destruct C3; lia.
  - destruct (B2 (n + 1) ltac:(lia) ltac:(lia)) as [L G]. destruct C3 as [|C3]; [lia|].
    destruct (N.eq_dec from n1) as [->|Hd]; [lia|]. destruct (A2 n1 ltac:(lia) ltac:(lia)). lia.
Qed.
Lemma reach_unique prices from r n n' : reach prices from r n -> reach prices from r n' -> n = n'.
Proof.
  intros (A1 & A2 & A3) (B1 & B2 & B3). destruct (N.lt_trichotomy n n') as [H|[H|H]]; [exfalso|assumption|exfalso].
  - destruct (B2 (n + 1) ltac:(lia) ltac:(lia)). destruct A3; lia.
  - destruct (A2 (n' + 1) ltac:(lia) ltac:(lia)). destruct B3; lia.
Qed.
Lemma reach_exact prices from r1 r2 n1 n2 :
  default 0 (prices !! N.to_nat n1) = default 0 (prices !! N.to_nat from) + r1 ->
  reach prices from r1 n1 -> reach prices n1 r2 n2 -> reach prices from (r1 + r2) n2.
Proof.
  intros He (A1 & A2 & _) (B1 & B2 & B3). cbv zeta. split; [lia|]. split; [|lia].
  intros l L1 L2. destruct (N.le_gt_cases l n1) as [H|H]; [destruct (A2 l L1 H); lia|destruct (B2 l H L2); lia].
Qed.

Section chain.
  Context (cfg : jcfg).
  Local Notation cc := (jc_c cfg).
  Context (Hs : Model_Credit.kc_step cc <> Model_Credit.U64MAX).

  Definition lists (c : credit) := (Model_Credit.k_gen_balances c, Model_Credit.k_balances c, Model_Credit.k_usdt_balances c, Model_Credit.k_usdt_id c).
  Lemma add_lists c cx w gap id c' : Model_Credit.add_or_update cc c cx w gap id = ROk c' -> lists c' = lists c.
  Proof.
    unfold Model_Credit.add_or_update, Model_Credit.do_add_credit. intros H. split_bind H. injection H as <-.
    cbv zeta in Ha. destruct (Model_Credit.k_uc c !! w).
    - destruct (Model_Credit.hist_of _ _); [now injection Ha as <-|]. unfold Model_Credit.update_history in Ha.
      destruct (_ !! w); [|discriminate]. destruct (last _) as [[e d]|]; now injection Ha as <-.
    - now injection Ha as <-.
  Qed.
  Lemma joined_lists x c s s' d : lists (joined cfg x c s s' d) = lists c.
  Proof.
    unfold joined. destruct (_ !! d); [reflexivity|]. destruct (_ !! d); [|reflexivity].
    unfold Model_Credit.init_delegator_history. now destruct (Model_Credit.k_uc c !! d).
  Qed.
  Lemma tariff_lists c c' m : lists c' = lists c -> tariff c' m = tariff c m.
  Proof. unfold lists, tariff. intros H. injection H as -> -> -> _. reflexivity. Qed.
  Lemma usdt_lists x j o w u v j' ev : jstep cfg j (x, JCall o (JOf (KUsdtDelegate w u v))) = (j', JDone ev) -> lists (j_c j') = lists (j_c j).
  Proof.
    intros H. unfold jstep, jact_step in H. cbn [fst snd jdispatch] in H. unfold jsettle in H.
    destruct (jusdt_delegate _ _ _ _ _ _ _ _) as [[[c' s'] ev']| |] eqn:E; try discriminate. injection H as <- _.
    unfold jusdt_delegate in E. cbv zeta in E. match type of E with (let '(_, _) := ?p in _) = _ => destruct p as [cur rest] end.
    split_bind E. apply lift_ok, add_lists in Ha. split_bind E. injection E as <- _ _.
    change (lists (joined cfg x (Model_Credit.set_staking_balance a w u v) (j_s j) a0.1 w) = lists (j_c j)).
    rewrite joined_lists. exact Ha.
  Qed.
  Lemma buy_lists x j w n j' ev : jstep cfg j (x, JCall (Signed w) (JOf (KStakeDelegate n))) = (j', JDone ev) -> lists (j_c j') = lists (j_c j).
  Proof.
    intros H. unfold jstep, jact_step in H. cbn [fst snd jdispatch] in H. unfold jsettle in H.
    destruct (jstaking_delegate _ _ _ _ _ _) as [[[c' s'] ev']| |] eqn:E; try discriminate. injection H as <- _.
    unfold jstaking_delegate in E. cbn [signed] in E. split_bind E. apply lift_ok, add_lists in Ha. split_bind E. injection E as <- _ _.
    change (lists (joined cfg x a (j_s j) a0.1 w) = lists (j_c j)). rewrite joined_lists. exact Ha.
  Qed.
  Lemma usdt_prices_kept x j o w u v j' ev : jstep cfg j (x, JCall o (JOf (KUsdtDelegate w u v))) = (j', JDone ev) ->
    usdt_prices j' w = usdt_prices j w.
  Proof.
    intros H. pose proof (enters_kind cfg x j o w u v j' ev H) as (_ & _ & C). apply usdt_lists in H as L.
    unfold usdt_prices. rewrite (tariff_lists _ _ _ L). f_equal. unfold campaign_of in C. unfold record_of.
    destruct (Model_Credit.k_uc (j_c j') !! w) as [d'|]; [|discriminate]. cbn in C. injection C as ->.
    now destruct (Model_Credit.k_uc (j_c j) !! w).
  Qed.

  (** In dollars. *)
  Lemma usdt_parts x1 x2 x3 j o1 o2 o3 w u1 u2 v1 v2 j1 j2 j3 e1 e2 e3 :
    score_of j w < 2 ^ 64 -> N.of_nat (length (usdt_prices j w)) <= 9 ->
    jstep cfg j (x1, JCall o1 (JOf (KUsdtDelegate w u1 v1))) = (j1, JDone e1) ->
    jstep cfg j1 (x2, JCall o2 (JOf (KUsdtDelegate w u2 v2))) = (j2, JDone e2) ->
    jstep cfg j (x3, JCall o3 (JOf (KUsdtDelegate w (u1 + u2) (v1 + v2)))) = (j3, JDone e3) ->
    score_of j2 w <= score_of j3 w /\
    (default 0 (usdt_prices j w !! N.to_nat (Spec_Credit.band (score_of j1 w))) =
       match record_of j w with Some _ => default 0 (usdt_prices j w !! N.to_nat (Spec_Credit.band (score_of j w))) + u1 | None => u1 end ->
     score_of j2 w = score_of j3 w).
  Proof.
    clear Hs. intros H64 HL H1 H2 H3. pose proof (usdt_prices_kept _ _ _ _ _ _ _ _ H1) as K.
    pose proof (enters_kind cfg _ _ _ _ _ _ _ _ H1) as (_ & _ & C1).
    apply usdt_purchase in H1 as (n1 & r1 & R1 & E1 & S1 & _). apply usdt_purchase in H2 as (n2 & r2 & R2 & E2 & S2 & _).
    apply usdt_purchase in H3 as (n & r & R3 & E3 & S3 & _). rewrite K in R2, E2.
    assert (B : forall f r m, f <= 8 -> reach (usdt_prices j w) f r m -> m <= 8).
    { intros f q m Hf (A1 & A2 & _). destruct (N.eq_dec f m) as [<-|]; [exact Hf|]. destruct (A2 m ltac:(lia) ltac:(lia)). lia. }
    pose proof (B _ _ _ (band_le _) R1) as N1. destruct (S1 N1 H64) as (P1 & Q1 & _).
    assert (S64 : score_of j1 w < 2 ^ 64).
    { destruct (N.eq_dec n1 (Spec_Credit.band (score_of j w))) as [->|]; [lia|]. 
      assert (score_of j w < 800) by (apply band_800; destruct R1; lia). change (2 ^ 64) with 18446744073709551616. lia. }
    rewrite Q1 in R2, S2. pose proof (B _ _ _ N1 R2) as N2. destruct (S2 N2 S64) as (P2 & _).
    pose proof (B _ _ _ (band_le _) R3) as N3. destruct (S3 N3 H64) as (P3 & _).
    assert (Er : r = r1 + r2 /\ r2 = u2).
    { assert (exists d, record_of j1 w = Some d) as [d Hd].
      { destruct (record_of j1 w) as [d|] eqn:Hd; [eauto|]. unfold campaign_of in C1. unfold record_of in Hd. now rewrite Hd in C1. }
      rewrite Hd in E2. subst r2. destruct (record_of j w); lia. }
    destruct Er as [-> ->]. pose proof (reach_parts _ _ _ _ _ _ _ R1 R2 R3) as L.
    assert (F1 : Spec_Credit.band (score_of j w) <= n1) by apply R1. assert (F2 : n1 <= n2) by apply R2.
    split; [lia|]. intros He. rewrite Q1 in He. enough (n = n2) by (subst; lia).
    apply (reach_unique _ _ _ _ _ R3). apply (reach_exact _ _ r1 u2 n1); [|exact R1|exact R2].
    unfold score_of in *. destruct (record_of j w) as [d|]; [now subst r1|]. cbn [fmap option_fmap option_map default] in *.
    change (Spec_Credit.band 0) with 0 in *. rewrite He, <- E1. destruct (usdt_prices j w); cbn; lia.
  Qed.

  (** In DPR. *)
  Lemma dpr_parts x1 x2 x3 j w n1 n2 j1 j2 j3 e1 e2 e3 : w <> kc_account (jc_s cfg) -> n1 <= 8 -> n2 <= 8 ->
    jstep cfg j (x1, JCall (Signed w) (JOf (KStakeDelegate n1))) = (j1, JDone e1) ->
    jstep cfg j1 (x2, JCall (Signed w) (JOf (KStakeDelegate n2))) = (j2, JDone e2) ->
    jstep cfg j (x3, JCall (Signed w) (JOf (KStakeDelegate n2))) = (j3, JDone e3) ->
    record_of j2 w = record_of j3 w /\ bought j2 w = bought j3 w /\
    purse j2 w <= purse j3 w /\
    (forall d, record_of j w = Some d -> let p l := default 0 (tariff (j_c j) (Model_Credit.cd_camp d) !! N.to_nat l) in
     p (Spec_Credit.band (Model_Credit.cd_credit d)) <= p n1 -> p n1 <= p n2 -> purse j2 w = purse j3 w).
  Proof.
    clear Hs. intros Hw Hn1 Hn H1 H2 H3. apply buy_lists in H1 as K. pose proof (fun m => tariff_lists _ _ m K) as T.
    apply purchase in H1 as (d & lo & hi & A1 & A2 & A3 & A4 & A5 & A6 & A7 & A8 & _); [|exact Hn1].
    apply purchase in H2 as (d' & lo' & hi' & B1 & B2 & B3 & B4 & B5 & B6 & B7 & B8 & _); [|exact Hn].
    apply purchase in H3 as (d'' & lo'' & hi'' & C1 & C2 & C3 & C4 & C5 & C6 & C7 & C8 & _); [|exact Hn].
    rewrite A1 in C1. injection C1 as <-. rewrite A5 in B1. apply (f_equal (default d)) in B1. cbv [default from_option id] in B1. subst d'.
    assert (Bn : Spec_Credit.band (Model_Credit.cd_credit d + 100 * (n1 - Spec_Credit.band (Model_Credit.cd_credit d))) = n1).
    { rewrite <- A6 at 2. unfold score_of. now rewrite A5. }
    cbv zeta in *. cbn [Model_Credit.cd_credit Model_Credit.cd_camp Model_Credit.cd_init Model_Credit.cd_rank Model_Credit.cd_refs Model_Credit.cd_eras] in B2, B3, B4, B5, B7.
    rewrite Bn in B2, B3, B5, B7. rewrite T in B3, B4. rewrite A4 in B3. injection B3 as <-. rewrite C4 in B4. injection B4 as <-.
    rewrite A3 in C3. injection C3 as <-.
    set (f := Spec_Credit.band (Model_Credit.cd_credit d)) in *.
    destruct (A8 Hw) as (_ & A9 & _). destruct (B8 Hw) as (_ & B9 & _). destruct (C8 Hw) as (_ & C9 & _).
    split. { rewrite B5, C5. f_equal. f_equal. lia. }
    split. { rewrite B7, C7, A7. rewrite N.add_mod_idemp_l by discriminate. f_equal. lia. }
    split; [lia|]. intros d0 Hd0. rewrite A1 in Hd0. injection Hd0 as <-. cbv zeta. fold f. rewrite A3, A4, C4. cbn [default]. unfold default, id. lia.
  Qed.
End chain.
