(** What the calls of tips, staking and micropayment cost the accounts. *)
From Verif Require Import Base Balances Model_UserPrivileges.
From Verif Require Model_Credit Spec_Credit Model_Staking Spec_Staking Spec_Staking2 Model_StakingLedger Model_DeeperNode.
From Verif Require Model_Micropayment Spec_Micropayment Model_Operation Model_Adsc Model_Tips Spec_Tips.
From Verif Require Import Model_Chain Spec_Chain2 Model_World Spec_World Spec_World2 Spec_World6 Proofs_Balances Proofs_World1 Proofs_World12 Proofs_World13.
From Verif Require Proofs_Staking14 Proofs_Tips5 Proofs_Micropayment Proofs_Credit Proofs_Chain1 Proofs_Chain10 Proofs_Staking Props_Staking3.
From stdpp Require Import gmap.
Open Scope N_scope.

(** Tips. *)
Definition votes_max (l : list (N * N)) : N := fold_right (fun v m => N.max v.2 m) 0 l.
Lemma votes_max_in l p : In p l -> p.2 <= votes_max l.
Proof. unfold votes_max. induction l as [|q l IH]; cbn; [tauto|]. intros [->|H]; [lia|]. apply IH in H. lia. Qed.
Lemma retain_in m : forall l p, In p (Model_Tips.retain m l) -> In p l.
Proof.
  intros l. revert m. induction l as [|[a v] l IH]; intros m p; cbn; [tauto|].
  destruct (Model_Tips.skip a m) as [[] m']; cbn; [intros [->|H]; [auto|]|intros H]; right; eapply IH; exact H.
Qed.
Lemma vins_in q l p : In p (Model_Tips.vins q l) -> p = q \/ In p l.
Proof.
  induction l as [|r l IH]; cbn; [intros [->|[]]; auto|]. destruct (_ <=? _); cbn; [intros [->|H]; auto|].
  intros [->|H]; [auto|]. destruct (IH H); auto.
Qed.
Lemma vsort_in l p : In p (Model_Tips.vsort l) -> In p l.
Proof. induction l as [|q l IH]; cbn; [tauto|]. intros H. apply vins_in in H as [->|H]; auto. Qed.
Lemma middle_max m l med : Model_Tips.middle m l = Some med -> med <= votes_max l.
Proof.
  unfold Model_Tips.middle. destruct (_ !! _) as [p|] eqn:E; [|discriminate]. cbn. intros [= <-].
  apply votes_max_in. eapply retain_in, vsort_in, elem_of_list_In, elem_of_list_lookup_2. exact E.
Qed.
Lemma sub128_le x y : y <= x -> sub128 x y <= x - y.
Proof.
  intros H. unfold sub128, w128. pose proof (N.div_mod y two128 ltac:(easy)) as D.
  assert (y mod two128 < two128) by now apply N.mod_lt.
  set (r := y mod two128) in *. set (q := y / two128) in *.
  replace (x + (two128 - r)) with ((x - y) + (q + 1) * two128) by lia.
  rewrite N.mod_add by easy. now apply N.mod_le.
Qed.
Lemma try_pay_sure cfg b src dst v : sure (fun a => if_is src v a) b (Model_Tips.try_pay cfg b src dst v).
Proof.
  unfold Model_Tips.try_pay. destruct (transfer_keep _ _ _ _ _) as [b'|] eqn:E; cbn; [now apply transfer_keep_sure in E|].
  intros a. lia.
Qed.
Lemma give_back_kept cfg s t : kept (Model_Tips.tc_ed cfg) (fun _ => 0) (Model_Tips.t_bank s) (Model_Tips.t_bank (Model_Tips.give_back cfg s t)).
Proof. unfold Model_Tips.give_back. destruct (_ =? 0); [apply sure_kept, sure_refl|]. apply unreserve_kept. Qed.
Definition tip_price (s : Model_Tips.tstate) (o : origin) (c : Model_Tips.tcall) (a : N) : N :=
  match o, c with
  | Signed _, Model_Tips.TClose h =>
      if_is (Model_Tips.payer s) (match Model_Tips.t_tips s !! h with Some t => votes_max (Model_Tips.ot_tips t) | None => 0 end) a
  | _, Model_Tips.TSlash h =>
      match Model_Tips.t_tips s !! h with Some t => if_is (Model_Tips.ot_finder t) (Model_Tips.ot_deposit t) a | None => 0 end
  | _, _ => 0
  end.
Lemma tips_cost cfg x s o c s' ev : Model_Tips.tc_fee cfg <= 100 -> Model_Tips.texec cfg x s o c = ROk (s', ev) ->
  kept (Model_Tips.tc_ed cfg) (tip_price s o c) (Model_Tips.t_bank s) (Model_Tips.t_bank s').
Proof.
  intros Hf E.
  assert (free : forall b b', kept (Model_Tips.tc_ed cfg) (fun _ => 0) b b' -> kept (Model_Tips.tc_ed cfg) (tip_price s o c) b b').
  { intros b b'. apply kept_le. intros a. apply N.le_0_l. }
  assert (same : forall b, kept (Model_Tips.tc_ed cfg) (tip_price s o c) b b) by (intros b; apply free, sure_kept, sure_refl).
  destruct c; cbn [Model_Tips.texec] in E.
  - destruct (Model_Tips.signed o) as [w| |]; cbn in E; try discriminate. unfold Model_Tips.report, ensure in E.
    destruct (_ <=? _); cbn in E; [|discriminate]. destruct (negb _); cbn in E; [|discriminate].
    destruct (negb _); cbn in E; [|discriminate]. destruct (reserve _ _ _ _) eqn:Er; [|discriminate].
    injection E as <- <-. cbn. apply free, sure_kept. eapply reserve_sure; exact Er.
  - destruct (Model_Tips.signed o) as [w| |]; cbn in E; try discriminate. unfold Model_Tips.retract, Model_Tips.find_tip, ensure in E.
    destruct (Model_Tips.t_tips s !! h); cbn in E; [|discriminate]. destruct (_ =? _); cbn in E; [|discriminate].
    injection E as <- <-. apply free. apply (give_back_kept cfg (Model_Tips.drop_tip s h o0)).
  - destruct (Model_Tips.tipper x o) as [w| |]; cbn in E; try discriminate. unfold Model_Tips.tip_new, ensure in E.
    destruct (negb _); cbn in E; [|discriminate]. injection E as <- <-. apply same.
  - destruct (Model_Tips.tipper x o) as [w| |]; cbn in E; try discriminate. unfold Model_Tips.do_tip, Model_Tips.find_tip in E.
    destruct (Model_Tips.t_tips s !! h); cbn in E; [|discriminate]. destruct (Model_Tips.check_closing _ _ _ _). injection E as <- <-. apply same.
  - destruct o as [|w|]; cbn in E; try discriminate. unfold Model_Tips.close, Model_Tips.find_tip in E.
    destruct (Model_Tips.t_tips s !! h) as [t|] eqn:Et; cbn in E; [|discriminate]. destruct (Model_Tips.ripe x t); cbn in E; try discriminate.
    unfold Model_Tips.payout_tip in E. destruct (Model_Tips.middle _ _) as [med|] eqn:Em; [|discriminate]. injection E as <- <-. cbn.
    apply middle_max in Em. pose proof (give_back_kept cfg (Model_Tips.drop_tip s h t) t) as G. cbn in G.
    unfold tip_price. rewrite Et.
    set (fee := if _ && _ then _ else 0).
    assert (Fm : fee <= med). { subst fee. destruct (_ && _); [now apply Proofs_Tips5.percent_le|lia]. }
    assert (G1 : kept (Model_Tips.tc_ed cfg) (fun a => 0 + if_is (Model_Tips.payer s) fee a) (Model_Tips.t_bank s)
      (if Model_Tips.ot_fee t && negb (Model_Tips.ot_finder t =? Model_Tips.ot_who t)
       then Model_Tips.try_pay cfg (Model_Tips.t_bank (Model_Tips.give_back cfg (Model_Tips.drop_tip s h t) t))
              (Model_Tips.payer (Model_Tips.drop_tip s h t)) (Model_Tips.ot_finder t) fee
       else Model_Tips.t_bank (Model_Tips.give_back cfg (Model_Tips.drop_tip s h t) t))).
    { subst fee. destruct (_ && _).
      - eapply kept_sure; [exact G|]. apply try_pay_sure.
      - refine (kept_le _ _ _ _ _ _ G). intros a0. apply N.le_0_l. }
    refine (kept_le _ _ _ _ _ _ (kept_sure _ _ _ _ _ _ G1 (try_pay_sure _ _ _ _ _))). intros a0. cbn.
    change (Model_Tips.payer (Model_Tips.drop_tip s h t)) with (Model_Tips.payer s).
    destruct (_ =? a0); [|lia]. pose proof (sub128_le med fee Fm). lia.
  - unfold ensure in E. destruct (Model_Tips.tx_reject x); cbn in E; [|discriminate]. unfold Model_Tips.slash, Model_Tips.find_tip in E.
    destruct (Model_Tips.t_tips s !! h) as [t|] eqn:Et; cbn in E; [|discriminate].
    pose proof (slash_kept (Model_Tips.tc_ed cfg) (Model_Tips.t_bank s) (Model_Tips.ot_finder t) (Model_Tips.ot_deposit t)) as G.
    destruct (slash_reserved _ _ _ _) as [b got] eqn:Es. injection E as <- <-.
    destruct (N.eqb_spec (Model_Tips.ot_deposit t) 0) as [E0|E0]; cbn; [apply same|].
    refine (kept_le _ _ _ _ _ _ G). intros a. unfold tip_price. rewrite Et. destruct o; cbn; lia.
  - destruct (Model_Tips.tipper x o) as [w| |]; cbn in E; try discriminate. unfold Model_Tips.credit_new, ensure in E.
    destruct (negb _); cbn in E; [|discriminate]. injection E as <- <-. apply same.
  - destruct (Model_Tips.tipper x o) as [w| |]; cbn in E; try discriminate. unfold Model_Tips.do_credit_tip, Model_Tips.find_tip in E.
    destruct (Model_Tips.t_tips s !! h); cbn in E; [|discriminate]. destruct (Model_Tips.check_closing _ _ _ _). injection E as <- <-. apply same.
  - destruct (Model_Tips.signed o) as [w| |]; cbn in E; try discriminate. unfold Model_Tips.credit_close, Model_Tips.find_tip in E.
    destruct (Model_Tips.t_tips s !! h) as [t|]; cbn in E; [|discriminate]. destruct (Model_Tips.ripe x t); cbn in E; try discriminate.
    destruct (Model_Tips.middle _ _); [|discriminate]. injection E as <- <-. apply free. apply (give_back_kept cfg (Model_Tips.drop_tip s h t)).
  - destruct o; try discriminate. injection E as <- <-. apply same.
Qed.

(** Staking. *)
Section staking.
  Import Model_StakingLedger Model_Staking Spec_Staking Spec_Staking2 Proofs_Staking Proofs_Staking14.
  Context (cfg : kcfg).
  Local Notation lam := (lost_at_most cfg).
  Definition stake_price (s : kstate) (op : kop) (ev : list kev) (a : N) : N :=
    match op with
    | KStartSession _ _ | KOffence _ _ _ => slash_sum a ev
    | KCall x (Signed w) (KStakeDelegate level) =>
        match kx_level x w with
        | Some cur => if_is w (default 0 (kx_dpr x w !! N.to_nat level) - default 0 (kx_dpr x w !! N.to_nat cur)) a
        | None => 0
        end
    | KCall _ (Signed c) (KBurnStake _) =>
        if bool_decide (l_stash <$> s_ledger (k_stk s) !! c = Some a) then burnt ev else 0
    | _ => 0
    end.
  Lemma staking_cost s op s' ev :
    (forall b, op <> KBank b) -> kstep cfg s op = (s', KDone ev) ->
    lam (stake_price s op ev) (k_bank s) (k_bank s').
  Proof.
    intros Nb H. pose proof (step_bmv _ _ _ _ _ Nb H) as (_ & M & _).
    assert (Ev : forall ev, events [KDone ev] = ev) by (intros ev0; unfold events; cbn; apply app_nil_r).
    rewrite Ev in M.
    assert (none : (forall a, ~ may_lose cfg s op ev a) -> lam (stake_price s op ev) (k_bank s) (k_bank s')).
    { intros Z a. destruct (N.lt_ge_cases (free_of (k_bank s') a) (free_of (k_bank s) a)) as [L|L]; [|left; lia].
      destruct (M a L) as [Q|Q]; [now apply Z in Q|right; lia]. }
    Local Ltac nobody := let a := fresh in
      intros a [ [ [(? & ? & ?)|(? & ? & ? & ? & _)] _]|[(? & ? & ?)|(? & ? & ? & ? & ? & _)]]; discriminate.
    destruct op as [x o c|x| |i|x i|x i|a|x os i|b]; try (apply none; nobody).
    - destruct o as [|w|]; try (apply none; nobody). destruct c; try (apply none; nobody).
      + cbn [kstep] in H. destruct (dispatch _ _ _ _ _) as [[s1 ev1]|e|] eqn:E; cbn [settle] in H; try discriminate. injection H as <- <-.
        cbn [dispatch signed] in E. inv_bind E. unfold staking_delegate in E. inv_bind E. inv_bind E.
        destruct (kx_level x w) as [cur|] eqn:El; [|discriminate]. inv_bind E.
        destruct (kx_dpr x w !! N.to_nat level) as [hi|] eqn:Eh; [|discriminate].
        destruct (kx_dpr x w !! N.to_nat cur) as [lo|] eqn:Eo; [|discriminate].
        destruct (transfer_keep _ _ _ _ _) as [b|] eqn:Et; [|discriminate]. inv_bind E. injection E as <- <-.
        apply transfer_keep_lam in Et. refine (lam_ext _ _ _ _ _ Et _). intros a. unfold stake_price. rewrite El.
        rewrite Eh, Eo, (N.eqb_sym w a). reflexivity.
      + cbn [kstep] in H. destruct (dispatch _ _ _ _ _) as [[s1 ev1]|e|] eqn:E; cbn [settle] in H; try discriminate. injection H as <- <-.
        cbn [dispatch signed] in E. unfold validator_burn in E. destruct (s_ledger (k_stk s) !! w) as [l|] eqn:El; [|discriminate].
        destruct (slash_ledger _ _ _) as [l' amount]. destruct (cslash _ _ _ _ _) as [[b got] ms] eqn:Ec.
        injection E as <- <-. apply cslash_lam in Ec.
        assert (A : lam (fun _ => 0) (k_bank s) (k_bank (remove_lock cfg x s (l_stash l)))).
        { eapply lam_bmv, remove_lock_bmv. }
        set (s2 := set_k_bank _ _). assert (C : lam (fun _ => 0) b (k_bank (update_ledger cfg x s2 w l'))).
        { exact (lam_bmv _ _ _ _ _ (update_ledger_bmv _ _ x s2 w l')). }
        refine (lam_ext _ _ _ _ _ (lam_trans _ _ _ _ _ _ A (lam_trans _ _ _ _ _ _ Ec C)) _).
        intros a. unfold stake_price, burnt. rewrite El. cbn [fmap option_fmap option_map map lsum]. destruct (N.eqb_spec (l_stash l) a) as [<-|Hn].
        * rewrite bool_decide_true by reflexivity. cbn. lia.
        * rewrite bool_decide_false by congruence. cbn. lia.
    - cbn [kstep] in H. destruct (start_session _ _ _ _) as [s1 ev1] eqn:E. cbn in H. injection H as <- <-.
      now apply start_session_lam in E.
    - cbn [kstep] in H. destruct (on_offence _ _ _ _ _) as [s1 ev1] eqn:E. cbn in H. injection H as <- <-.
      now apply on_offence_lam in E.
  Qed.
End staking.

(** Credit and staking. *)
Definition join_price (j : jstate) (a : jact) (ev : list Model_Staking.kev) (b : N) : N :=
  match a with
  | JCredit (Signed who) (Model_Credit.KBurnForCredit points) => if_is who (Model_Credit.k_dpr_per_credit (j_c j) * (points mod 2 ^ 32)) b
  | JCall (Signed who) (JOf (Model_Staking.KStakeDelegate level)) =>
      match Model_Credit.k_uc (j_c j) !! who with
      | Some d => let prices := tariff (j_c j) (Model_Credit.cd_camp d) in
          if_is who (default 0 (prices !! N.to_nat level) - default 0 (prices !! N.to_nat (Spec_Credit.band (Model_Credit.cd_credit d)))) b
      | None => 0
      end
  | JCall (Signed c) (JOf (Model_Staking.KBurnStake _)) =>
      if bool_decide (Model_StakingLedger.l_stash <$> Model_Staking.s_ledger (Model_Staking.k_stk (j_s j)) !! c = Some b)
      then Spec_Staking2.burnt ev else 0
  | JStartSession _ | JOffence _ _ => Spec_Staking2.slash_sum b ev
  | _ => 0
  end.
Lemma chain_cost cfg j x a j' ev :
  Model_Credit.kc_step (jc_c cfg) <> Model_Credit.U64MAX -> Model_Credit.kc_ed (jc_c cfg) = Model_Staking.kc_ed (jc_s cfg) ->
  Proofs_Chain1.synced j -> (forall b, a <> JBank b) -> jstep cfg j (x, a) = (j', JDone ev) ->
  loss (Model_Staking.kc_ed (jc_s cfg)) (join_price j a ev) (Model_Staking.k_bank (j_s j)) (Model_Staking.k_bank (j_s j')).
Proof.
  intros Hs He Hy Hb H.
  assert (Q : (exists o c, a = JCredit o c) \/ (exists e, a = JEntry e) \/
              ((forall o c, a <> JCredit o c) /\ (forall e, a <> JEntry e))).
  { destruct a; eauto; right; right; split; discriminate. }
  destruct Q as [(o & c & ->)|[[e ->]|[H1 H2]]].
  - unfold jstep in H. cbn in H. unfold csettle, Model_Credit.kstep in H.
    destruct (Model_Credit.kexec _ _ _ _ _) as [c'| |] eqn:E; cbn in H; try discriminate. injection H as <- <-. cbn [j_s Model_Staking.k_bank Model_Staking.set_k_bank].
    rewrite <- Hy, <- He. apply credit_cost in E. eapply loss_le; [|exact E]. intros b. cbn. destruct o, c; reflexivity.
  - unfold jstep in H. cbn in H. destruct (staking_only e).
    + injection H as <- <-. apply loss_refl.
    + unfold csettle, Model_Credit.kentry_step in H.
      destruct (Model_Credit.kentry_exec _ _ _ _) as [[c' r]| |] eqn:E; cbn in H; try discriminate. injection H as <- <-. cbn.
      rewrite <- Hy. apply credit_entry in E as ->; [apply loss_refl|exact Hs].
  - pose proof (Proofs_Chain1.jstep_staking cfg j (x, a) Hs Hy) as K. rewrite H in K. cbn [fst snd] in K.
    assert (Nb : Spec_Staking2.no_bank (Proofs_Chain1.sop cfg j (x, a))).
    { intros b. unfold Proofs_Chain1.sop. rewrite H. cbn [fst snd]. destruct a; try discriminate.
      - now destruct (H1 o c).
      - now destruct (H2 e).
      - now destruct (Hb b0). }
    destruct (Props_Staking3.C93_money _ _ _ _ _ Nb K) as (_ & _ & C).
    apply staking_cost in K; [|exact Nb].
    apply (loss_le _ (stake_price (j_s j) (Proofs_Chain1.sop cfg j (x, a)) ev)); [|split; [exact K|exact C]].
    intros b. unfold Proofs_Chain1.sop. rewrite H. cbn [fst snd]. destruct a as [o c|e|o c| | |i|i|i|v|os i|b0]; cbn [stake_price join_price]; try lia.
    + destruct o as [|who|]; try lia. destruct c as [k|l]; cbn [Proofs_Chain1.plain]; [|lia].
      destruct k; cbn [stake_price]; try lia. cbn [sctx2 Model_Staking.kx_level Model_Staking.kx_dpr].
      unfold Model_Credit.credit_score.
      destruct (Model_Credit.k_uc (j_c j) !! who) as [d|] eqn:Ed; cbn [fmap option_fmap option_map]; [|lia].
      rewrite Proofs_Credit.level_of_band.
      destruct (decide (Model_Credit.get_credit_balance (j_c j) who (Some (Model_Credit.k_default_id (j_c j))) = [])) as [E|E].
      * rewrite E, !lookup_nil. cbn. destruct (_ =? _); lia.
      * pose proof (Proofs_Chain10.balance_tariff _ _ _ _ eq_refl E) as T. rewrite Ed in T. rewrite T. reflexivity.
Qed.
