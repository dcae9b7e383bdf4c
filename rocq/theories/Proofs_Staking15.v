(** Deferred slashes: when they are applied, and to whom. *)
From Verif Require Import Base Balances Model_StakingLedger Model_Staking Spec_Staking Spec_Staking2
  Proofs_Balances Proofs_Arith Proofs_StakingLedger Proofs_Staking Proofs_Staking2 Proofs_Staking3 Proofs_Staking4 Proofs_Staking6.
From stdpp Require Import gmap.
Open Scope N_scope.

Section model.
  Context (cfg : kcfg).
  Local Notation ed := (kc_ed cfg).

  (** Stakes are paired and sound. *)
  Definition pairs (k : stk) : Prop :=
    (forall st c, s_bonded k !! st = Some c -> exists l, s_ledger k !! c = Some l /\ l_stash l = st) /\
    (forall c l, s_ledger k !! c = Some l -> sound l).
  Lemma linv_pairs s : linv (view s) -> pairs (k_stk s).
  Proof. intros I. split; [exact (li_bonded _ I)|exact (li_sound _ I)]. Qed.
  Definition queue (k : stk) : gmap N (list uslash) * option N := (s_unapp k, s_first k).

  Lemma slash_sum_app st a b : slash_sum st (a ++ b) = slash_sum st a + slash_sum st b.
  Proof. unfold slash_sum. rewrite map_app. induction a as [|e a IH]; cbn; lia. Qed.
  Lemma charge_sum_app st a b : charge_sum st (a ++ b) = charge_sum st a + charge_sum st b.
  Proof. unfold charge_sum. rewrite map_app. induction a as [|e a IH]; cbn; lia. Qed.

  Lemma credits_charge st l : charge_sum st (map KCreditSlash l) = 0.
  Proof. unfold charge_sum. induction l as [|a l IHl]; [reflexivity|exact IHl]. Qed.

  Lemma do_slash_stake x s a v pay s' pay' got ev st :
    pairs (k_stk s) -> do_slash cfg x s a v pay = (s', pay', got, ev) ->
    pairs (k_stk s') /\ queue (k_stk s') = queue (k_stk s) /\
    stake_of s' st = (if a =? st then punish ed (stake_of s st) v else stake_of s st) /\
    slash_sum st ev + total_of s' st = total_of s st.
  Proof.
    intros [Pa Pb] H. unfold do_slash in H. unfold total_of, slash_sum.
    assert (same : stake_of s a = None -> (s', ev) = (s, []) ->
      pairs (k_stk s') /\ queue (k_stk s') = queue (k_stk s) /\
      stake_of s' st = (if a =? st then punish ed (stake_of s st) v else stake_of s st) /\
      slash_sum st ev + total_of s' st = total_of s st).
    { intros E [= -> ->]. split; [split; auto|]. split; [auto|]. split; [|reflexivity].
      destruct (N.eqb_spec a st) as [<-|]; [|auto]. now rewrite E. }
    destruct (s_bonded (k_stk s) !! a) as [c|] eqn:Eb.
    2:{ apply same; [unfold stake_of; now rewrite Eb|congruence]. }
    destruct (Pa _ _ Eb) as (l & El & Es). rewrite El in H.
    destruct (slash_ledger v ed l) as [l' g] eqn:Esl.
    assert (Sa : stake_of s a = Some l) by (unfold stake_of; now rewrite Eb).
    destruct (slash_ledger_spec _ _ _ _ _ (Pb _ _ El) Esl) as (S1 & S2 & S3 & _).
    destruct (N.eqb_spec g 0) as [->|Hg].
    - injection H as <- _ _ <-. split; [split; auto|]. split; [auto|]. split; [|reflexivity].
      destruct (N.eqb_spec a st) as [<-|]; [|auto]. rewrite Sa. cbn. now rewrite Esl.
    - destruct (cslash _ _ _ _ _) as [[b got0] miss]. injection H as <- _ _ <-.
      assert (Q : forall b, (s_bonded (k_stk (update_ledger cfg x (set_k_bank s b) c l')) = s_bonded (k_stk s)) /\
                  s_ledger (k_stk (update_ledger cfg x (set_k_bank s b) c l')) = <[c := l']> (s_ledger (k_stk s)) /\
                  queue (k_stk (update_ledger cfg x (set_k_bank s b) c l')) = queue (k_stk s)).
      { intros b0. unfold update_ledger, set_lock, queue. destruct (_ =? 0); auto. }
      destruct (Q b) as (Q1 & Q2 & Q3).
      assert (T : stake_of (update_ledger cfg x (set_k_bank s b) c l') st = if a =? st then Some l' else stake_of s st).
      { unfold stake_of. rewrite Q1, Q2. destruct (N.eqb_spec a st) as [<-|Hn].
        - rewrite Eb. apply lookup_insert.
        - destruct (s_bonded (k_stk s) !! st) as [c'|] eqn:E'; [|auto]. destruct (Pa _ _ E') as (l1 & E1 & E2).
          rewrite lookup_insert_ne; [auto|]. intros <-. congruence. }
      split; [|split; [exact Q3|]].
      + split; rewrite ?Q1, ?Q2.
        * intros st' c' E'. destruct (decide (c' = c)) as [->|Hn].
          -- exists l'. rewrite lookup_insert. split; [auto|]. destruct (Pa _ _ E') as (l1 & E1 & E2). congruence.
          -- rewrite lookup_insert_ne by congruence. auto.
        * intros c' l1. destruct (decide (c' = c)) as [->|Hn]; [rewrite lookup_insert; now intros [= <-]|].
          rewrite lookup_insert_ne by congruence. apply Pb.
      + rewrite T. cbn [map lsum]. destruct (N.eqb_spec a st) as [<-|Hn].
        * rewrite Sa. cbn. rewrite Esl. destruct (N.eqb_spec g 0); [contradiction|]. split; [auto|]. cbn. lia.
        * split; [auto|]. cbn. lia.
  Qed.
  Lemma apply_slash_stake x s u s' ev st :
    pairs (k_stk s) -> apply_slash cfg x s u = (s', ev) ->
    pairs (k_stk s') /\ queue (k_stk s') = queue (k_stk s) /\
    stake_of s' st = fold_left (punish ed) (against st [u]) (stake_of s st) /\
    slash_sum st ev + total_of s' st = total_of s st.
  Proof.
    intros P H. unfold apply_slash in H. destruct (do_slash _ _ _ _ _ _) as [[[s1 pay] got] e1] eqn:E.
    injection H as <- <-. destruct (do_slash_stake _ _ _ _ _ _ _ _ _ st P E) as (A & B & C & D).
    assert (Z : slash_sum st (map KCreditSlash (u_others u)) = 0).
    { unfold slash_sum. induction (u_others u) as [|a l IH]; cbn in *; auto. }
    unfold total_of, stake_of in *. cbn [k_stk set_k_bank]. rewrite credit_fold_stk.
    split; [auto|]. split; [auto|]. split.
    - rewrite C. unfold against. cbn [List.filter]. destruct (u_val u =? st); reflexivity.
    - rewrite slash_sum_app, Z. lia.
  Qed.
  Lemma against_app st a b : against st (a ++ b) = against st a ++ against st b.
  Proof. unfold against. now rewrite List.filter_app, map_app. Qed.
  Lemma apply_list_stake x st : forall l s s' ev,
    pairs (k_stk s) -> apply_list cfg x l s = (s', ev) ->
    pairs (k_stk s') /\ queue (k_stk s') = queue (k_stk s) /\
    stake_of s' st = fold_left (punish ed) (against st l) (stake_of s st) /\
    slash_sum st ev + total_of s' st = total_of s st.
  Proof.
    induction l as [|u r IH]; intros s s' ev P H; cbn [apply_list] in H; [injection H as <- <-; auto|].
    destruct (apply_slash _ _ _ _) as [s1 e1] eqn:E1. destruct (apply_list _ _ r s1) as [s2 e2] eqn:E2. injection H as <- <-.
    destruct (apply_slash_stake _ _ _ _ _ st P E1) as (A & B & C & D). destruct (IH _ _ _ A E2) as (A2 & B2 & C2 & D2).
    split; [auto|]. split; [congruence|]. split.
    - change (u :: r) with ([u] ++ r). rewrite against_app, fold_left_app, C2. now rewrite C.
    - rewrite slash_sum_app. lia.
  Qed.
  (** The slashes of [n] eras from [era] on. *)
  Definition batch (m : gmap N (list uslash)) (n : nat) (era : N) : list uslash :=
    concat (map (fun i => default [] (m !! (era + N.of_nat i))) (seq 0 n)).
  Lemma batch_S m n era : batch m (S n) era = default [] (m !! era) ++ batch m n (era + 1).
  Proof.
    unfold batch. cbn [seq map concat]. rewrite N.add_0_r. f_equal. rewrite <- seq_shift, map_map. f_equal.
    apply map_ext. intros i. do 2 f_equal. lia.
  Qed.
  Lemma batch_delete m n era e : e < era -> batch (delete e m) n era = batch m n era.
  Proof.
    intros L. unfold batch. f_equal. apply map_ext. intros i. rewrite lookup_delete_ne by lia. auto.
  Qed.
  Lemma apply_eras_stake x st : forall n era s s' ev,
    pairs (k_stk s) -> apply_eras cfg x n era s = (s', ev) ->
    pairs (k_stk s') /\ s_first (k_stk s') = s_first (k_stk s) /\
    (forall e, s_unapp (k_stk s') !! e = if (era <=? e) && (e <? era + N.of_nat n) then None else s_unapp (k_stk s) !! e) /\
    stake_of s' st = fold_left (punish ed) (against st (batch (s_unapp (k_stk s)) n era)) (stake_of s st) /\
    slash_sum st ev + total_of s' st = total_of s st.
  Proof.
    induction n as [|n IH]; intros era s s' ev P H; cbn [apply_eras] in H.
    - injection H as <- <-. split; [auto|]. split; [auto|]. split; [|auto].
      intros e. destruct (N.leb_spec era e), (N.ltb_spec e (era + N.of_nat 0)); cbn; auto; lia.
    - set (s0 := set_k_stk s _) in H.
      destruct (apply_list _ _ _ s0) as [s1 e1] eqn:E1. destruct (apply_eras _ _ n _ s1) as [s2 e2] eqn:E2. injection H as <- <-.
      assert (P0 : pairs (k_stk s0)) by exact P.
      destruct (apply_list_stake _ st _ _ _ _ P0 E1) as (A & B & C & D).
      destruct (IH _ _ _ _ A E2) as (A2 & B2 & C2 & D2 & F2). injection B as Bu Bf. cbn in Bu, Bf.
      split; [auto|]. split; [now rewrite B2|]. split; [|split].
      + intros e. rewrite C2, Bu.
        destruct (N.leb_spec (era + 1) e), (N.leb_spec era e), (N.ltb_spec e (era + 1 + N.of_nat n)), (N.ltb_spec e (era + N.of_nat (S n)));
          cbn [andb]; auto; try lia; try (rewrite lookup_delete_ne by lia; auto).
        assert (e = era) as -> by lia. apply lookup_delete.
      + rewrite D2, Bu, batch_delete, batch_S, against_app, fold_left_app by lia. f_equal. exact C.
      + rewrite slash_sum_app. change (total_of s st) with (total_of s0 st). lia.
  Qed.

  (** Everything waiting is behind the earliest era noted. *)
  Definition qinv (s : kstate) : Prop :=
    match s_first (k_stk s) with
    | None => forall e, pending s e = []
    | Some f => f <= act s /\ forall e, pending s e <> [] -> f <= e
    end.
  Lemma batch_ripe (m : gmap N (list uslash)) f n k : f <= k -> N.to_nat (k - f) = n ->
    (forall e, default [] (m !! e) <> [] -> f <= e) ->
    concat (map (fun i => default [] (m !! N.of_nat i)) (seq 0 (N.to_nat k))) = batch m n f.
  Proof.
    intros L <- H. replace (N.to_nat k) with (N.to_nat f + N.to_nat (k - f))%nat by lia.
    rewrite seq_app, map_app, concat_app. cbn [plus].
    replace (concat (map (fun i => default [] (m !! N.of_nat i)) (seq 0 (N.to_nat f)))) with (@nil uslash).
    - unfold batch. cbn [app]. f_equal. change (N.to_nat f) with (N.to_nat f + 0)%nat || replace (N.to_nat f) with (N.to_nat f + 0)%nat by lia.
      generalize (N.to_nat (k - f)). intros n. rewrite Nat.add_comm. cbn [plus].
      assert (E : seq (N.to_nat f) n = map (fun i => (N.to_nat f + i)%nat) (seq 0 n)).
      { clear. generalize (N.to_nat f). intros a. revert a. induction n as [|n IH]; intros a; cbn; [auto|]. f_equal; [lia|].
        rewrite IH, <- seq_shift, map_map. apply map_ext. intros i. lia. }
      rewrite E, map_map. apply map_ext. intros i. do 2 f_equal. lia.
    - symmetry. apply concat_nil_Forall. apply Forall_forall. intros l Hl. apply elem_of_list_fmap in Hl as (i & -> & Hi).
      apply elem_of_seq in Hi. destruct (default [] (m !! N.of_nat i)) as [|u q] eqn:E; [auto|].
      specialize (H (N.of_nat i)). rewrite E in H. specialize (H ltac:(discriminate)). lia.
  Qed.

  Lemma start_stake x s i s' ev :
    pairs (k_stk s) -> qinv s -> act s + 2 < two32 -> start_session cfg x s i = (s', ev) ->
    (s' = s /\ ev = []) \/
    exists a, a = match active_era s with Some j => j + 1 | None => 0 end /\ active_era s' = Some a /\
      (forall e, pending s' e = if e + kc_defer cfg <? a then [] else pending s e) /\
      (forall st, stake_of s' st = fold_left (punish ed) (against st (ripe cfg s a)) (stake_of s st)) /\
      (forall st, slash_sum st ev + total_of s' st = total_of s st) /\ qinv s'.
  Proof.
    intros P Q Hn H. unfold start_session in H. destruct (_ !! _); [|left; now injection H as <- <-].
    destruct (_ <=? i); [|left; now injection H as <- <-]. right.
    set (a := match active_era s with Some j => j + 1 | None => 0 end). exists a. split; [auto|].
    unfold start_era in H.
    assert (Ea : match e_act (k_era s) with Some (i0, _) => add32 i0 1 | None => 0 end = a).
    { subst a. unfold active_era, act in *. destruct (e_act (k_era s)) as [[j b]|]; cbn; [|auto]. apply add32_exact. lia. }
    rewrite Ea in H.
    assert (La : act s <= a).
    { subst a. unfold active_era, act. destruct (e_act (k_era s)) as [[j b]|]; cbn; lia. }
    cbn zeta in H. set (s0 := set_k_era _ _) in H.
    assert (A0 : active_era s0 = Some a) by reflexivity.
    assert (P0 : pairs (k_stk s0)) by exact P.
    assert (U0 : s_unapp (k_stk s0) = s_unapp (k_stk s)) by reflexivity.
    assert (F0 : s_first (k_stk s0) = s_first (k_stk s)) by reflexivity.
    assert (T0 : forall st, stake_of s0 st = stake_of s st) by reflexivity.
    assert (T1 : forall st, total_of s0 st = total_of s st) by reflexivity.
    clearbody s0. unfold apply_unapplied in H. rewrite F0 in H. unfold qinv in Q. unfold ripe, pending.
    destruct (s_first (k_stk s)) as [f|] eqn:Ef.
    - destruct Q as [Qf Q]. destruct (apply_eras _ _ _ _ _) as [s1 e1] eqn:E. injection H as <- <-.
      destruct (apply_eras_same _ _ _ _ _ _ _ E) as [_ Ee].
      assert (K : ssub a (kc_defer cfg) = a - kc_defer cfg) by reflexivity || (unfold ssub; lia).
      rewrite K in *. set (k := a - kc_defer cfg) in *.
      assert (U : forall e, default [] (s_unapp (k_stk s1) !! e) = if e + kc_defer cfg <? a then [] else default [] (s_unapp (k_stk s) !! e)).
      { intros e. destruct (apply_eras_stake _ 0 _ _ _ _ _ P0 E) as (_ & _ & C & _). rewrite C, U0.
        destruct (N.leb_spec f e), (N.ltb_spec e (f + N.of_nat (N.to_nat (k - f)))), (N.ltb_spec (e + kc_defer cfg) a); cbn [andb]; auto; try lia.
        destruct (default [] (s_unapp (k_stk s) !! e)) eqn:Ez; [auto|].
        specialize (Q e). unfold pending in Q. rewrite Ez in Q. specialize (Q ltac:(discriminate)). lia. }
      split; [unfold active_era in *; cbn; now rewrite Ee|]. split; [exact U|]. split; [|split].
      + intros st. destruct (apply_eras_stake _ st _ _ _ _ _ P0 E) as (_ & _ & _ & D & _).
        change (stake_of (set_k_stk s1 _) st) with (stake_of s1 st). rewrite D, T0, U0.
        destruct (N.le_gt_cases f k) as [L|L].
        * f_equal. f_equal. symmetry. apply batch_ripe; auto.
        * replace (k - f) with 0 by lia. cbn [N.to_nat]. unfold batch. cbn [seq map concat against fold_left].
          replace (concat _) with (@nil uslash); [reflexivity|]. symmetry. apply concat_nil_Forall. apply Forall_forall.
          intros l Hl. apply elem_of_list_fmap in Hl as (j & -> & Hj). apply elem_of_seq in Hj.
          destruct (default [] (s_unapp (k_stk s) !! N.of_nat j)) eqn:Ez; [auto|].
          specialize (Q (N.of_nat j)). unfold pending in Q. rewrite Ez in Q. specialize (Q ltac:(discriminate)). lia.
      + intros st. destruct (apply_eras_stake _ st _ _ _ _ _ P0 E) as (_ & _ & _ & _ & F).
        change (total_of (set_k_stk s1 _) st) with (total_of s1 st). rewrite F. apply T1.
      + unfold qinv. cbn [k_stk set_k_stk s_first set_s_first].
        assert (A1 : act (set_k_stk s1 (set_s_first (k_stk s1) (Some (N.max f k)))) = a).
        { unfold act, active_era in *. cbn. rewrite Ee. destruct (e_act (k_era s0)) as [[? ?]|]; cbn in *; congruence. }
        rewrite A1. split; [lia|]. intros e He. unfold pending in He. cbn in He. rewrite U in He.
        destruct (N.ltb_spec (e + kc_defer cfg) a); [congruence|]. specialize (Q e He). lia.
    - injection H as <- <-. split; [auto|].
      assert (Z : forall e, default [] (s_unapp (k_stk s) !! e) = []) by exact Q.
      split; [|split; [|split]].
      + intros e. rewrite U0, Z. now destruct (_ <? _).
      + intros st. replace (concat _) with (@nil uslash); [apply T0|]. symmetry. apply concat_nil_Forall. apply Forall_forall.
        intros l Hl. apply elem_of_list_fmap in Hl as (j & -> & Hj). apply Z.
      + intros st. apply T1.
      + unfold qinv, pending. rewrite F0. intros e. rewrite U0. apply Z.
  Qed.

  (** ** Everything else leaves the queue alone *)
  Lemma update_ledger_queue x s c l : queue (k_stk (update_ledger cfg x s c l)) = queue (k_stk s).
  Proof. unfold update_ledger, set_lock. now destruct (_ =? 0). Qed.
  Lemma unstake_queue x s st0 n s' : unstake cfg x s st0 n = ROk s' -> queue (k_stk s') = queue (k_stk s).
  Proof.
    unfold unstake, kill_stash. intros H. inv_bind H.
    destruct (s_bonded (k_stk s) !! st0) as [c|] eqn:Eb; [|discriminate].
    inv_bind E. injection E as <-. injection H as <-. unfold clear_stash in E0.
    destruct (s_spans (k_stk s) !! st0) as [sp|]; [|injection E0 as <-; reflexivity].
    inv_bind E0. injection E0 as <-. reflexivity.
  Qed.
  Lemma call_queue x s o c s' ev :
    dispatch cfg x s o c = ROk (s', ev) -> (forall era l, c <> KCancel era l) -> queue (k_stk s') = queue (k_stk s).
  Proof.
    intros H Nc.
    destruct c; cbn [dispatch] in H; unfold admin, controlled, signed, root, quiet, with_par, with_del, with_stk in H;
      try (destruct o; try discriminate H; []);
      repeat match type of H with rbind (ensure _ _) _ = _ => inv_bind H end;
      try (injection H as <- <-; reflexivity).
    - unfold staking_delegate in H. inv_bind H. inv_bind H.
      destruct (kx_level x who); [|discriminate]. inv_bind H.
      destruct (kx_dpr x who !! N.to_nat level); [|discriminate].
      destruct (kx_dpr x who !! N.to_nat n); [|discriminate].
      destruct (transfer_keep _ _ _ _ _); [|discriminate]. inv_bind H. now injection H as <- <-.
    - unfold usdt_delegate in H. inv_bind H. inv_bind H. destruct v as [cur rest].
      destruct (0 <? _); [inv_bind H|]; now injection H as <- <-.
    - inv_bind H. injection H as <- <-. unfold bond in E.
      repeat match type of E with rbind (ensure _ _) _ = _ => inv_bind E end.
      injection E as <-. now rewrite update_ledger_queue.
    - inv_bind H. injection H as <- <-. unfold bond_extra in E.
      destruct (s_bonded (k_stk s) !! who) as [c|] eqn:Eb; [|discriminate].
      destruct (s_ledger (k_stk s) !! c) as [l|] eqn:El; [|discriminate].
      destruct (_ <? _); [now injection E as <-|].
      inv_bind E. injection E as <-. apply update_ledger_queue.
    - unfold unbond in H. destruct (s_ledger (k_stk s) !! who) as [l|] eqn:El; [|discriminate].
      inv_bind H. destruct (_ =? 0) eqn:Ez; [now injection H as <- <-|].
      match type of H with context [let '(_, _) := ?e in _] => destruct e end. injection H as <- <-. apply update_ledger_queue.
    - unfold withdraw_unbonded in H. destruct (s_ledger (k_stk s) !! who) as [l0|] eqn:El; [|discriminate].
      destruct (bool_decide _ && _) eqn:Ek in H.
      + inv_bind H. injection H as <- <-. eapply unstake_queue; eauto.
      + injection H as <- <-. apply update_ledger_queue.
    - destruct (s_ledger _ !! _); [|discriminate]. now injection H as <- <-.
    - destruct (s_ledger _ !! _); [|discriminate]. now injection H as <- <-.
    - destruct (s_ledger _ !! _); [|discriminate]. now injection H as <- <-.
    - inv_bind H. injection H as <- <-. unfold set_controller in E.
      destruct (s_bonded (k_stk s) !! who) as [old|] eqn:Eb; [|discriminate].
      inv_bind E. destruct (controller =? old); [now injection E as <-|].
      destruct (s_ledger (k_stk s) !! old); now injection E as <-.
    - inv_bind H. injection H as <- <-. eapply unstake_queue; eauto.
    - now destruct (Nc era l).
    - inv_bind H. injection H as <- <-. unfold do_rebond in E.
      destruct (s_ledger (k_stk s) !! who) as [l|] eqn:El; [|discriminate].
      inv_bind E. inv_bind E. injection E as <-. apply update_ledger_queue.
    - destruct (e_cur (k_era s)); now injection H as <- <-.
    - inv_bind H. injection H as <- <-. eapply unstake_queue; eauto.
    - inv_bind H. now injection H as <- <-.
    - injection H as <- <-. assert (G : forall l s, k_stk (fold_left undelegate_in l s) = k_stk s).
      { induction l0; intros s0; cbn; auto. now rewrite (IHl0 (undelegate_in s0 a)). }
      now rewrite G.
    - unfold compensate in H. inv_bind H. destruct (Model_Operation.mint _ _ _ _). now injection H as <- <-.
    - inv_bind H. now injection H as <- <-.
    - unfold npow_mint in H. inv_bind H. destruct (Model_Operation.mint _ _ _ _). now injection H as <- <-.
    - unfold validator_burn in H. destruct (s_ledger (k_stk s) !! who) as [l|] eqn:El; [|discriminate].
      cbn zeta in H. destruct (slash_ledger v ed l) as [l' am] eqn:Es.
      destruct (cslash _ _ _ _ _) as [[b g] m]. injection H as <- <-. now rewrite update_ledger_queue.
  Qed.
  Lemma payout_queue x s st v s' ev : validator_payout cfg x s st v = (s', ev) -> queue (k_stk s') = queue (k_stk s).
  Proof.
    unfold validator_payout. destruct (default PStaked _);
    repeat match goal with |- context [match ?e with _ => _ end] => destruct e end;
    intros H; injection H as <- <-; rewrite ?update_ledger_queue; reflexivity.
  Qed.
  Lemma pay_each_queue x pts po : forall vs s t s' t' ev,
    pay_each cfg x pts po vs s t = (s', t', ev) -> queue (k_stk s') = queue (k_stk s).
  Proof.
    induction vs as [|v vs IH]; intros s t s' t' ev H; cbn [pay_each] in H; [now injection H as <-|].
    destruct (_ =? 0); [now apply IH in H|].
    destruct (validator_payout _ _ _ _ _) as [s1 e1] eqn:E1. destruct (pay_each _ _ _ _ _ _ _) as [[s2 t2] e2] eqn:E2. injection H as <- <- <-.
    apply payout_queue in E1. apply IH in E2. congruence.
  Qed.
  Lemma end_session_queue x s i s' ev : end_session cfg x s i = (s', ev) -> queue (k_stk s') = queue (k_stk s).
  Proof.
    unfold end_session. destruct (e_act (k_era s)) as [[i0 st]|]; [|now intros [= <- _]].
    destruct (e_start _ !! _); [|now intros [= <- _]]. destruct (_ && _); [|now intros [= <- _]].
    unfold pay_validators. cbn zeta.
    repeat match goal with |- (let '(_, _) := ?e in _) = _ -> _ => destruct e eqn:? | |- (if ?e then _ else _) = _ -> _ => destruct e end;
      try (now intros [= <- _]).
    all: intros H; injection H as <- _; cbn; eauto using pay_each_queue.
  Qed.

  (** ** Offences *)
  Lemma compute_queue x s st f ex era w now s' u ev :
    compute_slash x s st f ex era w now = (s', u, ev) ->
    queue (k_stk s') = queue (k_stk s) /\ s_bonded (k_stk s') = s_bonded (k_stk s) /\ s_ledger (k_stk s') = s_ledger (k_stk s) /\
    (forall a, slash_sum a ev = 0) /\
    match u with
    | None => ev = []
    | Some u => u_val u = st /\ forall a, charge_sum a ev = if st =? a then u_own u else 0
    end.
  Proof.
    assert (Cl : forall k st w d sp, queue (close_spans k st w d sp) = queue k /\
       s_bonded (close_spans k st w d sp) = s_bonded k /\ s_ledger (close_spans k st w d sp) = s_ledger k).
    { intros. unfold close_spans. destruct d; [|auto]. now destruct (prune _ _). }
    assert (Fe : forall k st w k' sp, fetch_spans k st w = (k', sp) -> queue k' = queue k /\
       s_bonded k' = s_bonded k /\ s_ledger k' = s_ledger k).
    { intros k st0 w0 k' sp. unfold fetch_spans. destruct (_ !! _); intros H; injection H as <- <-; auto. }
    unfold compute_slash. destruct (_ =? 0).
    { intros H. injection H as <- <- <-. unfold kick_out. destruct (fetch_spans _ _ _) as [k0 sp] eqn:E.
      destruct (Fe _ _ _ _ _ E) as (F1 & F2 & F3).
      destruct (era_span sp era) as [t|]; [|cbn; auto 6]. destruct (_ =? _); [|cbn; auto 6].
      unfold kick. destruct (end_span _ _). cbn. destruct (Cl (chill_stash k0 st) st w (b || false) s0) as (-> & -> & ->). auto 6. }
    destruct (_ <=? _); [intros H; injection H as <- <- <-; auto 6|].
    cbn zeta. destruct (fetch_spans _ _ _) as [k0 sp] eqn:E. destruct (Fe _ _ _ _ _ E) as (F1 & F2 & F3). cbn in F1, F2, F3.
    unfold queue in F1. cbn in F1. fold (queue (k_stk s)) in F1.
    destruct (update_span _ _ _ _ _ _) as [[[[[k1 sp1] d] diff] rw] tg] eqn:Eu.
    assert (Uq : queue k1 = queue k0 /\ s_bonded k1 = s_bonded k0 /\ s_ledger k1 = s_ledger k0 /\ (tg = None -> diff = 0)).
    { unfold update_span in Eu. destruct (era_span sp era) as [t|]; [|injection Eu as <- <- <- <- <- <-; auto].
      destruct (default (0, 0) _) as [a b].
      destruct (_ <? _) in Eu; [|destruct (a =? _) in Eu]; destruct (_ || _) in Eu;
        injection Eu as <- <- <- <- <- <-; (split; [reflexivity|split; [reflexivity|split; [reflexivity|discriminate]]]). }
    destruct Uq as (U1 & U2 & U3 & U4).
    intros H. destruct (bool_decide _) in H.
    - unfold kick in H. destruct (end_span _ _) as [sq en]. injection H as <- <- <-. cbn.
      match goal with |- context [close_spans ?a ?b ?c ?d ?e] => destruct (Cl a b c d e) as (-> & -> & ->) end. cbn.
      split; [unfold queue in *; cbn; congruence|]. split; [congruence|]. split; [congruence|].
      split; [intros a; destruct tg; reflexivity|]. split; [auto|]. intros a. destruct tg; cbn; [destruct (st =? a); lia|].
      rewrite U4 by auto. now destruct (_ =? _).
    - injection H as <- <- <-. cbn.
      match goal with |- context [close_spans ?a ?b ?c ?d ?e] => destruct (Cl a b c d e) as (-> & -> & ->) end. cbn.
      split; [unfold queue in *; cbn; congruence|]. split; [congruence|]. split; [congruence|].
      split; [intros a; destruct tg; reflexivity|]. split; [auto|]. intros a. destruct tg; cbn; [destruct (st =? a); lia|].
      rewrite U4 by auto. now destruct (_ =? _).
  Qed.

  Definition named (os : list (N * expo * list N * N)) (u : uslash) : Prop :=
    exists ex f, (u_val u, ex, u_reps u, f) ∈ os.
  Lemma offenders_queue x era w now : forall os s ev0 s' ev',
    pairs (k_stk s) -> fold_left (offender1 cfg x era w now) os (s, ev0) = (s', ev') ->
    exists ev new, ev' = ev0 ++ ev /\ pairs (k_stk s') /\ s_first (k_stk s') = s_first (k_stk s) /\ Forall (named os) new /\
      (forall st, lsum (against st new) = charge_sum st ev) /\
      (forall st, slash_sum st ev + total_of s' st = total_of s st) /\
      (if kc_defer cfg =? 0
       then s_unapp (k_stk s') = s_unapp (k_stk s) /\
            forall st, stake_of s' st = fold_left (punish ed) (against st new) (stake_of s st)
       else (forall e, pending s' e = pending s e ++ if e =? now then new else []) /\
            (forall st, stake_of s' st = stake_of s st)).
  Proof.
    induction os as [|[[[st0 ex] reps] fr] os IH]; intros s ev0 s' ev' P H; cbn [fold_left] in H.
    - injection H as <- <-. exists [], []. rewrite app_nil_r. split; [auto|]. split; [auto|]. split; [auto|].
      split; [constructor|]. split; [auto|]. split; [auto|]. destruct (_ =? 0); [auto|]. split; [|auto].
      intros e. destruct (_ =? _); now rewrite app_nil_r.
    - assert (More : forall new, Forall (named os) new -> Forall (named ((st0, ex, reps, fr) :: os)) new).
      { intros new F. eapply Forall_impl; [exact F|]. intros u (ex' & f' & Hu). exists ex', f'. now right. }
      destruct (offender1 cfg x era w now (s, ev0) _) as [s1 ev1] eqn:E1. cbn [offender1] in E1.
      destruct (bool_decide _).
      { injection E1 as <- <-. destruct (IH _ _ _ _ P H) as (ev & new & ? & ? & ? & ? & ?). exists ev, new. auto 6. }
      destruct (compute_slash _ _ _ _ _ _ _ _) as [[s2 u] e2] eqn:E2.
      destruct (compute_queue _ _ _ _ _ _ _ _ _ _ _ E2) as (Q & B & L & Z & U).
      assert (P2 : pairs (k_stk s2)) by (unfold pairs; rewrite B, L; exact P).
      assert (St : forall st, stake_of s2 st = stake_of s st) by (intros; unfold stake_of; now rewrite B, L).
      assert (Tt : forall st, total_of s2 st = total_of s st) by (intros; unfold total_of; now rewrite St).
      injection Q as Qu Qf.
      destruct u as [u|].
      2:{ subst e2. injection E1 as <- <-. rewrite app_nil_r in H.
          destruct (IH _ _ _ _ P2 H) as (ev & new & I1 & I2 & I3 & I4 & I5 & I6 & I7). exists ev, new.
          split; [auto|]. split; [auto|]. split; [congruence|]. split; [auto|]. split; [auto|].
          split; [intros st; now rewrite I6|]. unfold pending in *. rewrite Qu in I7. destruct (_ =? 0).
          - split; [tauto|]. intros st. now rewrite (proj2 I7), St.
          - split; [tauto|]. intros st. now rewrite (proj2 I7), St. }
      destruct U as [<- Uc]. set (u1 := USlash (u_val u) (u_own u) (u_others u) reps (u_pay u)) in *.
      assert (N1 : named ((u_val u, ex, reps, fr) :: os) u1) by (exists ex, fr; left).
      assert (A1 : forall st new, against st (u1 :: new) = (if u_val u =? st then [u_own u] else []) ++ against st new).
      { intros. unfold against. cbn [List.filter u1 u_val]. destruct (u_val u =? st); reflexivity. }
      destruct (kc_defer cfg =? 0) eqn:Ed.
      + destruct (apply_slash _ _ _ _) as [s3 e3] eqn:E3. injection E1 as <- <-.
        assert (C0 : forall st, charge_sum st e3 = 0).
        { intros st. unfold apply_slash in E3. destruct (do_slash _ _ _ _ _ _) as [[[sa pa] ga] ea] eqn:Ed'. injection E3 as <- <-.
          rewrite charge_sum_app. assert (charge_sum st ea = 0) as ->.
          { unfold do_slash in Ed'. repeat match type of Ed' with context [match ?e with _ => _ end] => destruct e eqn:? end;
            injection Ed' as <- <- <- <-; reflexivity. }
          rewrite credits_charge. reflexivity. }
        pose proof (fun st => apply_slash_stake _ _ _ _ _ st P2 E3) as S3.
        destruct (S3 0) as (P3 & Q3 & _). injection Q3 as Q3u Q3f.
        destruct (IH _ _ _ _ P3 H) as (ev & new & I1 & I2 & I3 & I4 & I5 & I6 & I7 & I8). exists (e2 ++ e3 ++ ev), (u1 :: new).
        split; [subst; now rewrite <- !app_assoc|]. split; [auto|]. split; [congruence|]. split; [constructor; auto|].
        split; [intros st; rewrite A1, !charge_sum_app, Uc, C0, lsum_app, I5; destruct (u_val u =? st); cbn [lsum]; lia|].
        split.
        * intros st. destruct (S3 st) as (_ & _ & _ & D). rewrite !slash_sum_app, Z, <- Tt. specialize (I6 st). lia.
        * split; [congruence|]. intros st. destruct (S3 st) as (_ & _ & D & _). rewrite I8, D, St, (A1 st []), (A1 st new), fold_left_app.
          now rewrite fold_left_app.
      + injection E1 as <- <-. set (s3 := set_k_stk _ _) in H.
        assert (P3 : pairs (k_stk s3)) by exact P2.
        destruct (IH _ _ _ _ P3 H) as (ev & new & I1 & I2 & I3 & I4 & I5 & I6 & I7 & I8). exists (e2 ++ ev), (u1 :: new).
        split; [subst; now rewrite <- !app_assoc|]. split; [auto|]. split; [rewrite I3; exact Qf|]. split; [constructor; auto|].
        split; [intros st; rewrite A1, !charge_sum_app, Uc, lsum_app, I5; destruct (u_val u =? st); cbn [lsum]; lia|].
        split; [|split].
        * intros st. rewrite slash_sum_app, Z, <- Tt. specialize (I6 st). change (total_of s3 st) with (total_of s2 st) in I6. lia.
        * intros e. rewrite I7. unfold pending. cbn. rewrite Qu. destruct (N.eqb_spec e now) as [->|Hn].
          -- rewrite lookup_insert. cbn. now rewrite <- app_assoc.
          -- now rewrite lookup_insert_ne by congruence.
        * intros st. rewrite I8. apply St.
  Qed.
  Lemma offence_queue x s os i s' ev :
    pairs (k_stk s) -> on_offence cfg x s os i = (s', ev) ->
    exists new, Forall (named os) new /\
      (forall st, lsum (against st new) = charge_sum st ev) /\
      (forall st, slash_sum st ev + total_of s' st = total_of s st) /\
      (if kc_defer cfg =? 0
       then (forall e, pending s' e = pending s e) /\
            forall st, stake_of s' st = fold_left (punish ed) (against st new) (stake_of s st)
       else (forall e, pending s' e = pending s e ++ if bool_decide (active_era s = Some e) then new else []) /\
            (forall st, stake_of s' st = stake_of s st)) /\
      (qinv s -> qinv s').
  Proof.
    intros P H. pose proof (on_offence_act _ _ _ _ _ _ _ H) as Ha. unfold on_offence in H.
    assert (nop : (s', ev) = (s, []) -> exists new, Forall (named os) new /\
      (forall st, lsum (against st new) = charge_sum st ev) /\
      (forall st, slash_sum st ev + total_of s' st = total_of s st) /\
      (if kc_defer cfg =? 0
       then (forall e, pending s' e = pending s e) /\
            forall st, stake_of s' st = fold_left (punish ed) (against st new) (stake_of s st)
       else (forall e, pending s' e = pending s e ++ if bool_decide (active_era s = Some e) then new else []) /\
            (forall st, stake_of s' st = stake_of s st)) /\
      (qinv s -> qinv s')).
    { intros [= -> ->]. exists []. split; [constructor|]. split; [auto|]. split; [auto|]. split; [|auto].
      destruct (_ =? 0); [auto|]. split; [|auto]. intros e. destruct (bool_decide _); now rewrite app_nil_r. }
    destruct (e_act (k_era s)) as [[a b]|] eqn:Ea; [|apply nop; congruence].
    destruct (slash_era _ _ _) as [era|]; [|apply nop; congruence]. clear nop. cbn zeta in H.
    set (k := match s_first (k_stk s) with Some _ => _ | None => _ end) in H.
    assert (Ku : s_unapp k = s_unapp (k_stk s) /\ s_bonded k = s_bonded (k_stk s) /\ s_ledger k = s_ledger (k_stk s)).
    { subst k. now destruct (s_first _). }
    destruct Ku as (Ku & Kb & Kl).
    assert (Kf : s_first k = Some (default a (s_first (k_stk s)))) by (subst k; destruct (s_first _) eqn:Ef; cbn; auto).
    clearbody k.
    assert (P2 : pairs (k_stk (set_k_stk s k))) by (unfold pairs; cbn; rewrite Kb, Kl; exact P).
    assert (St : forall st, stake_of (set_k_stk s k) st = stake_of s st) by (intros; unfold stake_of; cbn; now rewrite Kb, Kl).
    assert (Tt : forall st, total_of (set_k_stk s k) st = total_of s st) by (intros; unfold total_of; now rewrite St).
    destruct (offenders_queue _ _ _ _ _ _ _ _ _ P2 H) as (ev' & new & -> & _ & I3 & I4 & I5 & I6 & I7). cbn [app] in *.
    exists new. split; [auto|]. split; [auto|]. split; [intros st; now rewrite I6|].
    assert (Pe : forall e, pending s' e <> [] -> pending s e <> [] \/ e = a).
    { intros e He. destruct (kc_defer cfg =? 0).
      - left. unfold pending in *. cbn in I7. rewrite (proj1 I7), Ku in He. exact He.
      - rewrite (proj1 I7) in He. unfold pending at 1 in He. cbn in He. rewrite Ku in He. fold (pending s e) in He.
        destruct (N.eqb_spec e a); [auto|]. rewrite app_nil_r in He. auto. }
    split.
    - destruct (kc_defer cfg =? 0).
      + destruct I7 as [I7 I8]. split; [intros e; unfold pending; rewrite I7; cbn; now rewrite Ku|]. intros st. now rewrite I8, St.
      + destruct I7 as [I7 I8]. split; [|intros st; now rewrite I8, St]. intros e. rewrite I7. unfold pending at 1. cbn. rewrite Ku.
        unfold active_era. rewrite Ea. cbn. f_equal. destruct (N.eqb_spec e a) as [->|Hn].
        * now rewrite bool_decide_true.
        * rewrite bool_decide_false; congruence.
    - unfold qinv. rewrite I3. cbn. rewrite Kf. unfold act. rewrite Ha, Ea. cbn.
      destruct (s_first (k_stk s)) as [f|]; cbn.
      + intros [Q1 Q2]. split; [auto|]. intros e He. destruct (Pe e He) as [He'| ->]; auto.
      + intros Q. split; [lia|]. intros e He. destruct (Pe e He) as [He'| ->]; [congruence|lia].
  Qed.

  (** ** Steps *)
  Definition untouched (op : kop) : Prop :=
    (forall x i, op <> KStartSession x i) /\ (forall x os i, op <> KOffence x os i) /\
    (forall x era l, op <> KCall x Root (KCancel era l)).
  Lemma step_queue s op s' out :
    kstep cfg s op = (s', out) -> untouched op -> queue (k_stk s') = queue (k_stk s).
  Proof.
    intros H (N1 & N2 & N3). destruct op as [x o c|x| |i|x i|x i|a|x os i|b]; cbn [kstep] in H.
    - destruct (dispatch cfg x s o c) as [[s1 ev]|e|] eqn:E; cbn [settle] in H; injection H as <- <-; auto.
      destruct (match c with KCancel _ _ => true | _ => false end) eqn:Ec.
      + destruct c; try discriminate. destruct o; cbn in E; try discriminate. now destruct (N3 x era l).
      + eapply call_queue; eauto. now intros ? ? ->.
    - destruct (on_initialize cfg x s) as [[s1 ev]|e|] eqn:E; cbn [settle] in H; injection H as <- <-; auto.
      unfold on_initialize in E. destruct (0 <? _) in E; [|now injection E as <- <-].
      destruct (_ =? 0) in E.
      + destruct (_ =? 0) in E; [discriminate|]. now injection E as <- <-.
      + injection E as E. apply pay_delegators_stk in E. now rewrite E.
    - injection H as <- <-. unfold on_finalize. destruct (e_act _) as [[? []]|]; reflexivity.
    - destruct (new_session _ _ _) as [s1 ev] eqn:E. cbn in H. injection H as <- <-. now rewrite (new_session_stk _ _ _ _ _ E).
    - now destruct (N1 x i).
    - destruct (end_session _ _ _ _) as [s1 ev] eqn:E. cbn in H. injection H as <- <-. eapply end_session_queue; eauto.
    - injection H as <- <-. unfold note_author. destruct (e_act _) as [[? ?]|]; [|auto]. now destruct (default _ _).
    - now destruct (N2 x os i).
    - now injection H as <- <-.
  Qed.
  Lemma step_qinv s op s' out :
    fits cfg s -> linv (view s) -> kstep cfg s op = (s', out) -> qinv s -> qinv s'.
  Proof.
    intros F I H Q. pose proof (linv_pairs _ I) as P.
    assert (Ha : act s <= act s') by (destruct (step_books cfg s op s' out 0 F H); auto).
    assert (Hn : act s + 2 < two32).
    { destruct F as (_ & _ & _ & F). unfold act. destruct (e_act _) as [[? ?]|]; [auto|reflexivity]. }
    assert (keep : queue (k_stk s') = queue (k_stk s) -> qinv s').
    { intros E. injection E as Eu Ef. unfold qinv, pending in *. rewrite Ef, Eu. destruct (s_first _); [|auto].
      destruct Q. split; [lia|auto]. }
    destruct op as [x o c|x| |i|x i|x i|a|x os i|b];
      try (apply keep; eapply step_queue; [exact H|split; [|split]; congruence]).
    - destruct c; try (apply keep; eapply step_queue; [exact H|split; [|split]; congruence]).
      destruct o; try (apply keep; eapply step_queue; [exact H|split; [|split]; congruence]).
      cbn [kstep dispatch root] in H. unfold with_stk in H.
      destruct (Model_Staking.cancel (k_stk s) era l) as [k|e|] eqn:E; cbn in H; injection H as <- <-; auto.
      unfold Model_Staking.cancel in E. repeat match type of E with rbind (ensure _ _) _ = _ => inv_bind E end.
      destruct (remove_at _ _ _) as [l'|] eqn:Er; [|discriminate]. injection E as <-.
      assert (Pe : forall e, default [] (<[era:=l']> (s_unapp (k_stk s)) !! e) <> [] -> pending s e <> []).
      { intros e. destruct (decide (e = era)) as [->|]; [|rewrite lookup_insert_ne by congruence; auto].
        intros _ Z. unfold pending in Z. unfold ensure in E2. destruct (_ <? _) eqn:El in E2; [|discriminate]. rewrite Z in El. cbn in El. apply N.ltb_lt in El. lia. }
      unfold qinv, pending in *. cbn. destruct (s_first _).
      + destruct Q as [Q1 Q2]. split; [exact Q1|]. intros e He. apply Q2, Pe, He.
      + intros e. destruct (default [] (<[era:=l']> _ !! e)) eqn:Ee; [auto|]. exfalso. apply (Pe e); [congruence|]. apply Q.
    - cbn [kstep] in H. destruct (start_session _ _ _ _) as [s1 ev] eqn:E. cbn in H. injection H as <- <-.
      destruct (start_stake _ _ _ _ _ P Q Hn E) as [[-> _]|(a & _ & _ & _ & _ & _ & Q1)]; auto.
    - cbn [kstep] in H. destruct (on_offence _ _ _ _ _) as [s1 ev] eqn:E. cbn in H. injection H as <- <-.
      destruct (offence_queue _ _ _ _ _ _ P E) as (new & _ & _ & _ & _ & Q1). auto.
  Qed.
  Lemma run_qinv : forall h s, sane cfg s h -> linv (view s) -> qinv s -> qinv (krun cfg s h).
  Proof.
    induction h as [|op h IH]; intros s [F S] I Q; [auto|]. destruct S as [T S]. cbn [krun].
    destruct (kstep cfg s op) as [s1 out] eqn:E. apply IH; [exact S| |].
    - eapply step_linv; eauto.
    - eapply step_qinv; eauto.
  Qed.
  Lemma genesis_qinv b p : qinv (kgenesis b p).
  Proof. intros e. unfold pending. cbn. now rewrite lookup_empty. Qed.
End model.
