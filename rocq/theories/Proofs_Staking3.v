(** Unbonded money waits: what is withdrawn was unbonded long enough ago. *)
From Verif Require Import Base Balances Model_StakingLedger Model_Staking Spec_Staking
  Proofs_Arith Proofs_StakingLedger Proofs_Staking Proofs_Staking2.
From stdpp Require Import gmap.
Open Scope N_scope.

(** ** What is due under each change *)
Lemma due_app e a b s t x s' t' x' :
  due e (Ledger s t x (a ++ b)) = due e (Ledger s' t' x' a) + due e (Ledger s t x b).
Proof. unfold due. cbn. now rewrite List.filter_app, map_app, lsum_app. Qed.
Lemma due_unl e l l' : l_unl l = l_unl l' -> due e l = due e l'.
Proof. unfold due. now intros ->. Qed.
Definition due_of (e : N) (cs : list chunk) : N := lsum (map c_val (List.filter (fun c => c_era c <=? e) cs)).
Lemma due_of_app e a b : due_of e (a ++ b) = due_of e a + due_of e b.
Proof. unfold due_of. now rewrite List.filter_app, map_app, lsum_app. Qed.
Lemma due_of_cons e c r : due_of e (c :: r) = (if c_era c <=? e then c_val c else 0) + due_of e r.
Proof. unfold due_of. cbn. destruct (_ <=? _); cbn; lia. Qed.
Lemma front_due m e old new : front_taken m old new -> due_of e new <= due_of e old.
Proof.
  intros (gone & [->|(v & v' & er & r & -> & -> & _ & H)]); rewrite due_of_app; [lia|].
  rewrite !due_of_cons. cbn. destruct (_ <=? _); lia.
Qed.
Lemma back_due e old new : back_taken old new -> due_of e new <= due_of e old.
Proof.
  intros (gone & [->|(v & v' & er & r & -> & -> & H)]); rewrite !due_of_app; [lia|].
  rewrite !due_of_cons. cbn. destruct (_ <=? _); lia.
Qed.
Lemma cons_due cur e cs :
  due_of e (List.filter (fun c => cur <? c_era c) cs) <= due_of e cs /\
  (cur <= e -> due_of e (List.filter (fun c => cur <? c_era c) cs) + due_of cur cs = due_of e cs).
Proof.
  induction cs as [|c r [IH1 IH2]]; cbn [List.filter]; [cbn; lia|]. rewrite !due_of_cons.
  destruct (N.ltb_spec cur (c_era c)); rewrite ?due_of_cons; split.
  - destruct (_ <=? _); lia.
  - intros. rewrite <- IH2 by auto. destruct (N.leb_spec (c_era c) cur); [lia|]. destruct (_ <=? _); lia.
  - lia.
  - intros Hc. rewrite <- IH2 by auto. destruct (N.leb_spec (c_era c) cur); [|lia].
    destruct (N.leb_spec (c_era c) e); lia.
Qed.
Lemma cons_drop cur l :
  sound l -> l_total l = l_total (consolidate cur l) + due cur l.
Proof.
  intros S. destruct (consolidate_spec cur l S) as (_ & _ & _ & E). rewrite <- E. f_equal.
  unfold due. f_equal. f_equal. apply List.filter_ext. intros c.
  destruct (N.ltb_spec cur (c_era c)), (N.leb_spec (c_era c) cur); cbn; auto; lia.
Qed.

Lemma change_due ed e h l :
  sound l -> l_total l < two128 -> (forall v, h = HRebond v -> v < two128) ->
  due e (change ed h l) <=
  due e l + match h with HUnbond v era => if era <=? e then v else 0 | _ => 0 end.
Proof.
  intros S T B. change (due e l) with (due_of e (l_unl l)).
  change (due e (change ed h l)) with (due_of e (l_unl (change ed h l))).
  destruct h as [|v|v era|era|v|v|v|v]; cbn [change l_unl]; try lia.
  - rewrite due_of_app, due_of_cons. cbn. destruct (_ <=? _); lia.
  - destruct (cons_due era e (l_unl l)) as [H _]. unfold consolidate. cbn [l_unl]. lia.
  - destruct (rebond_spec v l S T (B v eq_refl)) as (_ & _ & _ & _ & H). apply (back_due e) in H. lia.
  - destruct (slash_ledger v ed l) as [l' g] eqn:E.
    destruct (slash_ledger_spec _ _ _ _ _ S E) as (_ & _ & _ & _ & _ & _ & H & _).
    apply (front_due _ e) in H. cbn. lia.
  - destruct (slash_ledger v ed l) as [l' g] eqn:E.
    destruct (slash_ledger_spec _ _ _ _ _ S E) as (_ & _ & _ & _ & _ & _ & H & _).
    apply (front_due _ e) in H. cbn. lia.
Qed.

(** ** Events *)
Definition plain (ev : list kev) : Prop :=
  Forall (fun e => match e with KWithdrawn _ _ | KUnbonded _ _ | KCharge _ _ _ _ _ => False | _ => True end) ev.
Definition plainish (ev : list kev) : Prop :=
  Forall (fun e => match e with KWithdrawn _ _ | KUnbonded _ _ => False | _ => True end) ev.
Lemma plain_app a b : plain a -> plain b -> plain (a ++ b).
Proof. intros. now apply Forall_app. Qed.
Lemma plainish_app a b : plainish a -> plainish b -> plainish (a ++ b).
Proof. intros. now apply Forall_app. Qed.
Lemma plain_ish ev : plain ev -> plainish ev.
Proof. intros H. eapply Forall_impl; [exact H|]. now intros []. Qed.
Lemma plain_withdrawn st ev : plainish ev -> lsum (map (withdrawn_ev st) ev) = 0.
Proof. induction 1 as [|e ev He Hev IH]; cbn; auto. rewrite IH. now destruct e. Qed.

Section model.
  Context (cfg : kcfg).
  Local Notation ed := (kc_ed cfg).

  Lemma plain_map {A} (f : A -> kev) l :
    (forall a, match f a with KWithdrawn _ _ | KUnbonded _ _ | KCharge _ _ _ _ _ => False | _ => True end) -> plain (map f l).
  Proof. intros H. induction l; cbn; constructor; auto. apply H. Qed.
  Ltac plain1 := repeat constructor.
  Lemma payout_plain x s st v s' ev : validator_payout cfg x s st v = (s', ev) -> plain ev.
  Proof.
    unfold validator_payout. destruct (default PStaked _).
    - destruct (_ !! st) as [c|]; [|intros H; injection H as _ <-; plain1].
      destruct (_ !! c); [|intros H; injection H as _ <-; plain1].
      destruct (mint_existing _ _ _ _). intros H; injection H as _ <-; plain1.
    - destruct (mint_existing _ _ _ _). intros H; injection H as _ <-; plain1.
    - destruct (_ !! st) as [c|]; [|intros H; injection H as _ <-; plain1].
      destruct (Model_Operation.mint _ _ _ _). intros H; injection H as _ <-; plain1.
    - destruct (Model_Operation.mint _ _ _ _). intros H; injection H as _ <-; plain1.
  Qed.
  Lemma pay_each_plain x pts po : forall vs s t s' t' ev,
    pay_each cfg x pts po vs s t = (s', t', ev) -> plain ev.
  Proof.
    induction vs as [|v vs IH]; intros s t s' t' ev H; cbn [pay_each] in H.
    - injection H as _ _ <-. plain1.
    - destruct (_ =? 0); [now apply IH in H|].
      destruct (validator_payout _ _ _ _ _) as [s1 e1] eqn:E1.
      destruct (pay_each _ _ _ _ _ _ _) as [[s2 t2] e2] eqn:E2 in H. injection H as _ _ <-.
      apply plain_app; [now apply payout_plain in E1|now apply IH in E2].
  Qed.
  Lemma pay_validators_plain x s era s' ev : pay_validators cfg x s era = (s', ev) -> plain ev.
  Proof.
    unfold pay_validators. destruct (_ =? 0); [intros H; injection H as _ <-; plain1|]. cbn zeta.
    destruct (pay_each _ _ _ _ _ _ _) as [[s1 t] e1] eqn:E. intros H. injection H as _ <-.
    now apply pay_each_plain in E.
  Qed.
  Lemma pay_delegator_plain x s d r pool s' p ev : pay_delegator cfg x s d r pool = (s', p, ev) -> plain ev.
  Proof.
    unfold pay_delegator. destruct (_ =? _); [intros H; injection H as _ _ <-; plain1|].
    destruct (kx_reward x d _ _); [destruct (Model_Operation.mint _ _ _ _)|]; intros H; injection H as _ _ <-; plain1.
  Qed.
  Lemma pay_referer_plain s d r pool s' p ev : pay_referer cfg s d r pool = (s', p, ev) -> plain ev.
  Proof.
    unfold pay_referer. destruct (d_ref _ !! d); [|intros H; injection H as _ _ <-; plain1].
    destruct (bonus_rate _); [|intros H; injection H as _ _ <-; plain1].
    destruct (Model_Operation.mint _ _ _ _); intros H; injection H as _ _ <-; plain1.
  Qed.
  Lemma pay_loop_plain x : forall n l s pool last ct s' p' la' c' ev,
    pay_loop cfg x n l s pool last ct = (s', p', la', c', ev) -> plain ev.
  Proof.
    induction n as [|n IH]; intros [|[d r] l] s pool last ct s' p' la' c' ev H; cbn [pay_loop] in H;
      try (injection H as _ _ _ _ <-; plain1; fail).
    destruct (pay_delegator _ _ _ _ _ _) as [[s1 q] e1] eqn:E1. apply pay_delegator_plain in E1.
    destruct (_ =? 0); [now injection H as _ _ _ _ <-|].
    destruct (pay_referer _ _ _ _ _) as [[s2 q2] e2] eqn:E2. apply pay_referer_plain in E2.
    destruct (_ =? 0); [injection H as _ _ _ _ <-; now apply plain_app|].
    destruct (pay_loop _ _ _ _ _ _ _) as [[[[s3 p3] l3] c3] e3] eqn:E3 in H.
    injection H as _ _ _ _ <-. apply IH in E3. repeat apply plain_app; auto.
  Qed.
  Lemma new_era_plain s i s' ev : new_era cfg s i = (s', ev) -> plain ev.
  Proof.
    unfold new_era. cbn zeta. destruct (elect cfg _ _) as [s1 [l|]]; intros H; injection H as _ <-; plain1.
  Qed.
  Lemma new_session_plain s i s' ev : new_session cfg s i = (s', ev) -> plain ev.
  Proof.
    unfold new_session. destruct (e_cur (k_era s)); [|apply new_era_plain].
    destruct (e_force (k_era s)); try apply new_era_plain.
    - destruct (_ <=? _); [apply new_era_plain|intros H; injection H as _ <-; plain1].
    - intros H; injection H as _ <-; plain1.
  Qed.
  Lemma apply_slash_plain x s u s' ev : apply_slash cfg x s u = (s', ev) -> plain ev.
  Proof.
    unfold apply_slash. destruct (do_slash _ _ _ _ _ _) as [[[s1 p1] g1] e1] eqn:E.
    intros H. injection H as _ <-. apply plain_app; [|apply plain_map; auto].
    unfold do_slash in E. destruct (_ !! u_val u) as [c|]; [|injection E as _ _ _ <-; plain1].
    destruct (_ !! c); [|injection E as _ _ _ <-; plain1].
    destruct (slash_ledger _ _ _). destruct (_ =? 0); [injection E as _ _ _ <-; plain1|].
    destruct (cslash _ _ _ _ _) as [[? ?] ?]. injection E as _ _ _ <-; plain1.
  Qed.
  Lemma apply_list_plain x : forall l s s' ev, apply_list cfg x l s = (s', ev) -> plain ev.
  Proof.
    induction l as [|u l IH]; intros s s' ev H; cbn in H; [injection H as _ <-; plain1|].
    destruct (apply_slash cfg x s u) as [s1 e1] eqn:E1.
    destruct (apply_list cfg x l s1) as [s2 e2] eqn:E2. injection H as _ <-.
    apply plain_app; [now apply apply_slash_plain in E1|now apply IH in E2].
  Qed.
  Lemma apply_eras_plain x : forall n era s s' ev, apply_eras cfg x n era s = (s', ev) -> plain ev.
  Proof.
    induction n as [|n IH]; intros era s s' ev H; cbn [apply_eras] in H; [injection H as _ <-; plain1|].
    cbn zeta in H. destruct (apply_list cfg x _ _) as [s1 e1] eqn:E1.
    destruct (apply_eras cfg x n (era + 1) s1) as [s2 e2] eqn:E2. injection H as _ <-.
    apply plain_app; [now apply apply_list_plain in E1|now apply IH in E2].
  Qed.
  Lemma start_session_plain x s i s' ev : start_session cfg x s i = (s', ev) -> plain ev.
  Proof.
    unfold start_session. destruct (e_start _ !! _); [|intros H; injection H as _ <-; plain1].
    destruct (_ <=? _); [|intros H; injection H as _ <-; plain1].
    unfold start_era, apply_unapplied. cbn zeta. destruct (s_first _); [|intros H; injection H as _ <-; plain1].
    destruct (apply_eras _ _ _ _ _) as [s1 e1] eqn:E. intros H. injection H as _ <-. now apply apply_eras_plain in E.
  Qed.
  Lemma compute_slash_plain x s st f ex era w now s' u ev :
    compute_slash x s st f ex era w now = (s', u, ev) -> plainish ev.
  Proof.
    unfold compute_slash. destruct (_ =? 0); [intros H; injection H as _ _ <-; plain1|].
    destruct (_ <=? _); [intros H; injection H as _ _ <-; plain1|].
    destruct (fetch_spans _ _ _). destruct (update_span _ _ _ _ _ _) as [[[[[? ?] ?] ?] ?] t].
    destruct (if bool_decide _ then _ else _) as [[[? ?] ?] ?]. intros H. injection H as _ _ <-.
    destruct t; plain1.
  Qed.
  Lemma offender_plain x era w act s ev o s' ev' :
    offender1 cfg x era w act (s, ev) o = (s', ev') -> plainish ev -> plainish ev'.
  Proof.
    destruct o as [[[st ex] reps] frac]. cbn [offender1]. intros H P.
    destruct (bool_decide _); [now injection H as _ <-|].
    destruct (compute_slash _ _ _ _ _ _ _ _) as [[s1 u] e1] eqn:E1. apply compute_slash_plain in E1.
    destruct u as [u|]; [|injection H as _ <-; now apply plainish_app].
    destruct (_ =? 0); [|injection H as _ <-; now apply plainish_app].
    destruct (apply_slash _ _ _ _) as [s2 e2] eqn:E2. injection H as _ <-. apply apply_slash_plain, plain_ish in E2.
    repeat apply plainish_app; auto.
  Qed.
  Lemma offenders_plain x era w act : forall os s ev s' ev',
    fold_left (offender1 cfg x era w act) os (s, ev) = (s', ev') -> plainish ev -> plainish ev'.
  Proof.
    induction os as [|o os IH]; intros s ev s' ev' H P; cbn [fold_left] in H; [now injection H as _ <-|].
    destruct (offender1 cfg x era w act (s, ev) o) as [s1 e1] eqn:E1.
    apply offender_plain in E1; auto. now apply IH in H.
  Qed.
  Lemma on_offence_plain x s os i s' ev : on_offence cfg x s os i = (s', ev) -> plainish ev.
  Proof.
    unfold on_offence. destruct (e_act _) as [[a b]|]; [|intros H; injection H as _ <-; plain1].
    destruct (slash_era _ _ _); [|intros H; injection H as _ <-; plain1]. cbn zeta.
    intros H. apply offenders_plain in H; auto. constructor.
  Qed.

  Lemma call_plain x s o c s' ev :
    dispatch cfg x s o c = ROk (s', ev) ->
    (forall n, c <> KWithdraw n) -> (forall v, c <> KUnbond v) -> plain ev.
  Proof.
    intros H Nw Nu.
    destruct c; cbn [dispatch] in H; unfold admin, controlled, signed, root, quiet, with_par, with_del, with_stk in H;
      try (now edestruct Nw); try (now edestruct Nu);
      try (destruct o; try discriminate H; []);
      repeat match type of H with rbind (ensure _ _) _ = _ => inv_bind H end;
      try (injection H as _ <-; plain1; fail);
      try (inv_bind H; injection H as _ <-; plain1; fail);
      try (destruct (s_ledger _ !! _); [|discriminate]; injection H as _ <-; plain1; fail).
    - unfold staking_delegate in H. inv_bind H. inv_bind H.
      destruct (kx_level x who); [|discriminate]. inv_bind H.
      destruct (kx_dpr x who !! N.to_nat level); [|discriminate].
      destruct (kx_dpr x who !! N.to_nat n); [|discriminate].
      destruct (transfer_keep _ _ _ _ _); [|discriminate]. inv_bind H. injection H as _ <-. plain1.
    - unfold usdt_delegate in H. inv_bind H. inv_bind H. destruct v as [cur rest].
      destruct (0 <? _); [inv_bind H|]; injection H as _ <-; plain1.
    - destruct (e_cur (k_era s)); injection H as _ <-; plain1.
    - injection H as _ <-. now apply plain_map.
    - unfold compensate in H. inv_bind H. destruct (Model_Operation.mint _ _ _ _). injection H as _ <-. plain1.
    - unfold npow_mint in H. inv_bind H. destruct (Model_Operation.mint _ _ _ _). injection H as _ <-. plain1.
    - unfold validator_burn in H. destruct (s_ledger (k_stk s) !! who) as [l|] eqn:El; [|discriminate].
      cbn zeta in H. destruct (slash_ledger _ _ _). destruct (cslash _ _ _ _ _) as [[? ?] ?]. injection H as _ <-. plain1.
  Qed.
  Lemma step_plain s op s' ev :
    kstep cfg s op = (s', KDone ev) ->
    (forall x o n, op <> KCall x o (KWithdraw n)) -> (forall x o v, op <> KCall x o (KUnbond v)) ->
    plainish ev /\ ((forall x os i, op <> KOffence x os i) -> plain ev).
  Proof.
    intros H Nw Nu.
    cut (match op with KOffence _ _ _ => plainish ev | _ => plain ev end).
    { intros G. destruct op; try (split; [now apply plain_ish|auto]; fail). split; [auto|]. intros F. now edestruct F. }
    destruct op as [x o c|x| |i|x i|x i|a|x os i|b]; cbn [kstep] in H.
    - destruct (dispatch cfg x s o c) as [[s1 ev1]|e|] eqn:E; cbn [settle] in H; try discriminate.
      injection H as _ <-. apply (call_plain _ _ _ _ _ _ E); intros; intros ->; [now eapply Nw|now eapply Nu].
    - unfold on_initialize in H. destruct (0 <? _); [|injection H as _ <-; plain1].
      destruct (_ =? 0).
      + destruct (_ =? 0); [discriminate|]. injection H as _ <-. plain1.
      + destruct (pay_delegators cfg x s) as [s1 ev1] eqn:E. cbn [settle] in H. injection H as _ <-.
        unfold pay_delegators in E. destruct (_ =? 0); [injection E as _ <-; plain1|].
        destruct (pay_loop _ _ _ _ _ _ _) as [[[[s3 p3] l3] c3] e3] eqn:E3.
        injection E as _ <-. now apply pay_loop_plain in E3.
    - injection H as _ <-. plain1.
    - destruct (new_session cfg s i) as [s1 ev1] eqn:E. cbn [settle] in H. injection H as _ <-. now apply new_session_plain in E.
    - destruct (start_session cfg x s i) as [s1 ev1] eqn:E. cbn [settle] in H. injection H as _ <-. now apply start_session_plain in E.
    - destruct (end_session cfg x s i) as [s1 ev1] eqn:E. cbn [settle] in H. injection H as _ <-.
      unfold end_session in E.
      destruct (e_act (k_era s)) as [[i0 st]|]; [|injection E as _ <-; plain1].
      destruct (e_start (k_era s) !! _); [|injection E as _ <-; plain1].
      destruct (_ && _); [|injection E as _ <-; plain1]. now apply pay_validators_plain in E.
    - injection H as _ <-. plain1.
    - destruct (on_offence cfg x s os i) as [s1 ev1] eqn:E. cbn [settle] in H. injection H as _ <-. now apply on_offence_plain in E.
    - injection H as _ <-. plain1.
  Qed.

  (** ** The balance of unbonded and withdrawn money *)
  Definition unbonded_for (E st : N) (tr : list (N * kout)) : N :=
    sum_when (fun era => era + kc_bonding cfg <=? E) (unbonded_ev st) tr.
  Definition withdrawn_till (E st : N) (tr : list (N * kout)) : N :=
    sum_when (fun era => era <=? E) (withdrawn_ev st) tr.
  Lemma sum_when_snoc p f tr e o :
    sum_when p f (tr ++ [(e, o)]) = sum_when p f tr + (if p e then ev_sum f o else 0).
  Proof. unfold sum_when. rewrite map_app, lsum_app. cbn. lia. Qed.

  Definition covered (m : lview) (tr : list (N * kout)) : Prop := forall E st,
    withdrawn_till E st tr <= unbonded_for E st tr /\
    forall c l, v_ledger m !! c = Some l -> l_stash l = st ->
      due E l + withdrawn_till E st tr <= unbonded_for E st tr.

  (** Moves other than unbonding add nothing that could become due. *)
  Lemma lmove_covered m lb m' tr :
    linv m -> lmove ed m lb m' -> covered m tr -> lab_fits m lb ->
    (forall c v era, lb <> LUpd c (HUnbond v era)) -> covered m' tr.
  Proof.
    intros I M C F Nu E st. specialize (C E st). destruct C as [C1 C2]. split; [auto|].
    intros c0 l0 H0 Hst. destruct M as [m st' c v Hb Hl|m c h l Hl Hc|m st' c Hb|m st' c old l Hb Hl Hne Ho]; cbn in *.
    - destruct (decide (c = c0)) as [<-|Hn].
      + rewrite lookup_insert in H0. injection H0 as <-. exact C1.
      + rewrite lookup_insert_ne in H0 by auto. eauto.
    - destruct (decide (c = c0)) as [<-|Hn].
      + rewrite lookup_insert in H0. injection H0 as <-. rewrite change_stash in Hst.
        specialize (C2 c l Hl Hst).
        pose proof (change_due ed E h l (li_sound _ I _ _ Hl) (li_small _ I _ _ Hl)) as D.
        assert (D' : due E (change ed h l) <= due E l); [|lia].
        destruct h; try (now edestruct Nu);
          (etransitivity; [apply D|lia]); intros w Ew; try discriminate Ew. injection Ew as <-. exact F.
      + rewrite lookup_insert_ne in H0 by auto. eauto.
    - apply lookup_delete_Some in H0 as [_ H0]. eauto.
    - destruct l as [l|]; [|eauto]. destruct (decide (c = c0)) as [<-|Hn].
      + rewrite lookup_insert in H0. injection H0 as <-. eauto.
      + rewrite lookup_insert_ne in H0 by auto. apply lookup_delete_Some in H0 as [_ H0]. eauto.
  Qed.
  Lemma covered_more m tr e o :
    covered m tr -> (forall st, ev_sum (withdrawn_ev st) o = 0) -> covered m (tr ++ [(e, o)]).
  Proof.
    intros C H E st. destruct (C E st) as [C1 C2]. unfold withdrawn_till, unbonded_for in *.
    rewrite !sum_when_snoc, H.
    assert (Z : (if e <=? E then 0 else 0) = 0) by now destruct (_ <=? _). rewrite Z. split; [lia|].
    intros c l Hl Hst. specialize (C2 c l Hl Hst). lia.
  Qed.
  Lemma lpath_covered m ls m' tr :
    lpath ed m ls m' -> linv m -> covered m tr ->
    (forall lb, lb ∈ ls -> match lb with LBond _ _ v => v < two128
      | LUpd _ (HRebond v) => v < two128 | LUpd _ (HReward v) => False | LUpd _ (HUnbond _ _) => False
      | _ => True end) -> covered m' tr.
  Proof.
    induction 1 as [|m lb m1 ls m2 M P IH]; intros I C F; [auto|].
    assert (Fl : lab_fits m lb).
    { specialize (F lb (elem_of_list_here _ _)). destruct lb as [|? []| |]; cbn; auto; contradiction. }
    apply IH.
    - eapply lmove_inv; eauto.
    - eapply lmove_covered; eauto. intros c v era ->. exact (F _ (elem_of_list_here _ _)).
    - intros lb' Hin. apply F. now right.
  Qed.
  Lemma lpath_reward_covered r m ls m' tr :
    lpath ed m ls m' -> linv m -> covered m tr ->
    (forall lb, lb ∈ ls -> exists c v, lb = LUpd c (HReward v) /\ v <= r) ->
    (forall c l, v_ledger m !! c = Some l -> l_total l + N.of_nat (length ls) * r < two128) -> covered m' tr.
  Proof.
    induction 1 as [|m lb m1 ls m2 M P IH]; intros I C F B; [auto|].
    destruct (F lb (elem_of_list_here _ _)) as (c & v & -> & Hv). cbn [length] in B.
    assert (Fl : lab_fits m (LUpd c (HReward v))).
    { cbn. intros l Hl. specialize (B c l Hl). nia. }
    apply IH.
    - eapply lmove_inv; eauto.
    - eapply lmove_covered; eauto; discriminate.
    - intros lb' Hin. apply F. now right.
    - inversion M; subst. cbn. intros c' l' H'. destruct (decide (c = c')) as [<-|Hn].
      + rewrite lookup_insert in H'. injection H' as <-. cbn.
        match goal with H : v_ledger m !! c = Some ?l |- _ => specialize (B c l H) end.
        rewrite add128_exact by nia. nia.
      + rewrite lookup_insert_ne in H' by auto. specialize (B c' l' H'). nia.
  Qed.

  Lemma lpath_nil_inv m m' : lpath ed m [] m' -> m' = m.
  Proof. now inversion 1. Qed.
  Lemma lpath_one_inv m lb m' : lpath ed m [lb] m' -> lmove ed m lb m'.
  Proof.
    inversion 1 as [|? ? ? ? ? M P]; subst. apply lpath_nil_inv in P. now subst.
  Qed.
  Lemma kill_inv m st m' : lmove ed m (LKill st) m' ->
    exists c, v_bonded m !! st = Some c /\
      m' = LView (delete st (v_bonded m)) (delete c (v_ledger m)) (delete st (v_lock m)).
  Proof. inversion 1; subst; eauto. Qed.
  Lemma upd_inv m c h m' : lmove ed m (LUpd c h) m' ->
    exists l, v_ledger m !! c = Some l /\ v_ledger m' = <[c := change ed h l]> (v_ledger m).
  Proof. inversion 1; subst; eauto. Qed.
  (** A withdrawal in detail. *)
  Lemma withdraw_cases x s c n s' ev :
    withdraw_unbonded cfg x s c n = ROk (s', ev) -> linv (view s) ->
    exists l l', s_ledger (k_stk s) !! c = Some l /\
      l' = (match e_cur (k_era s) with None => l | Some e => consolidate e l end) /\
      (forall st, lsum (map (withdrawn_ev st) ev) =
         if l_stash l =? st then match e_cur (k_era s) with None => 0 | Some e => due e l end else 0) /\
      ((l_unl l' = [] /\ l_active l <= ed /\ lmove ed (view s) (LKill (l_stash l)) (view s')) \/
       view s' = view (update_ledger cfg x s c l')).
  Proof.
    unfold withdraw_unbonded. intros H I.
    destruct (s_ledger (k_stk s) !! c) as [l|] eqn:El; [|discriminate].
    exists l. eexists. split; [auto|]. split; [reflexivity|].
    set (l' := match e_cur (k_era s) with None => l | Some e => consolidate e l end) in *.
    assert (Ev : ev = if l_total l' <? l_total l then [KWithdrawn (l_stash l) (l_total l - l_total l')] else []).
    { destruct (bool_decide _ && _); [inv_bind H|]; now injection H as _ <-. }
    assert (D : l_total l = l_total l' + match e_cur (k_era s) with None => 0 | Some e => due e l end).
    { unfold l'. destruct (e_cur (k_era s)) as [e|]; [|lia]. apply cons_drop. apply (li_sound _ I c). exact El. }
    split.
    - intros st. rewrite Ev. destruct (N.ltb_spec (l_total l') (l_total l)); cbn; destruct (_ =? st); lia.
    - destruct (bool_decide _ && _) eqn:Ek.
      + left. inv_bind H. injection H as <- _. apply andb_true_iff in Ek as [A B].
        apply bool_decide_eq_true in A. apply N.leb_le in B.
        split; [exact A|]. split; [|now apply unstake_move in E].
        unfold l' in B. destruct (e_cur (k_era s)); exact B.
      + right. now injection H as <- _.
  Qed.

  Lemma step_covered s op s' out tr :
    fits cfg s -> op_typed op -> linv (view s) -> covered (view s) tr ->
    kstep cfg s op = (s', out) -> covered (view s') (tr ++ [(cur_era s, out)]).
  Proof.
    intros Fi Ot I C H. pose proof Fi as (Ty & Ro & Er & _).
    destruct (match op with KCall _ _ (KWithdraw _) => true | _ => false end) eqn:Ew.
    - (* withdrawal *)
      destruct op as [x o c|x| |i|x i|x i|a|x os i|b]; try discriminate. destruct c; try discriminate.
      cbn [kstep dispatch] in H. unfold signed in H. destruct o as [|c|].
      1, 3: (cbn in H; injection H as <- <-; apply covered_more; auto).
      destruct (withdraw_unbonded cfg x s c nspans) as [[s1 ev]|e|] eqn:E; cbn [settle] in H; injection H as <- <-.
      2, 3: apply covered_more; auto.
      apply withdraw_cases in E as (l & l' & Hl & El' & Ev & M); [|exact I].
      intros E st. destruct (C E st) as [C1 C2]. unfold withdrawn_till, unbonded_for in *.
      rewrite !sum_when_snoc. cbn [ev_sum]. rewrite Ev.
      assert (Hd : forall st, l_stash l = st ->
         (if cur_era s <=? E then match e_cur (k_era s) with None => 0 | Some e => due e l end else 0)
           + due E l' <= due E l).
      { intros _ _. rewrite El'. unfold cur_era. destruct (e_cur (k_era s)) as [e|]; cbn [default].
        - destruct (cons_due e E (l_unl l)) as [D1 D2].
          change (due e l) with (due_of e (l_unl l)). change (due E l) with (due_of E (l_unl l)).
          change (due E (consolidate e l)) with (due_of E (List.filter (fun c => e <? c_era c) (l_unl l))).
          cbn. destruct (N.leb_spec e E); [specialize (D2 H)|]; lia.
        - destruct (_ <=? _); lia. }
      assert (W : sum_when (fun era => era <=? E) (withdrawn_ev st) tr +
        (if cur_era s <=? E then if l_stash l =? st then match e_cur (k_era s) with None => 0 | Some e => due e l end else 0 else 0)
        + (if l_stash l =? st then due E l' else 0) <=
        sum_when (fun era => era + kc_bonding cfg <=? E) (unbonded_ev st) tr).
      { destruct (N.eqb_spec (l_stash l) st) as [Es|Es].
        - specialize (C2 c l Hl Es). specialize (Hd st Es). lia.
        - destruct (_ <=? _); lia. }
      split; [lia|]. intros c0 l0 H0 Hst.
      destruct M as [(Hn & _ & M)|M].
      + (* dissolved *)
        apply kill_inv in M as (c1 & Hb & M). rewrite M in H0. cbn in H0.
        apply lookup_delete_Some in H0 as [Hn0 H0]. cbn in Hb.
        assert (Hb' : s_bonded (k_stk s) !! l_stash l = Some c) by apply (li_ledger _ I _ _ Hl).
        assert (c1 = c) by congruence. subst c1.
        destruct (N.eqb_spec (l_stash l) st) as [Es|Es].
        * exfalso. pose proof (li_ledger _ I _ _ H0) as Q. cbn in Q. rewrite Hst, <- Es in Q. congruence.
        * specialize (C2 c0 l0 H0 Hst). destruct (_ <=? _); lia.
      + rewrite M, view_update in H0. cbn in H0. destruct (decide (c = c0)) as [<-|Hn].
        * rewrite lookup_insert in H0. injection H0 as <-.
          assert (Es : l_stash l = st).
          { rewrite <- Hst, El'. now destruct (e_cur (k_era s)). }
          rewrite Es, N.eqb_refl in *. lia.
        * rewrite lookup_insert_ne in H0 by auto. specialize (C2 c0 l0 H0 Hst).
          destruct (N.eqb_spec (l_stash l) st) as [Es|Es]; [|destruct (_ <=? _); lia].
          exfalso. pose proof (li_ledger _ I _ _ H0) as Q1. pose proof (li_ledger _ I _ _ Hl) as Q2.
          rewrite Hst in Q1. rewrite Es in Q2. congruence.
    - destruct (match op with KCall _ _ (KUnbond _) => true | _ => false end) eqn:Eu.
      + (* unbonding *)
        destruct op as [x o c|x| |i|x i|x i|a|x os i|b]; try discriminate. destruct c; try discriminate.
        destruct (step_path cfg _ _ _ _ Ty H) as (ls & P & L & N0). cbn in N0.
        assert (Wz : forall st, ev_sum (withdrawn_ev st) out = 0).
        { intros st. cbn [kstep dispatch] in H. unfold signed in H. destruct o; cbn in H; try (now injection H as _ <-).
          unfold unbond in H. destruct (s_ledger _ !! who); [|now injection H as _ <-].
          destruct (_ <? MAX_CHUNKS); cbn in H; [|now injection H as _ <-].
          destruct (_ =? 0); [now injection H as _ <-|].
          match type of H with context [let '(_, _) := ?e in _] => destruct e end. now injection H as _ <-. }
        destruct ls as [|lb [|]]; [| |cbn in N0; lia].
        * apply lpath_nil_inv in P. rewrite P. now apply covered_more.
        * apply lpath_one_inv in P as M. clear P N0.
          apply Forall_cons in L as [L _].
          destruct lb as [st c w|c h|st|st c]; try (cbn in L;
            repeat match goal with H : exists _, _ |- _ => destruct H as [? H] | H : _ /\ _ |- _ => destruct H
                 | H : _ \/ _ |- _ => destruct H end; discriminate).
          destruct h as [|w|w era|era|w|w|w|w]; try (cbn in L;
            repeat match goal with H : exists _, _ |- _ => destruct H as [? H] | H : _ /\ _ |- _ => destruct H
                 | H : _ \/ _ |- _ => destruct H end; discriminate).
          cbn in L. destruct L as (x0 & v0 & l & Eo & Hl & -> & ->). injection Eo as <- -> <-.
          intros E st. destruct (C E st) as [C1 C2]. unfold withdrawn_till, unbonded_for in *.
          rewrite !sum_when_snoc. rewrite Wz.
          assert (Z : (if cur_era s <=? E then 0 else 0) = 0) by now destruct (_ <=? _). rewrite Z. split; [lia|].
          intros c0 l0 H0 Hst. apply upd_inv in M as (l1 & Hl1 & M). rewrite M in H0. cbn in Hl1. assert (l1 = l) by congruence. subst l1.
          destruct (decide (c = c0)) as [<-|Hn].
          -- rewrite lookup_insert in H0. injection H0 as <-. cbn [l_stash change] in Hst.
             specialize (C2 c l Hl Hst).
             pose proof (change_due ed E (HUnbond w (add32 (cur_era s) (kc_bonding cfg))) l
               (li_sound _ I _ _ Hl) (li_small _ I _ _ Hl) ltac:(discriminate)) as D.
             cbn [change] in D. rewrite add32_exact in D by lia. cbn [ev_sum map lsum unbonded_ev].
             rewrite add32_exact by lia. cbn [l_stash] in *.
             rewrite Hst, N.eqb_refl in *. destruct (cur_era s + kc_bonding cfg <=? E); lia.
          -- rewrite lookup_insert_ne in H0 by auto. specialize (C2 c0 l0 H0 Hst). lia.
      + (* everything else *)
        destruct (step_path cfg _ _ _ _ Ty H) as (ls & P & L & N0). rewrite Forall_forall in L.
        assert (Wz : forall st, ev_sum (withdrawn_ev st) out = 0).
        { intros st. destruct out as [ev| |]; cbn; auto. apply plain_withdrawn.
          refine (proj1 (step_plain _ _ _ _ H _ _)); intros ? ? ? ->; discriminate. }
        apply covered_more; [|exact Wz].
        destruct (match op with KEndSession _ _ => true | _ => false end) eqn:Eo.
        * destruct op; try discriminate. destruct N0 as [i0 N0].
          apply (lpath_reward_covered (p_reward (k_par s)) _ _ _ _ P I C).
          -- intros lb Hin. specialize (L lb Hin).
             destruct lb as [st c v|c []|st|st c]; cbn in L;
             try (repeat match goal with H : exists _, _ |- _ => destruct H as [? H] | H : _ /\ _ |- _ => destruct H
                   | H : _ \/ _ |- _ => destruct H end; discriminate).
             destruct L as [_ L]. eauto.
          -- intros c l Hl. specialize (Ro c l i0 Hl). cbn in Hl. nia.
        * apply (lpath_covered _ _ _ _ P I C). intros lb Hin. specialize (L lb Hin).
          destruct lb as [st c v|c []|st|st c]; cbn in L; auto.
          -- destruct L as (x & v0 & d & -> & -> & _). pose proof (Ty st). lia.
          -- destruct L as (x & v0 & l & -> & _). discriminate.
          -- destruct L as (x & ->). exact Ot.
          -- destruct L as ((x & i & ->) & _). discriminate.
  Qed.

  Lemma run_covered : forall h s tr, sane cfg s h -> linv (view s) -> covered (view s) tr ->
    covered (view (krun cfg s h)) (tr ++ ktrace cfg s h).
  Proof.
    induction h as [|op h IH]; intros s tr [F S] I C; cbn; [now rewrite app_nil_r|]. destruct S as [T S].
    destruct (kstep cfg s op) as [s' out] eqn:E. cbn in *.
    change (tr ++ (cur_era s, out) :: ktrace cfg s' h) with (tr ++ ([(cur_era s, out)] ++ ktrace cfg s' h)).
    rewrite app_assoc. apply IH; [auto| |].
    - eapply step_linv; eauto.
    - eapply step_covered; eauto.
  Qed.
  Lemma genesis_covered b p : covered (view (kgenesis b p)) [].
  Proof. intros E st. split; [reflexivity|]. intros c l H. cbn in H. now rewrite lookup_empty in H. Qed.
End model.
