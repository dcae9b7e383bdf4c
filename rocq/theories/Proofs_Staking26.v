(** When a delegator leaves the books, and what became of the eras not yet paid. *)
From Verif Require Import Base Balances Model_StakingLedger Model_Staking Spec_Staking
  Proofs_Arith Proofs_Chain3 Proofs_Staking Proofs_Staking6 Proofs_Staking8 Proofs_Staking10 Proofs_Staking13.
From stdpp Require Import gmap sorting.
Open Scope N_scope.

(** The date from which [d] is unpaid stays, or [d] leaves in the very era of the date. *)
Definition dated (Q : Prop) (era : N) (k k' : dels) (d : N) : Prop :=
  forall r f, d_recs k !! d = Some r -> dr_since r = Some f ->
    (exists r', d_recs k' !! d = Some r' /\ dr_since r' = Some f) \/ d_recs k' !! d = None /\ f = era /\ Q.
Definition parted (s s' : kstate) : Prop := cur_era s' = cur_era s /\ forall d, dated True (cur_era s) (k_del s) (k_del s') d.
(** Calls by which [d] leaves or is removed. *)
Definition ends (o : origin) (c : kcall) (d : N) : Prop :=
  match c with
  | KUndelegate => o = Signed d
  | KForceUndelegate l => d ∈ l
  | KForceUnstakingDelegate w => w = d
  | _ => False
  end.

Lemma dated_same Q era k k' d : d_recs k' = d_recs k -> dated Q era k k' d.
Proof. intros E r f H1 H2. left. exists r. now rewrite E. Qed.
Lemma dated_trans Q era k k1 k2 d : dated Q era k k1 d -> dated Q era k1 k2 d ->
  (d_recs k1 !! d = None -> d_recs k2 !! d = None) -> dated Q era k k2 d.
Proof. intros A B C r f H1 H2. destruct (A r f H1 H2) as [(r1 & E1 & E2)|[E1 E2]]; [exact (B r1 f E1 E2)|right; auto]. Qed.
Lemma dated_more (Q Q' : Prop) era k k' d : (Q -> Q') -> dated Q era k k' d -> dated Q' era k k' d.
Proof. intros H A r f H1 H2. destruct (A r f H1 H2) as [B|(B & C & E)]; [now left|right; auto]. Qed.
Lemma undelegate_dated era k d d' : dated (d' = d) era k (undelegate era k d') d.
Proof.
  intros r f H1 H2. unfold undelegate. destruct (d_recs k !! d') as [r'|] eqn:Er; [|left; eauto].
  destruct (dr_on r'); [|left; eauto]. destruct (decide (d' = d)) as [->|Hn].
  - rewrite H1 in Er. injection Er as <-. rewrite H2. destruct (N.eqb_spec f era) as [->|].
    + right. split; [|done]. cbn. apply lookup_delete.
    + left. exists (DRec (dr_vals r) (Some f) false). split; [cbn; now rewrite lookup_insert|done].
  - left. exists r. split; [|done]. destruct (dr_since r') as [e|]; [destruct (e =? era)|]; cbn;
      [rewrite lookup_delete_ne by congruence|rewrite lookup_insert_ne by congruence|rewrite lookup_delete_ne by congruence]; exact H1.
Qed.
Lemma undelegate_none era k d d' : d_recs k !! d = None -> d_recs (undelegate era k d') !! d = None.
Proof.
  intros H. unfold undelegate. destruct (d_recs k !! d') as [r'|] eqn:Er; [|done]. assert (Hn : d' <> d) by congruence.
  destruct (dr_on r'); [|done]. destruct (dr_since r') as [e|]; [destruct (e =? era)|]; cbn;
    [rewrite lookup_delete_ne by congruence|rewrite lookup_insert_ne by congruence|rewrite lookup_delete_ne by congruence]; exact H.
Qed.
(** Leaving never adds anybody. *)
Definition thins (k k' : dels) : Prop := forall d, d_recs k !! d = None -> d_recs k' !! d = None.
Definition leaves (s s' : kstate) : Prop := parted s s' /\ thins (k_del s) (k_del s').
Lemma leaves_same s s' : cur_era s' = cur_era s -> d_recs (k_del s') = d_recs (k_del s) -> leaves s s'.
Proof. intros E R. split; [split; [exact E|]|]; intros d; [now apply dated_same|now rewrite R]. Qed.
Lemma leaves_trans s s1 s2 : leaves s s1 -> leaves s1 s2 -> leaves s s2.
Proof.
  intros [[A1 A2] A3] [[B1 B2] B3]. split; [split; [congruence|]|]; intros d.
  - apply dated_trans with (k_del s1); [auto|rewrite <- A1; auto|apply B3].
  - intros H. auto.
Qed.
Lemma undelegate_leaves s d : leaves s (undelegate_in s d).
Proof. split; [split; [done|]|]; intros d'; [eapply dated_more; [|apply undelegate_dated]; done|apply undelegate_none]. Qed.
Lemma fold_leaves {A} (f : kstate -> A -> kstate) l : (forall s a, leaves s (f s a)) -> forall s, leaves s (fold_left f l s).
Proof. intros H. induction l as [|a l IH]; intros s; [now apply leaves_same|]. cbn. eapply leaves_trans; [apply H|apply IH]. Qed.

Section model.
  Context (cfg : kcfg).

  Lemma do_slash_leaves x s st v pay s' pay' got ev :
    do_slash cfg x s st v pay = (s', pay', got, ev) -> leaves s s'.
  Proof.
    unfold do_slash. destruct (_ !! st) as [c|]; [|intros H; injection H as <- _ _ _; now apply leaves_same].
    destruct (_ !! c); [|intros H; injection H as <- _ _ _; now apply leaves_same].
    destruct (slash_ledger _ _ _). destruct (_ =? 0); [intros H; injection H as <- _ _ _; now apply leaves_same|].
    destruct (cslash _ _ _ _ _) as [[? ?] ?]. intros H. injection H as <- _ _ _.
    apply leaves_same; [unfold cur_era; now rewrite update_ledger_era|now rewrite update_ledger_del].
  Qed.
  Lemma apply_slash_leaves x s u s' ev : apply_slash cfg x s u = (s', ev) -> leaves s s'.
  Proof.
    unfold apply_slash. destruct (do_slash _ _ _ _ _ _) as [[[s1 p1] g1] e1] eqn:E. intros H. injection H as <- <-.
    apply leaves_trans with s1; [exact (do_slash_leaves _ _ _ _ _ _ _ _ _ E)|].
    apply leaves_trans with (fold_left (credit_slash x) (u_others u) s1); [|now apply leaves_same].
    apply fold_leaves. intros s2 d. unfold credit_slash. destruct (kx_pass x d); [now apply leaves_same|apply undelegate_leaves].
  Qed.
  Lemma apply_list_leaves x : forall l s s' ev, apply_list cfg x l s = (s', ev) -> leaves s s'.
  Proof.
    induction l as [|u l IH]; intros s s' ev H; cbn in H; [injection H as <- <-; now apply leaves_same|].
    destruct (apply_slash cfg x s u) as [s1 e1] eqn:E1. destruct (apply_list cfg x l s1) as [s2 e2] eqn:E2. injection H as <- <-.
    eapply leaves_trans; [eapply apply_slash_leaves; eauto|eauto].
  Qed.
  Lemma apply_eras_leaves x : forall n era s s' ev, apply_eras cfg x n era s = (s', ev) -> leaves s s'.
  Proof.
    induction n as [|n IH]; intros era s s' ev H; cbn [apply_eras] in H; [injection H as <- <-; now apply leaves_same|].
    cbn zeta in H. destruct (apply_list cfg x _ _) as [s1 e1] eqn:E1.
    destruct (apply_eras cfg x n (era + 1) s1) as [s2 e2] eqn:E2. injection H as <- <-.
    apply apply_list_leaves in E1. eapply leaves_trans; [|eauto]. exact E1.
  Qed.
  Lemma start_session_leaves x s i s' ev : start_session cfg x s i = (s', ev) -> leaves s s'.
  Proof.
    unfold start_session. destruct (e_start _ !! _); [|intros H; injection H as <- <-; now apply leaves_same].
    destruct (_ <=? _); [|intros H; injection H as <- <-; now apply leaves_same].
    unfold start_era, apply_unapplied. cbn zeta. cbn [k_stk set_k_era set_k_stk s_first set_s_in_era].
    destruct (s_first (k_stk s)); [|intros H; injection H as <- <-; now apply leaves_same].
    destruct (apply_eras _ _ _ _ _) as [s1 e1] eqn:E. intros H. injection H as <- <-.
    apply apply_eras_leaves in E. exact E.
  Qed.
  Lemma kick_era x k e st now sp d k' e' sp' d' : kick x k e st now sp d = (k', e', sp', d') -> e_cur e' = e_cur e.
  Proof.
    unfold kick. destruct (end_span now sp). intros H. injection H as _ <- _ _. destruct (kx_disable x st); [|done].
    unfold ensure_new_era. now destruct (e_force e).
  Qed.
  Lemma compute_leaves x s st f ex era w now s' u ev : compute_slash x s st f ex era w now = (s', u, ev) -> leaves s s'.
  Proof.
    assert (cur : forall s k e, e_cur e = e_cur (k_era s) -> leaves s (set_k_era (set_k_stk s k) e)).
    { intros s0 k e E. apply leaves_same; [|done]. unfold cur_era. cbn. now rewrite E. }
    unfold compute_slash. destruct (_ =? 0).
    { intros H. injection H as <- _ <-. unfold kick_out. destruct (fetch_spans _ _ _).
      destruct (era_span _ _); [|now apply leaves_same]. destruct (_ =? _); [|now apply leaves_same].
      destruct (kick _ _ _ _ _ _ _) as [[[? ?] ?] ?] eqn:K. apply cur. exact (kick_era _ _ _ _ _ _ _ _ _ _ _ K). }
    destruct (_ <=? _); [intros H; injection H as <- _ <-; now apply leaves_same|].
    destruct (fetch_spans _ _ _). destruct (update_span _ _ _ _ _ _) as [[[[[? ?] ?] ?] ?] t].
    destruct (if bool_decide _ then _ else _) as [[[? ?] ?] ?] eqn:K. intros H. injection H as <- _ <-. apply cur.
    destruct (bool_decide _); [exact (kick_era _ _ _ _ _ _ _ _ _ _ _ K)|now injection K as _ <- _ _].
  Qed.
  Lemma on_offence_leaves x s os i s' ev : on_offence cfg x s os i = (s', ev) -> leaves s s'.
  Proof.
    unfold on_offence. destruct (e_act (k_era s)) as [[a b]|]; [|intros H; injection H as <- <-; now apply leaves_same].
    destruct (slash_era _ _ _) as [era|]; [|intros H; injection H as <- <-; now apply leaves_same].
    cbn zeta. set (s0 := set_k_stk s _). intros H. apply leaves_trans with s0; [now apply leaves_same|]. clearbody s0.
    revert H. generalize (@nil kev). revert s0 s' ev. induction os as [|o os IH]; intros s0 s' ev ev0 H; cbn [fold_left] in H.
    { injection H as <- <-. now apply leaves_same. }
    destruct (offender1 _ _ _ _ _ _ o) as [s1 e1] eqn:E1 in H. apply leaves_trans with s1; [|eapply IH; exact H].
    clear - E1. destruct o as [[[st0 ex] reps] frac]. cbn [offender1] in E1.
    destruct (bool_decide _); [injection E1 as <- <-; now apply leaves_same|].
    destruct (compute_slash _ _ _ _ _ _ _ _) as [[s3 u] e3] eqn:E3. apply compute_leaves in E3.
    destruct u as [u|]; [|injection E1 as <- <-; exact E3].
    destruct (_ =? 0).
    - destruct (apply_slash _ _ _ _) as [s4 e4] eqn:E4. injection E1 as <- <-. apply apply_slash_leaves in E4. eapply leaves_trans; eauto.
    - injection E1 as <- <-. exact E3.
  Qed.
  Lemma new_session_recs s i s' ev : new_session cfg s i = (s', ev) -> d_recs (k_del s') = d_recs (k_del s).
  Proof.
    assert (G : forall s0, k_del s0 = k_del s -> new_era cfg s0 i = (s', ev) -> d_recs (k_del s') = d_recs (k_del s)).
    { intros s0 <- H. unfold new_era in H. cbn zeta in H. set (e2 := if _ <=? _ then _ else _) in H.
      set (er := match e_cur _ with Some e => _ | None => 0 end) in *.
      destruct (elect cfg (set_k_era s0 e2) er) as [s1 o] eqn:E.
      assert (K : d_recs (k_del s1) = d_recs (k_del s0)).
      { unfold elect in E. cbn zeta in E. destruct (_ <? _); [now injection E as <- _|]. now injection E as <- _. }
      destruct o as [l|]; injection H as <- <-; exact K. }
    unfold new_session. destruct (e_cur (k_era s)); [|now apply G].
    destruct (e_force (k_era s)).
    - destruct (_ <=? _); [now apply G|intros H; now injection H as <- <-].
    - now apply G.
    - intros H; now injection H as <- <-.
    - now apply G.
  Qed.
  Lemma end_session_recs x s i s' ev : end_session cfg x s i = (s', ev) -> d_recs (k_del s') = d_recs (k_del s).
  Proof.
    unfold end_session. destruct (e_act (k_era s)) as [[i0 st]|]; [|intros H; now injection H as <- <-].
    destruct (e_start _ !! _); [|intros H; now injection H as <- <-].
    destruct (_ && _); [|intros H; now injection H as <- <-].
    unfold pay_validators. destruct (_ =? 0); [intros H; now injection H as <- <-|]. cbn zeta.
    destruct (pay_each _ _ _ _ _ _ _) as [[s1 t] e1] eqn:E. intros H. injection H as <- <-.
    apply pay_each_del in E as [A B]. cbn. now rewrite A.
  Qed.

  (** Joining keeps the date. *)
  Lemma do_delegate_dated Q era x k w vs k' d : do_delegate x k w vs = ROk k' -> dated Q era k k' d.
  Proof.
    unfold do_delegate. intros E. inv_bind E. injection E as <-. intros r f H1 H2. left. cbn [d_recs set_d_cand].
    destruct (decide (w = d)) as [->|Hn].
    - rewrite H1. exists (DRec vs (Some (default (kx_era x) (dr_since r))) true).
      replace (d_recs _) with (<[d:=DRec vs (Some (default (kx_era x) (dr_since r))) true]> (d_recs k)) by now destruct (dr_on r).
      split; [now rewrite lookup_insert|]. cbn. now rewrite H2.
    - exists r. split; [|done]. destruct (d_recs k !! w) as [r0|] eqn:Er; [destruct (dr_on r0)|]; cbn; rewrite lookup_insert_ne by congruence; exact H1.
  Qed.
  Lemma delegate_any_dated Q era x s w k' d : delegate_any cfg x s w = ROk k' -> dated Q era (k_del s) k' d.
  Proof. unfold delegate_any. intros E. inv_bind E. destruct (_ !! _); [|discriminate]. now apply do_delegate_dated with x w [n]. Qed.
  Lemma call_dated x s o c s' ev d : dispatch cfg x s o c = ROk (s', ev) -> dated (ends o c d) (cur_era s) (k_del s) (k_del s') d.
  Proof.
    intros H.
    assert (stk : forall Q s1, k_del s1 = k_del s -> dated Q (cur_era s) (k_del s) (k_del s1) d).
    { intros Q s1 E. apply dated_same. now rewrite E. }
    assert (kill : forall st0 n s1, unstake cfg x s st0 n = ROk s1 -> k_del s1 = k_del s).
    { intros st0 n s1 E. unfold unstake in E. inv_bind E. now injection E as <-. }
    destruct c; cbn [dispatch] in H; unfold admin, controlled, signed, root, quiet, with_par, with_del, with_stk in H;
      try (destruct o; try discriminate H; []);
      repeat match type of H with rbind (ensure _ _) _ = _ => inv_bind H end;
      try (injection H as <- <-; now apply dated_same);
      try (destruct (s_ledger _ !! _); [|discriminate]; injection H as <- <-; now apply dated_same).
    - unfold staking_delegate in H. inv_bind H. inv_bind H.
      destruct (kx_level x who); [|discriminate]. inv_bind H.
      destruct (kx_dpr x who !! N.to_nat level); [|discriminate].
      destruct (kx_dpr x who !! N.to_nat n); [|discriminate].
      destruct (transfer_keep _ _ _ _ _); [|discriminate]. inv_bind H.
      injection H as <- <-. exact (delegate_any_dated _ _ _ _ _ _ _ E3).
    - unfold usdt_delegate in H. inv_bind H. inv_bind H. destruct v as [cur rest].
      destruct (0 <? _); [inv_bind H|]; injection H as <- <-; [|now apply dated_same].
      exact (delegate_any_dated _ _ _ _ _ _ _ E2).
    - inv_bind H. injection H as <- <-. apply stk. unfold bond in E.
      repeat match type of E with rbind (ensure _ _) _ = _ => inv_bind E end.
      injection E as <-. now rewrite update_ledger_del.
    - inv_bind H. injection H as <- <-. apply stk. unfold bond_extra in E.
      destruct (s_bonded (k_stk s) !! who) as [c|]; [|discriminate].
      destruct (s_ledger (k_stk s) !! c) as [l|]; [|discriminate].
      destruct (_ <? _); [now injection E as <-|].
      inv_bind E. injection E as <-. now rewrite update_ledger_del.
    - unfold unbond in H. destruct (s_ledger (k_stk s) !! who) as [l|]; [|discriminate].
      inv_bind H. destruct (_ =? 0); [injection H as <- <-; now apply dated_same|].
      match type of H with context [let '(_, _) := ?e in _] => destruct e end. injection H as <- <-.
      apply stk. now rewrite update_ledger_del.
    - unfold withdraw_unbonded in H. destruct (s_ledger (k_stk s) !! who) as [l0|]; [|discriminate].
      destruct (bool_decide _ && _) in H.
      + inv_bind H. injection H as <- <-. apply stk. exact (kill _ _ _ E).
      + injection H as <- <-. apply stk. now rewrite update_ledger_del.
    - inv_bind H. injection H as <- <-. now apply dated_same.
    - inv_bind H. injection H as <- <-. apply stk. eauto.
    - inv_bind H. injection H as <- <-. now apply dated_same.
    - inv_bind H. injection H as <- <-. apply stk. unfold do_rebond in E.
      destruct (s_ledger (k_stk s) !! who) as [l|]; [|discriminate].
      inv_bind E. inv_bind E. injection E as <-. now rewrite update_ledger_del.
    - destruct (e_cur (k_era s)); injection H as <- <-; now apply dated_same.
    - inv_bind H. injection H as <- <-. apply stk. eauto.
    - inv_bind H. injection H as <- <-. unfold delegate in E. repeat match type of E with rbind (ensure _ _) _ = _ => inv_bind E end.
      exact (do_delegate_dated _ _ _ _ _ _ _ _ E).
    - injection H as <- <-. eapply dated_more; [|apply undelegate_dated]. cbn. congruence.
    - injection H as <- <-. cbn [ends]. clear stk kill. revert s; induction l as [|a l IH]; intros s; [now apply dated_same|]. cbn [fold_left].
      apply dated_trans with (k_del (undelegate_in s a)); [eapply dated_more; [|apply undelegate_dated]; intros ->; left| |].
      + eapply dated_more; [|exact (IH (undelegate_in s a))]. now right.
      + apply (proj2 (fold_leaves undelegate_in l (fun s a => undelegate_leaves s a) (undelegate_in s a))).
    - unfold compensate in H. inv_bind H. destruct (Model_Operation.mint _ _ _ _). injection H as <- <-. now apply dated_same.
    - inv_bind H. injection H as <- <-. apply dated_same.
      match goal with X : set_referer _ _ _ = _ |- _ => unfold set_referer in X; inv_bind X; now injection X as <- end.
    - injection H as <- <-. apply dated_same. cbn. unfold unset_referer. now destruct (d_ref _ !! _).
    - unfold npow_mint in H. inv_bind H. destruct (Model_Operation.mint _ _ _ _). injection H as <- <-. now apply dated_same.
    - unfold validator_burn in H. destruct (s_ledger (k_stk s) !! who) as [l|]; [|discriminate].
      cbn zeta in H. destruct (slash_ledger v (kc_ed cfg) l) as [l' am].
      destruct (cslash _ _ _ _ _) as [[b g] m]. injection H as <- <-. apply stk. now rewrite update_ledger_del.
    - injection H as <- <-. eapply dated_more; [|apply undelegate_dated]. done.
  Qed.

  (** A round of payments. *)
  Lemma path_paid y d ls k k' : dpath k ls k' -> Forall (dlab_ok (Some y, KdInit)) ls ->
    (d_recs k !! d = None -> d_recs k' !! d = None /\ asks d (concat (map lab_asks ls)) = []) /\
    forall r, d_recs k !! d = Some r ->
      d_recs k' !! d = Some r /\ asks d (concat (map lab_asks ls)) = [] \/
      default (kx_era y) (dr_since r) <> kx_era y /\
      asks d (concat (map lab_asks ls)) = [(default (kx_era y) (dr_since r), sub32 (kx_era y) 1)] /\
      d_recs k' !! d = if dr_on r then Some (DRec (dr_vals r) (Some (kx_era y)) true) else None.
  Proof.
    intros P F. induction P as [k|k l k1 ls k' M P IH]; [split; [done|]; intros r H; now left|].
    apply Forall_cons in F as [F1 F2]. specialize (IH F2). cbn [map concat]. rewrite asks_app.
    assert (same : d_recs k1 !! d = d_recs k !! d -> asks d (lab_asks l) = [] ->
      (d_recs k !! d = None -> d_recs k' !! d = None /\ asks d (lab_asks l) ++ asks d (concat (map lab_asks ls)) = []) /\
      forall r, d_recs k !! d = Some r -> d_recs k' !! d = Some r /\ asks d (lab_asks l) ++ asks d (concat (map lab_asks ls)) = [] \/
        default (kx_era y) (dr_since r) <> kx_era y /\
        asks d (lab_asks l) ++ asks d (concat (map lab_asks ls)) = [(default (kx_era y) (dr_since r), sub32 (kx_era y) 1)] /\
        d_recs k' !! d = if dr_on r then Some (DRec (dr_vals r) (Some (kx_era y)) true) else None).
    { intros E A. rewrite <- E, A. exact IH. }
    destruct IH as [IH1 IH2].
    destruct M as [k k1 E1 E2|k k1 E1 E2|k k1 E1 E2|k z d0 vs k1 E|k era d0|k z d0 r0 o E1 E2|k who ref k1 E|k who];
      try (apply same; [now rewrite E1|done]); try discriminate F1.
    - injection F1 as <-. destruct (decide (d0 = d)) as [->|Hn].
      + split; [congruence|]. intros r Hr. rewrite E1 in Hr. injection Hr as ->. right. split; [exact E2|].
        assert (A : asks d (lab_asks (DPaid y d r o)) = [(default (kx_era y) (dr_since r), sub32 (kx_era y) 1)]).
        { unfold asks. cbn. rewrite N.eqb_refl. now destruct o. }
        rewrite A. unfold paid_rec in *. destruct (dr_on r) eqn:On; cbn [d_recs set_d_recs set_d_count] in *.
        * destruct (IH2 _ (lookup_insert _ _ _)) as [[B C]|(B & _)]; [now rewrite C|now cbn in B].
        * destruct (IH1 (lookup_delete _ _)) as [B C]. now rewrite C.
      + apply same.
        * unfold paid_rec. destruct (dr_on r0); cbn; [apply lookup_insert_ne|apply lookup_delete_ne]; congruence.
        * unfold asks. cbn. rewrite (proj2 (N.eqb_neq d0 d) Hn). now destruct o.
    - apply same; [|done]. unfold set_referer in E. inv_bind E. now injection E as <-.
    - apply same; [|done]. unfold unset_referer. now destruct (d_ref k !! who).
  Qed.

  (** Every step. *)
  Definition parts (op : kop) (d : N) : Prop :=
    match op with KCall _ o c => ends o c d | KStartSession _ _ | KOffence _ _ _ => True | _ => False end.
  Lemma step_dated s op s' out d r f :
    kstep cfg s op = (s', out) -> d_recs (k_del s) !! d = Some r -> dr_since r = Some f ->
    (exists r', d_recs (k_del s') !! d = Some r' /\ dr_since r' = Some f /\ asks d (events [out]) = []) \/
    (d_recs (k_del s') !! d = None /\ f = cur_era s /\ parts op d /\ asks d (events [out]) = []) \/
    exists y, op = KInit y /\ f <> kx_era y /\ asks d (events [out]) = [(f, sub32 (kx_era y) 1)] /\
      d_recs (k_del s') !! d = if dr_on r then Some (DRec (dr_vals r) (Some (kx_era y)) true) else None.
  Proof.
    intros H Hr Hf.
    assert (I : (exists y, op = KInit y) \/ forall y, op <> KInit y) by (destruct op; eauto; right; discriminate).
    destruct I as [[x ->]|Hn].
    { pose proof (step_del cfg s (KInit x) s' out H) as (ls & P & F & A & _). cbn [ctx_of kind_of] in F. rewrite <- asks_part, A.
      destruct (path_paid x d ls _ _ P F) as [_ B]. destruct (B r Hr) as [[C1 C2]|(C & D1 & D2)]; [left; eauto|]. right. right.
      exists x. split; [done|]. rewrite Hf in *. auto. }
    assert (Q : asks d (events [out]) = []) by (apply (step_quiet cfg s op s' out d) in H; [now destruct H|exact Hn]). rewrite Q.
    enough (G : dated (parts op d) (cur_era s) (k_del s) (k_del s') d).
    { destruct (G r f Hr Hf) as [(r' & A1 & A2)|(A1 & A2 & A3)]; [left; eauto|right; left; auto]. }
    clear Q. destruct op as [x o c|x| |i|x i|x i|a|x os i|b]; cbn [kstep] in H.
    - destruct (dispatch cfg x s o c) as [[s1 e1]|e|] eqn:E; cbn [settle] in H; injection H as <- <-; [|now apply dated_same|now apply dated_same].
      exact (call_dated _ _ _ _ _ _ d E).
    - now destruct (Hn x).
    - injection H as <- <-. apply dated_same. unfold on_finalize. now destruct (e_act _) as [[? []]|].
    - unfold settle in H. destruct (new_session cfg s i) as [s1 e1] eqn:E. injection H as <- <-. apply dated_same. exact (new_session_recs _ _ _ _ E).
    - unfold settle in H. destruct (start_session cfg x s i) as [s1 e1] eqn:E. injection H as <- <-. apply start_session_leaves in E as [[_ E] _]. apply E.
    - unfold settle in H. destruct (end_session cfg x s i) as [s1 e1] eqn:E. injection H as <- <-. apply dated_same. exact (end_session_recs _ _ _ _ _ E).
    - injection H as <- <-. apply dated_same. unfold note_author. destruct (e_act _) as [[? ?]|]; [|done]. now destruct (default _ _).
    - unfold settle in H. destruct (on_offence cfg x s os i) as [s1 e1] eqn:E. injection H as <- <-. apply on_offence_leaves in E as [[_ E] _]. apply E.
    - injection H as <- <-. now apply dated_same.
  Qed.
End model.
