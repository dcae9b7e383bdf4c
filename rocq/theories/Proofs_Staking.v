(** Every step of the staking pallet changes stashes, ledgers and locks only by a
    sequence of labelled moves. *)
From Verif Require Import Base Balances Model_StakingLedger Model_Staking Spec_Staking
  Proofs_Arith Proofs_StakingLedger.
From Verif Require Proofs_Adsc3.
From stdpp Require Import gmap.
Open Scope N_scope.

Lemma rbind_ok {E A B} (x : res E A) (f : A -> res E B) b :
  rbind x f = ROk b -> exists a, x = ROk a /\ f a = ROk b.
Proof. destruct x; cbn; intros H; try discriminate. eauto. Qed.
Lemma ensure_ok {E} (b : bool) (e : E) u : ensure b e = ROk u -> b = true.
Proof. unfold ensure. now destruct b. Qed.
Ltac inv_bind H :=
  let a := fresh "v" in let E := fresh "E" in
  apply rbind_ok in H as (a & E & H);
  first [apply ensure_ok in E; clear a | idtac].

(** What matters of the state here. *)
Record lview := LView { v_bonded : gmap N N; v_ledger : gmap N ledger; v_lock : gmap N N }.
Definition view (s : kstate) : lview :=
  LView (s_bonded (k_stk s)) (s_ledger (k_stk s)) (s_lock (k_stk s)).
Definition viewk (k : stk) : lview := LView (s_bonded k) (s_ledger k) (s_lock k).

(** How a ledger changes. *)
Inductive how := HSame | HExtra (v : N) | HUnbond (v era : N) | HCons (era : N)
  | HRebond (v : N) | HSlash (v : N) | HBurn (v : N) | HReward (v : N).
Definition change (ed : N) (h : how) (l : ledger) : ledger :=
  match h with
  | HSame => l
  | HExtra v | HReward v =>
      Ledger (l_stash l) (add128 (l_total l) v) (add128 (l_active l) v) (l_unl l)
  | HUnbond v era => Ledger (l_stash l) (l_total l) (l_active l - v) (l_unl l ++ [Chunk v era])
  | HCons era => consolidate era l
  | HRebond v => rebond v l
  | HSlash v | HBurn v => (slash_ledger v ed l).1
  end.
Definition change_ok (h : how) (l : ledger) : Prop :=
  match h with
  | HExtra v => l_total l + v < two128
  | HUnbond v _ => v <= l_active l
  | _ => True
  end.
Definition set_lock_of (m : gmap N N) (st v : N) : gmap N N :=
  if v =? 0 then m else <[st := v]> m.

Inductive lab := LBond (st c v : N) | LUpd (c : N) (h : how) | LKill (st : N) | LCtrl (st c : N).

(** One move. *)
Inductive lmove (ed : N) : lview -> lab -> lview -> Prop :=
| LM_bond m st c v :
    v_bonded m !! st = None -> v_ledger m !! c = None ->
    lmove ed m (LBond st c v)
      (LView (<[st := c]> (v_bonded m)) (<[c := Ledger st v v []]> (v_ledger m))
             (set_lock_of (v_lock m) st v))
| LM_upd m c h l :
    v_ledger m !! c = Some l -> change_ok h l ->
    lmove ed m (LUpd c h)
      (LView (v_bonded m) (<[c := change ed h l]> (v_ledger m))
             (set_lock_of (match h with HBurn _ => delete (l_stash l) (v_lock m) | _ => v_lock m end)
                          (l_stash l) (l_total (change ed h l))))
| LM_kill m st c :
    v_bonded m !! st = Some c ->
    lmove ed m (LKill st)
      (LView (delete st (v_bonded m)) (delete c (v_ledger m)) (delete st (v_lock m)))
| LM_ctrl m st c old l :
    v_bonded m !! st = Some old -> v_ledger m !! c = None -> c <> old -> v_ledger m !! old = l ->
    lmove ed m (LCtrl st c)
      (LView (<[st := c]> (v_bonded m))
             (match l with Some l => <[c := l]> (delete old (v_ledger m)) | None => v_ledger m end)
             (v_lock m)).

Inductive lpath (ed : N) : lview -> list lab -> lview -> Prop :=
| LP_nil m : lpath ed m [] m
| LP_cons m lb m1 ls m2 : lmove ed m lb m1 -> lpath ed m1 ls m2 -> lpath ed m (lb :: ls) m2.
Lemma lpath_one ed m lb m1 : lmove ed m lb m1 -> lpath ed m [lb] m1.
Proof. intros H. econstructor; [exact H|constructor]. Qed.
Lemma lpath_app ed m l1 m1 l2 m2 : lpath ed m l1 m1 -> lpath ed m1 l2 m2 -> lpath ed m (l1 ++ l2) m2.
Proof. induction 1; cbn; auto. intros. econstructor; eauto. Qed.

Lemma change_stash ed h l : l_stash (change ed h l) = l_stash l.
Proof.
  destruct h; cbn; auto.
  - unfold rebond. now destruct (rebond_rev _ _ _ _).
  - unfold slash_ledger. destruct (slash_out_of _ _ _ _) as [[? ?] ?]. now destruct (slash_chunks _ _ _ _).
  - unfold slash_ledger. destruct (slash_out_of _ _ _ _) as [[? ?] ?]. now destruct (slash_chunks _ _ _ _).
Qed.

(** Which operation may cause which move. *)
Section model.
  Context (cfg : kcfg).
  Local Notation ed := (kc_ed cfg).

  Definition lab_ok (s : kstate) (op : kop) (out : kout) (lb : lab) : Prop :=
    match lb with
    | LBond st c v => exists x v0 d, op = KCall x (Signed st) (KBond c v0 d) /\
                        v = N.min v0 (free_of (k_bank s) st) /\ p_ed (k_par s) <= v0
    | LUpd c HSame => exists x n, op = KCall x (Signed c) (KWithdraw n) /\ e_cur (k_era s) = None
    | LUpd c (HExtra v) => exists x st v0, op = KCall x (Signed st) (KBondExtra v0) /\
                        s_bonded (k_stk s) !! st = Some c /\ v <= v0
    | LUpd c (HUnbond v era) => exists x v0 l, op = KCall x (Signed c) (KUnbond v0) /\
                        s_ledger (k_stk s) !! c = Some l /\
                        era = add32 (cur_era s) (kc_bonding cfg) /\ out = KDone [KUnbonded (l_stash l) v]
    | LUpd c (HCons era) => exists x n, op = KCall x (Signed c) (KWithdraw n) /\ e_cur (k_era s) = Some era
    | LUpd c (HRebond v) => exists x, op = KCall x (Signed c) (KRebond v)
    | LUpd c (HBurn v) => exists x, op = KCall x (Signed c) (KBurnStake v)
    | LUpd c (HReward v) => (exists x i, op = KEndSession x i) /\ v <= p_reward (k_par s)
    | LUpd c (HSlash v) => (exists x i, op = KStartSession x i) \/
                           (exists x os i, op = KOffence x os i /\ kc_defer cfg = 0)
    | LCtrl st c => exists x, op = KCall x (Signed st) (KSetController c)
    | LKill st =>
        (exists x n, op = KCall x Root (KForceUnstake st n)) \/
        (exists x o n, op = KCall x o (KReap st n) /\
           free (acct_of (k_bank s) st) + rsv (acct_of (k_bank s) st) = ed) \/
        (exists x c n l, op = KCall x (Signed c) (KWithdraw n) /\ s_ledger (k_stk s) !! c = Some l /\
           l_stash l = st /\ l_active l <= ed /\
           (forall ch, ch ∈ l_unl l -> exists e, e_cur (k_era s) = Some e /\ c_era ch <= e))
    end.

  (** How many moves an operation makes. *)
  Definition len_ok (s : kstate) (op : kop) (ls : list lab) : Prop :=
    match op with
    | KCall _ _ _ => (length ls <= 1)%nat
    | KStartSession _ _ | KOffence _ _ _ => True
    | KEndSession _ _ => exists i, (length ls <= length (default [] (e_vals (k_era s) !! i)))%nat
    | _ => ls = []
    end.

  (** ** The moves of the parts *)
  Lemma view_set_lock x s st v :
    view (set_lock cfg x s st v) =
    LView (s_bonded (k_stk s)) (s_ledger (k_stk s)) (set_lock_of (s_lock (k_stk s)) st v).
  Proof. unfold set_lock, set_lock_of. now destruct (v =? 0). Qed.
  Lemma view_update x s c l :
    view (update_ledger cfg x s c l) =
    LView (s_bonded (k_stk s)) (<[c := l]> (s_ledger (k_stk s)))
          (set_lock_of (s_lock (k_stk s)) (l_stash l) (l_total l)).
  Proof. unfold update_ledger, view, set_lock, set_lock_of. now destruct (l_total l =? 0). Qed.

  Lemma update_move x s c h l b :
    s_ledger (k_stk s) !! c = Some l -> change_ok h l -> (forall v, h <> HBurn v) ->
    lmove ed (view s) (LUpd c h) (view (update_ledger cfg x (set_k_bank s b) c (change ed h l))).
  Proof.
    intros Hl Hc Hb. rewrite view_update, change_stash.
    replace (set_lock_of (s_lock (k_stk (set_k_bank s b))) (l_stash l) (l_total (change ed h l)))
      with (set_lock_of (match h with HBurn _ => delete (l_stash l) (v_lock (view s)) | _ => v_lock (view s) end)
                        (l_stash l) (l_total (change ed h l)))
      by (destruct h; try reflexivity; now edestruct Hb).
    exact (LM_upd ed (view s) c h l Hl Hc).
  Qed.
  Lemma update_move0 x s c h l :
    s_ledger (k_stk s) !! c = Some l -> change_ok h l -> (forall v, h <> HBurn v) ->
    lmove ed (view s) (LUpd c h) (view (update_ledger cfg x s c (change ed h l))).
  Proof.
    intros A B C. pose proof (update_move x s c h l (k_bank s) A B C) as M. now destruct s.
  Qed.

  Lemma clear_stash_view k st n k' : clear_stash k st n = ROk k' -> viewk k' = viewk k.
  Proof.
    unfold clear_stash. destruct (s_spans k !! st); intros H.
    - inv_bind H. now injection H as <-.
    - now injection H as <-.
  Qed.
  Lemma unstake_move x s st n s' :
    unstake cfg x s st n = ROk s' -> lmove ed (view s) (LKill st) (view s').
  Proof.
    unfold unstake, kill_stash. intros H. inv_bind H.
    destruct (s_bonded (k_stk s) !! st) as [c|] eqn:Eb; [|discriminate].
    inv_bind E. injection E as <-. injection H as <-.
    apply clear_stash_view in E0. unfold viewk in E0. injection E0 as E1 E2 E3.
    unfold view, remove_lock. cbn. rewrite E1, E2, E3.
    exact (LM_kill ed (view s) st c Eb).
  Qed.

  (** Functions that leave stashes, ledgers and locks alone. *)
  Lemma undelegate_fold_view l : forall s, view (fold_left undelegate_in l s) = view s.
  Proof. induction l; intros s; cbn; auto. now rewrite IHl. Qed.
  Lemma credit_fold_stk x l : forall s, k_stk (fold_left (credit_slash x) l s) = k_stk s.
  Proof.
    induction l; intros s; cbn; auto. rewrite IHl. unfold credit_slash. now destruct (kx_pass x a).
  Qed.
  Lemma pay_delegator_stk x s d r pool s' p ev :
    pay_delegator cfg x s d r pool = (s', p, ev) -> k_stk s' = k_stk s.
  Proof.
    unfold pay_delegator. destruct (_ =? _); [congruence|].
    destruct (kx_reward x d _ _); [destruct (Model_Operation.mint _ _ _ _)|]; intros H; now injection H as <-.
  Qed.
  Lemma pay_referer_stk s d r pool s' p ev :
    pay_referer cfg s d r pool = (s', p, ev) -> k_stk s' = k_stk s.
  Proof.
    unfold pay_referer. destruct (d_ref _ !! d); [|congruence].
    destruct (bonus_rate _); [|congruence].
    destruct (Model_Operation.mint _ _ _ _); intros H; now injection H as <-.
  Qed.
  Lemma pay_loop_stk x : forall n l s pool last ct s' p' la' c' ev,
    pay_loop cfg x n l s pool last ct = (s', p', la', c', ev) -> k_stk s' = k_stk s.
  Proof.
    induction n as [|n IH]; intros [|[d r] l] s pool last ct s' p' la' c' ev H; cbn [pay_loop] in H;
      try (now injection H as <-).
    destruct (pay_delegator cfg x s d r pool) as [[s1 q] e1] eqn:E1. apply pay_delegator_stk in E1.
    destruct (_ =? 0); [now injection H as <-|].
    destruct (pay_referer cfg s1 d q _) as [[s2 q2] e2] eqn:E2. apply pay_referer_stk in E2.
    destruct (_ =? 0); [injection H as <-; congruence|].
    destruct (pay_loop _ _ _ _ _ _ _) as [[[[s3 p3] l3] c3] e3] eqn:E3 in H.
    injection H as <-. apply IH in E3. congruence.
  Qed.
  Lemma pay_delegators_stk x s s' ev : pay_delegators cfg x s = (s', ev) -> k_stk s' = k_stk s.
  Proof.
    unfold pay_delegators. destruct (_ =? 0); [congruence|].
    destruct (pay_loop _ _ _ _ _ _ _) as [[[[s3 p3] l3] c3] e3] eqn:E3.
    intros H. injection H as <-. now apply pay_loop_stk in E3.
  Qed.
  Lemma elect_stk s era s' o : elect cfg s era = (s', o) -> k_stk s' = k_stk s.
  Proof.
    unfold elect. destruct (_ <? _); [congruence|]. cbn zeta. intros H. now injection H as <- _.
  Qed.
  Lemma new_era_stk s i s' ev : new_era cfg s i = (s', ev) -> k_stk s' = k_stk s.
  Proof.
    unfold new_era. cbn zeta.
    destruct (elect cfg _ _) as [s1 [l|]] eqn:E; apply elect_stk in E; intros H; injection H as <- _; auto.
  Qed.
  Lemma new_session_stk s i s' ev : new_session cfg s i = (s', ev) -> k_stk s' = k_stk s.
  Proof.
    unfold new_session. destruct (e_cur (k_era s)); [|apply new_era_stk].
    destruct (e_force (k_era s)).
    - destruct (_ <=? _); [apply new_era_stk|congruence].
    - intros H. now apply new_era_stk in H.
    - congruence.
    - apply new_era_stk.
  Qed.

  (** Computing a slash changes none of these either. *)
  Lemma fetch_view k st w k' sp : fetch_spans k st w = (k', sp) -> viewk k' = viewk k.
  Proof. unfold fetch_spans. destruct (s_spans k !! st); intros H; now injection H as <-. Qed.
  Lemma close_view k st w d sp : viewk (close_spans k st w d sp) = viewk k.
  Proof. unfold close_spans. destruct d; [|auto]. now destruct (prune w sp) as [? [[? ?]|]]. Qed.
  Lemma update_span_view k st sp f era own k1 sp1 d df rw t :
    update_span k st sp f era own = (k1, sp1, d, df, rw, t) -> viewk k1 = viewk k.
  Proof.
    unfold update_span. destruct (era_span sp era) as [t0|]; [|congruence].
    destruct (default _ _) as [sl pd]. cbn zeta.
    destruct (sl <? own).
    - cbn [orb]. intros H. now injection H as <-.
    - destruct (sl =? own); cbn [orb]; destruct (negb _); intros H; now injection H as <-.
  Qed.
  Lemma kick_view x k e st now sp d k' e' sp' d' :
    kick x k e st now sp d = (k', e', sp', d') -> viewk k' = viewk k.
  Proof. unfold kick. destruct (end_span now sp). intros H. now injection H as <-. Qed.
  Lemma kick_out_view x s st era w now : view (kick_out x s st era w now) = view s.
  Proof.
    unfold kick_out. destruct (fetch_spans (k_stk s) st w) as [k0 sp] eqn:E. apply fetch_view in E.
    assert (F : view (set_k_stk s k0) = view s) by exact E.
    destruct (era_span sp era); [|auto]. destruct (_ =? _); [|auto].
    destruct (kick x k0 (k_era s) st now sp false) as [[[k1 e1] sp1] d] eqn:E1. apply kick_view in E1.
    change (viewk (close_spans k1 st w d sp1) = viewk (k_stk s)). rewrite close_view. congruence.
  Qed.
  Lemma compute_slash_view x s st f ex era w now s' u ev :
    compute_slash x s st f ex era w now = (s', u, ev) -> view s' = view s.
  Proof.
    unfold compute_slash. destruct (_ =? 0); [intros H; injection H as <- _ _; apply kick_out_view|].
    destruct (_ <=? _); [congruence|].
    destruct (fetch_spans _ st w) as [k0 sp] eqn:E0. apply fetch_view in E0.
    destruct (update_span _ _ _ _ _ _) as [[[[[k1 sp1] d] df] rw] t] eqn:E1. apply update_span_view in E1.
    destruct (if bool_decide _ then _ else _) as [[[k2 e2] sp2] d2] eqn:E2.
    assert (F : viewk k2 = viewk k1).
    { destruct (bool_decide _); [now apply kick_view in E2|congruence]. }
    intros H. injection H as <- _ _.
    change (viewk (close_spans k2 st w d2 sp2) = viewk (k_stk s)). rewrite close_view, F, E1, E0. reflexivity.
  Qed.

  (** Slashes and rewards. *)
  Lemma do_slash_path x s st v pay s' pay' got ev :
    do_slash cfg x s st v pay = (s', pay', got, ev) ->
    exists ls, lpath ed (view s) ls (view s') /\ forall lb, lb ∈ ls -> exists c v, lb = LUpd c (HSlash v).
  Proof.
    unfold do_slash. intros H.
    destruct (s_bonded (k_stk s) !! st) as [c|] eqn:Eb;
      [|injection H as <-; exists []; split; [constructor|intros ? Hn; inversion Hn]].
    destruct (s_ledger (k_stk s) !! c) as [l|] eqn:El;
      [|injection H as <-; exists []; split; [constructor|intros ? Hn; inversion Hn]].
    destruct (slash_ledger v ed l) as [l' w] eqn:Es.
    destruct (w =? 0); [injection H as <-; exists []; split; [constructor|intros ? Hn; inversion Hn]|].
    destruct (cslash _ _ _ _ _) as [[b g] m]. injection H as <-.
    exists [LUpd c (HSlash v)]. split.
    - apply lpath_one. replace l' with (change ed (HSlash v) l) by (cbn; now rewrite Es).
      apply update_move; cbn; auto; try discriminate.
    - intros lb Hin. apply elem_of_list_singleton in Hin as ->. eauto.
  Qed.
  Definition only_slash (ls : list lab) : Prop := forall lb, lb ∈ ls -> exists c v, lb = LUpd c (HSlash v).
  Lemma only_slash_app a b : only_slash a -> only_slash b -> only_slash (a ++ b).
  Proof. intros A B lb H. apply elem_of_app in H as [H|H]; auto. Qed.
  Lemma only_slash_nil : only_slash [].
  Proof. intros lb H. inversion H. Qed.
  Lemma apply_slash_path x s u s' ev :
    apply_slash cfg x s u = (s', ev) ->
    exists ls, lpath ed (view s) ls (view s') /\ only_slash ls.
  Proof.
    unfold apply_slash. destruct (do_slash _ _ _ _ _ _) as [[[s1 p1] g1] e1] eqn:E.
    intros H. injection H as <- _. apply do_slash_path in E as (ls & P & L).
    exists ls. split; [|exact L].
    replace (view (set_k_bank _ _)) with (view s1); [exact P|].
    unfold view. cbn. now rewrite credit_fold_stk.
  Qed.
  Lemma apply_list_path x : forall l s s' ev,
    apply_list cfg x l s = (s', ev) ->
    exists ls, lpath ed (view s) ls (view s') /\ only_slash ls.
  Proof.
    induction l as [|u l IH]; intros s s' ev H; cbn in H.
    - injection H as <- _. exists []. split; [constructor|apply only_slash_nil].
    - destruct (apply_slash cfg x s u) as [s1 e1] eqn:E1.
      destruct (apply_list cfg x l s1) as [s2 e2] eqn:E2. injection H as <- _.
      apply apply_slash_path in E1 as (l1 & P1 & O1). apply IH in E2 as (l2 & P2 & O2).
      exists (l1 ++ l2). split; [eapply lpath_app; eauto|now apply only_slash_app].
  Qed.
  Lemma apply_eras_path x : forall n era s s' ev,
    apply_eras cfg x n era s = (s', ev) ->
    exists ls, lpath ed (view s) ls (view s') /\ only_slash ls.
  Proof.
    induction n as [|n IH]; intros era s s' ev H; cbn [apply_eras] in H.
    - injection H as <- _. exists []. split; [constructor|apply only_slash_nil].
    - cbn zeta in H. destruct (apply_list cfg x _ _) as [s1 e1] eqn:E1.
      destruct (apply_eras cfg x n (era + 1) s1) as [s2 e2] eqn:E2. injection H as <- _.
      apply apply_list_path in E1 as (l1 & P1 & O1). apply IH in E2 as (l2 & P2 & O2).
      exists (l1 ++ l2). split; [eapply lpath_app; eauto|now apply only_slash_app].
  Qed.
  Lemma start_session_path x s i s' ev :
    start_session cfg x s i = (s', ev) ->
    exists ls, lpath ed (view s) ls (view s') /\ only_slash ls.
  Proof.
    unfold start_session.
    assert (N0 : s = s' -> exists ls, lpath ed (view s) ls (view s') /\ only_slash ls).
    { intros <-. exists []. split; [constructor|apply only_slash_nil]. }
    destruct (e_start _ !! _); [|intros H; apply N0; now injection H].
    destruct (_ <=? _); [|intros H; apply N0; now injection H].
    unfold start_era, apply_unapplied. cbn zeta.
    match goal with |- context [set_k_era (set_k_stk s ?k) ?e] => set (s0 := set_k_era (set_k_stk s k) e) end.
    assert (V0 : view s0 = view s) by reflexivity.
    destruct (s_first (k_stk s0)) as [f|].
    - destruct (apply_eras _ _ _ _ _) as [s1 e1] eqn:E. intros H. injection H as <- _.
      apply apply_eras_path in E as (ls & P & O). exists ls. split; [|exact O].
      rewrite V0 in P. exact P.
    - intros H. injection H as <- _. exists []. split; [rewrite V0; constructor|apply only_slash_nil].
  Qed.
  Lemma offender_path x era w act s ev o s' ev' :
    offender1 cfg x era w act (s, ev) o = (s', ev') ->
    exists ls, lpath ed (view s) ls (view s') /\ only_slash ls /\ (ls <> [] -> kc_defer cfg = 0).
  Proof.
    destruct o as [[[st ex] reps] frac]. cbn [offender1].
    destruct (bool_decide _).
    { intros H. injection H as <- _. exists []. split; [constructor|]. split; [apply only_slash_nil|easy]. }
    destruct (compute_slash _ _ _ _ _ _ _ _) as [[s1 u] e1] eqn:E1. apply compute_slash_view in E1.
    destruct u as [u|].
    - destruct (N.eqb_spec (kc_defer cfg) 0) as [Ed|Ed].
      + destruct (apply_slash _ _ _ _) as [s2 e2] eqn:E2. intros H. injection H as <- _.
        apply apply_slash_path in E2 as (ls & P & O). exists ls. rewrite E1 in P. auto.
      + intros H. injection H as <- _. exists []. split; [|split; [apply only_slash_nil|easy]].
        change (lpath ed (view s) [] (view s1)). rewrite E1. constructor.
    - intros H. injection H as <- _. exists []. split; [|split; [apply only_slash_nil|easy]].
      rewrite E1. constructor.
  Qed.
  Lemma offenders_path x era w act : forall os s ev s' ev',
    fold_left (offender1 cfg x era w act) os (s, ev) = (s', ev') ->
    exists ls, lpath ed (view s) ls (view s') /\ only_slash ls /\ (ls <> [] -> kc_defer cfg = 0).
  Proof.
    induction os as [|o os IH]; intros s ev s' ev' H; cbn [fold_left] in H.
    - injection H as <- _. exists []. split; [constructor|]. split; [apply only_slash_nil|easy].
    - destruct (offender1 cfg x era w act (s, ev) o) as [s1 e1] eqn:E1.
      apply offender_path in E1 as (l1 & P1 & O1 & D1). apply IH in H as (l2 & P2 & O2 & D2).
      exists (l1 ++ l2). split; [eapply lpath_app; eauto|]. split; [now apply only_slash_app|].
      intros Hn. destruct l1; [now apply D2|now apply D1].
  Qed.
  Lemma on_offence_path x s os i s' ev :
    on_offence cfg x s os i = (s', ev) ->
    exists ls, lpath ed (view s) ls (view s') /\ only_slash ls /\ (ls <> [] -> kc_defer cfg = 0).
  Proof.
    unfold on_offence.
    assert (N0 : s = s' -> exists ls, lpath ed (view s) ls (view s') /\ only_slash ls
               /\ (ls <> [] -> kc_defer cfg = 0)).
    { intros <-. exists []. split; [constructor|]. split; [apply only_slash_nil|easy]. }
    destruct (e_act (k_era s)) as [[a b]|]; [|intros H; apply N0; now injection H].
    destruct (slash_era _ _ _); [|intros H; apply N0; now injection H].
    cbn zeta. intros H. apply offenders_path in H as (ls & P & O & D). exists ls. split; [|auto].
    match type of P with lpath _ (view ?a) _ _ => replace (view a) with (view s) in P end; [exact P|].
    now destruct (s_first (k_stk s)).
  Qed.
  Definition only_reward (ls : list lab) : Prop := forall lb, lb ∈ ls -> exists c v, lb = LUpd c (HReward v).
  Lemma payout_path x s st v s' ev :
    validator_payout cfg x s st v = (s', ev) ->
    view s' = view s \/ exists c, lmove ed (view s) (LUpd c (HReward v)) (view s').
  Proof.
    unfold validator_payout. destruct (default PStaked _) as [| | |a].
    - destruct (s_bonded (k_stk s) !! st) as [c|]; [|intros H; injection H as <- _; auto].
      destruct (s_ledger (k_stk s) !! c) as [l|] eqn:El; [|intros H; injection H as <- _; auto].
      destruct (mint_existing cfg (k_bank s) st v) as [b g]. intros H. injection H as <- _.
      right. exists c. change (Ledger (l_stash l) _ _ _) with (change ed (HReward v) l).
      apply update_move; cbn; auto; try discriminate.
    - destruct (mint_existing cfg (k_bank s) st v) as [b g]. intros H. injection H as <- _. auto.
    - destruct (s_bonded (k_stk s) !! st); [|intros H; injection H as <- _; auto].
      destruct (Model_Operation.mint _ _ _ _). intros H. injection H as <- _. auto.
    - destruct (Model_Operation.mint _ _ _ _). intros H. injection H as <- _. auto.
  Qed.
  Lemma pay_each_path x pts po : forall vs s t s' t' ev,
    pay_each cfg x pts po vs s t = (s', t', ev) ->
    exists ls, lpath ed (view s) ls (view s') /\ (length ls <= length vs)%nat /\
      forall lb, lb ∈ ls -> exists c v, lb = LUpd c (HReward v) /\ v <= po.
  Proof.
    induction vs as [|v vs IH]; intros s t s' t' ev H; cbn [pay_each] in H.
    - injection H as <- _ _. exists []. split; [constructor|]. split; [auto|]. intros lb Hn; inversion Hn.
    - destruct (_ =? 0).
      { apply IH in H as (ls & P & L & O). exists ls. split; [auto|]. split; [cbn; lia|auto]. }
      set (am := frac_mul _ _ _) in H.
      destruct (validator_payout cfg x s v am) as [s1 e1] eqn:E1.
      destruct (pay_each cfg x pts po vs s1 _) as [[s2 t2] e2] eqn:E2. injection H as <- _ _.
      apply IH in E2 as (ls & P & L & O). apply payout_path in E1 as [E1|[c E1]].
      + rewrite E1 in P. exists ls. split; [auto|]. split; [cbn; lia|auto].
      + exists (LUpd c (HReward am) :: ls). split; [econstructor; eauto|]. split; [cbn; lia|].
        intros lb Hin. apply elem_of_cons in Hin as [->|Hin]; [|auto].
        exists c, am. split; [auto|]. apply frac_mul_le; [discriminate|]. apply Proofs_Adsc3.perbill_of_le.
  Qed.

  Lemma pay_validators_path x s era s' ev :
    pay_validators cfg x s era = (s', ev) ->
    exists ls, lpath ed (view s) ls (view s') /\
      (length ls <= length (default [] (e_vals (k_era s) !! era)))%nat /\
      forall lb, lb ∈ ls -> exists c v, lb = LUpd c (HReward v) /\ v <= p_reward (k_par s).
  Proof.
    unfold pay_validators. destruct (_ =? 0).
    { intros H. injection H as <- _. exists []. split; [constructor|]. split; [cbn; lia|intros ? Hn; inversion Hn]. }
    cbn zeta. destruct (pay_each _ _ _ _ _ _ _) as [[s1 t] e1] eqn:E. intros H. injection H as <- _.
    apply pay_each_path in E as (ls & P & L & O). exists ls. split; [exact P|]. split; [exact L|].
    intros lb Hin. destruct (O lb Hin) as (c & v & -> & Hv). exists c, v. split; [auto|lia].
  Qed.

  (** ** Steps *)
  Definition typed (s : kstate) : Prop := forall who, free_of (k_bank s) who < two128.

  Lemma slash_labels s op out ls :
    only_slash ls -> ((exists x i, op = KStartSession x i) \/
       (exists x os i, op = KOffence x os i /\ (ls <> [] -> kc_defer cfg = 0))) ->
    Forall (lab_ok s op out) ls.
  Proof.
    intros O H. apply Forall_forall. intros lb Hin. destruct (O lb Hin) as (c & v & ->). cbn.
    destruct H as [H|(x & os & i & -> & D)]; [now left|]. right. exists x, os, i. split; [auto|].
    apply D. intros ->. inversion Hin.
  Qed.

  Lemma call_path x s o c s' ev :
    typed s -> dispatch cfg x s o c = ROk (s', ev) ->
    exists ls, lpath ed (view s) ls (view s') /\ Forall (lab_ok s (KCall x o c) (KDone ev)) ls /\ (length ls <= 1)%nat.
  Proof.
    intros Ty H.
    assert (same : view s' = view s ->
      exists ls, lpath ed (view s) ls (view s') /\ Forall (lab_ok s (KCall x o c) (KDone ev)) ls /\ (length ls <= 1)%nat).
    { intros ->. exists []. split; [constructor|]. split; [constructor|cbn; lia]. }
    assert (one : forall lb, lmove ed (view s) lb (view s') -> lab_ok s (KCall x o c) (KDone ev) lb ->
      exists ls, lpath ed (view s) ls (view s') /\ Forall (lab_ok s (KCall x o c) (KDone ev)) ls /\ (length ls <= 1)%nat).
    { intros lb M L. exists [lb]. split; [now apply lpath_one|]. split; [repeat constructor; exact L|cbn; lia]. }
    destruct c; cbn [dispatch] in H; unfold admin, controlled, signed, root, quiet, with_par, with_del, with_stk in H;
      try (destruct o; try discriminate H; []);
      repeat match type of H with rbind (ensure _ _) _ = _ => inv_bind H end;
      try (now (injection H as <- <-; apply same)).
    - (* stake delegate *)
      unfold staking_delegate in H. inv_bind H. inv_bind H.
      destruct (kx_level x who); [|discriminate]. inv_bind H.
      destruct (kx_dpr x who !! N.to_nat level); [|discriminate].
      destruct (kx_dpr x who !! N.to_nat n); [|discriminate].
      destruct (transfer_keep _ _ _ _ _); [|discriminate]. inv_bind H.
      injection H as <- <-. now apply same.
    - (* usdt *)
      unfold usdt_delegate in H. inv_bind H. inv_bind H. destruct v as [cur rest].
      destruct (0 <? _); [inv_bind H|]; injection H as <- <-; now apply same.
    - (* bond *)
      inv_bind H. injection H as <- <-. unfold bond in E.
      repeat match type of E with rbind (ensure _ _) _ = _ => inv_bind E end.
      injection E as <-.
      set (v' := N.min value (free_of (k_bank s) who)).
      apply (one (LBond who controller v')).
      + rewrite view_update. cbn.
        apply negb_true_iff, bool_decide_eq_false in E0, E1.
        apply (LM_bond ed (view s)); apply eq_None_not_Some; auto.
      + cbn. exists x, value, dest. split; [auto|]. split; [auto|]. now apply N.leb_le.
    - (* bond extra *)
      inv_bind H. injection H as <- <-. unfold bond_extra in E.
      destruct (s_bonded (k_stk s) !! who) as [c|] eqn:Eb; [|discriminate].
      destruct (s_ledger (k_stk s) !! c) as [l|] eqn:El; [|discriminate].
      destruct (N.ltb_spec (free_of (k_bank s) who) (l_total l)); [injection E as <-; now apply same|].
      inv_bind E. injection E as <-.
      set (ex := N.min _ v) in *.
      apply (one (LUpd c (HExtra ex))).
      + change (Ledger (l_stash l) _ _ _) with (change ed (HExtra ex) l).
        apply update_move0; cbn; auto; try discriminate. pose proof (Ty who). lia.
      + cbn. exists x, who, v. repeat split; auto. lia.
    - (* unbond *)
      unfold unbond in H. destruct (s_ledger (k_stk s) !! who) as [l|] eqn:El; [|discriminate].
      inv_bind H. destruct (_ =? 0) eqn:Ez; [injection H as <- <-; now apply same|].
      set (v1 := N.min v (l_active l)) in *.
      destruct (if _ <? _ then _ else _) as [v2 a2] eqn:Ev. injection H as <- <-.
      set (era := add32 _ _).
      assert (Hv : v2 <= l_active l /\ a2 = l_active l - v2).
      { destruct (l_active l - v1 <? p_ed (k_par s)) in Ev; injection Ev as <- <-; lia. }
      destruct Hv as [Hv ->].
      apply (one (LUpd who (HUnbond v2 era))).
      + change (Ledger (l_stash l) _ _ _) with (change ed (HUnbond v2 era) l).
        apply update_move0; cbn; auto; discriminate.
      + cbn. exists x, v, l. repeat split; auto.
    - (* withdraw *)
      unfold withdraw_unbonded in H. destruct (s_ledger (k_stk s) !! who) as [l0|] eqn:El; [|discriminate].
      destruct (bool_decide _ && _) eqn:Ek in H.
      + inv_bind H. injection H as <- <-. apply unstake_move in E.
        apply (one _ E). cbn. right. right. exists x, who, nspans, l0.
        apply andb_true_iff in Ek as [Ek Ea]. apply bool_decide_eq_true in Ek. apply N.leb_le in Ea.
        repeat split; auto; destruct (e_cur (k_era s)) as [e|]; auto.
        * intros ch Hch. exists e. split; [auto|]. cbn in Ek.
          destruct (N.leb_spec (c_era ch) e); [auto|exfalso].
          assert (Hin : ch ∈ @nil chunk); [|inversion Hin].
          rewrite <- Ek. apply elem_of_list_In, filter_In.
          split; [now apply elem_of_list_In|]. now apply N.ltb_lt.
        * intros ch Hch. rewrite Ek in Hch. inversion Hch.
      + injection H as <- <-. destruct (e_cur (k_era s)) as [e|] eqn:Ee.
        * apply (one (LUpd who (HCons e))); [|cbn; eauto].
          change (consolidate e l0) with (change ed (HCons e) l0).
          apply update_move0; cbn; auto; discriminate.
        * apply (one (LUpd who HSame)); [|cbn; eauto].
          apply (update_move0 x s who HSame l0); cbn; auto; discriminate.
    - destruct (s_ledger _ !! _); [|discriminate]. injection H as <- <-. now apply same.
    - destruct (s_ledger _ !! _); [|discriminate]. injection H as <- <-. now apply same.
    - destruct (s_ledger _ !! _); [|discriminate]. injection H as <- <-. now apply same.
    - (* set controller *)
      inv_bind H. injection H as <- <-. unfold set_controller in E.
      destruct (s_bonded (k_stk s) !! who) as [old|] eqn:Eb; [|discriminate].
      inv_bind E. destruct (N.eqb_spec controller old) as [->|Hne].
      { injection E as <-. apply same. now destruct s as [? [] ? ? ?]. }
      apply negb_true_iff, bool_decide_eq_false in E0.
      apply (one (LCtrl who controller)); [|cbn; eauto].
      assert (M := LM_ctrl ed (view s) who controller old _ Eb (proj2 (eq_None_not_Some _) E0) Hne eq_refl).
      cbn in M. destruct (s_ledger (k_stk s) !! old); injection E as <-; exact M.
    - (* force unstake *)
      inv_bind H. injection H as <- <-. apply unstake_move in E.
      apply (one _ E). cbn. eauto.
    - (* cancel *)
      inv_bind H. injection H as <- <-. unfold Model_Staking.cancel in E.
      repeat match type of E with rbind (ensure _ _) _ = _ => inv_bind E end.
      destruct (remove_at _ _ _); [|discriminate]. injection E as <-. now apply same.
    - (* rebond *)
      inv_bind H. injection H as <- <-. unfold do_rebond in E.
      destruct (s_ledger (k_stk s) !! who) as [l|] eqn:El; [|discriminate].
      inv_bind E. inv_bind E. injection E as <-.
      apply (one (LUpd who (HRebond v))); [|cbn; eauto].
      change (rebond v l) with (change ed (HRebond v) l).
      apply update_move0; cbn; auto; discriminate.
    - (* depth *)
      destruct (e_cur (k_era s)); injection H as <- <-; now apply same.
    - (* reap *)
      inv_bind H. injection H as <- <-. apply unstake_move in E0.
      apply (one _ E0). cbn. right. left. exists x, o, nspans. split; [auto|]. now apply N.eqb_eq.
    - (* delegate *)
      inv_bind H. injection H as <- <-. now apply same.
    - (* force undelegate *)
      injection H as <- <-. apply same, undelegate_fold_view.
    - (* compensate *)
      unfold compensate in H. inv_bind H. destruct (Model_Operation.mint _ _ _ _). injection H as <- <-. now apply same.
    - (* referer *)
      inv_bind H. injection H as <- <-. now apply same.
    - (* npow *)
      unfold npow_mint in H. inv_bind H. destruct (Model_Operation.mint _ _ _ _). injection H as <- <-. now apply same.
    - (* burn *)
      unfold validator_burn in H. destruct (s_ledger (k_stk s) !! who) as [l|] eqn:El; [|discriminate].
      cbn zeta in H. destruct (slash_ledger v ed l) as [l' am] eqn:Es.
      destruct (cslash _ _ _ _ _) as [[b g] m]. injection H as <- <-.
      apply (one (LUpd who (HBurn v))); [|cbn; eauto].
      replace l' with (change ed (HBurn v) l) by (cbn; now rewrite Es).
      rewrite view_update, change_stash.
      exact (LM_upd ed (view s) who (HBurn v) l El I).
  Qed.

  Theorem step_path s op s' out :
    typed s -> kstep cfg s op = (s', out) ->
    exists ls, lpath ed (view s) ls (view s') /\ Forall (lab_ok s op out) ls /\ len_ok s op ls.
  Proof.
    intros Ty H.
    assert (same : view s' = view s -> exists ls, lpath ed (view s) ls (view s') /\ Forall (lab_ok s op out) ls /\ len_ok s op ls).
    { intros ->. exists []. split; [constructor|]. split; [constructor|].
      destruct op; cbn; auto; try lia. exists 0. lia. }
    destruct op as [x o c|x| |i|x i|x i|a|x os i|b]; cbn [kstep] in H.
    - destruct (dispatch cfg x s o c) as [[s1 ev]|e|] eqn:E; cbn [settle] in H; injection H as <- <-;
        [now apply call_path|now apply same|now apply same].
    - unfold on_initialize in H. destruct (0 <? _); [|injection H as <- <-; now apply same].
      destruct (_ =? 0).
      + destruct (_ =? 0); injection H as <- <-; now apply same.
      + destruct (pay_delegators cfg x s) as [s1 ev] eqn:E. cbn [settle] in H. injection H as <- <-.
        apply same. unfold view. now rewrite (pay_delegators_stk _ _ _ _ E).
    - injection H as <- <-. apply same. unfold on_finalize. now destruct (e_act (k_era s)) as [[? []]|].
    - destruct (new_session cfg s i) as [s1 ev] eqn:E. cbn [settle] in H. injection H as <- <-.
      apply same. unfold view. now rewrite (new_session_stk _ _ _ _ E).
    - destruct (start_session cfg x s i) as [s1 ev] eqn:E. cbn [settle] in H. injection H as <- <-.
      apply start_session_path in E as (ls & P & O). exists ls. split; [auto|].
      split; [apply slash_labels; eauto|exact I].
    - unfold end_session in H.
      destruct (e_act (k_era s)) as [[i0 st]|]; [|injection H as <- <-; now apply same].
      destruct (e_start (k_era s) !! _); [|injection H as <- <-; now apply same].
      destruct (_ && _); [|injection H as <- <-; now apply same].
      destruct (pay_validators cfg x s i0) as [s1 ev] eqn:E. cbn [settle] in H. injection H as <- <-.
      apply pay_validators_path in E as (ls & P & L & O). exists ls. split; [auto|].
      split; [|cbn; eauto].
      apply Forall_forall. intros lb Hin. destruct (O lb Hin) as (c & v & -> & Hv). cbn. eauto.
    - injection H as <- <-. apply same. unfold note_author. destruct (e_act (k_era s)) as [[? ?]|]; [|auto].
      now destruct (default _ _).
    - destruct (on_offence cfg x s os i) as [s1 ev] eqn:E. cbn [settle] in H. injection H as <- <-.
      apply on_offence_path in E as (ls & P & O & D). exists ls. split; [auto|].
      split; [|exact I]. apply slash_labels; eauto. right. eauto 6.
    - injection H as <- <-. now apply same.
  Qed.
End model.
