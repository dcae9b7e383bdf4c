(** The built genesis. *)
From Verif Require Import Base Balances Model_UserPrivileges.
From Verif Require Model_Credit Model_DeeperNode Model_Adsc Proofs_Chain1 Proofs_Chain7 Proofs_Balances.
From Verif Require Import Model_StakingLedger Model_Staking Model_Chain Model_World Model_Genesis Spec_World Spec_Genesis Proofs_Staking7.
Import Proofs_Balances.
From stdpp Require Import gmap.
Open Scope N_scope.

Section build.
  Context (cfg : wcfg) (x : wctx).
  Local Notation sc := (jc_s (wc_chain cfg)).

  (** ** The build is a history *)
  Definition gop (o : origin) (c : kcall) : wop := (x, WStaking o (JOf c)).
  Definition staker_ops (s : staker) : list wop :=
    gop (Signed (g_stash s)) (KBond (g_ctrl s) (g_value s) PStaked) ::
    (if g_valid s then [gop (Signed (g_ctrl s)) KValidate] else []).
  Definition session_ops : list wop := [(x, WBlock (BNewSession 0)); (x, WBlock (BNewSession 1)); (x, WBlock (BStartSession 0))].
  Definition gops (g : gconfig) : list wop :=
    gop Root (KForce (g_force g)) :: flat_map staker_ops (g_stakers g) ++ session_ops.

  Definition simple (c : kcall) : Prop := match c with KForce _ | KBond _ _ _ | KValidate => True | _ => False end.
  Definition view (w : wstate) : kstate := set_k_bank (j_s (w_chain w)) (w_bank w).
  Definition yctx (w : wstate) : kctx := sctx (wc_chain cfg) (wjctx cfg x w) (j_c (jsync (w_chain w) (w_bank w))).
  Definition settled (w : wstate) (s : kstate) : wstate :=
    set_w_chain w (J (Model_Credit.set_k_bank (j_c (w_chain w)) (k_bank s)) s).
  Lemma set_bank2 c b1 b2 : Model_Credit.set_k_bank (Model_Credit.set_k_bank c b1) b2 = Model_Credit.set_k_bank c b2.
  Proof. reflexivity. Qed.
  Lemma simple_step w o k : simple k ->
    wstep cfg w (gop o k) =
    match dispatch sc (yctx w) (view w) o k with
    | ROk r => (settled w r.1, WDone (map VStaking r.2))
    | RErr _ => (w, WFail)
    | RPanic => (w, WPanic)
    end.
  Proof.
    intros Hk. unfold gop, wstep. cbn [fst snd]. unfold wjstep, jstep. cbn [fst snd].
    assert (E : jact_step (wc_chain cfg) (wjctx cfg x w) (jsync (w_chain w) (w_bank w)) (JCall o (JOf k)) =
      jsettle (jsync (w_chain w) (w_bank w))
        (r <-? dispatch sc (yctx w) (view w) o k ; ROk (j_c (jsync (w_chain w) (w_bank w)), r.1, r.2))).
    { destruct k; try contradiction; reflexivity. }
    rewrite E. destruct (dispatch sc (yctx w) (view w) o k) as [[s ev]| |]; reflexivity.
  Qed.
  Lemma fill_call c n w o k : simple k ->
    (wstep cfg (gfill c n w) (gop o k)).1 = gfill c n (wstep cfg w (gop o k)).1.
  Proof.
    intros Hk. rewrite !simple_step by exact Hk.
    assert (E : dispatch sc (yctx (gfill c n w)) (view (gfill c n w)) o k = dispatch sc (yctx w) (view w) o k).
    { destruct k; try contradiction; destruct o; reflexivity. }
    rewrite E. destruct (dispatch sc (yctx w) (view w) o k) as [[s ev]| |]; reflexivity.
  Qed.
  Lemma fill_new c n w i : (wstep cfg (gfill c n w) (x, WBlock (BNewSession i))).1 = gfill c n (wstep cfg w (x, WBlock (BNewSession i))).1.
  Proof.
    unfold wstep, wblock_step, wjstep, jstep, jact_step, splain. cbn [fst snd].
    change (j_s (jsync (w_chain (gfill c n w)) (w_bank (gfill c n w)))) with (view w).
    change (j_s (jsync (w_chain w) (w_bank w))) with (view w).
    destruct (kstep sc (view w) (KNewSession i)) as [s [ev| |]]; reflexivity.
  Qed.
  Lemma fill_start c n w i : s_first (k_stk (j_s (w_chain w))) = None ->
    (wstep cfg (gfill c n w) (x, WBlock (BStartSession i))).1 = gfill c n (wstep cfg w (x, WBlock (BStartSession i))).1.
  Proof.
    intros Hf. unfold wstep, wblock_step, wjstep, jstep, jact_step. cbn [fst snd].
    change (j_s (jsync (w_chain (gfill c n w)) (w_bank (gfill c n w)))) with (view w).
    change (j_s (jsync (w_chain w) (w_bank w))) with (view w).
    assert (R : forall c0 y, jstart_session (wc_chain cfg) y c0 (view w) i =
      ROk (c0, match e_start (k_era (view w)) !! match e_act (k_era (view w)) with Some (i, _) => add32 i 1 | None => 0 end with
               | Some st => if st <=? i then begin_era (wc_chain cfg) (view w) i else view w
               | None => view w end, [])).
    { intros c0 y. unfold jstart_session. destruct (_ !! _); [|done]. destruct (_ <=? i); [|done].
      unfold japply_unapplied. change (s_first (k_stk (begin_era (wc_chain cfg) (view w) i))) with (s_first (k_stk (j_s (w_chain w)))).
      now rewrite Hf. }
    rewrite !R. reflexivity.
  Qed.
  (** What stays empty until the credit pallet is built. *)
  Definition blank (w : wstate) : Prop :=
    Model_Credit.k_uc (j_c (w_chain w)) = ∅ /\ s_first (k_stk (j_s (w_chain w))) = None.
  Lemma blank_call w o k : simple k -> blank w -> blank (wstep cfg w (gop o k)).1.
  Proof.
    intros Hk [B1 B2]. rewrite simple_step by exact Hk.
    assert (F : forall s ev, dispatch sc (yctx w) (view w) o k = ROk (s, ev) -> s_first (k_stk s) = None).
    { intros s ev. destruct k; try contradiction; cbn [dispatch].
      - unfold signed, quiet. destruct o as [|a|]; try discriminate. unfold bond. cbn zeta.
        repeat (match goal with |- context [ensure ?b ?e] => destruct b; cbn [ensure rbind]; [|discriminate] end).
        intros [= <- <-]. unfold update_ledger, set_lock. cbn [l_total l_stash]. destruct (_ =? 0); exact B2.
      - unfold controlled, signed. destruct o as [|a|]; try discriminate. destruct (s_ledger _ !! a); [|discriminate].
        intros [= <- <-]. exact B2.
      - unfold root. destruct o; try discriminate. intros [= <- <-]. exact B2. }
    destruct (dispatch sc (yctx w) (view w) o k) as [[s ev]| |]; [|split; assumption..].
    split; [exact B1|]. exact (F s ev eq_refl).
  Qed.
  Lemma first_new s i : s_first (k_stk (new_session sc s i).1) = s_first (k_stk s).
  Proof.
    assert (E : forall s, s_first (k_stk (new_era sc s i).1) = s_first (k_stk s)).
    { intros s0. unfold new_era. cbn zeta. destruct (elect _ _ _) as [s1 [l|]] eqn:E; cbn [fst]; unfold elect in E; cbn zeta in E;
        destruct (_ <? _); try discriminate; [injection E as <- _|injection E as <-]; reflexivity. }
    unfold new_session. destruct (e_cur _); [|apply E]. cbn zeta. destruct (e_force _); try apply E; try reflexivity.
    - destruct (_ <=? _); [apply E|reflexivity].
    - rewrite E. reflexivity.
  Qed.
  Lemma blank_new w i : blank w -> blank (wstep cfg w (x, WBlock (BNewSession i))).1.
  Proof.
    intros [B1 B2]. unfold wstep, wblock_step, wjstep, jstep, jact_step, splain. cbn [fst snd].
    change (j_s (jsync (w_chain w) (w_bank w))) with (view w). cbn [kstep settle].
    destruct (new_session sc (view w) i) as [s ev] eqn:E. split; [exact B1|]. cbn.
    change s with (fst (s, ev)). rewrite <- E. rewrite first_new. exact B2.
  Qed.

  Lemma run_app h1 : forall h2 w, wrun cfg w (h1 ++ h2) = wrun cfg (wrun cfg w h1) h2.
  Proof. induction h1 as [|op h1 IH]; intros h2 w; cbn; [done|apply IH]. Qed.
  Lemma stakers_run l : forall w w', gall (gstaker cfg x) w l = Some w' -> w' = wrun cfg w (flat_map staker_ops l).
  Proof.
    induction l as [|s l IH]; intros w w' H; cbn [gall flat_map] in *; [now injection H|].
    unfold gstaker in H. destruct (_ <? _); [discriminate|]. rewrite run_app. apply IH in H. rewrite H. f_equal.
    unfold staker_ops, gtry. destruct (g_valid s); reflexivity.
  Qed.
  Definition calm_op (op : wop) : Prop := exists o k, op = gop o k /\ simple k.
  Lemma calm_ops l : Forall calm_op (flat_map staker_ops l).
  Proof.
    induction l as [|s l IH]; cbn [flat_map]; [constructor|]. apply Forall_app. split; [|exact IH]. unfold staker_ops.
    constructor; [repeat esplit|]. destruct (g_valid s); [|constructor]. constructor; [repeat esplit|constructor].
  Qed.
  Lemma calm_run c n h : Forall calm_op h -> forall w, blank w ->
    wrun cfg (gfill c n w) h = gfill c n (wrun cfg w h) /\ blank (wrun cfg w h).
  Proof.
    induction 1 as [|op h (o & k & -> & Hk) _ IH]; intros w B; cbn [wrun]; [auto|].
    rewrite fill_call by exact Hk. apply IH. now apply blank_call.
  Qed.
  Lemma sessions_run w : gsessions cfg x w = wrun cfg w session_ops.
  Proof. reflexivity. Qed.
  Lemma fill_sessions c n w : blank w -> wrun cfg (gfill c n w) session_ops = gfill c n (wrun cfg w session_ops).
  Proof.
    intros B. unfold session_ops. cbn [wrun]. rewrite !fill_new. apply fill_start. apply blank_new, blank_new, B.
  Qed.

  Lemma no_delegation w p : blank w -> gdelegation cfg x w p = None.
  Proof.
    intros [B _]. unfold gdelegation, wstep. cbn [fst snd]. unfold wjstep, jstep, jact_step. cbn [fst snd]. unfold jdispatch, jdelegate. cbn [signed].
    change (j_s (jsync (w_chain w) (w_bank w))) with (view w). fold (yctx w).
    assert (E : forall r, dispatch sc (yctx w) (view w) (Signed p.1) (KDelegate p.2) <> ROk r).
    { intros r. cbn [dispatch signed]. unfold delegate. cbn zeta.
      repeat (match goal with |- context [ensure ?b ?e] => destruct b; cbn [ensure rbind]; [|discriminate] end).
      unfold do_delegate. change (kx_pass (yctx w) p.1) with (passing (wc_chain cfg) (j_c (w_chain w)) p.1).
      unfold passing. rewrite B, lookup_empty. discriminate. }
    destruct (dispatch sc (yctx w) (view w) (Signed p.1) (KDelegate p.2)) as [r| |]; [destruct (E r eq_refl)|reflexivity..].
  Qed.

  Lemma fill_genesis b p settings data evm u :
    gfill (Model_Credit.kinit b settings data) (Model_DeeperNode.dinit b evm) (wgenesis b p [] [] [] u) = wgenesis b p settings data evm u.
  Proof.
    unfold gfill. cbn [wgenesis w_bank w_priv w_proofs w_chain w_chan w_rel w_adsc w_tips w_held w_locked j_c j_s jgenesis].
    unfold wgenesis. f_equal. unfold jgenesis. f_equal.
    pose proof (Proofs_Chain7.genesis_synced b p settings data) as E. unfold Proofs_Chain1.synced, jgenesis in E. cbn [j_c j_s] in E.
    change (k_bank (kgenesis b p)) with b in E. change (Model_Credit.k_bank (Model_Credit.kinit b [] [])) with b.
    rewrite <- E at 2. now destruct (Model_Credit.kinit b settings data).
  Qed.

  Theorem build_history g w : gbuild cfg x g = Some w ->
    w = wrun cfg (wgenesis (gbank (g_balances g)) (g_pars g) (g_settings g) (g_data g) (g_evm g) (g_nfts g)) (gops g).
  Proof.
    unfold gbuild. destruct (negb _); [discriminate|]. cbv zeta.
    set (b := gbank _). set (w0 := wgenesis b (g_pars g) [] [] [] (g_nfts g)).
    assert (B0 : blank w0) by (split; reflexivity).
    set (w1 := gtry cfg x w0 Root _).
    assert (B1 : blank w1) by (apply blank_call; [exact I|exact B0]).
    destruct (gall (gstaker cfg x) w1 (g_stakers g)) as [w2|] eqn:E2; [|discriminate]. apply stakers_run in E2.
    set (c := Model_Credit.kinit _ _ _). set (n := Model_DeeperNode.dinit _ _).
    destruct (calm_run c n _ (calm_ops (g_stakers g)) w1 B1) as [F2 B2]. rewrite <- E2 in F2, B2.
    destruct (g_dels g) as [|q l]; cbn [gall]; [|rewrite no_delegation by exact B2; discriminate].
    intros [= <-]. unfold gops. cbn [wrun]. rewrite run_app. unfold c, n. rewrite <- (fill_genesis b (g_pars g)).
    fold c n. fold w0. rewrite fill_call by exact I. rewrite sessions_run, <- fill_sessions by exact B2. f_equal. symmetry. exact F2.
  Qed.

  (** ** Stakers *)
  Lemma free_freeze b who v a : kc_ed sc <= free_of b who -> free_of (freeze sc b who v) a = free_of b a.
  Proof.
    intros H. unfold freeze, put. cbn [free rsv].
    assert (E : (free (acct_of b who) <? kc_ed sc) = false) by (apply N.ltb_ge; exact H). rewrite E. cbn [andb].
    unfold free_of, acct_of. cbn [accts]. destruct (decide (a = who)) as [->|Hn].
    - rewrite lookup_insert. reflexivity.
    - now rewrite lookup_insert_ne by congruence.
  Qed.
  Lemma money_freeze b who v : kc_ed sc <= free_of b who -> money (freeze sc b who v) = money b.
  Proof.
    intros H. unfold freeze. pose proof (put_money (kc_ed sc) b who (Acct (free (acct_of b who)) (rsv (acct_of b who)) v)) as E.
    cbn [free rsv] in E. lia.
  Qed.

  (** A bond that succeeds. *)
  Definition alive (b : bank) : Prop := forall a, free_of b a = 0 \/ kc_ed sc <= free_of b a.
  Lemma lock_money y s st v : alive (k_bank s) -> v <= free_of (k_bank s) st ->
    (forall a, free_of (k_bank (set_lock sc y s st v)) a = free_of (k_bank s) a) /\
    money (k_bank (set_lock sc y s st v)) = money (k_bank s).
  Proof.
    intros A H. unfold set_lock. destruct (N.eqb_spec v 0) as [->|Hv]; [auto|].
    cbn [set_k_stk set_k_bank k_bank]. destruct (A st) as [Z|Z]; [lia|]. split; [intros a; now apply free_freeze|now apply money_freeze].
  Qed.
  Definition kept (w w' : wstate) : Prop :=
    (forall a, free_of (w_bank w') a = free_of (w_bank w) a) /\ money (w_bank w') = money (w_bank w) /\
    k_era (view w') = k_era (view w) /\ k_par (view w') = k_par (view w) /\ k_del (view w') = k_del (view w).
  Lemma kept_refl w : kept w w.
  Proof. repeat split. Qed.
  Lemma kept_trans a b c : kept a b -> kept b c -> kept a c.
  Proof.
    intros (A1 & A2 & A3 & A4 & A5) (B1 & B2 & B3 & B4 & B5).
    repeat split; [intros z; now rewrite B1|congruence..].
  Qed.
  Lemma kept_alive w w' : kept w w' -> alive (w_bank w) -> alive (w_bank w').
  Proof. intros (K & _) A a. rewrite !K. apply A. Qed.
  Lemma try_kept w o k : simple k -> (forall f, k <> KForce f) -> alive (w_bank w) -> kept w (gtry cfg x w o k).
  Proof.
    intros Hk Hf A. unfold gtry. change (x, WStaking o (JOf k)) with (gop o k). rewrite simple_step by exact Hk.
    destruct (dispatch sc (yctx w) (view w) o k) as [[s ev]| |] eqn:E; cbn [fst]; [|apply kept_refl..].
    destruct k; try contradiction; cbn [dispatch] in E.
    - unfold signed, quiet in E. destruct o as [|a|]; try discriminate. unfold bond in E. cbn zeta in E.
      repeat (match type of E with context [ensure ?b ?e] => destruct b; cbn [ensure rbind] in E; [|discriminate] end).
      injection E as <- <-. unfold update_ledger. cbn [l_total l_stash].
      match goal with |- context [set_lock sc _ ?s _ ?u] => set (s1 := s); set (v := u) end.
      destruct (lock_money (yctx w) s1 a v A) as [L1 L2]; [apply N.le_min_r|].
      split; [exact L1|split; [exact L2|]].
      unfold set_lock. destruct (v =? 0); repeat split.
    - unfold controlled, signed in E. destruct o as [|a|]; try discriminate. destruct (s_ledger _ !! a); [|discriminate].
      injection E as <- <-. repeat split.
    - destruct (Hf f eq_refl).
  Qed.

  (** ** When the stakers let the build go on *)
  Lemma staker_kept w s w' : alive (w_bank w) -> gstaker cfg x w s = Some w' -> kept w w'.
  Proof.
    intros A. unfold gstaker. destruct (_ <? _); [discriminate|]. cbv zeta. intros [= <-].
    set (w1 := gtry cfg x w _ _).
    assert (K1 : kept w w1) by (apply try_kept; [exact I|discriminate|exact A]).
    destruct (g_valid s); [|exact K1]. eapply kept_trans; [exact K1|].
    apply try_kept; [exact I|discriminate|now apply (kept_alive w)].
  Qed.
  Lemma stakers_iff l : forall w, alive (w_bank w) ->
    ((exists w', gall (gstaker cfg x) w l = Some w') <-> forall s, s ∈ l -> g_value s <= free_of (w_bank w) (g_stash s)).
  Proof.
    induction l as [|s l IH]; intros w A; cbn [gall]; [split; [intros _ s Hs; inversion Hs|eauto]|].
    destruct (gstaker cfg x w s) as [w1|] eqn:E.
    - pose proof (staker_kept _ _ _ A E) as K. rewrite (IH w1) by now apply (kept_alive w).
      assert (V : g_value s <= free_of (w_bank w) (g_stash s)).
      { unfold gstaker in E. destruct (N.ltb_spec (free_of (w_bank w) (g_stash s)) (g_value s)); [discriminate|lia]. }
      destruct K as (K & _). split.
      + intros H t Ht. apply elem_of_cons in Ht as [->|Ht]; [exact V|]. rewrite <- K. now apply H.
      + intros H t Ht. rewrite K. apply H. now right.
    - split; [intros [w' [=]]|]. intros H. specialize (H s ltac:(left)). unfold gstaker in E.
      destruct (N.ltb_spec (free_of (w_bank w) (g_stash s)) (g_value s)); [lia|discriminate].
  Qed.
  Lemma stakers_kept l : forall w w', alive (w_bank w) -> gall (gstaker cfg x) w l = Some w' -> kept w w'.
  Proof.
    induction l as [|s l IH]; intros w w' A H; cbn [gall] in H; [injection H as <-; apply kept_refl|].
    destruct (gstaker cfg x w s) as [w1|] eqn:E; [|discriminate]. pose proof (staker_kept _ _ _ A E) as K.
    eapply kept_trans; [exact K|]. apply IH; [now apply (kept_alive w)|exact H].
  Qed.

  (** ** Balances *)
  Lemma bank_free l a v : NoDup l.*1 -> (a, v) ∈ l -> free_of (gbank l) a = v.
  Proof.
    intros N H. unfold free_of, acct_of, gbank. cbn [accts].
    erewrite elem_of_list_to_map_1 with (x := Acct v 0 0); [reflexivity| |].
    - rewrite <- list_fmap_compose. exact N.
    - apply elem_of_list_fmap. exists (a, v). auto.
  Qed.
  Lemma bank_none l a : a ∉ l.*1 -> free_of (gbank l) a = 0.
  Proof.
    intros H. unfold free_of, acct_of, gbank. cbn [accts].
    rewrite not_elem_of_list_to_map_1; [reflexivity|]. rewrite <- list_fmap_compose. exact H.
  Qed.
  Lemma balanced_spec ed l : gbalanced ed l = true <-> (forall p, p ∈ l -> ed <= p.2) /\ NoDup l.*1.
  Proof.
    unfold gbalanced. rewrite andb_true_iff, bool_decide_eq_true, forallb_forall.
    split; intros [H N]; (split; [|exact N]); intros p Hp.
    - apply N.leb_le, H. now apply elem_of_list_In.
    - apply N.leb_le, H. now apply elem_of_list_In.
  Qed.
  Lemma bank_alive l : gbalanced (kc_ed sc) l = true -> alive (gbank l).
  Proof.
    intros [H N]%balanced_spec a. destruct (decide (a ∈ l.*1)) as [Ha|Ha]; [|left; now apply bank_none].
    apply elem_of_list_fmap in Ha as ([b v] & -> & Hp). right. cbn [fst]. rewrite (bank_free l b v) by assumption. exact (H _ Hp).
  Qed.
  Lemma bank_money l : NoDup l.*1 -> money (gbank l) = lsum l.*2.
  Proof.
    unfold money, gbank. cbn [accts lost]. rewrite N.add_0_r.
    induction l as [|[a v] l IH]; intros N; cbn; [reflexivity|].
    apply NoDup_cons in N as [N1 N2]. rewrite msum_insert.
    - rewrite IH by exact N2. cbn. lia.
    - rewrite not_elem_of_list_to_map_1; [reflexivity|]. rewrite <- list_fmap_compose. exact N1.
  Qed.

  (** ** When a chain is built *)
  Lemma force_kept w f : w_bank (gtry cfg x w Root (KForce f)) = w_bank w.
  Proof. unfold gtry. change (x, WStaking Root (JOf (KForce f))) with (gop Root (KForce f)). rewrite simple_step by exact I. reflexivity. Qed.
  Theorem build_iff g : (exists w, gbuild cfg x g = Some w) <->
    gbalanced (kc_ed sc) (g_balances g) = true /\
    (forall s, s ∈ g_stakers g -> g_value s <= free_of (gbank (g_balances g)) (g_stash s)) /\ g_dels g = [].
  Proof.
    unfold gbuild. destruct (gbalanced (kc_ed sc) (g_balances g)) eqn:B; cbn [negb]; [|split; [intros [w [=]]|intros ([=] & _)]].
    cbv zeta. set (b := gbank (g_balances g)). set (w0 := wgenesis b _ _ _ _ _). set (w1 := gtry cfg x w0 Root _).
    assert (A1 : alive (w_bank w1)). { unfold w1. rewrite force_kept. now apply bank_alive. }
    assert (B1 : blank w1) by (apply blank_call; [exact I|split; reflexivity]).
    assert (E1 : w_bank w1 = b) by (unfold w1; apply force_kept).
    pose proof (stakers_iff (g_stakers g) w1 A1) as S1. rewrite E1 in S1.
    destruct (gall (gstaker cfg x) w1 (g_stakers g)) as [w2|] eqn:E2.
    - pose proof (stakers_run _ _ _ E2) as R2.
      destruct (calm_run (j_c (w_chain w1)) (w_node w1) _ (calm_ops (g_stakers g)) w1 B1) as [_ B2]. rewrite <- R2 in B2.
      destruct (g_dels g) as [|q l]; cbn [gall].
      + split; [intros _|eauto]. split; [done|]. split; [|done]. apply S1. eauto.
      + rewrite no_delegation by exact B2. split; [intros [w [=]]|intros (_ & _ & [=])].
    - split; [intros [w [=]]|]. intros (_ & H & _). apply S1 in H as [w' [=]].
  Qed.

  (** ** What the stakers get *)
  Record honoured (w : wstate) (done : list staker) : Prop := Honoured {
    hn_bonded : forall a c, s_bonded (k_stk (view w)) !! a = Some c <-> exists s, s ∈ done /\ a = g_stash s /\ c = g_ctrl s;
    hn_ledger : forall c l, s_ledger (k_stk (view w)) !! c = Some l <->
      exists s, s ∈ done /\ c = g_ctrl s /\ l = Ledger (g_stash s) (g_value s) (g_value s) [];
    hn_payee : forall s, s ∈ done -> s_payee (k_stk (view w)) !! g_stash s = Some PStaked;
    hn_valid : forall a, a ∈ s_valid (k_stk (view w)) <-> exists s, s ∈ done /\ g_valid s = true /\ a = g_stash s }.
  Lemma bond_done y s stash c v :
    s_bonded (k_stk s) !! stash = None -> s_ledger (k_stk s) !! c = None -> p_ed (k_par s) <= v -> kx_consumer y stash = true ->
    v <= free_of (k_bank s) stash ->
    exists s', dispatch sc y s (Signed stash) (KBond c v PStaked) = ROk (s', []) /\
      s_bonded (k_stk s') = <[stash := c]> (s_bonded (k_stk s)) /\
      s_ledger (k_stk s') = <[c := Ledger stash v v []]> (s_ledger (k_stk s)) /\
      s_payee (k_stk s') = <[stash := PStaked]> (s_payee (k_stk s)) /\
      s_valid (k_stk s') = s_valid (k_stk s).
  Proof.
    intros H1 H2 H3 H4 H5. cbn [dispatch signed]. unfold bond, quiet. cbv zeta.
    rewrite H1, H2, H4. rewrite !bool_decide_eq_false_2 by (intros [? ?]; discriminate).
    rewrite (proj2 (N.leb_le _ _) H3). cbn [negb ensure rbind]. rewrite N.min_l by exact H5.
    eexists. split; [reflexivity|]. unfold update_ledger, set_lock. cbn [l_total l_stash]. destruct (v =? 0); repeat split.
  Qed.
  Lemma validate_done y s c l : s_ledger (k_stk s) !! c = Some l ->
    exists s', dispatch sc y s (Signed c) KValidate = ROk (s', []) /\
      s_bonded (k_stk s') = s_bonded (k_stk s) /\ s_ledger (k_stk s') = s_ledger (k_stk s) /\
      s_payee (k_stk s') = s_payee (k_stk s) /\ s_valid (k_stk s') = s_valid (k_stk s) ∪ {[l_stash l]}.
  Proof.
    intros H. cbn [dispatch]. unfold controlled, signed. rewrite H. eexists. split; [reflexivity|]. repeat split.
  Qed.
  Lemma try_done w o k s' : simple k -> dispatch sc (yctx w) (view w) o k = ROk (s', []) -> gtry cfg x w o k = settled w s'.
  Proof.
    intros Hk E. unfold gtry. change (x, WStaking o (JOf k)) with (gop o k). rewrite simple_step by exact Hk. now rewrite E.
  Qed.
  Lemma staker_honoured w done s :
    honoured w done -> (forall t, t ∈ done -> g_stash t <> g_stash s /\ g_ctrl t <> g_ctrl s) ->
    p_ed (k_par (view w)) <= g_value s -> wx_consumer x (g_stash s) = true -> g_value s <= free_of (w_bank w) (g_stash s) ->
    exists w', gstaker cfg x w s = Some w' /\ honoured w' (done ++ [s]).
  Proof.
    intros [Hb Hl Hp Hv] Hd Hed Hc Hf.
    assert (N1 : s_bonded (k_stk (view w)) !! g_stash s = None).
    { destruct (_ !! _) as [c|] eqn:E; [|done]. apply Hb in E as (t & Ht & E1 & _). destruct (Hd t Ht). congruence. }
    assert (N2 : s_ledger (k_stk (view w)) !! g_ctrl s = None).
    { apply eq_None_not_Some. intros [l E]. apply Hl in E as (t & Ht & E1 & _). destruct (Hd t Ht). congruence. }
    destruct (bond_done (yctx w) (view w) (g_stash s) (g_ctrl s) (g_value s) N1 N2 Hed Hc Hf) as (s1 & D1 & B1 & L1 & P1 & V1).
    unfold gstaker. rewrite (proj2 (N.ltb_ge _ _) Hf). cbv zeta. rewrite (try_done w (Signed (g_stash s)) (KBond (g_ctrl s) (g_value s) PStaked) s1 I D1).
    set (w1 := settled w s1).
    assert (HB : forall a c, <[g_stash s:=g_ctrl s]> (s_bonded (k_stk (view w))) !! a = Some c <->
              exists t, t ∈ done ++ [s] /\ a = g_stash t /\ c = g_ctrl t).
    { intros a c. split.
      - intros H. apply lookup_insert_Some in H as [[<- <-]|[_ H]].
        + exists s. split; [|auto]. apply elem_of_app. right. left.
        + apply Hb in H as (t & Ht & E). exists t. split; [|exact E]. apply elem_of_app. now left.
      - intros (t & Ht & -> & ->). apply elem_of_app in Ht as [Ht|Ht%elem_of_list_singleton].
        + rewrite lookup_insert_ne by (destruct (Hd t Ht); congruence). apply Hb. eauto.
        + subst t. apply lookup_insert. }
    assert (HL : forall c l, <[g_ctrl s:=Ledger (g_stash s) (g_value s) (g_value s) []]> (s_ledger (k_stk (view w))) !! c = Some l <->
              exists t, t ∈ done ++ [s] /\ c = g_ctrl t /\ l = Ledger (g_stash t) (g_value t) (g_value t) []).
    { intros a c. split.
      - intros H. apply lookup_insert_Some in H as [[<- <-]|[_ H]].
        + exists s. split; [|auto]. apply elem_of_app. right. left.
        + apply Hl in H as (t & Ht & E). exists t. split; [|exact E]. apply elem_of_app. now left.
      - intros (t & Ht & -> & ->). apply elem_of_app in Ht as [Ht|Ht%elem_of_list_singleton].
        + rewrite lookup_insert_ne by (destruct (Hd t Ht); congruence). apply Hl. eauto.
        + subst t. apply lookup_insert. }
    assert (HP : forall t, t ∈ done ++ [s] -> <[g_stash s:=PStaked]> (s_payee (k_stk (view w))) !! g_stash t = Some PStaked).
    { intros t Ht. apply elem_of_app in Ht as [Ht|Ht%elem_of_list_singleton].
      - rewrite lookup_insert_ne by (destruct (Hd t Ht); congruence). now apply Hp.
      - subst t. apply lookup_insert. }
    destruct (g_valid s) eqn:Hg.
    - assert (E : s_ledger (k_stk (view w1)) !! g_ctrl s = Some (Ledger (g_stash s) (g_value s) (g_value s) [])).
      { change (s_ledger (k_stk (view w1))) with (s_ledger (k_stk s1)). rewrite L1. apply lookup_insert. }
      destruct (validate_done (yctx w1) (view w1) (g_ctrl s) _ E) as (s2 & D2 & B2 & L2 & P2 & V2).
      rewrite (try_done w1 (Signed (g_ctrl s)) KValidate s2 I D2). eexists. split; [reflexivity|].
      change (k_stk (view w1)) with (k_stk s1) in B2, L2, P2, V2. cbn [l_stash] in V2.
      split; change (view (settled w1 s2)) with (set_k_bank s2 (k_bank s2)); cbn [set_k_bank k_stk].
      + rewrite B2, B1. exact HB.
      + rewrite L2, L1. exact HL.
      + rewrite P2, P1. exact HP.
      + intros a. rewrite V2, V1, elem_of_union, elem_of_singleton, Hv. split.
        * intros [(t & Ht & E2)| ->]; [|exists s; split; [apply elem_of_app; right; left|auto]].
          exists t. split; [apply elem_of_app; now left|exact E2].
        * intros (t & Ht & Ev & ->). apply elem_of_app in Ht as [Ht|Ht%elem_of_list_singleton]; [left; eauto|right; now subst].
    - eexists. split; [reflexivity|].
      split; change (view w1) with (set_k_bank s1 (k_bank s1)); cbn [set_k_bank k_stk].
      + rewrite B1. exact HB.
      + rewrite L1. exact HL.
      + rewrite P1. exact HP.
      + intros a. rewrite V1, Hv. split.
        * intros (t & Ht & E2). exists t. split; [apply elem_of_app; now left|exact E2].
        * intros (t & Ht & Ev & ->). apply elem_of_app in Ht as [Ht|Ht%elem_of_list_singleton]; [eauto|subst; congruence].
  Qed.
  Lemma stakers_honoured l : forall w done, honoured w done -> alive (w_bank w) ->
    NoDup (map g_stash (done ++ l)) -> NoDup (map g_ctrl (done ++ l)) ->
    (forall s, s ∈ l -> p_ed (k_par (view w)) <= g_value s /\ wx_consumer x (g_stash s) = true /\
      g_value s <= free_of (w_bank w) (g_stash s)) ->
    exists w', gall (gstaker cfg x) w l = Some w' /\ honoured w' (done ++ l).
  Proof.
    induction l as [|s l IH]; intros w done Hh A N1 N2 H; cbn [gall]; [rewrite app_nil_r; eauto|].
    destruct (H s ltac:(left)) as (H1 & H2 & H3).
    destruct (staker_honoured w done s Hh) as (w1 & E1 & Hh1); try assumption.
    { intros t Ht. rewrite !map_app in N1, N2. apply NoDup_app in N1 as (_ & N1 & _). apply NoDup_app in N2 as (_ & N2 & _).
      split; intros E; [apply (N1 (g_stash t))|apply (N2 (g_ctrl t))]; [apply elem_of_list_fmap; eauto|rewrite E; left|apply elem_of_list_fmap; eauto|rewrite E; left]. }
    rewrite E1. pose proof (staker_kept _ _ _ A E1) as K.
    destruct (IH w1 (done ++ [s]) Hh1) as (w' & E' & Hh'); try (rewrite <- app_assoc; assumption).
    - now apply (kept_alive w).
    - intros t Ht. destruct K as (K1 & _ & _ & K2 & _). rewrite K1, K2. apply H. now right.
    - exists w'. rewrite <- app_assoc in Hh'. auto.
  Qed.

  (** ** The first election *)
  Lemma fold_expo (f : N -> expo) (era : N) l : forall (m : gmap (N * N) expo) v, v ∈ l ->
    fold_left (fun m v => <[(era, v) := f v]> m) l m !! (era, v) = Some (f v).
  Proof.
    induction l as [|a l IH] using rev_ind; intros m v Hv; [inversion Hv|]. rewrite fold_left_app. cbn [fold_left].
    destruct (decide (v = a)) as [->|Hn]; [apply lookup_insert|]. rewrite lookup_insert_ne by congruence. apply IH.
    apply elem_of_app in Hv as [Hv|Hv%elem_of_list_singleton]; [exact Hv|contradiction].
  Qed.
  Definition era0 (f : forcing) : eras := Eras None None ∅ [] f ∅ ∅ ∅ ∅.
  Lemma first_session s : k_era s = era0 NotForcing -> 0 < add32 (p_depth (k_par s)) 1 ->
    p_white (k_par s) = [] -> N.max (p_min (k_par s)) 1 <= N.of_nat (size (s_valid (k_stk s))) <= p_count (k_par s) ->
    exists s' l, new_session sc s 0 = (s', [KElected 0 l]) /\ l ≡ₚ elements (s_valid (k_stk s)) /\
      k_bank s' = k_bank s /\ k_stk s' = k_stk s /\ k_par s' = k_par s /\
      e_cur (k_era s') = Some 0 /\ e_act (k_era s') = None /\ e_force (k_era s') = NotForcing /\
      e_start (k_era s') = {[0 := 0]} /\ e_bonded (k_era s') = [] /\ e_vals (k_era s') = {[0 := l]} /\
      (forall v, v ∈ l -> e_stakers (k_era s') !! (0, v) = Some (Expo (active_stake (k_stk s) v) (active_stake (k_stk s) v) [])).
  Proof.
    intros He Hd Hw [H1 H2]. unfold new_session. rewrite He. cbn [era0 e_cur]. unfold new_era. rewrite He. cbn [era0 e_cur].
    cbv zeta. rewrite (proj2 (N.leb_gt _ _) Hd). unfold elect. cbv zeta. cbn [set_k_era k_par k_stk k_del].
    assert (F : List.filter (trusted (k_par s)) (validators_in_order sc (k_stk s)) = validators_in_order sc (k_stk s)).
    { induction (validators_in_order sc (k_stk s)) as [|v vs IH]; [reflexivity|]. cbn [List.filter].
      unfold trusted at 1. rewrite Hw, (bool_decide_eq_true_2 ([] = [])) by done. rewrite orb_true_r. now rewrite IH. }
    rewrite F, map_length.
    assert (P : validators_in_order sc (k_stk s) ≡ₚ elements (s_valid (k_stk s))).
    { apply NoDup_Permutation; [apply validators_nodup|apply NoDup_elements|]. intros v. rewrite validators_elem. symmetry. apply elem_of_elements. }
    assert (L : length (validators_in_order sc (k_stk s)) = size (s_valid (k_stk s))) by (rewrite P; reflexivity).
    rewrite L. rewrite (proj2 (N.ltb_ge _ _) H1), (proj2 (N.ltb_ge _ _) H2).
    set (l := map _ (take _ _)).
    assert (E : l ≡ₚ elements (s_valid (k_stk s))).
    { unfold l. rewrite take_ge by (rewrite rsort_perm, map_length, L; lia). rewrite rsort_perm, map_map. cbn [rank_of fst].
      rewrite map_id. exact P. }
    eexists _, l. split; [reflexivity|]. split; [exact E|]. repeat split.
    intros v Hv. cbn [set_k_era k_era set_e_vals set_e_stake set_e_stakers e_stakers].
    apply (fold_expo (fun v => Expo (active_stake (k_stk s) v) (active_stake (k_stk s) v) [])). exact Hv.
  Qed.
  Lemma sessions_effect w : blank w -> k_era (view w) = era0 NotForcing -> 1 < kc_sessions sc -> 0 < add32 (p_depth (k_par (view w))) 1 ->
    p_white (k_par (view w)) = [] -> N.max (p_min (k_par (view w))) 1 <= N.of_nat (size (s_valid (k_stk (view w)))) <= p_count (k_par (view w)) ->
    let w' := gsessions cfg x w in
    w_bank w' = w_bank w /\
    s_bonded (k_stk (view w')) = s_bonded (k_stk (view w)) /\ s_ledger (k_stk (view w')) = s_ledger (k_stk (view w)) /\
    s_payee (k_stk (view w')) = s_payee (k_stk (view w)) /\ s_valid (k_stk (view w')) = s_valid (k_stk (view w)) /\
    k_par (view w') = k_par (view w) /\ e_cur (k_era (view w')) = Some 0 /\ e_act (k_era (view w')) = Some (0, false) /\
    exists l, l ≡ₚ elements (s_valid (k_stk (view w))) /\ e_vals (k_era (view w')) = {[0 := l]} /\
      (forall v, v ∈ l -> e_stakers (k_era (view w')) !! (0, v) =
         Some (Expo (active_stake (k_stk (view w)) v) (active_stake (k_stk (view w)) v) [])).
  Proof.
    intros [B1 B2] He Hs Hd Hw Hn. destruct (first_session (view w) He Hd Hw Hn)
      as (s1 & l & N0 & P & Eb & Ek & Ep & Ec & Ea & Ef & Es & Ebo & Ev & Ex).
    assert (W1 : (wstep cfg w (x, WBlock (BNewSession 0))).1 = settled w s1).
    { unfold wstep, wblock_step, wjstep, jstep, jact_step, splain. cbn [fst snd].
      change (j_s (jsync (w_chain w) (w_bank w))) with (view w). cbn [kstep]. rewrite N0. reflexivity. }
    unfold gsessions. rewrite W1. set (w1 := settled w s1).
    assert (W2 : (wstep cfg w1 (x, WBlock (BNewSession 1))).1 = settled w1 (view w1)).
    { unfold wstep, wblock_step, wjstep, jstep, jact_step, splain. cbn [fst snd].
      change (j_s (jsync (w_chain w1) (w_bank w1))) with (view w1). cbn [kstep].
      assert (E : new_session sc (view w1) 1 = (view w1, [])).
      { unfold new_session. change (k_era (view w1)) with (k_era s1). rewrite Ec, Ef, Es, lookup_singleton. cbn [default].
        assert (Z : (kc_sessions sc <=? ssub 1 (id 0)) = false) by (apply N.leb_gt; unfold ssub; cbn; lia). now rewrite Z. }
      rewrite E. reflexivity. }
    rewrite W2. set (w2 := settled w1 (view w1)).
    assert (W3 : (wstep cfg w2 (x, WBlock (BStartSession 0))).1 = settled w2 (begin_era (wc_chain cfg) (view w2) 0)).
    { unfold wstep, wblock_step, wjstep, jstep, jact_step. cbn [fst snd].
      change (j_s (jsync (w_chain w2) (w_bank w2))) with (view w2). unfold jstart_session.
      change (k_era (view w2)) with (k_era s1). rewrite Ea, Es, lookup_singleton. cbn [N.leb N.compare].
      unfold japply_unapplied. change (s_first (k_stk (begin_era (wc_chain cfg) (view w2) 0))) with (s_first (k_stk s1)).
      rewrite Ek. change (s_first (k_stk (view w))) with (s_first (k_stk (j_s (w_chain w)))). rewrite B2. reflexivity. }
    rewrite W3. cbv zeta.
    change (view (settled w2 (begin_era (wc_chain cfg) (view w2) 0))) with
      (set_k_bank (begin_era (wc_chain cfg) (view w2) 0) (k_bank (begin_era (wc_chain cfg) (view w2) 0))).
    change (w_bank (settled w2 (begin_era (wc_chain cfg) (view w2) 0))) with (k_bank s1).
    unfold begin_era. cbn [set_k_bank set_k_era set_k_stk k_stk k_era k_par set_s_in_era s_bonded s_ledger s_payee s_valid
      set_e_bonded set_e_act e_cur e_act e_vals e_stakers].
    change (k_stk (view w2)) with (k_stk s1). change (k_era (view w2)) with (k_era s1). change (k_par (view w2)) with (k_par s1).
    rewrite Eb, Ek, Ep, Ec, Ea, Ev. repeat split. exists l. auto.
  Qed.
End build.

(** * testnet_genesis *)

Lemma give_keeps l : forall acc p, p ∈ acc -> p ∈ fold_left give l acc.
Proof.
  induction l as [|q l IH]; intros acc p H; cbn [fold_left]; [exact H|]. apply IH. unfold give.
  destruct (bool_decide _); [exact H|]. apply elem_of_app. now left.
Qed.
Lemma give_from l : forall acc p, p ∈ fold_left give l acc -> p ∈ acc \/ p ∈ l.
Proof.
  induction l as [|q l IH]; intros acc p H; cbn [fold_left] in H; [now left|]. apply IH in H as [H|H]; [|right; now right].
  unfold give in H. destruct (bool_decide _); [now left|]. apply elem_of_app in H as [H|H%elem_of_list_singleton]; [now left|].
  right. subst. left.
Qed.
Lemma give_nodup l : forall acc, NoDup acc.*1 -> NoDup (fold_left give l acc).*1.
Proof.
  induction l as [|q l IH]; intros acc H; cbn [fold_left]; [exact H|]. apply IH. unfold give.
  case_bool_decide as E; [exact H|]. rewrite fmap_app. apply NoDup_app. split; [exact H|]. split; [|apply NoDup_singleton].
  intros a Ha Hb. apply elem_of_list_singleton in Hb. cbn in Hb. subst. contradiction.
Qed.
Lemma give_first l1 l2 a v : (forall u, (a, u) ∈ l1 -> v <= u) ->
  exists u, (a, u) ∈ fold_left give (l1 ++ (a, v) :: l2) [] /\ v <= u.
Proof.
  intros H. rewrite fold_left_app. cbn [fold_left]. set (acc := fold_left give l1 []).
  assert (A : forall u, (a, u) ∈ acc -> v <= u).
  { intros u Hu. apply give_from in Hu as [Hu|Hu]; [inversion Hu|auto]. }
  unfold give at 2. cbn [fst]. case_bool_decide as E.
  - apply elem_of_list_fmap in E as ([b u] & -> & Hu). exists u. split; [now apply give_keeps|now apply A].
  - exists v. split; [|lia]. apply give_keeps. apply elem_of_app. right. left.
Qed.
Section testnet.
  Context (ed : N) (A : list (N * N)) (ae stash : N) (en : list N) (e : N)
          (settings : list Model_Credit.setting) (data : list (N * Model_Credit.cdata)) (evm : list (N * N)).
  Local Notation g := (testnet ed A ae stash en e settings data evm).
  Lemma flat_gift (l : list (N * N)) a u : (a, u) ∈ flat_map (fun p => [(p.1, stash); (p.2, ae)]) l ->
    exists p, p ∈ l /\ ((a = p.1 /\ u = stash) \/ (a = p.2 /\ u = ae)).
  Proof.
    intros H. apply elem_of_list_In, in_flat_map in H as (p & Hp & H). exists p. split; [now apply elem_of_list_In|].
    destruct H as [[= <- <-]|[[= <- <-]|[]]]; auto.
  Qed.
  Lemma testnet_lists p : sane ed A ae stash en e -> p ∈ A -> exists u, (p.1, u) ∈ g_balances g /\ stash <= u.
  Proof.
    intros [S1 S2 S3 S4 S5 S6] Hp. pose proof Hp as Hp0. apply elem_of_list_split in Hp as (A1 & A2 & EA).
    unfold testnet. cbn [g_balances].
    assert (E : map (fun a => (a, e)) en ++ flat_map (fun p => [(p.1, stash); (p.2, ae)]) A =
      (map (fun a => (a, e)) en ++ flat_map (fun p => [(p.1, stash); (p.2, ae)]) A1) ++ (p.1, stash) ::
        ((p.2, ae) :: flat_map (fun p => [(p.1, stash); (p.2, ae)]) A2)).
    { rewrite EA, flat_map_app, <- app_assoc. reflexivity. }
    rewrite E. apply give_first. intros u Hu. apply elem_of_app in Hu as [Hu|Hu].
    - apply elem_of_list_fmap in Hu as (a & Ea & Ha). injection Ea as E1 E2. subst a u. eapply S6; eauto.
    - apply flat_gift in Hu as (q & Hq & [[E1 ->]|[E1 ->]]); [lia|].
      assert (Hq0 : q ∈ A) by (rewrite EA; apply elem_of_app; now left).
      destruct (S4 p q Hp0 Hq0 E1) as [->|H]; [|exact H]. exfalso.
      rewrite EA, fmap_app in S2. apply NoDup_app in S2 as (_ & S2 & _). apply (S2 q.1); [apply elem_of_list_fmap; eauto|left].
  Qed.
  Lemma testnet_proper : sane ed A ae stash en e -> proper ed (g_balances g).
  Proof.
    intros [_ _ _ _ (S1 & S2 & S3) _]. split.
    - apply give_nodup. constructor.
    - intros a v H. apply give_from in H as [H|H]; [inversion H|]. apply elem_of_app in H as [H|H].
      + apply elem_of_list_fmap in H as (b & [= -> ->] & _). exact S3.
      + apply flat_gift in H as (p & _ & [[_ ->]|[_ ->]]); assumption.
  Qed.
End testnet.

Section props.
  Context (cfg : wcfg) (x : wctx).
  Local Notation sc := (jc_s (wc_chain cfg)).
  Lemma proper_balanced l : proper (kc_ed sc) l <-> gbalanced (kc_ed sc) l = true.
  Proof.
    rewrite balanced_spec. unfold proper. split; intros [H1 H2]; split; auto.
    - intros [a v] Hp. exact (H2 a v Hp).
    - intros a v Hp. exact (H1 (a, v) Hp).
  Qed.
  Lemma lists_free l a v : NoDup l.*1 -> (v <= free_of (gbank l) a <-> v = 0 \/ lists l a v).
  Proof.
    intros N. split.
    - intros H. destruct (decide (a ∈ l.*1)) as [Ha|Ha].
      + right. apply elem_of_list_fmap in Ha as ([b u] & -> & Hp). exists u. split; [exact Hp|]. cbn [fst] in H.
        now rewrite (bank_free l b u) in H.
      + left. rewrite bank_none in H by exact Ha. lia.
    - intros [->|(u & Hp & Hv)]; [lia|]. now rewrite (bank_free l a u).
  Qed.
  Lemma build_spec g : (exists w, gbuild cfg x g = Some w) <->
    proper (kc_ed sc) (g_balances g) /\
    (forall s, s ∈ g_stakers g -> g_value s = 0 \/ lists (g_balances g) (g_stash s) (g_value s)) /\ g_dels g = [].
  Proof.
    rewrite build_iff, proper_balanced. split; intros (H1 & H2 & H3); (split; [exact H1|]); (split; [|exact H3]); intros s Hs;
      apply balanced_spec in H1 as [_ H1]; (apply lists_free; [exact H1|auto]).
  Qed.

  Theorem build_grants g : proper (kc_ed sc) (g_balances g) -> distinct (p_ed (g_pars g)) (g_stakers g) -> g_dels g = [] ->
    (forall s, s ∈ g_stakers g -> wx_consumer x (g_stash s) = true /\ (g_value s = 0 \/ lists (g_balances g) (g_stash s) (g_value s))) ->
    exists w2, blank w2 /\ honoured w2 (g_stakers g) /\
      gbuild cfg x g = Some (gfill (Model_Credit.kinit (gbank (g_balances g)) (g_settings g) (g_data g))
                                   (Model_DeeperNode.dinit (gbank (g_balances g)) (g_evm g)) (gsessions cfg x w2)) /\
      (forall a, free_of (w_bank w2) a = free_of (gbank (g_balances g)) a) /\ money (w_bank w2) = lsum (g_balances g).*2 /\
      k_era (view w2) = era0 (g_force g) /\ k_par (view w2) = g_pars g.
  Proof.
    intros Hp (D1 & D2 & D3) Hd Hs. pose proof Hp as Hp0. apply proper_balanced in Hp.
    unfold gbuild. rewrite Hp, Hd. cbn [negb gall]. cbv zeta. set (b := gbank (g_balances g)).
    set (w0 := wgenesis b _ _ _ _ _). set (w1 := gtry cfg x w0 Root _).
    assert (W1 : w1 = settled w0 (set_k_era (view w0) (set_e_force (k_era (view w0)) (g_force g)))).
    { unfold w1, gtry. change (x, WStaking Root (JOf (KForce (g_force g)))) with (gop x Root (KForce (g_force g))).
      rewrite simple_step by exact I. reflexivity. }
    assert (A1 : alive cfg (w_bank w1)) by (rewrite W1; now apply bank_alive).
    assert (B1 : blank w1) by (rewrite W1; split; reflexivity).
    assert (H1 : honoured w1 []).
    { rewrite W1. split.
      - intros a c. split; [intros [=]|intros (s & Hn & _); inversion Hn].
      - intros a c. split; [intros [=]|intros (s & Hn & _); inversion Hn].
      - intros s Hn. inversion Hn.
      - intros a. split; [intros Hn; cbn in Hn; set_solver|intros (s & Hn & _); inversion Hn]. }
    destruct (stakers_honoured cfg x (g_stakers g) w1 [] H1 A1) as (w2 & E2 & H2); [exact D1|exact D2| |].
    { intros s Hin. destruct (Hs s Hin) as [C V]. split; [|split; [exact C|]].
      - rewrite W1. exact (D3 s Hin).
      - rewrite W1. apply lists_free; [exact (proj1 Hp0)|exact V]. }
    exists w2. rewrite E2. pose proof (stakers_kept cfg x _ _ _ A1 E2) as (K1 & K2 & K3 & K4 & _).
    pose proof (stakers_run cfg x _ _ _ E2) as R2.
    split. { destruct (calm_run cfg x (j_c (w_chain w1)) (w_node w1) _ (calm_ops x (g_stakers g)) w1 B1) as [_ B2]. now rewrite <- R2 in B2. }
    split; [exact H2|]. split; [reflexivity|]. rewrite W1 in K1, K2, K3, K4.
    split; [exact K1|]. split; [rewrite K2; apply bank_money, Hp0|]. split; [exact K3|exact K4].
  Qed.
End props.

Lemma data_last (data : list (N * Model_Credit.cdata)) a d : NoDup data.*1 -> (a, d) ∈ data ->
  fold_left (fun m p => <[p.1 := p.2]> m) data (∅ : gmap N Model_Credit.cdata) !! a = Some d.
Proof.
  induction data as [|[b e] data IH] using rev_ind; intros N H; [inversion H|]. rewrite fold_left_app. cbn [fold_left fst snd].
  rewrite fmap_app in N. apply NoDup_app in N as (N1 & N2 & _).
  apply elem_of_app in H as [H|H%elem_of_list_singleton].
  - rewrite lookup_insert_ne; [auto|]. intros ->. apply (N2 a); [apply elem_of_list_fmap; exists (a, d); auto|left].
  - injection H as -> ->. apply lookup_insert.
Qed.
Lemma fill_credit b settings data n v :
  Model_Credit.k_uc (j_c (w_chain (gfill (Model_Credit.kinit b settings data) n v))) =
  fold_left (fun m p => <[p.1 := p.2]> m) data ∅.
Proof. reflexivity. Qed.
Lemma fill_eras c n v : k_era (view v) = the_eras (gfill c n v).
Proof. reflexivity. Qed.
Lemma fill_staking c n v : k_stk (view v) = staking (gfill c n v).
Proof. reflexivity. Qed.
Lemma fill_staking2 c n v : staking v = staking (gfill c n v).
Proof. reflexivity. Qed.
Lemma fill_bank c n v : w_bank v = w_bank (gfill c n v).
Proof. reflexivity. Qed.

Section props2.
  Context (cfg : wcfg) (x : wctx).
  Local Notation sc := (jc_s (wc_chain cfg)).
  Lemma sessions_keep w : blank w -> w_bank (gsessions cfg x w) = w_bank w /\
    s_bonded (staking (gsessions cfg x w)) = s_bonded (k_stk (view w)) /\
    s_ledger (staking (gsessions cfg x w)) = s_ledger (k_stk (view w)) /\
    s_payee (staking (gsessions cfg x w)) = s_payee (k_stk (view w)) /\
    s_valid (staking (gsessions cfg x w)) = s_valid (k_stk (view w)).
  Proof.
    intros B.
    assert (NE : forall s i, let r := new_session sc s i in k_bank r.1 = k_bank s /\ k_stk r.1 = k_stk s).
    { assert (E : forall s i, let r := new_era sc s i in k_bank r.1 = k_bank s /\ k_stk r.1 = k_stk s).
      { intros s i. cbv zeta. unfold new_era. cbv zeta. destruct (elect _ _ _) as [s1 [l|]] eqn:E; cbn [fst]; unfold elect in E; cbv zeta in E;
          destruct (_ <? _); try discriminate; [injection E as <- _|injection E as <-]; split; reflexivity. }
      intros s i. cbv zeta. unfold new_session. destruct (e_cur _); [|apply E]. cbv zeta. destruct (e_force _); try apply E; try (split; reflexivity).
      - destruct (_ <=? _); [apply E|split; reflexivity].
      - pose proof (E (set_k_era s (set_e_force (k_era s) NotForcing)) i) as [E1 E2]. split; [exact E1|exact E2]. }
    assert (W : forall w i, let w' := (wstep cfg w (x, WBlock (BNewSession i))).1 in w_bank w' = w_bank w /\ k_stk (j_s (w_chain w')) = k_stk (j_s (w_chain w))).
    { intros v i. cbv zeta. unfold wstep, wblock_step, wjstep, jstep, jact_step, splain. cbn [fst snd].
      change (j_s (jsync (w_chain v) (w_bank v))) with (view v). cbn [kstep].
      destruct (new_session sc (view v) i) as [s ev] eqn:E. pose proof (NE (view v) i) as [E1 E2]. rewrite E in E1, E2. split; [exact E1|exact E2]. }
    unfold gsessions. set (w1 := (wstep cfg w _).1). set (w2 := (wstep cfg w1 _).1).
    destruct (W w 0) as [A1 A2]. destruct (W w1 1) as [C1 C2]. fold w1 in A1, A2. fold w2 in C1, C2.
    assert (B2 : blank w2) by (apply blank_new, blank_new, B). destruct B2 as [_ B2].
    unfold wstep, wblock_step, wjstep, jstep, jact_step. cbn [fst snd].
    change (j_s (jsync (w_chain w2) (w_bank w2))) with (view w2).
    assert (R : forall c0 y, jstart_session (wc_chain cfg) y c0 (view w2) 0 =
      ROk (c0, match e_start (k_era (view w2)) !! match e_act (k_era (view w2)) with Some (i, _) => add32 i 1 | None => 0 end with
               | Some st => if st <=? 0 then begin_era (wc_chain cfg) (view w2) 0 else view w2
               | None => view w2 end, [])).
    { intros c0 y. unfold jstart_session. destruct (_ !! _); [|done]. destruct (_ <=? _); [|done].
      unfold japply_unapplied. change (s_first (k_stk (begin_era (wc_chain cfg) (view w2) 0))) with (s_first (k_stk (j_s (w_chain w2)))).
      now rewrite B2. }
    rewrite R. unfold staking. change (k_stk (view w)) with (k_stk (j_s (w_chain w))). rewrite <- A2, <- C2, <- A1, <- C1.
    destruct (_ !! _) as [st|]; [destruct (st <=? 0)|]; repeat split.
  Qed.
  Lemma honoured_granted w l w' s : honoured w l -> NoDup (map g_stash l) -> s ∈ l ->
    s_bonded (staking w') = s_bonded (k_stk (view w)) -> s_ledger (staking w') = s_ledger (k_stk (view w)) ->
    s_payee (staking w') = s_payee (k_stk (view w)) -> s_valid (staking w') = s_valid (k_stk (view w)) -> granted_stake w' s.
  Proof.
    intros [Hb Hl Hp Hv] N Hs E1 E2 E3 E4. unfold granted_stake. rewrite E1, E2, E3, E4.
    split; [apply Hb; eauto|]. split; [apply Hl; eauto|]. split; [now apply Hp|]. rewrite Hv.
    split; [eauto|]. intros (t & Ht & Et & Es). assert (t = s) as ->; [|exact Et].
    apply elem_of_list_lookup in Hs as [i Hi]. apply elem_of_list_lookup in Ht as [j Hj].
    assert (i = j); [|congruence]. apply (NoDup_lookup (map g_stash l) i j (g_stash s) N).
    - rewrite list_lookup_fmap, Hi. reflexivity.
    - rewrite list_lookup_fmap, Hj. cbn. now rewrite Es.
  Qed.
End props2.
