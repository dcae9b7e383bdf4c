(** What lowers a credit score in the whole chain. *)
From Verif Require Import Base Balances Model_UserPrivileges Spec_UserPrivileges.
From Verif Require Model_Credit Model_Staking Model_DeeperNode Model_Operation Model_CreditAccumulation Model_Tips Proofs_DeeperNode2 Proofs_Arith.
From Verif Require Import Model_Chain Model_World Spec_Chain3 Spec_World Spec_World2 Spec_World3
  Proofs_Chain1 Proofs_Chain11 Proofs_World2 Proofs_World3 Proofs_World5.
From stdpp Require Import gmap.
Open Scope N_scope.

Section credit.
  Context (cfg : wcfg).

  (** ** Heartbeats *)
  Local Notation online w d := (default 0 (Model_DeeperNode.d_online (w_node w) !! d)).
  Definition beat (t : N) (op : wop) (d : N) : N :=
    match op.2 with
    | WNode (Signed a) Model_DeeperNode.DImOnline => if a =? d then wx_now op.1 else t
    | _ => t
    end.
  Lemma to_credit_node x w e v w0 : w_node w = w_node w0 -> w_node (to_credit cfg x w e v w0).1 = w_node w0.
  Proof. unfold to_credit. intros E. now destruct (wjstep cfg x w (JEntry e)) as [j [ev| |]]. Qed.
  Lemma of_chain_node w r : w_node (of_chain w r).1 = w_node w.
  Proof. unfold of_chain. now destruct r as [j [ev| |]]. Qed.
  Lemma dstep_online c s x o k d :
    default 0 (Model_DeeperNode.d_online (Model_DeeperNode.dstep c s x o k).1 !! d) =
    match o, k with
    | Signed a, Model_DeeperNode.DImOnline => if a =? d then Model_DeeperNode.x_now x else default 0 (Model_DeeperNode.d_online s !! d)
    | _, _ => default 0 (Model_DeeperNode.d_online s !! d)
    end.
  Proof.
    destruct (Proofs_DeeperNode2.run_online c [(x, o, k)] s d) as [E _].
    unfold Model_DeeperNode.drun in E. cbn [fold_left] in E. unfold Model_DeeperNode.ddo in E. cbn [fst snd] in E. rewrite E.
    destruct o as [|a|]; [destruct k; reflexivity| |destruct k; reflexivity].
    destruct k; cbn; try reflexivity. now destruct (a =? d).
  Qed.
  Lemma step_online w op d : online (wstep cfg w op).1 d = beat (online w d) op d.
  Proof.
    destruct op as [x a]. unfold beat. cbn [fst snd].
    assert (Same : w_node (wstep cfg w (x, a)).1 = w_node w -> online (wstep cfg w (x, a)).1 d = online w d) by now intros ->.
    destruct a; try (rewrite Same; [reflexivity|]); cbn [wstep fst snd].
    - now destruct (ustep _ _ _) as [p [r| |]].
    - unfold wproof. destruct (Model_CreditAccumulation.astep _ _ _ _ _) as [p [r| |]]; try reflexivity.
      destruct o, c; try reflexivity. now apply to_credit_node.
    - clear Same. unfold wnode. destruct (node_call c) eqn:En; cbn [negb].
      + pose proof (dstep_online (wc_node cfg) (Model_DeeperNode.with_bank (w_node w) (w_bank w)) (nctx cfg x w) o c d) as E.
        destruct (Model_DeeperNode.dstep _ _ _ _ _) as [q [r| |]] eqn:Ed; cbn [fst] in *.
        * change (w_node (set_w_node w q)) with q. rewrite E. destruct o, c; reflexivity.
        * destruct o, c; try reflexivity; discriminate Ed.
        * destruct o, c; try reflexivity; discriminate Ed.
      + destruct o, c; try reflexivity; discriminate En.
    - apply of_chain_node.
    - apply of_chain_node.
    - unfold wchannel. destruct (negb _); [reflexivity|]. now destruct (Model_Micropayment.mstep _ _ _ _ _ _) as [p [r| |]].
    - unfold woperation. destruct (Model_Operation.ostep _ _ _ _ _) as [p [r| |]]; try reflexivity.
      destruct c; try reflexivity; now apply to_credit_node.
    - unfold wadsc. now destruct (Model_Adsc.astep _ _ _ _ _) as [p [r| |]].
    - unfold wtips. destruct (Model_Tips.tstep _ _ _) as [p [e| |]]; try reflexivity.
      destruct (tipped e) as [[? ?]|]; [now apply to_credit_node|reflexivity].
    - apply of_chain_node.
    - destruct b; cbn [wblock_step]; try apply of_chain_node.
      + now destruct (Model_Operation.on_finalize _ _ _).
      + destruct (negb _); [reflexivity|]. now destruct (Model_Adsc.aentry _ _ _ _).
    - now destruct (transfer_allow _ _ _ _ _).
    - unfold wreserve. now destruct (reserve _ _ _ _).
    - reflexivity.
  Qed.
  Lemma heard_snoc h op d : heard (h ++ [op]) d = beat (heard h d) op d.
  Proof.
    unfold heard, heartbeats, beat. rewrite omap_app, last_app. cbn.
    destruct (op.2) as [| |o c| | | | | | | | | | |]; try reflexivity. destruct o as [|a|], c; try reflexivity. now destruct (a =? d).
  Qed.
  Lemma wrun_snoc h op w : wrun cfg w (h ++ [op]) = (wstep cfg (wrun cfg w h) op).1.
  Proof. revert w. induction h as [|o h IH]; intros w; [reflexivity|]. cbn. apply IH. Qed.
  Lemma run_heard b p settings data evm u h d :
    online (wrun cfg (wgenesis b p settings data evm u) h) d = heard h d.
  Proof.
    induction h as [|op h IH] using rev_ind; [reflexivity|].
    rewrite wrun_snoc, step_online, heard_snoc, IH. reflexivity.
  Qed.
  Lemma heard_le h d now : Forall (fun op => wx_now op.1 <= now) h -> heard h d <= now.
  Proof.
    induction h as [|op h IH] using rev_ind; intros F; [apply N.le_0_l|]. apply Forall_app in F as [F1 F2].
    apply Forall_inv in F2. rewrite heard_snoc. specialize (IH F1). unfold beat.
    destruct (op.2) as [| |o c| | | | | | | | | | |]; try exact IH. destruct o as [|a|], c; try exact IH. destruct (a =? d); [exact F2|exact IH].
  Qed.
  Lemma offline_silent b p settings data evm u h x d :
    Forall (fun op => wx_now op.1 <= wx_now x) h -> wx_now x < 2 ^ 32 ->
    offline cfg x (wrun cfg (wgenesis b p settings data evm u) h) d = silent_eras cfg h (wx_now x) d.
  Proof.
    intros F L. unfold offline, silent_eras, Model_DeeperNode.eras_offline. rewrite run_heard.
    pose proof (heard_le h d _ F). now rewrite Proofs_Arith.sub32_exact by (unfold two32; lia).
  Qed.

  (** ** The step *)
  Lemma step_fall w x a w' out d :
    Model_Credit.kc_step (jc_c (wc_chain cfg)) <> Model_Credit.U64MAX ->
    wstep cfg w (x, a) = (w', out) -> score w d < 2 ^ 64 -> score w' d < score w d ->
    exists ev w1 b, out = WDone ev /\ chain_part cfg w (x, a) = Some (w1, b) /\ w_chain w1 = w_chain w /\
      lowers (j_c (w_chain w)) (wjctx cfg x w1, b) (omap staking_event ev) d.
  Proof.
    intros Hs H H64 Hlt. destruct out as [ev| |]; [|apply step_same in H as [-> _]; [lia|discriminate]..].
    pose proof (step_moved cfg w (x, a) w' ev H) as [M _]. unfold chain_moved in M.
    destruct (chain_part cfg w (x, a)) as [[w1 b]|]; [|destruct M as [Hc _]; unfold score in Hlt; rewrite Hc in Hlt; lia].
    destruct M as [Hc M]. exists ev, w1, b. split; [reflexivity|]. split; [reflexivity|]. split; [exact Hc|].
    unfold wjstep in M. set (j := jsync (w_chain w1) (w_bank w1)) in *. cbn [fst] in M.
    pose proof (jstep_fall (wc_chain cfg) Hs d j (wjctx cfg x w1, b) eq_refl) as F. rewrite M in F. cbn [fst snd out_events] in F.
    assert (E : credit_of (j_c j) d = score w d) by (unfold score, j; rewrite Hc; reflexivity).
    rewrite E in F. specialize (F H64 Hlt).
    unfold j in F. rewrite Hc in F. exact F.
  Qed.
  Lemma step_session_fall w x b w' ev d :
    Model_Credit.kc_step (jc_c (wc_chain cfg)) <> Model_Credit.U64MAX ->
    match b with BStartSession _ | BOffence _ _ => True | _ => False end ->
    wstep cfg w (x, WBlock b) = (w', WDone ev) ->
    score w d <= score w' d + Model_Credit.kc_step (jc_c (wc_chain cfg)) * credit_slashes (omap staking_event ev) d.
  Proof.
    intros Hs Hb H. pose proof (step_moved cfg w (x, WBlock b) w' ev H) as [M _]. unfold chain_moved in M.
    destruct b; try contradiction; cbn [chain_part fst snd] in M; destruct M as [_ M]; unfold wjstep in M;
      match type of M with jstep _ ?j ?op = _ => pose proof (session_falls (wc_chain cfg) Hs d j op I) as F end;
      rewrite M in F; exact F.
  Qed.

  Theorem step_cause b p settings data evm u h x a w' out d :
    Model_Credit.kc_step (jc_c (wc_chain cfg)) <> Model_Credit.U64MAX ->
    Forall (fun op => wx_now op.1 <= wx_now x) h -> wx_now x < 2 ^ 32 ->
    let w := wrun cfg (wgenesis b p settings data evm u) h in
    wstep cfg w (x, a) = (w', out) -> score w d < 2 ^ 64 -> score w' d < score w d ->
    exists ev, out = WDone ev /\ cause cfg h w (x, a) ev d /\ allowed (granted h) x a.
  Proof.
    intros Hs F L w H H64 Hlt. destruct (step_fall w x a w' out d Hs H H64 Hlt) as (ev & w1 & k & -> & Hp & Hc & Lo).
    exists ev. split; [reflexivity|]. split.
    - unfold cause. cbn [fst snd]. unfold lowers in Lo. cbn [fst snd] in Lo.
      destruct a; cbn [chain_part fst snd] in Hp; try discriminate.
      + destruct o, c; try discriminate. injection Hp as <- <-. contradiction.
      + injection Hp as <- <-. destruct c; try contradiction; exact Lo.
      + injection Hp as <- <-. destruct c as [[]|]; try contradiction; exact Lo.
      + destruct c; try discriminate; injection Hp as <- <-; try contradiction; exact Lo.
      + destruct (Model_Tips.tstep _ _ _) as [t [[|[] ?]| |]]; try discriminate. injection Hp as <- <-. contradiction.
      + injection Hp as <- <-. destruct add; [contradiction|]. exact Lo.
      + destruct b0; try discriminate; injection Hp as <- <-; try contradiction; try exact Lo.
        change (Model_Credit.kx_offline (jx_c (wjctx cfg x w)) d) with (offline cfg x w d) in Lo.
        subst w. rewrite (offline_silent b p settings data evm u h x d F L) in Lo. exact Lo.
    - apply (step_allowed cfg (granted h) w x a w' ev); [apply genesis_priv|exact H|].
      unfold effective. destruct a; try exact I.
      + cbn [chain_part fst snd] in Hp. discriminate.
      + intros E. unfold Spec_World3.score, credit_of in Hlt. rewrite E in Hlt. lia.
  Qed.
End credit.
