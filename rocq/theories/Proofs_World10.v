(** Devices and reward addresses in the whole chain. *)
From Verif Require Import Base Balances Proofs_Balances Model_UserPrivileges.
From Verif Require Model_Credit Model_Staking Model_Operation Model_CreditAccumulation Model_Tips Model_Adsc Model_Micropayment.
From Verif Require Import Model_Regions Model_DeeperNode Spec_DeeperNode Proofs_DeeperNode Proofs_DeeperNode2.
From Verif Require Import Model_Chain Model_World Spec_World Spec_World2 Spec_World4 Proofs_World2 Proofs_World5 Proofs_World7.
From Verif Require Spec_World3 Proofs_CreditAccumulation.
From stdpp Require Import gmap strings.
Open Scope N_scope.

Section devices.
  Context (cfg : wcfg).
  Local Notation C := (wc_node cfg).
  Local Notation at_bank w := (with_bank (w_node w) (w_bank w)).

  (** Only calls of the pallet touch the devices; such a step is a step of the single model. *)
  Lemma node_step w op :
    (w_node (wstep cfg w op).1 = w_node w /\
      match op.2 with WNode _ _ => forall ev, (wstep cfg w op).2 <> WDone ev | _ => True end) \/
    exists who c d ev, op.2 = WNode (Signed who) c /\ dstep C (at_bank w) (nctx cfg op.1 w) (Signed who) c = (d, ROk ev) /\
      w_node (wstep cfg w op).1 = d /\ (wstep cfg w op).2 = WDone (map VNode ev).
  Proof.
    destruct op as [x a]. destruct a; [left; split; [|exact I]|left; split; [|exact I]| |left; split; [|exact I]..]; cbn [wstep fst snd].
    - now destruct (ustep _ _ _) as [p [r| |]].
    - unfold wproof. destruct (Model_CreditAccumulation.astep _ _ _ _ _) as [p [r| |]]; try reflexivity.
      destruct o, c; try reflexivity. now apply to_credit_node.
    - unfold wnode. destruct (negb _); [left; split; [reflexivity|discriminate]|].
      destruct (dstep _ _ _ _ _) as [q [r| |]] eqn:E; [|left; split; [reflexivity|discriminate]..].
      right. destruct o as [|who|]; try (unfold dstep in E; destruct c; discriminate E).
      exists who, c, q, r. repeat split. exact E.
    - apply of_chain_node.
    - apply of_chain_node.
    - unfold wchannel. destruct (negb _); [reflexivity|]. now destruct (Model_Micropayment.mstep _ _ _ _ _ _) as [p [r| |]].
    - unfold woperation. destruct (Model_Operation.ostep _ _ _ _ _) as [p [r| |]]; try reflexivity.
      destruct c; try reflexivity; now apply to_credit_node.
    - unfold wadsc. now destruct (Model_Adsc.astep _ _ _ _ _) as [p [r| |]].
    - unfold wtips. destruct (Model_Tips.tstep _ _ _) as [p [e| |]]; try reflexivity.
      destruct (tipped e) as [[? ?]|]; [now apply to_credit_node|reflexivity].
    - apply of_chain_node.
    - destruct b; cbn [wblock_step]; try apply of_chain_node.
      + now destruct (Model_Operation.on_finalize _ _ _).
      + destruct (negb _); [reflexivity|]. now destruct (Model_Adsc.aentry _ _ _ _).
    - now destruct (transfer_allow _ _ _ _ _).
    - unfold wreserve. now destruct (reserve _ _ _ _).
    - reflexivity.
  Qed.

  (** The server lists. *)
  Context (T : forall c, is_Some (d_regions C !! c) -> region_of C c <> region_of C (region_of C c)).
  Lemma step_registered w r op : reg_inv C (w_node w) r ->
    reg_inv C (w_node (wstep cfg w op).1) (register1 r (op, (wstep cfg w op).2)).
  Proof.
    intros H. unfold register1. cbn [fst snd].
    destruct (node_step w op) as [[-> N]|(who & c & d & ev & E1 & E & -> & E2)].
    - destruct (op.2) as [| |o c| | | | | | | | | | |]; try exact H. destruct o; try exact H.
      destruct (wstep cfg w op).2 as [ev| |]; try exact H. now destruct (N ev).
    - rewrite E1, E2. pose proof (step_reg C T (at_bank w) r (nctx cfg op.1 w, Signed who, c)) as S.
      unfold ddo in S. cbn [fst snd] in S. rewrite E in S. apply S. exact H.
  Qed.
  Lemma run_registered h : forall w r, reg_inv C (w_node w) r ->
    reg_inv C (w_node (wrun cfg w h)) (fold_left register1 (wlog cfg w h) r).
  Proof.
    induction h as [|op h IH]; intros w r H; [exact H|]. rewrite wlog_cons. cbn [wrun fold_left]. apply IH. now apply step_registered.
  Qed.

  (** Any property of devices that every step of the single model keeps, whatever the balances. *)
  Lemma run_node (P : dstate -> Prop) : (forall s b, P s -> P (with_bank s b)) -> (forall s o, P s -> P (ddo C s o)) ->
    forall h w, P (w_node w) -> P (w_node (wrun cfg w h)).
  Proof.
    intros Hb Hd. induction h as [|op h IH]; intros w H; [exact H|]. cbn [wrun]. apply IH.
    destruct (node_step w op) as [[-> _]|(who & c & d & ev & _ & E & -> & _)]; [exact H|].
    specialize (Hd (at_bank w) (nctx cfg op.1 w, Signed who, c) (Hb _ _ H)). unfold ddo in Hd. cbn [fst snd] in Hd. rewrite E in Hd. exact Hd.
  Qed.
  (** First heartbeats. *)
  Lemma step_onboard w op d :
    d_onboard (w_node (wstep cfg w op).1) !! d =
    match d_onboard (w_node w) !! d with Some t => Some t | None => head (Spec_World3.heartbeats [op] d) end.
  Proof.
    destruct (node_step w op) as [[-> N]|(who & c & s' & ev & E1 & E & -> & E2)].
    - destruct (d_onboard (w_node w) !! d) as [t|] eqn:Ed; [reflexivity|]. unfold Spec_World3.heartbeats. cbn.
      destruct op as [x a]. cbn [snd fst] in *. destruct a as [| |o c| | | | | | | | | | |]; try reflexivity. destruct o as [|a|], c; try reflexivity.
      destruct (N.eqb_spec a d) as [->|]; [|reflexivity]. exfalso. cbn in N. eapply N. reflexivity.
    - destruct (Proofs_DeeperNode2.step_online C (at_bank w) (nctx cfg op.1 w, Signed who, c) d) as (_ & S & _).
      unfold ddo in S. cbn [fst snd] in S. rewrite E in S. cbn [fst] in S. rewrite S. unfold Spec_World3.heartbeats, beat. cbn [fst snd omap list_omap]. rewrite E1.
      change (d_onboard (with_bank (w_node w) (w_bank w))) with (d_onboard (w_node w)). destruct c; try (now destruct (d_onboard (w_node w) !! d)).
      unfold Proofs_DeeperNode2.beat; cbn [fst snd]; destruct (who =? d); now destruct (d_onboard (w_node w) !! d).
  Qed.
  Lemma run_onboard h : forall w d,
    d_onboard (w_node (wrun cfg w h)) !! d =
    match d_onboard (w_node w) !! d with Some t => Some t | None => head (Spec_World3.heartbeats h d) end.
  Proof.
    induction h as [|op h IH]; intros w d; [cbn [wrun]; now destruct (d_onboard (w_node w) !! d)|]. cbn [wrun]. rewrite IH, step_onboard.
    destruct (d_onboard (w_node w) !! d) as [t|]; [reflexivity|].
    change (Spec_World3.heartbeats (op :: h) d) with (Spec_World3.heartbeats ([op] ++ h) d). unfold Spec_World3.heartbeats. rewrite omap_app.
    destruct op as [x a]. cbn [omap list_omap snd fst]. destruct a as [| |o c| | | | | | | | | | |]; try reflexivity. destruct o as [|who|], c; try reflexivity. now destruct (who =? d).
  Qed.
  (** Bindings. *)
  Lemma bind_origin h : forall w e a, d_e2d (w_node (wrun cfg w h)) !! e = Some a ->
    d_e2d (w_node w) !! e = Some a \/
    exists h1 x nonce sg h2, h = h1 ++ (x, WNode (Signed a) (DRewardMapping nonce sg e)) :: h2 /\
      let w1 := wrun cfg w h1 in endorsed cfg w1 nonce sg a = true /\
      exists ev, (wstep cfg w1 (x, WNode (Signed a) (DRewardMapping nonce sg e))).2 = WDone ev.
  Proof.
    induction h as [|op h IH]; intros w e a H; [auto|]. cbn [wrun] in H.
    destruct (IH _ _ _ H) as [H1|(h1 & x & nonce & sg & h2 & -> & Vf & Hok)].
    - destruct (node_step w op) as [[E _]|(who & c & d & ev & E1 & E & Ed & E2)]; [rewrite E in H1; auto|].
      rewrite Ed in H1. destruct (step_maps C (at_bank w) (nctx cfg op.1 w, Signed who, c)) as [[M1 _]|(x & who' & nonce & sg & evm & Eo & Vf & _ & _ & M1 & _)];
        unfold ddo in M1; cbn [fst snd] in M1; rewrite E in M1; cbn [fst] in M1.
      + rewrite M1 in H1. auto.
      + injection Eo as <- <- ->. rewrite M1 in H1. destruct (decide (evm = e)) as [->|Hn].
        * rewrite lookup_insert in H1. injection H1 as ->. right. destruct op as [x act]. cbn [fst snd] in *. subst act.
          exists [], x, nonce, sg, h. split; [reflexivity|]. split; [exact Vf|]. eexists. exact E2.
        * rewrite lookup_insert_ne in H1 by exact Hn. auto.
    - right. exists (op :: h1), x, nonce, sg, h2. split; [reflexivity|]. split; assumption.
  Qed.
End devices.

(** Traffic claims. *)
Section claims.
  Context (cfg : wcfg).
  Local Notation V := (wc_verify cfg).
  Local Notation H := (wc_hash cfg).

  Lemma to_credit_proofs x w e v w0 :
    (w_proofs (to_credit cfg x w e v w0).1 = w_proofs w0 /\ forall ev, (to_credit cfg x w e v w0).2 <> WDone ev) \/
    (w_proofs (to_credit cfg x w e v w0).1 = w_proofs w /\ exists ev, (to_credit cfg x w e v w0).2 = WDone ev).
  Proof. unfold to_credit. destruct (wjstep _ _ _ _) as [j [e'| |]]; [right|left..]; split; try reflexivity; eauto; discriminate. Qed.
  Lemma to_credit_keep x w e v w0 : w_proofs w = w_proofs w0 -> w_proofs (to_credit cfg x w e v w0).1 = w_proofs w0.
  Proof. intros E. destruct (to_credit_proofs x w e v w0) as [[-> _]|[-> _]]; auto. Qed.
  Lemma of_chain_proofs w r : w_proofs (of_chain w r).1 = w_proofs w.
  Proof. unfold of_chain. now destruct r as [j [e'| |]]. Qed.

  Lemma proofs_step w op :
    (w_proofs (wstep cfg w op).1 = w_proofs w /\
      match op.2 with WProof _ _ => forall ev, (wstep cfg w op).2 <> WDone ev | _ => True end) \/
    exists o c p ev, op.2 = WProof o c /\ Model_CreditAccumulation.astep V H (w_proofs w) o c = (p, ROk tt) /\
      w_proofs (wstep cfg w op).1 = p /\ (wstep cfg w op).2 = WDone ev.
  Proof.
    destruct op as [x a]. destruct a; [left; split; [|exact I]| |left; split; [|exact I]..]; cbn [wstep fst snd].
    - now destruct (ustep _ _ _) as [p [r| |]].
    - unfold wproof. destruct (Model_CreditAccumulation.astep _ _ _ _ _) as [p [[]| |]] eqn:E; [|left; split; [reflexivity|discriminate]..].
      assert (Z : forall e v, let r := to_credit cfg x (set_w_proofs w p) e v w in
        (w_proofs r.1 = w_proofs w /\ (forall ev, r.2 <> WDone ev)) \/
        exists o0 c0 p0 ev, WProof o c = WProof o0 c0 /\ Model_CreditAccumulation.astep V H (w_proofs w) o0 c0 = (p0, ROk tt) /\
          w_proofs r.1 = p0 /\ r.2 = WDone ev).
      { intros e v r. destruct (to_credit_proofs x (set_w_proofs w p) e v w) as [[A B]|[A [ev B]]]; [left; now split|].
        right. exists o, c, p, ev. repeat split; [exact E|exact A|exact B]. }
      destruct o, c; try apply Z; (right; do 4 eexists; split; [reflexivity|]; split; [exact E|]; split; reflexivity).
    - unfold wnode. destruct (negb _); [reflexivity|]. now destruct (dstep _ _ _ _ _) as [q [r| |]].
    - apply of_chain_proofs.
    - apply of_chain_proofs.
    - unfold wchannel. destruct (negb _); [reflexivity|]. now destruct (Model_Micropayment.mstep _ _ _ _ _ _) as [p [r| |]].
    - unfold woperation. destruct (Model_Operation.ostep _ _ _ _ _) as [p [r| |]]; try reflexivity.
      destruct c; try reflexivity; now apply to_credit_keep.
    - unfold wadsc. now destruct (Model_Adsc.astep _ _ _ _ _) as [p [r| |]].
    - unfold wtips. destruct (Model_Tips.tstep _ _ _) as [p [e| |]]; try reflexivity.
      destruct (tipped e) as [[? ?]|]; [now apply to_credit_keep|reflexivity].
    - apply of_chain_proofs.
    - destruct b; cbn [wblock_step]; try apply of_chain_proofs.
      + now destruct (Model_Operation.on_finalize _ _ _).
      + destruct (negb _); [reflexivity|]. now destruct (Model_Adsc.aentry _ _ _ _).
    - now destruct (transfer_allow _ _ _ _ _).
    - unfold wreserve. now destruct (reserve _ _ _ _).
    - reflexivity.
  Qed.

  Local Notation nonce_at w who := (default 0 (Model_CreditAccumulation.a_nonce (w_proofs w) !! who)).
  Lemma step_claimed w op who :
    (claimed who [(op, (wstep cfg w op).2)] = [] /\ nonce_at (wstep cfg w op).1 who = nonce_at w who) \/
    (claimed who [(op, (wstep cfg w op).2)] = [nonce_at w who] /\ nonce_at (wstep cfg w op).1 who = add64 (nonce_at w who) 1).
  Proof.
    destruct (proofs_step w op) as [[A B]|(o & c & p & ev & A & B & E & F)].
    - left. rewrite A. split; [|reflexivity]. unfold claimed. cbn [omap list_omap fst snd].
      destruct (op.2) as [| [|a|] [nonce sg|k|k] | | | | | | | | | | | | ]; try reflexivity.
      destruct ((wstep cfg w op).2); try reflexivity. now destruct (B ev).
    - unfold claimed. cbn [omap list_omap fst snd]. rewrite A, E, F. destruct c as [nonce sg|k|k].
      + assert (Hok : is_ok (Model_CreditAccumulation.astep V H (w_proofs w) o (Model_CreditAccumulation.AAddCredit nonce sg)).2 = true)
          by (rewrite B; reflexivity).
        destruct (Proofs_CreditAccumulation.add_ok V H _ _ _ _ Hok) as (a & -> & En & _ & Est).
        unfold Model_CreditAccumulation.ado in Est. cbn [fst snd] in Est. rewrite B in Est. cbn [fst] in Est. rewrite Est. cbn [Model_CreditAccumulation.a_nonce].
        destruct (N.eqb_spec a who) as [->|Hne].
        * right. rewrite lookup_insert. subst nonce. now split.
        * left. rewrite lookup_insert_ne by exact Hne. now split.
      + left. destruct o; cbn in B; try discriminate. injection B as <-. now split.
      + left. destruct o; cbn in B; try discriminate. injection B as <-. now split.
  Qed.
  Lemma run_claimed h : forall w who n, nonce_at w who = n mod two64 ->
    claimed who (wlog cfg w h) = map (fun i => (n + N.of_nat i) mod two64) (seq 0 (length (claimed who (wlog cfg w h)))).
  Proof.
    induction h as [|op h IH]; intros w who n Hn; [reflexivity|].
    assert (E : claimed who (wlog cfg w (op :: h)) =
      claimed who [(op, (wstep cfg w op).2)] ++ claimed who (wlog cfg (wstep cfg w op).1 h)).
    { rewrite wlog_cons. unfold claimed. cbn [omap list_omap]. now destruct (match _ with WPriv _ _ => _ | _ => _ end). }
    rewrite E. destruct (step_claimed w op who) as [[-> A]|[-> A]].
    - apply IH. now rewrite A.
    - cbn [app length seq map]. f_equal; [rewrite Hn; f_equal; lia|].
      rewrite (IH _ who (n + 1)) at 1.
      + rewrite <- seq_shift, map_map. apply map_ext. intros i. f_equal. lia.
      + rewrite A, Hn. change (add64 (n mod two64) 1) with ((n mod two64 + 1) mod two64). apply N.add_mod_idemp_l. discriminate.
  Qed.
End claims.
