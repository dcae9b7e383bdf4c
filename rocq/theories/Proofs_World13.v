(** What the calls and hooks of the single pallets cost the accounts. *)
From Verif Require Import Base Balances Model_UserPrivileges.
From Verif Require Model_Credit Spec_Credit Model_Staking Spec_Staking Spec_Staking2 Model_StakingLedger Model_DeeperNode.
From Verif Require Model_Micropayment Spec_Micropayment Model_Operation Model_Adsc Model_Tips Spec_Tips.
From Verif Require Import Model_Chain Spec_Chain2 Model_World Spec_World Spec_World2 Spec_World6 Proofs_Balances Proofs_World1 Proofs_World12.
From Verif Require Proofs_Staking14 Proofs_Operation Proofs_Tips4 Proofs_Tips5 Proofs_DeeperNode2
  Proofs_Adsc Proofs_Micropayment Proofs_Credit Proofs_Chain1 Proofs_Chain10.
From stdpp Require Import gmap.
Open Scope N_scope.

Notation if_is b v a := (if b =? a then v else 0).

(** Operation. *)
Definition release_price (s : Model_Operation.ostate) (o : origin) (c : Model_Operation.ocall) (a : N) : N :=
  match o, c with
  | Signed who, Model_Operation.OBurn v => if_is who v a
  | Signed _, Model_Operation.OBridgeOut from v _ => if_is from v a
  | Signed _, Model_Operation.OBridgeIn _ v _ =>
      match Model_Operation.o_fund s with Some pool => if_is pool v a | None => 0 end
  | Root, Model_Operation.OUnlockDemocracy from _ v => if_is from v a
  | _, _ => 0
  end.
Lemma operation_cost cfg s x o c s' ev :
  Model_Operation.oexec cfg s x o c = ROk (s', ev) ->
  kept (Model_Operation.oc_ed cfg) (release_price s o c) (Model_Operation.o_bank s) (Model_Operation.o_bank s').
Proof.
  intros H. destruct c; cbn in H; unfold Model_Operation.do_unstake, Model_Operation.do_burn, Model_Operation.do_bridge_out,
    Model_Operation.do_bridge_in, Model_Operation.do_unlock, Model_Operation.root, Model_Operation.signed, ensure in H;
    destruct o; cbn in H; try discriminate;
    repeat (case_match; cbn in H; try discriminate); injection H as <- <-; cbn;
    try (apply sure_kept, sure_refl); try (apply loss_kept, remove_lock_loss).
  - eapply sure_kept, reserve_sure. eassumption.
  - apply loss_kept. eapply loss_le; [|eapply loss_trans; [eapply withdraw_loss; eassumption|apply deposit_loss]].
    intros a. cbn. destruct (_ =? _); lia.
  - apply sure_kept. eapply transfer_keep_sure. eassumption.
  - apply sure_kept. unfold release_price. match goal with F : Model_Operation.o_fund _ = Some _ |- _ => rewrite F end.
    eapply transfer_keep_sure. eassumption.
  - apply loss_kept. eapply loss_le; [|eapply loss_trans; [apply remove_lock_loss|eapply transfer_allow_loss; eassumption]].
    intros a. cbn. destruct (_ =? _); lia.
Qed.
Lemma release_loop_loss cfg d : forall l s total daily blockly s' t' d' c' rem ev,
  Model_Operation.release_loop cfg d l s total daily blockly = (s', t', d', c', rem, ev) ->
  loss (Model_Operation.oc_ed cfg) (fun _ => 0) (Model_Operation.o_bank s) (Model_Operation.o_bank s').
Proof.
  induction l as [|[who r] l IH]; intros s total daily blockly s' t' d' c' rem ev H; cbn [Model_Operation.release_loop] in H.
  { injection H as <- <- <- <- <- <-. apply loss_refl. }
  destruct (_ =? 0); [now apply IH in H|]. destruct (_ <? _).
  { injection H as <- <- <- <- <- <-. apply loss_refl. }
  destruct (Model_Operation.mint _ _ _ _) as [b peek] eqn:M. apply mint_loss in M.
  destruct (_ <=? _).
  { injection H as <- <- <- <- <- <-. exact M. }
  destruct (_ <=? _).
  { injection H as <- <- <- <- <- <-. exact M. }
  destruct (Model_Operation.release_loop _ _ _ _ _ _ _) as [[[[[s2 t2] d2] c2] rem2] ev2] eqn:R.
  injection H as <- <- <- <- <- <-. apply IH in R. cbn in R |- *.
  exact (loss_trans _ _ _ _ _ _ M R).
Qed.
Lemma finalize_loss cfg s x s' ev : Model_Operation.on_finalize cfg s x = (s', ev) ->
  loss (Model_Operation.oc_ed cfg) (fun _ => 0) (Model_Operation.o_bank s) (Model_Operation.o_bank s').
Proof.
  unfold Model_Operation.on_finalize. destruct (_ <? _).
  { intros [= <- <-]. apply loss_refl. }
  unfold Model_Operation.release. destruct (Model_Operation.o_end s).
  { intros [= <- <-]. apply loss_refl. }
  destruct (Model_Operation.release_loop _ _ _ _ _ _ _) as [[[[[s2 t2] d2] c2] rem2] ev2] eqn:R.
  intros [= <- <-]. apply release_loop_loss in R. exact R.
Qed.

(** ADSC. *)
Definition swap_price (cfg : Model_Adsc.acfg) (ev : list Model_Adsc.aev) (a : N) : N :=
  lsum (map (fun e => match e with Model_Adsc.ESwap _ _ dpr => if_is (Model_Adsc.ac_acct cfg) dpr a | _ => 0 end) ev).
Lemma adsc_cost cfg s x o c s' ev : Model_Adsc.aexec cfg s x o c = ROk (s', ev) ->
  loss (Model_Adsc.ac_ed cfg)
    (fun a => match o, c with Signed _, Model_Adsc.ASwap _ => swap_price cfg ev a | _, _ => 0 end)
    (Model_Adsc.a_bank s) (Model_Adsc.a_bank s').
Proof.
  intros H. destruct c; cbn [Model_Adsc.aexec] in H;
    unfold Model_Adsc.ensure_admin, Model_Adsc.do_add_nft, Model_Adsc.do_bridge_burn, Model_Adsc.do_bridge_mint,
      Model_Adsc.do_swap, Model_Adsc.ensure_admin in H;
    destruct o; cbn in H; try discriminate;
    repeat (case_match; cbn in *; try discriminate); simplify_eq; cbn; try apply loss_refl.
  - eapply loss_le; [|eapply transfer_allow_loss; eassumption]. intros a. cbn. unfold swap_price. cbn. lia.
  - apply deposit_loss.
Qed.
Lemma adsc_hook_loss cfg s x e s' ev : adsc_entry e = true -> Model_Adsc.aentry cfg s x e = (s', ev) ->
  loss (Model_Adsc.ac_ed cfg) (fun _ => 0) (Model_Adsc.a_bank s) (Model_Adsc.a_bank s').
Proof.
  intros Ha H. destruct e; cbn [Model_Adsc.aentry] in H; try discriminate Ha;
    try (injection H as <- <-; apply loss_refl).
  - apply on_init_same in H as [-> _]. apply loss_refl.
  - injection H as <- <-. unfold Model_Adsc.on_upgrade. destruct (N.ltb_spec (Model_Adsc.a_version s) 2) as [L|L]; [|apply loss_refl].
    destruct (Model_Adsc.a_ass s); apply deposit_loss.
  - injection H as <- <-. repeat case_match; apply loss_refl.
  - injection H as <- <-. repeat case_match; apply loss_refl.
  - injection H as <- <-. repeat case_match; apply loss_refl.
Qed.

(** Credit. *)
Lemma smul128_le a b : Model_Credit.smul128 a b <= a * b.
Proof. unfold Model_Credit.smul128. lia. Qed.
Lemma credit_cost cfg s x o c s' : Model_Credit.kexec cfg s x o c = ROk s' ->
  loss (Model_Credit.kc_ed cfg)
    (fun a => match o, c with
              | Signed who, Model_Credit.KBurnForCredit points => if_is who (Model_Credit.k_dpr_per_credit s * (points mod 2 ^ 32)) a
              | _, _ => 0 end) (Model_Credit.k_bank s) (Model_Credit.k_bank s').
Proof.
  intros H. apply Proofs_Credit.kexec_rest in H.
  assert (E : Model_Credit.k_bank s' = Model_Credit.k_bank s \/ exists score, c = Model_Credit.KBurnForCredit score).
  { destruct c; try (right; eauto; fail); left; decompose [ex and] H;
      repeat match goal with R : Proofs_Credit.same_rest _ _ |- _ => apply same_rest_bank in R; rewrite R; clear R end;
      subst; reflexivity. }
  destruct E as [->|[score ->]].
  { eapply loss_le; [|apply loss_refl]. intros a. apply N.le_0_l. }
  destruct H as (a & b & -> & W & R). apply same_rest_bank in R. rewrite R. cbn.
  eapply loss_le; [|eapply loss_trans; [eapply withdraw_loss; exact W|apply deposit_loss]].
  intros a0. cbn. destruct (_ =? _); [|lia]. rewrite N.add_0_r. etransitivity; [apply smul128_le|].
  apply N.mul_le_mono_l. apply N.eq_le_incl. reflexivity.
Qed.

(** Devices. *)
Lemma node_cost cfg s x o c s' ev : node_call c = true -> Model_DeeperNode.dexec cfg s x o c = ROk (s', ev) ->
  kept (Model_DeeperNode.d_ed cfg) (fun _ => 0) (Model_DeeperNode.d_bank s) (Model_DeeperNode.d_bank s').
Proof.
  intros Hc H. destruct o as [|who|]; try discriminate H.
  assert (F : Proofs_DeeperNode2.frame s s' ->
    kept (Model_DeeperNode.d_ed cfg) (fun _ => 0) (Model_DeeperNode.d_bank s) (Model_DeeperNode.d_bank s')).
  { intros Fr. assert (E : Model_DeeperNode.d_bank s' = Model_DeeperNode.d_bank s) by (apply Fr). rewrite E. apply sure_kept, sure_refl. }
  assert (Same : forall t, Model_DeeperNode.d_bank t = Model_DeeperNode.d_bank s ->
    kept (Model_DeeperNode.d_ed cfg) (fun _ => 0) (Model_DeeperNode.d_bank s) (Model_DeeperNode.d_bank t)).
  { intros t ->. apply sure_kept, sure_refl. }
  pose proof (Proofs_DeeperNode2.exec_moved cfg _ _ _ _ _ _ H) as M. destruct M as
    [country b D R ->|country D Fr Eq|s1 D Fr Eq ->|c Fr Cc D Eq|ev0 O|nonce sg t f u V ->|nonce sg evm V D N1 N2| -> D
    |dest amount b T ->|amount b R ->|amount a Ea ->]; try discriminate Hc; auto.
  - apply sure_kept. eapply reserve_sure. exact R.
  - cbn. assert (E : Model_DeeperNode.d_bank s1 = Model_DeeperNode.d_bank s) by (apply Fr). rewrite E. apply unreserve_kept.
  - unfold Model_DeeperNode.im_online in O. repeat case_match; try discriminate; injection O as <- <-; now apply Same.
  - destruct (decide (Model_DeeperNode.d_d2e s !! who = Some evm)) as [Q|Q]; [rewrite (N2 Q)|rewrite (N1 Q)]; now apply Same.
Qed.
