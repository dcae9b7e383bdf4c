(** Money and reserves in the joined chain. *)
From Verif Require Import Base Balances Model_UserPrivileges.
From Verif Require Model_Credit Model_Staking Model_DeeperNode Model_CreditAccumulation.
From Verif Require Model_Micropayment Model_Operation Model_Adsc Model_Tips Spec_Tips Spec_Micropayment.
From Verif Require Import Model_Chain Model_World Spec_World Proofs_Balances.
From Verif Require Proofs_Staking14 Proofs_Operation Proofs_Operation3 Proofs_Tips4 Proofs_Tips5 Proofs_DeeperNode2
  Proofs_Adsc Proofs_Micropayment Proofs_Credit Proofs_Chain1 Props_Staking3 Spec_Staking Spec_Staking2.
From stdpp Require Import gmap.
Open Scope N_scope.

(** From [b] to [b'], [m] is created and [t] taken out; nothing destroyed comes back. *)
Definition grow (b : bank) (m t : N) (b' : bank) : Prop := money b' + t = money b + m /\ lost b <= lost b'.
(** No reserve changes. *)
Definition keeps (b b' : bank) : Prop := forall a, rsv (acct_of b' a) = rsv (acct_of b a).
Definition flow (b : bank) (m t : N) (b' : bank) : Prop := grow b m t b' /\ keeps b b'.

Lemma flow_refl b : flow b 0 0 b.
Proof. repeat split; lia. Qed.
Lemma grow_trans b m t b1 m1 t1 b2 : grow b m t b1 -> grow b1 m1 t1 b2 -> grow b (m + m1) (t + t1) b2.
Proof. unfold grow. lia. Qed.
Lemma grow_eq b m t b' m' t' : grow b m t b' -> m' + t = m + t' -> grow b m' t' b'.
Proof. unfold grow. lia. Qed.
Lemma flow_trans b m t b1 m1 t1 b2 : flow b m t b1 -> flow b1 m1 t1 b2 -> flow b (m + m1) (t + t1) b2.
Proof. intros [A B] [C D]. split; [eapply grow_trans; eassumption|]. intros a. now rewrite D. Qed.
Lemma flow_eq b m t b' m' t' : flow b m t b' -> m' + t = m + t' -> flow b m' t' b'.
Proof. intros [A B] E. split; [eapply grow_eq; eassumption|exact B]. Qed.
Lemma flow_bmv ed b m t b' : Proofs_Staking14.bmv ed (fun _ => True) b m t b' -> flow b m t b'.
Proof. intros (A & _ & B). split; [exact A|exact B]. Qed.

Lemma put_flow ed b w f z m t :
  f + t = free_of b w + m -> flow b m t (put ed b w (Acct f (rsv (acct_of b w)) z)).
Proof. intros E. apply (flow_bmv ed). apply Proofs_Staking14.put_bmv; auto. Qed.
Lemma deposit_flow ed b w v : flow b v 0 (deposit_creating ed b w v).
Proof. apply (flow_bmv ed), Proofs_Staking14.deposit_bmv. Qed.
Lemma withdraw_flow ed k b w v b' : withdraw ed k b w v = Some b' -> flow b 0 v b'.
Proof.
  unfold withdraw. destruct (N.eqb_spec v 0) as [->|]; [intros [= <-]; apply flow_refl|].
  repeat case_match; try discriminate; intros [= <-]; apply put_flow; unfold free_of in *;
    repeat match goal with H : (_ <? _) = false |- _ => apply N.ltb_ge in H end; lia.
Qed.
Lemma transfer_keep_flow ed b src dst v b' : transfer_keep ed b src dst v = Some b' -> flow b 0 0 b'.
Proof. intros E. apply (flow_bmv ed). eapply Proofs_Staking14.transfer_keep_bmv; [exact I|exact E]. Qed.
Lemma transfer_allow_flow ed b src dst v b' : transfer_allow ed b src dst v = Some b' -> flow b 0 0 b'.
Proof.
  intros E. split; [split|].
  - apply transfer_allow_money in E. lia.
  - apply transfer_allow_lost in E. lia.
  - intros a. now apply (Proofs_DeeperNode2.transfer_allow_rsv _ _ _ _ _ _ a) in E.
Qed.
Lemma mint_flow ed b w v b' got : Model_Operation.mint ed b w v = (b', got) -> flow b got 0 b'.
Proof. intros E. apply (flow_bmv ed). eapply Proofs_Staking14.mint_bmv; exact E. Qed.
Lemma remove_lock_flow x b w : flow b 0 0 (Model_Operation.remove_lock x b w).
Proof.
  split; [split|].
  - rewrite Proofs_Operation3.remove_lock_money. lia.
  - unfold Model_Operation.remove_lock. case_match; cbn; lia.
  - intros a. unfold Model_Operation.remove_lock. destruct (accts b !! w) as [c|] eqn:E; [|reflexivity].
    unfold acct_of. cbn. destruct (decide (a = w)) as [->|]; [rewrite lookup_insert, E|rewrite lookup_insert_ne by auto]; reflexivity.
Qed.
Lemma put_grow ed b w a m t : free a + rsv a + t = free_of b w + rsv (acct_of b w) + m -> grow b m t (put ed b w a).
Proof.
  intros E. unfold free_of in E. pose proof (put_money ed b w a). destruct (put_lost ed b w a) as [Hl _]. split; lia.
Qed.
Lemma reserve_grow ed b w v b' : reserve ed b w v = Some b' -> grow b 0 0 b'.
Proof.
  unfold reserve. destruct (N.eqb_spec v 0) as [->|]; [intros [= <-]; apply flow_refl|].
  destruct (N.ltb_spec (free (acct_of b w)) v); [discriminate|]. repeat (case_match; [discriminate|]). intros [= <-].
  apply put_grow. unfold free_of. cbn. lia.
Qed.
Lemma unreserve_grow ed b w v : grow b 0 0 (unreserve ed b w v).
Proof.
  unfold unreserve. destruct (N.eqb_spec v 0) as [->|]; [apply flow_refl|]. apply put_grow. unfold free_of. cbn. lia.
Qed.
Lemma slash_grow ed b w v : grow b 0 0 (let '(b', got) := slash_reserved ed b w v in Bank (accts b') (lost b' + got)).
Proof.
  unfold slash_reserved. destruct (N.eqb_spec v 0) as [->|].
  - split; unfold money; cbn; lia.
  - pose proof (put_grow ed b w (Acct (free (acct_of b w)) (rsv (acct_of b w) - N.min (rsv (acct_of b w)) v) (frz (acct_of b w)))
                  0 (N.min (rsv (acct_of b w)) v)) as [A B]; [unfold free_of; cbn; lia|].
    split; unfold money in *; cbn; lia.
Qed.

(** ** The pallets *)

(** Operation. *)
Lemma operation_call cfg s x o c s' ev :
  Model_Operation.oexec cfg s x o c = ROk (s', ev) ->
  lsum (map issued (map VRelease ev)) = 0 /\
  match c with
  | Model_Operation.OReserve who v => reserve (Model_Operation.oc_ed cfg) (Model_Operation.o_bank s) who v = Some (Model_Operation.o_bank s')
  | _ => flow (Model_Operation.o_bank s) 0 0 (Model_Operation.o_bank s')
  end.
Proof.
  intros H. destruct c; cbn in H; unfold Model_Operation.do_unstake, Model_Operation.do_burn, Model_Operation.do_bridge_out,
    Model_Operation.do_bridge_in, Model_Operation.do_unlock, Model_Operation.root, Model_Operation.signed, ensure in H;
    destruct o; cbn in H; try discriminate;
    repeat (case_match; cbn in H; try discriminate); injection H as <- <-; cbn; (split; [reflexivity|]); try apply flow_refl;
    try (apply remove_lock_flow); try reflexivity.
  - eapply flow_eq; [eapply flow_trans; [eapply withdraw_flow; eassumption|apply deposit_flow]|lia].
  - eapply transfer_keep_flow; eassumption.
  - eapply transfer_keep_flow; eassumption.
  - eapply flow_eq; [eapply flow_trans; [apply remove_lock_flow|eapply transfer_allow_flow; eassumption]|lia].
Qed.
Lemma release_loop_flow cfg d : forall l s total daily blockly s' t' d' c' rem ev,
  Model_Operation.release_loop cfg d l s total daily blockly = (s', t', d', c', rem, ev) ->
  flow (Model_Operation.o_bank s) (lsum (map issued (map VRelease ev))) 0 (Model_Operation.o_bank s').
Proof.
  induction l as [|[who r] l IH]; intros s total daily blockly s' t' d' c' rem ev H; cbn [Model_Operation.release_loop] in H.
  { injection H as <- <- <- <- <- <-. apply flow_refl. }
  destruct (_ =? 0); [now apply IH in H|]. destruct (_ <? _).
  { injection H as <- <- <- <- <- <-. apply flow_refl. }
  destruct (Model_Operation.mint _ _ _ _) as [b peek] eqn:M. apply mint_flow in M.
  destruct (_ <=? _).
  { injection H as <- <- <- <- <- <-. cbn. now rewrite N.add_0_r. }
  destruct (_ <=? _).
  { injection H as <- <- <- <- <- <-. cbn. now rewrite N.add_0_r. }
  destruct (Model_Operation.release_loop _ _ _ _ _ _ _) as [[[[[s2 t2] d2] c2] rem2] ev2] eqn:R.
  injection H as <- <- <- <- <- <-. apply IH in R. cbn in R |- *.
  change 0 with (0 + 0). eapply flow_trans; [exact M|exact R].
Qed.
Lemma finalize_flow cfg s x s' ev : Model_Operation.on_finalize cfg s x = (s', ev) ->
  flow (Model_Operation.o_bank s) (lsum (map issued (map VRelease ev))) 0 (Model_Operation.o_bank s').
Proof.
  unfold Model_Operation.on_finalize. destruct (_ <? _).
  { intros [= <- <-]. apply flow_refl. }
  unfold Model_Operation.release. destruct (Model_Operation.o_end s).
  { intros [= <- <-]. apply flow_refl. }
  destruct (Model_Operation.release_loop _ _ _ _ _ _ _) as [[[[[s2 t2] d2] c2] rem2] ev2] eqn:R.
  intros [= <- <-]. apply release_loop_flow in R. exact R.
Qed.

(** ADSC. *)
Notation adsc_same s s' := (Model_Adsc.a_bank s' = Model_Adsc.a_bank s /\ Model_Adsc.a_version s' = Model_Adsc.a_version s).
Lemma reward_loop_same cfg x n : forall l counter s last s' last' rem sub ev,
  Model_Adsc.reward_loop cfg x n l counter s last = (s', last', rem, sub, ev) -> adsc_same s s'.
Proof.
  induction l as [|[who period] l IH]; intros counter s last s' last' rem sub ev H; cbn [Model_Adsc.reward_loop] in H.
  { injection H as <- <- <- <- <-. auto. }
  destruct (negb _); [now apply IH in H|].
  destruct (if period =? 0 then (s, []) else _) as [s1 ev1] eqn:P.
  assert (A : adsc_same s s1).
  { destruct (period =? 0); [now injection P as <- <-|]. unfold Model_Adsc.pay_reward in P.
    repeat case_match; simplify_eq; auto. }
  destruct (_ =? n); [injection H as <- <- <- <- <-; exact A|].
  destruct (Model_Adsc.reward_loop _ _ _ _ _ _ _) as [[[[s2 l2] r2] b2] e2] eqn:R. injection H as <- <- <- <- <-.
  apply IH in R. destruct A as [A1 A2], R as [-> ->]. auto.
Qed.
Lemma on_init_same cfg s x s' ev : Model_Adsc.on_init cfg s x = (s', ev) -> adsc_same s s'.
Proof.
  unfold Model_Adsc.on_init. destruct (_ <? _); [intros [= <- <-]; auto|]. unfold Model_Adsc.adsc_reward.
  assert (G : forall c, (let '(s1, last, rem, sub, evs) :=
      Model_Adsc.reward_loop cfg x (Model_Adsc.a_bnum s) (Model_Adsc.iter_from cfg s c) 0 s Model_Adsc.CEmpty in
      (fold_left Model_Adsc.count_down sub (fold_left Model_Adsc.remove_staker rem (Model_Adsc.set_a_cursor s1 last)), evs))
      = (s', ev) -> adsc_same s s').
  { intros c. destruct (Model_Adsc.reward_loop _ _ _ _ _ _ _) as [[[[s2 l2] r2] b2] e2] eqn:R. intros [= <- <-].
    pose proof (Proofs_Adsc.fold_count_same b2 (fold_left Model_Adsc.remove_staker r2 (Model_Adsc.set_a_cursor s2 l2))) as A.
    pose proof (Proofs_Adsc.fold_remove_same r2 (Model_Adsc.set_a_cursor s2 l2)) as B.
    unfold Proofs_Adsc.pass_same in A, B. decompose [and] A. decompose [and] B. apply reward_loop_same in R as [R1 R2].
    cbn in *. split; congruence. }
  destruct (Model_Adsc.a_cursor s); [intros [= <- <-]; auto|apply G..].
Qed.
Lemma adsc_call cfg s x o c s' ev : Model_Adsc.aexec cfg s x o c = ROk (s', ev) ->
  flow (Model_Adsc.a_bank s) (lsum (map issued (map VAdsc ev)) + pooled true (WAdsc o c)) 0 (Model_Adsc.a_bank s') /\
  Model_Adsc.a_version s' = Model_Adsc.a_version s.
Proof.
  intros H. destruct c; cbn [Model_Adsc.aexec] in H;
    unfold Model_Adsc.ensure_admin, Model_Adsc.do_add_nft, Model_Adsc.do_bridge_burn, Model_Adsc.do_bridge_mint,
      Model_Adsc.do_swap, Model_Adsc.ensure_admin in H;
    destruct o; cbn in H; try discriminate;
    repeat (case_match; cbn in *; try discriminate); simplify_eq; cbn; (split; [|reflexivity]); try apply flow_refl.
  - eapply transfer_allow_flow; eassumption.
  - apply deposit_flow.
Qed.
Lemma adsc_hook cfg s x e s' ev : adsc_entry e = true -> Model_Adsc.aentry cfg s x e = (s', ev) ->
  flow (Model_Adsc.a_bank s)
    (lsum (map issued (map VAdsc ev)) + pooled (negb (Model_Adsc.a_version s <? 2)) (WBlock (BAdsc e))) 0 (Model_Adsc.a_bank s') /\
  Model_Adsc.a_version s' = match e with Model_Adsc.AUpgrade => N.max (Model_Adsc.a_version s) 2 | _ => Model_Adsc.a_version s end.
Proof.
  assert (Z : forall ev, lsum (map issued (map VAdsc ev)) = 0).
  { induction ev0 as [|e0 ev0 IH]; [reflexivity|]. cbn. exact IH. }
  intros Ha H. rewrite Z. destruct e; cbn [Model_Adsc.aentry] in H; cbn [pooled]; try discriminate Ha;
    try (injection H as <- <-; split; [apply flow_refl|reflexivity]).
  - apply on_init_same in H as [-> ->]. split; [apply flow_refl|reflexivity].
  - injection H as <- <-. unfold Model_Adsc.on_upgrade. destruct (N.ltb_spec (Model_Adsc.a_version s) 2) as [L|L].
    + split; [|cbn; lia]. cbn [negb]. destruct (Model_Adsc.a_ass s); apply deposit_flow.
    + split; [apply flow_refl|lia].
  - injection H as <- <-. repeat case_match; (split; [apply flow_refl|reflexivity]).
  - injection H as <- <-. repeat case_match; (split; [apply flow_refl|reflexivity]).
  - injection H as <- <-. repeat case_match; (split; [apply flow_refl|reflexivity]).
Qed.

(** Credit. *)
Lemma same_rest_bank s s' : Proofs_Credit.same_rest s s' -> Model_Credit.k_bank s' = Model_Credit.k_bank s.
Proof. intros ->. reflexivity. Qed.
Lemma fold_setting_bank l : forall s, Model_Credit.k_bank (fold_left Model_Credit.update_setting l s) = Model_Credit.k_bank s.
Proof. induction l as [|a l IH]; intros s; [reflexivity|]. cbn [fold_left]. now rewrite IH. Qed.
Lemma credit_call cfg s x o c s' : Model_Credit.kexec cfg s x o c = ROk s' ->
  flow (Model_Credit.k_bank s) 0 0 (Model_Credit.k_bank s').
Proof.
  intros H. apply Proofs_Credit.kexec_rest in H.
  assert (E : Model_Credit.k_bank s' = Model_Credit.k_bank s \/ exists score, c = Model_Credit.KBurnForCredit score).
  { destruct c; try (right; eauto; fail); left; decompose [ex and] H;
      repeat match goal with R : Proofs_Credit.same_rest _ _ |- _ => apply same_rest_bank in R; rewrite R; clear R end;
      subst; reflexivity. }
  destruct E as [->|[score ->]]; [apply flow_refl|].
  destruct H as (a & b & _ & W & R). apply same_rest_bank in R. rewrite R. cbn.
  eapply flow_eq; [eapply flow_trans; [eapply withdraw_flow; exact W|apply deposit_flow]|lia].
Qed.
Lemma credit_entry cfg s x e s' r : Model_Credit.kc_step cfg <> Model_Credit.U64MAX ->
  Model_Credit.kentry_exec cfg s x e = ROk (s', r) -> Model_Credit.k_bank s' = Model_Credit.k_bank s.
Proof.
  intros Hs H. apply Proofs_Credit.kentry_rest in H; [|exact Hs].
  destruct e; try (now apply same_rest_bank in H).
  all: try (destruct H as [H|[H|[H|H]]]; [subst; reflexivity|apply same_rest_bank in H; exact H..]).
  all: try (subst; reflexivity).
  - rewrite H. unfold Model_Credit.on_initialize.
    destruct (_ =? 0); [|reflexivity]. destruct (_ =? 0); [reflexivity|].
    match goal with |- context [if ?b then _ else _] => destruct b end; [apply fold_setting_bank|reflexivity].
  - rewrite H. unfold Model_Credit.set_price. destruct (Model_Credit.k_prices s); reflexivity.
  - rewrite H. unfold Model_Credit.on_upgrade. destruct (_ =? 4); [|reflexivity].
    assert (V : forall s v, Model_Credit.k_bank (Model_Credit.set_k_version s v) = Model_Credit.k_bank s) by reflexivity.
    cbv zeta. now rewrite V, !fold_setting_bank.
  - destruct H as [m ->]. reflexivity.
Qed.

(** The joined credit and staking pallets. *)
Lemma chain_flow cfg j x a j' ev :
  Model_Credit.kc_step (jc_c cfg) <> Model_Credit.U64MAX -> Proofs_Chain1.synced j -> (forall b, a <> JBank b) ->
  jstep cfg j (x, a) = (j', JDone ev) ->
  flow (Model_Staking.k_bank (j_s j)) (lsum (map issued (map VStaking ev))) 0 (Model_Staking.k_bank (j_s j')).
Proof.
  intros Hs Hy Hb H.
  assert (Q : (exists o c, a = JCredit o c) \/ (exists e, a = JEntry e) \/
              ((forall o c, a <> JCredit o c) /\ (forall e, a <> JEntry e))).
  { destruct a; eauto; right; right; split; discriminate. }
  destruct Q as [(o & c & ->)|[[e ->]|[H1 H2]]].
  - unfold jstep in H. cbn in H. unfold csettle, Model_Credit.kstep in H.
    destruct (Model_Credit.kexec _ _ _ _ _) as [c'| |] eqn:E; cbn in H; try discriminate. injection H as <- <-. cbn.
    rewrite <- Hy. eapply credit_call; exact E.
  - unfold jstep in H. cbn in H. destruct (staking_only e).
    + injection H as <- <-. apply flow_refl.
    + unfold csettle, Model_Credit.kentry_step in H.
      destruct (Model_Credit.kentry_exec _ _ _ _) as [[c' r]| |] eqn:E; cbn in H; try discriminate. injection H as <- <-. cbn.
      rewrite <- Hy. apply credit_entry in E as ->; [apply flow_refl|exact Hs].
  - pose proof (Proofs_Chain1.jstep_staking cfg j (x, a) Hs Hy) as K. rewrite H in K. cbn [fst snd] in K.
    assert (Nb : Spec_Staking2.no_bank (Proofs_Chain1.sop cfg j (x, a))).
    { intros b. unfold Proofs_Chain1.sop. rewrite H. cbn [fst snd]. destruct a; try discriminate.
      - now destruct (H1 o c).
      - now destruct (H2 e).
      - now destruct (Hb b0). }
    destruct (Props_Staking3.C93_money _ _ _ _ _ Nb K) as (A & B & C).
    assert (E : Spec_Staking.minted (Spec_Staking.events [Model_Staking.KDone ev]) = lsum (map issued (map VStaking ev))).
    { unfold Spec_Staking.events, Spec_Staking.minted. cbn. rewrite app_nil_r, !map_map. f_equal. }
    rewrite E in A. split; [split; [lia|exact B]|exact C].
Qed.

(** Channels. *)
Section channels.
  Context (cfg : Model_Micropayment.mcfg) (verify : N -> list N -> list N -> bool).
  Definition steady (b b' : bank) : Prop := lost b <= lost b' /\ keeps b b'.
  Lemma flow_steady b m t b' : flow b m t b' -> steady b b'.
  Proof. intros [[_ A] B]. split; assumption. Qed.
  Lemma steady_trans b b1 b2 : steady b b1 -> steady b1 b2 -> steady b b2.
  Proof. intros [A B] [C D]. split; [lia|]. intros a. now rewrite D. Qed.
  Lemma into_account_steady s who v s' : Model_Micropayment.deposit_into_account cfg s who v = ROk s' ->
    steady (Model_Micropayment.m_bank s) (Model_Micropayment.m_bank s').
  Proof.
    intros (b & W & ->)%Proofs_Micropayment.deposit_into_account_inv. cbn.
    eapply steady_trans; eapply flow_steady; [apply deposit_flow|eapply withdraw_flow; exact W].
  Qed.
  Lemma atom_steady x caller call s e s' : Proofs_Micropayment.atom cfg verify x caller call s e s' ->
    steady (Model_Micropayment.m_bank s) (Model_Micropayment.m_bank s').
  Proof.
    intros []; cbn.
    - eapply flow_steady, withdraw_flow; eassumption.
    - eapply flow_steady, withdraw_flow; eassumption.
    - eapply into_account_steady in H1. exact H1.
    - eapply into_account_steady in H5. exact H5.
    - eapply flow_steady, transfer_allow_flow; eassumption.
  Qed.
  Lemma channel_step s x who c s' ev :
    Model_Micropayment.mstep cfg verify s x who c = (s', ROk ev) -> Spec_Micropayment.all_money s < two128 ->
    Spec_Micropayment.all_money s' = Spec_Micropayment.all_money s /\
    steady (Model_Micropayment.m_bank s) (Model_Micropayment.m_bank s').
  Proof.
    intros H F. apply Proofs_Micropayment.mstep_ok in H as [H _].
    induction H as [s|s e s1 ev s2 A B IH].
    - split; [reflexivity|]. eapply flow_steady, flow_refl.
    - pose proof (Proofs_Micropayment.atom_money _ _ _ _ _ _ _ _ F A) as M.
      rewrite <- M in F |- *. destruct (IH F) as [I1 I2]. split; [exact I1|].
      eapply steady_trans; [eapply atom_steady; exact A|exact I2].
  Qed.
End channels.

(** Devices. *)
Lemma node_call_step cfg s x o c s' ev : node_call c = true -> Model_DeeperNode.dexec cfg s x o c = ROk (s', ev) ->
  grow (Model_DeeperNode.d_bank s) 0 0 (Model_DeeperNode.d_bank s') /\
  ((forall a, Model_DeeperNode.d_dev s !! a <> None -> Model_DeeperNode.d_minlock cfg <= rsv (acct_of (Model_DeeperNode.d_bank s) a)) ->
   forall a, rsv (acct_of (Model_DeeperNode.d_bank s') a)
              + (if decide (Model_DeeperNode.d_dev s !! a = None) then 0 else Model_DeeperNode.d_minlock cfg)
            = rsv (acct_of (Model_DeeperNode.d_bank s) a)
              + (if decide (Model_DeeperNode.d_dev s' !! a = None) then 0 else Model_DeeperNode.d_minlock cfg)).
Proof.
  intros Hc H. destruct o as [|who|]; try discriminate H.
  assert (F : Proofs_DeeperNode2.frame s s' ->
    (forall w, Model_DeeperNode.d_dev s' !! w = None <-> Model_DeeperNode.d_dev s !! w = None) ->
    grow (Model_DeeperNode.d_bank s) 0 0 (Model_DeeperNode.d_bank s') /\
    forall a, rsv (acct_of (Model_DeeperNode.d_bank s') a)
              + (if decide (Model_DeeperNode.d_dev s !! a = None) then 0 else Model_DeeperNode.d_minlock cfg)
            = rsv (acct_of (Model_DeeperNode.d_bank s) a)
              + (if decide (Model_DeeperNode.d_dev s' !! a = None) then 0 else Model_DeeperNode.d_minlock cfg)).
  { intros Fr D. assert (E : Model_DeeperNode.d_bank s' = Model_DeeperNode.d_bank s) by (apply Fr). rewrite E.
    split; [apply flow_refl|]. intros a. pose proof (D a). repeat case_decide; tauto || lia. }
  assert (Same : forall t, Model_DeeperNode.d_bank t = Model_DeeperNode.d_bank s -> Model_DeeperNode.d_dev t = Model_DeeperNode.d_dev s ->
    grow (Model_DeeperNode.d_bank s) 0 0 (Model_DeeperNode.d_bank t) /\
    forall a, rsv (acct_of (Model_DeeperNode.d_bank t) a)
              + (if decide (Model_DeeperNode.d_dev s !! a = None) then 0 else Model_DeeperNode.d_minlock cfg)
            = rsv (acct_of (Model_DeeperNode.d_bank s) a)
              + (if decide (Model_DeeperNode.d_dev t !! a = None) then 0 else Model_DeeperNode.d_minlock cfg)).
  { intros t -> ->. split; [apply flow_refl|reflexivity]. }
  pose proof (Proofs_DeeperNode2.exec_moved cfg _ _ _ _ _ _ H) as M. destruct M as
    [country b D R ->|country D Fr Eq|s1 D Fr Eq ->|c Fr Cc D Eq|ev0 O|nonce sg t f u V ->|nonce sg evm V D N1 N2| -> D
    |dest amount b T ->|amount b R ->|amount a Ea ->]; try discriminate Hc.
  - split; [eapply reserve_grow; exact R|]. intros Hl a. cbn.
    rewrite (Proofs_DeeperNode2.reserve_rsv _ _ _ _ _ a R).
    destruct (N.eqb_spec a who) as [->|Hn].
    + rewrite D, lookup_insert, decide_True by reflexivity. rewrite decide_False by discriminate. lia.
    + rewrite lookup_insert_ne by congruence. lia.
  - destruct F as [F1 F2]; [assumption..|]. split; [exact F1|intros _; exact F2].
  - cbn. assert (E : Model_DeeperNode.d_bank s1 = Model_DeeperNode.d_bank s) by (apply Fr). rewrite E.
    split; [apply unreserve_grow|]. intros Hl a.
    assert (L : Model_DeeperNode.d_minlock cfg <= rsv (acct_of (Model_DeeperNode.d_bank s) who)).
    { apply Hl. destruct D as [? ->]. discriminate. }
    rewrite Proofs_DeeperNode2.unreserve_rsv by exact L. pose proof (Eq a) as Ea.
    destruct (N.eqb_spec a who) as [->|Hn].
    + rewrite decide_False by (destruct D as [? ->]; discriminate). rewrite decide_True by tauto. lia.
    + destruct (decide (Model_DeeperNode.d_dev s !! a = None)), (decide (Model_DeeperNode.d_dev s1 !! a = None)); tauto || lia.
  - destruct F as [F1 F2]; [assumption..|]. split; [exact F1|intros _; exact F2].
  - unfold Model_DeeperNode.im_online in O. repeat case_match; try discriminate; injection O as <- <-; (split; [apply (proj1 (Same _ eq_refl eq_refl))|intros _; apply (proj2 (Same _ eq_refl eq_refl))]).
  - (split; [apply (proj1 (Same _ eq_refl eq_refl))|intros _; apply (proj2 (Same _ eq_refl eq_refl))]).
  - destruct (decide (Model_DeeperNode.d_d2e s !! who = Some evm)) as [Q|Q].
    + rewrite (N2 Q). (split; [apply (proj1 (Same _ eq_refl eq_refl))|intros _; apply (proj2 (Same _ eq_refl eq_refl))]).
    + rewrite (N1 Q). (split; [apply (proj1 (Same _ eq_refl eq_refl))|intros _; apply (proj2 (Same _ eq_refl eq_refl))]).
  - (split; [apply (proj1 (Same _ eq_refl eq_refl))|intros _; apply (proj2 (Same _ eq_refl eq_refl))]).
Qed.

(** Tips. *)
Lemma give_back_grow cfg s t : grow (Model_Tips.t_bank s) 0 0 (Model_Tips.t_bank (Model_Tips.give_back cfg s t)).
Proof. unfold Model_Tips.give_back. destruct (_ =? _); [apply flow_refl|]. apply unreserve_grow. Qed.
Lemma try_pay_grow cfg b src dst v : grow b 0 0 (Model_Tips.try_pay cfg b src dst v).
Proof.
  unfold Model_Tips.try_pay. destruct (transfer_keep _ _ _ _ _) eqn:E; [|apply flow_refl].
  cbn. eapply transfer_keep_flow; exact E.
Qed.
Lemma tips_grow cfg x s o c s' ev : Model_Tips.texec cfg x s o c = ROk (s', ev) ->
  grow (Model_Tips.t_bank s) 0 0 (Model_Tips.t_bank s').
Proof.
  intros E. destruct c; cbn [Model_Tips.texec] in E.
  - destruct (Model_Tips.signed o) as [w| |]; cbn in E; try discriminate. unfold Model_Tips.report, ensure in E.
    destruct (_ <=? _); cbn in E; [|discriminate]. destruct (negb _); cbn in E; [|discriminate].
    destruct (negb _); cbn in E; [|discriminate]. destruct (reserve _ _ _ _) eqn:Er; [|discriminate].
    injection E as <- <-. cbn. eapply reserve_grow; exact Er.
  - destruct (Model_Tips.signed o) as [w| |]; cbn in E; try discriminate. unfold Model_Tips.retract, Model_Tips.find_tip, ensure in E.
    destruct (Model_Tips.t_tips s !! h); cbn in E; [|discriminate]. destruct (_ =? _); cbn in E; [|discriminate].
    injection E as <- <-. apply (give_back_grow cfg (Model_Tips.drop_tip s h o0)).
  - destruct (Model_Tips.tipper x o) as [w| |]; cbn in E; try discriminate. unfold Model_Tips.tip_new, ensure in E.
    destruct (negb _); cbn in E; [|discriminate]. injection E as <- <-. apply flow_refl.
  - destruct (Model_Tips.tipper x o) as [w| |]; cbn in E; try discriminate. unfold Model_Tips.do_tip, Model_Tips.find_tip in E.
    destruct (Model_Tips.t_tips s !! h); cbn in E; [|discriminate]. destruct (Model_Tips.check_closing _ _ _ _). injection E as <- <-. apply flow_refl.
  - destruct (Model_Tips.signed o) as [w| |]; cbn in E; try discriminate. unfold Model_Tips.close, Model_Tips.find_tip in E.
    destruct (Model_Tips.t_tips s !! h) as [t|]; cbn in E; [|discriminate]. destruct (Model_Tips.ripe x t); cbn in E; try discriminate.
    unfold Model_Tips.payout_tip in E. destruct (Model_Tips.middle _ _); [|discriminate]. injection E as <- <-. cbn.
    pose proof (give_back_grow cfg (Model_Tips.drop_tip s h t) t) as G. cbn in G.
    destruct (_ && _); cbn;
      repeat (eapply (grow_eq _ (0 + 0) (0 + 0)); [eapply grow_trans; [|apply try_pay_grow]|lia]); exact G.
  - unfold ensure in E. destruct (Model_Tips.tx_reject x); cbn in E; [|discriminate]. unfold Model_Tips.slash, Model_Tips.find_tip in E.
    destruct (Model_Tips.t_tips s !! h) as [t|]; cbn in E; [|discriminate].
    pose proof (slash_grow (Model_Tips.tc_ed cfg) (Model_Tips.t_bank s) (Model_Tips.ot_finder t) (Model_Tips.ot_deposit t)) as G.
    destruct (slash_reserved _ _ _ _) as [b got] eqn:Es. injection E as <- <-.
    destruct (N.eqb_spec (Model_Tips.ot_deposit t) 0) as [E0|E0]; cbn; [apply flow_refl|exact G].
  - destruct (Model_Tips.tipper x o) as [w| |]; cbn in E; try discriminate. unfold Model_Tips.credit_new, ensure in E.
    destruct (negb _); cbn in E; [|discriminate]. injection E as <- <-. apply flow_refl.
  - destruct (Model_Tips.tipper x o) as [w| |]; cbn in E; try discriminate. unfold Model_Tips.do_credit_tip, Model_Tips.find_tip in E.
    destruct (Model_Tips.t_tips s !! h); cbn in E; [|discriminate]. destruct (Model_Tips.check_closing _ _ _ _). injection E as <- <-. apply flow_refl.
  - destruct (Model_Tips.signed o) as [w| |]; cbn in E; try discriminate. unfold Model_Tips.credit_close, Model_Tips.find_tip in E.
    destruct (Model_Tips.t_tips s !! h) as [t|]; cbn in E; [|discriminate]. destruct (Model_Tips.ripe x t); cbn in E; try discriminate.
    destruct (Model_Tips.middle _ _); [|discriminate]. injection E as <- <-. apply (give_back_grow cfg (Model_Tips.drop_tip s h t)).
  - destruct o; try discriminate. injection E as <- <-. apply flow_refl.
Qed.
