(** Panics in the whole chain. *)
From Verif Require Import Base Balances Proofs_Balances Model_UserPrivileges.
From Verif Require Model_Credit Model_DeeperNode Model_Operation Model_CreditAccumulation Model_Tips Model_Adsc Model_Micropayment.
From Verif Require Proofs_Credit Proofs_Credit4 Proofs_Credit6 Proofs_Staking7 Proofs_Tips Proofs_Tips2 Proofs_Tips4 Spec_Tips.
From Verif Require Import Model_StakingLedger Model_Staking.
From Verif Require Import Model_Chain Model_World Spec_World Spec_World2 Spec_World3 Spec_World5 Proofs_World5.
From stdpp Require Import gmap sorting.
Open Scope N_scope.

Definition calm {E A} (r : res E A) : Prop := r <> RPanic.
Lemma calm_bind {E A B} (r : res E A) (k : A -> res E B) : calm r -> (forall v, calm (k v)) -> calm (rbind r k).
Proof. unfold calm. destruct r; cbn; [auto|discriminate|congruence]. Qed.
Lemma calm_bind_eq {E A B} (r : res E A) (k : A -> res E B) : calm r -> (forall v, r = ROk v -> calm (k v)) -> calm (rbind r k).
Proof. unfold calm. destruct r; cbn; [auto|discriminate|congruence]. Qed.
Lemma calm_ok {E A} (a : A) : calm (E := E) (ROk a). Proof. discriminate. Qed.
Lemma calm_err {E A} (e : E) : calm (A := A) (RErr e). Proof. discriminate. Qed.
Lemma calm_ensure {E} c (e : E) : calm (ensure c e). Proof. now destruct c. Qed.
Ltac calm1 :=
  match goal with
  | |- calm (ROk _) => apply calm_ok
  | |- calm (RErr _) => apply calm_err
  | |- calm (ensure _ _) => apply calm_ensure
  | |- calm (rbind _ _) => apply calm_bind; [|intros ?]
  | |- calm (if ?c then _ else _) => destruct c
  | |- calm (match ?e with _ => _ end) => destruct e
  end.
Ltac calms := repeat calm1.

(** Credit. *)
Section credit.
  Import Model_Credit.
  Context (cfg : kcfg).
  Lemma update_history_calm s who era d : k_uc s !! who = Some d -> calm (update_history s who era).
  Proof. intros E. unfold update_history. rewrite E. calms. Qed.
  Lemma do_add_calm s x who d : calm (do_add_credit cfg s x who d).
  Proof.
    unfold do_add_credit. destruct (k_uc s !! who); [|calms].
    destruct (hist_of _ who); [calms|]. apply update_history_calm with d. cbn. apply lookup_insert.
  Qed.
  Lemma unstaking_calm s x who : calm (unstaking_slash cfg s x who).
  Proof.
    unfold unstaking_slash. destruct (k_ustake s !! who); [|calms]. destruct (k_uc s !! who); [|calms].
    eapply update_history_calm. cbn. apply lookup_insert.
  Qed.
  Lemma update_credit_some s who score s' : update_credit s who score = (s', true) -> exists d, k_uc s' !! who = Some d.
  Proof. unfold update_credit. destruct (k_uc s !! who); [|discriminate]. intros [= <-]. cbn. rewrite lookup_insert. eauto. Qed.
  Lemma kexec_calm s x o c : calm (kexec cfg s x o c).
  Proof.
    assert (R : calm (ensure_root_k o)) by (unfold ensure_root_k; calms).
    assert (Sg : calm (ensure_signed_k o)) by (unfold ensure_signed_k; calms).
    assert (A : calm (ensure_admin x o)) by (unfold ensure_admin; calms; exact Sg).
    assert (D : calm (ensure_device_admin x o)) by (unfold ensure_device_admin; calms; exact Sg).
    assert (Ck : forall d, calm (check_credit_data s d)) by (intros d; unfold check_credit_data; calms).
    destruct c; cbn [kexec]; try (apply calm_bind; [first [exact R|exact A|exact D]|intros ?]);
      try (calms; fail); try (apply calm_bind; [apply Ck|intros ?]; apply do_add_calm); try apply unstaking_calm.
    - unfold burn_for_credit. apply calm_bind; [exact Sg|intros who]. destruct (k_uc s !! who) as [d|] eqn:Ed; [|calms].
      destruct (_ <? _); [calms|]. destruct (withdraw _ _ _ _ _) as [b|]; [|calms].
      destruct (update_credit _ _ _) as [s2 ok] eqn:Eu. apply calm_bind; [|intros; calms].
      unfold update_credit in Eu. cbn in Eu. rewrite Ed in Eu. injection Eu as <- <-. eapply update_history_calm. cbn. apply lookup_insert.
    - unfold burn_nft. apply calm_bind; [exact Sg|intros who]. destruct (k_nft_credit s !! class); [|calms]. calm1; [calms|].
      destruct (k_nft_owner s !! _); [|calms]. calm1; [calms|]. calm1; [|calms].
      unfold by_burn_nft. destruct (update_credit _ _ _) as [s2 [|]] eqn:Eu; [|calms].
      destruct (update_credit_some _ _ _ _ Eu). eapply update_history_calm; eauto.
    - unfold submit_price. calms. exact Sg.
  Qed.
  Lemma by_traffic_calm s x who : calm (by_traffic cfg s x who).
  Proof.
    unfold by_traffic. destruct (kx_onboard x who); [|calms]. destruct (update_interval _ _ _ _ _). destruct (_ <=? _); [|calms].
    destruct (update_credit _ _ _) as [s1 [|]] eqn:Eu; [|calms]. calm1; [|calms].
    destruct (update_credit_some _ _ _ _ Eu) as [d Hd]. apply update_history_calm with d. exact Hd.
  Qed.
  Lemma by_tip_calm s x who v : calm (by_tip cfg s x who v).
  Proof.
    unfold by_tip. destruct (kx_onboard x who); [|calms].
    destruct (update_credit _ _ _) as [s1 [|]] eqn:Eu; [|calms].
    destruct (update_credit_some _ _ _ _ Eu) as [d Hd]. apply update_history_calm with d. exact Hd.
  Qed.
  Lemma add_or_update_calm s x who gap camp : calm (add_or_update cfg s x who gap camp).
  Proof. unfold add_or_update. calm1; [apply do_add_calm|calms]. Qed.
  Lemma slash_panic s x who p : slash_credit cfg s x who (Some p) = RPanic <-> p <> U64MAX /\ k_uc s !! who = None.
  Proof.
    destruct (N.eq_dec p U64MAX) as [->|E].
    - split; [|tauto]. unfold slash_credit. change (default (kc_step cfg) (Some U64MAX)) with U64MAX. rewrite N.eqb_refl. discriminate.
    - destruct (k_uc s !! who) as [d|] eqn:Ed.
      + rewrite (Proofs_Credit4.slash_eq cfg s x who (Some p) d Ed E). split; [discriminate|]. intros [_ ?]. discriminate.
      + rewrite Proofs_Credit4.slash_none by done. split; auto.
  Qed.
  Lemma slash_no_err s x who p e : slash_credit cfg s x who p <> RErr e.
  Proof. destruct (Proofs_Credit6.slash_result cfg s x who p) as [[? ->]| ->]; discriminate. Qed.
  Lemma slash_rec s x who p s' a : slash_credit cfg s x who (Some p) = ROk s' ->
    k_uc s' !! a = None <-> k_uc s !! a = None \/ (a = who /\ p = U64MAX).
  Proof.
    intros H. destruct (N.eq_dec p U64MAX) as [->|E].
    - unfold slash_credit in H. change (default (kc_step cfg) (Some U64MAX)) with U64MAX in H. rewrite N.eqb_refl in H. injection H as <-. cbn.
      destruct (N.eq_dec a who) as [->|Ha]; [rewrite lookup_delete; tauto|]. rewrite lookup_delete_ne by auto. tauto.
    - destruct (k_uc s !! who) as [d|] eqn:Ed.
      + unfold slash_credit in H. change (default (kc_step cfg) (Some p)) with p in H. rewrite (proj2 (N.eqb_neq _ _) E) in H. rewrite Ed in H.
        unfold update_history in H. cbn [k_uc set_k_uc] in H. rewrite lookup_insert in H.
        assert (U : k_uc s' = <[who := cd_update d (cd_credit d - p)]> (k_uc s)).
        { destruct (last _) as [[? ?]|]; injection H as <-; reflexivity. }
        rewrite U. destruct (N.eq_dec a who) as [->|Ha]; [rewrite lookup_insert, Ed; intuition congruence|].
        rewrite lookup_insert_ne by auto. tauto.
      + rewrite Proofs_Credit4.slash_none in H by done. discriminate.
  Qed.
End credit.

(** Staking. *)
Lemma lookup_below {A} (l : list A) n : n < N.of_nat (length l) -> exists a, l !! N.to_nat n = Some a.
Proof. intros H. destruct (l !! N.to_nat n) eqn:E; [eauto|]. apply lookup_ge_None in E. lia. Qed.
Section staking.
  Context (cfg : kcfg).
  Lemma do_delegate_calm x k d vs : calm (do_delegate x k d vs).
  Proof. unfold do_delegate. calms. Qed.
  Lemma delegate_any_calm x s d : calm (delegate_any cfg x s d).
  Proof.
    unfold delegate_any. destruct (bool_decide_reflect (validators_in_order cfg (k_stk s) = [])) as [E|E]; cbn; [calms|].
    set (vs := validators_in_order cfg (k_stk s)) in *.
    destruct (lookup_below vs (w64 (kx_block x) mod N.of_nat (length vs))) as [v Hv].
    { apply N.mod_lt. destruct vs; [done|]. cbn. lia. }
    rewrite Hv. apply do_delegate_calm.
  Qed.
  Lemma staking_delegate_calm x s who level : calm (staking_delegate cfg x s who level).
  Proof.
    unfold staking_delegate. calm1; [calms|]. unfold ensure. destruct (N.ltb_spec level (N.of_nat (length (kx_dpr x who)))) as [L|L]; cbn; [|calms].
    destruct (kx_level x who) as [cur|]; [|calms]. destruct (N.ltb_spec cur level) as [Lc|Lc]; cbn; [|calms].
    destruct (lookup_below (kx_dpr x who) level L) as [hi ->]. destruct (lookup_below (kx_dpr x who) cur ltac:(lia)) as [lo ->].
    destruct (transfer_keep _ _ _ _ _); [|calms]. calm1; [apply delegate_any_calm|calms].
  Qed.
  Lemma usdt_delegate_calm x s who usdt : calm (usdt_delegate cfg x s who usdt).
  Proof. unfold usdt_delegate. calm1; [calms|]. calm1; [calms|]. destruct v0 as [cur rest]. calm1; [|calms]. calm1; [apply delegate_any_calm|calms]. Qed.
  Lemma signed_calm {A} o (f : N -> res kerr A) : (forall w, calm (f w)) -> calm (signed o f).
  Proof. intros H. unfold signed. destruct o; auto using calm_err. Qed.
  Lemma root_calm {A} o (r : res kerr A) : calm r -> calm (root o r).
  Proof. intros H. unfold root. destruct o; auto using calm_err. Qed.
  Lemma unstake_calm x s st n : calm (unstake cfg x s st n).
  Proof. unfold unstake. calms. unfold kill_stash. calms. unfold clear_stash. calms. Qed.
  Lemma dispatch_calm x s o c : match c with KCancel _ l => Forall (fun i => i < two32) l | _ => True end ->
    calm (dispatch cfg x s o c).
  Proof.
    intros T. destruct c; cbn [dispatch]; unfold admin, controlled, with_par, with_del, with_stk, quiet;
      try (apply signed_calm; intros ?); try apply root_calm; try (calms; fail).
    all: try (calm1; [calms|]).
    all: try apply staking_delegate_calm; try apply usdt_delegate_calm; try apply calm_ok.
    - unfold bond. calms.
    - unfold bond_extra. calms.
    - unfold unbond. calms.
    - unfold withdraw_unbonded. calms. apply unstake_calm.
    - unfold set_controller. calms.
    - apply unstake_calm.
    - exact (proj2 (proj2 (Proofs_Staking7.cancel_spec (k_stk s) era l T))).
    - unfold do_rebond. calms.
    - calm1; [apply unstake_calm|calms].
    - unfold delegate. calms; apply do_delegate_calm.
    - unfold compensate. calms.
    - calm1; [|calms]. unfold set_referer. calms.
    - unfold npow_mint. calms.
    - unfold validator_burn. calms.
  Qed.
End staking.

(** Both in one chain. *)
Section chain.
  Context (cfg : jcfg).
  Lemma lift_calm {A} (r : res Model_Credit.kerr A) : calm r -> (forall e, r <> RErr e) -> calm (lift r).
  Proof. unfold calm, lift. destruct r; [discriminate|intros _ H; now destruct (H e)|tauto]. Qed.
  Lemma do_add_no_err c x who d e : Model_Credit.do_add_credit (jc_c cfg) c x who d <> RErr e.
  Proof.
    unfold Model_Credit.do_add_credit, Model_Credit.update_history. destruct (_ !! who); [|discriminate].
    destruct (Model_Credit.hist_of _ _); [discriminate|]. destruct (_ !! _); [|discriminate]. now destruct (last _) as [[? ?]|].
  Qed.
  Lemma raise_calm c x who gap camp : calm (lift (Model_Credit.add_or_update (jc_c cfg) c x who gap camp)).
  Proof.
    apply lift_calm; [apply add_or_update_calm|]. intros e. unfold Model_Credit.add_or_update.
    pose proof (fun d => do_add_no_err c x who d e) as H.
    destruct (Model_Credit.do_add_credit _ _ _ _ _) as [s1| |] eqn:E; cbn; try discriminate.
    intros [= ->]. exact (H _ E).
  Qed.
  Local Notation rec c a := (Model_Credit.k_uc c !! a).
  Lemma jforce_panic x l : forall c s,
    jforce cfg x l c s = RPanic <->
    exists l1 a p l2, l = l1 ++ (a, p) :: l2 /\ p <> Model_Credit.U64MAX /\ (rec c a = None \/ (a, Model_Credit.U64MAX) ∈ l1).
  Proof.
    induction l as [|[a p] r IH]; intros c s; cbn [jforce].
    - split; [discriminate|]. intros (l1 & a & p & l2 & E & _). destruct l1; discriminate.
    - destruct (Model_Credit.slash_credit (jc_c cfg) c (jx_c x) a (Some p)) as [c1|e|] eqn:Es; cbn [lift rbind].
      + rewrite IH.
        assert (Ok : ~ (p <> Model_Credit.U64MAX /\ rec c a = None)) by (intros B; apply (slash_panic (jc_c cfg) c (jx_c x)) in B; congruence).
        split.
        * intros (l1 & b & q & l2 & -> & Hq & H). exists ((a, p) :: l1), b, q, l2. split; [done|]. split; [done|].
          destruct H as [H|H]; [|right; now right]. apply (slash_rec _ _ _ _ _ _ _ Es) in H as [H|[-> ->]]; [now left|]. right. left.
        * intros (l1 & b & q & l2 & E & Hq & H). destruct l1 as [|y l1]; cbn in E.
          { injection E as <- <- _. destruct H as [H|H]; [tauto|]. now apply elem_of_nil in H. }
          injection E as <- ->.
          exists l1, b, q, l2. split; [done|]. split; [done|]. destruct H as [H|H].
          -- left. apply (slash_rec _ _ _ _ _ _ _ Es). now left.
          -- apply elem_of_cons in H as [H|H]; [|now right]. injection H as -> <-. left. apply (slash_rec _ _ _ _ _ _ _ Es). auto.
      + now destruct (slash_no_err _ _ _ _ _ _ Es).
      + split; [|done]. intros _. apply slash_panic in Es as [E1 E2]. exists [], a, p, r. auto.
  Qed.
  Lemma jdispatch_panic x c s o call :
    match call with JOf (KCancel _ l) => Forall (fun i => i < two32) l | _ => True end ->
    jdispatch cfg x c s o call = RPanic <->
    o = Root /\ match call with
                | JForceUndelegate l =>
                    exists l1 a p l2, l = l1 ++ (a, p) :: l2 /\ p <> Model_Credit.U64MAX /\ (rec c a = None \/ (a, Model_Credit.U64MAX) ∈ l1)
                | JOf (KForceUndelegate l) => exists a, a ∈ l /\ rec c a = None
                | _ => False
                end.
  Proof.
    intros T. assert (F : forall l, jforce_undelegate cfg x c s o l = RPanic <-> o = Root /\ jforce cfg x l c s = RPanic).
    { intros l. unfold jforce_undelegate, root. destruct o; [|split; [discriminate|intros []; discriminate]..].
      destruct (jforce cfg x l c s); cbn; intuition discriminate. }
    destruct call as [k|l]; [|cbn [jdispatch]; rewrite F, jforce_panic; reflexivity].
    assert (Dc : forall x, calm (dispatch (jc_s cfg) x s o k)) by (intros y; apply dispatch_calm; destruct k; exact I || exact T).
    assert (Q : forall r : res kerr (credit * kstate * list kev), calm r -> r = RPanic <-> o = Root /\ False) by (unfold calm; tauto).
    destruct k; cbn [jdispatch]; try (apply Q; calm1; [apply Dc|calms]; fail).
    - apply Q. unfold jstaking_delegate. apply signed_calm. intros w. cbv zeta.
      apply calm_bind; [apply raise_calm|intros c1]. apply calm_bind; [apply Dc|intros; calms].
    - apply Q. unfold jusdt_delegate. cbv zeta. match goal with |- calm (match ?e with _ => _ end) => destruct e as [cur rest] end.
      apply calm_bind; [apply raise_calm|intros c1]. apply calm_bind; [apply Dc|intros; calms].
    - apply Q. unfold jdelegate. apply signed_calm. intros w. calm1; [apply Dc|calms].
    - rewrite F, jforce_panic. split; intros [-> H]; (split; [done|]).
      + destruct H as (l1 & a & p & l2 & E & Hp & H). exists a. split.
        * assert (Hi : (a, p) ∈ map (fun a => (a, 0)) l) by (rewrite E; apply elem_of_app; right; left).
          apply elem_of_list_fmap in Hi as (b & [= -> ->] & Hi). exact Hi.
        * destruct H as [H|H]; [done|]. assert (Hi : (a, Model_Credit.U64MAX) ∈ map (fun a => (a, 0)) l) by (rewrite E; apply elem_of_app; now left).
          apply elem_of_list_fmap in Hi as (b & Hb & _). discriminate Hb.
      + destruct H as (a & Ha & H). apply elem_of_list_split in Ha as (l1 & l2 & ->).
        exists (map (fun a => (a, 0)) l1), a, 0, (map (fun a => (a, 0)) l2). rewrite map_app. split; [done|]. split; [discriminate|now left].
    - apply Q. unfold jforce_unstaking. calm1.
      + apply lift_calm; [|intros e; apply slash_no_err]. intros H. apply slash_panic in H as [H _]. done.
      + calm1; [apply Dc|calms].
  Qed.
End chain.

(** The other pallets. *)
Ltac head_of t := match t with ?f _ => head_of f | _ => t end.
Ltac calms_deep := repeat first [calm1 | match goal with |- calm ?t => let h := head_of t in progress unfold h; cbv beta zeta end].
Lemma uexec_calm s o c : calm (uexec s o c).
Proof. destruct c; cbn [uexec]; calms_deep. Qed.
Lemma proofs_calm v hs s o c : calm (Model_CreditAccumulation.aexec v hs s o c).
Proof. destruct c; cbn [Model_CreditAccumulation.aexec]; calms_deep. Qed.
Lemma node_calm C s x o c : calm (Model_DeeperNode.dexec C s x o c).
Proof. unfold Model_DeeperNode.dexec. destruct o; [calms|destruct c|calms]; calms_deep. Qed.
Lemma channel_calm C v s x who c : calm (Model_Micropayment.mexec C v s x who c).
Proof.
  assert (L : forall l s now ev, calm (Model_Micropayment.close_loop C s now who l ev)).
  { induction l as [|[k ch] l IH]; intros s0 now ev; cbn [Model_Micropayment.close_loop]; [apply calm_ok|].
    destruct (_ <? _); [|apply IH]. apply calm_bind; [|intros; apply IH]. calms_deep. }
  destruct c; cbn [Model_Micropayment.mexec]; try (calms_deep; fail). apply L.
Qed.
Lemma operation_calm C s x o c : calm (Model_Operation.oexec C s x o c).
Proof. destruct c; cbn [Model_Operation.oexec]; calms_deep. Qed.
Lemma adsc_panic C s x o c : Model_Adsc.aexec C s x o c = RPanic <->
  match o, c with
  | Signed who, Model_Adsc.ASwap amount => (Model_Adsc.a_rate s).1 = 0 /\
      exists l, Model_Adsc.a_ass s = Some l /\ is_Some (Model_Adsc.atransfer l who (Model_Adsc.ac_acct C) amount)
  | _, _ => False
  end.
Proof.
  assert (Fa : forall P : Prop, ~ P -> P <-> False) by tauto.
  destruct c; try (transitivity False; [apply Fa; cbn [Model_Adsc.aexec]; match goal with |- ~ (?r = _) => change (calm r) end; calms_deep; fail|now destruct o]).
  cbn [Model_Adsc.aexec]. destruct o as [|who|]; [intuition discriminate| |intuition discriminate].
  unfold Model_Adsc.do_swap. destruct (Model_Adsc.a_ass s) as [l|]; [|split; [discriminate|intros (_ & ? & ? & _); discriminate]].
  destruct (Model_Adsc.atransfer l who (Model_Adsc.ac_acct C) amount) as [l'|] eqn:Et.
  2: { split; [discriminate|]. intros (_ & l0 & [= <-] & H). rewrite Et in H. destruct H. discriminate. }
  destruct (Model_Adsc.a_rate s) as [ar dr]. cbn [fst]. destruct (N.eqb_spec ar 0) as [E|E].
  - split; [|done]. intros _. split; [exact E|]. exists l. rewrite Et. eauto.
  - split; [|intros []; contradiction]. destruct (transfer_allow _ _ _ _ _); discriminate.
Qed.

(** The whole chain. *)
Section world.
  Context (cfg : wcfg).
  Local Notation jc := (wc_chain cfg).

  Lemma of_chain_panic w r : (of_chain w r).2 = WPanic <-> r.2 = JPanic.
  Proof. destruct r as [j [ev| |]]; cbn; intuition discriminate. Qed.
  Lemma entry_panic x w e : staking_only e = false ->
    (wjstep cfg x w (JEntry e)).2 = JPanic <->
    Model_Credit.kentry_exec (jc_c jc) (Model_Credit.set_k_bank (j_c (w_chain w)) (w_bank w)) (cctx cfg x w) e = RPanic.
  Proof.
    intros E. unfold wjstep, jstep. cbn [fst snd jact_step]. rewrite E. unfold csettle, Model_Credit.kentry_step. cbn [snd].
    cbn [jsync j_c wjctx jx_c]. destruct (Model_Credit.kentry_exec _ _ _ _) as [[? ?]| |]; cbn; intuition discriminate.
  Qed.
  Lemma to_credit_panic x w e ev w0 : staking_only e = false ->
    calm (Model_Credit.kentry_exec (jc_c jc) (Model_Credit.set_k_bank (j_c (w_chain w)) (w_bank w)) (cctx cfg x w) e) ->
    (to_credit cfg x w e ev w0).2 <> WPanic.
  Proof.
    intros E C. pose proof (proj1 (entry_panic x w e E)) as P. unfold to_credit.
    destruct (wjstep cfg x w (JEntry e)) as [j [v| |]]; cbn; try discriminate. intros _. apply C, P. reflexivity.
  Qed.

  Lemma call_panic w op : is_call op -> well_typed op ->
    (wstep cfg w op).2 = WPanic <->
    match op.2 with
    | WAdsc (Signed who) (Model_Adsc.ASwap amount) => (Model_Adsc.a_rate (w_adsc w)).1 = 0 /\ can_give_adsc cfg w who amount
    | WTips o c => Model_Tips.texec (wc_tips cfg) (tctx op.1) (Model_Tips.set_bank (w_tips w) (w_bank w)) o c = RPanic
    | WStaking Root (JForceUndelegate l) => penalty_for_none w l
    | WStaking Root (JOf (KForceUndelegate l)) => exists a, a ∈ l /\ record w a = None
    | WEvm caller user points false =>
        has_evm_privilege (w_priv w) caller EvmCreditOperation = true /\ points <> Model_Credit.U64MAX /\
        exists a, bound w user a /\ record w a = None
    | _ => False
    end.
  Proof.
    assert (Fa : forall P : Prop, ~ P -> P <-> False) by tauto.
    destruct op as [x a]. destruct a; intros Hc T; cbn [fst snd wstep] in *; try contradiction.
    - (* privileges *) apply Fa. pose proof (uexec_calm (w_priv w) o c) as C. unfold ustep.
      destruct (uexec _ _ _) as [[? ?]| |]; cbn; [discriminate..|done].
    - (* proofs *) apply Fa. unfold wproof. pose proof (proofs_calm (wc_verify cfg) (wc_hash cfg) (w_proofs w) o c) as C.
      unfold Model_CreditAccumulation.astep.
      destruct (Model_CreditAccumulation.aexec _ _ _ _ _) as [?| |]; [|discriminate|done].
      destruct o, c; try discriminate. apply to_credit_panic; [reflexivity|]. cbn [Model_Credit.kentry_exec].
      apply calm_bind; [apply by_traffic_calm|intros; apply calm_ok].
    - (* devices *) apply Fa. unfold wnode. destruct (negb _); [discriminate|].
      pose proof (node_calm (wc_node cfg) (Model_DeeperNode.with_bank (w_node w) (w_bank w)) (nctx cfg x w) o c) as C.
      unfold Model_DeeperNode.dstep. destruct (Model_DeeperNode.dexec _ _ _ _ _) as [[? ?]| |]; cbn; [discriminate..|done].
    - (* credit *) apply Fa. rewrite of_chain_panic. unfold wjstep, jstep. cbn [fst snd jact_step csettle]. unfold Model_Credit.kstep.
      pose proof (kexec_calm (jc_c jc) (j_c (jsync (w_chain w) (w_bank w))) (jx_c (wjctx cfg x w)) o c) as C.
      destruct (Model_Credit.kexec _ _ _ _ _); cbn; [discriminate..|done].
    - (* staking *) rewrite of_chain_panic. unfold wjstep, jstep. cbn [fst snd jact_step].
      assert (P : forall j r, (jsettle j r).2 = JPanic <-> r = RPanic).
      { intros j [[[? ?] ?]| |]; cbn; intuition discriminate. }
      rewrite P, jdispatch_panic by exact T. unfold penalty_for_none, record. cbn [jsync j_c].
      change (Model_Credit.k_uc (Model_Credit.set_k_bank (j_c (w_chain w)) (w_bank w))) with (Model_Credit.k_uc (j_c (w_chain w))).
      destruct o; [|split; [intros [? _]; discriminate|intros []]..]. destruct c as [k|l]; [destruct k|]; tauto.
    - (* channels *) apply Fa. unfold wchannel. destruct (negb _); [discriminate|].
      pose proof (channel_calm (wc_chan cfg) (wc_verify cfg) (chan_bank (w_chan w) (w_bank w)) (mctx cfg x w) who c) as C.
      unfold Model_Micropayment.mstep. destruct (Model_Micropayment.mexec _ _ _ _ _ _) as [[? ?]| |]; cbn; [discriminate..|done].
    - (* operation *) apply Fa. unfold woperation.
      pose proof (operation_calm (wc_rel cfg) (Model_Operation.set_o_bank (w_rel w) (w_bank w)) (octx cfg x w) o c) as C.
      unfold Model_Operation.ostep. destruct (Model_Operation.oexec _ _ _ _ _) as [[? ?]| |]; [|discriminate|done].
      destruct c; try discriminate; apply to_credit_panic; try reflexivity; cbn [Model_Credit.kentry_exec].
      all: try discriminate. apply calm_bind; [apply unstaking_calm|intros; apply calm_ok].
    - (* adsc *) unfold wadsc. set (s := Model_Adsc.set_a_bank (w_adsc w) (w_bank w)).
      assert (P : (match Model_Adsc.astep (wc_adsc cfg) s (actx cfg x w) o c with
        | (a, ROk ev) => (set_w_adsc w a, WDone (map VAdsc ev)) | (_, RErr _) => (w, WFail) | (_, RPanic) => (w, WPanic) end).2 = WPanic <->
        Model_Adsc.aexec (wc_adsc cfg) s (actx cfg x w) o c = RPanic).
      { unfold Model_Adsc.astep. destruct (Model_Adsc.aexec _ _ _ _ _) as [[? ?]| |]; cbn; intuition discriminate. }
      rewrite P. clear P. rewrite adsc_panic. unfold can_give_adsc, s. cbn. destruct o, c; try tauto. 
    - (* tips *) unfold wtips. cbn [Model_Tips.tstep].
      destruct (Model_Tips.texec _ _ _ _ _) as [[t ev]| |]; [|intuition discriminate..].
      split; [|discriminate]. destruct (tipped ev) as [[? ?]|]; [|discriminate]. intros H. exfalso. revert H.
      apply to_credit_panic; [reflexivity|]. cbn [Model_Credit.kentry_exec]. apply calm_bind; [apply by_tip_calm|intros; apply calm_ok].
    - (* evm *) rewrite of_chain_panic, entry_panic by reflexivity. cbn [Model_Credit.kentry_exec]. unfold Model_Credit.evm_update.
      cbn [cctx Model_Credit.kx_evm_priv Model_Credit.kx_e2d]. unfold bound, record.
      destruct (has_evm_privilege _ _ _); cbn [negb].
      2: { cbn. destruct add; [|intuition discriminate]. intuition discriminate. }
      destruct (Model_DeeperNode.d_e2d (w_node w) !! user) as [a|]; cbn.
      2: { destruct add; [intuition discriminate|]. split; [discriminate|]. intros (_ & _ & a & ? & _). discriminate. }
      destruct add.
      + apply Fa. destruct (Model_Credit.k_uc _ !! a); [|discriminate].
        apply calm_bind; [|intros; apply calm_ok]. apply calm_bind; [apply do_add_calm|intros; apply calm_ok].
      + pose proof (slash_panic (jc_c jc) (Model_Credit.set_k_bank (j_c (w_chain w)) (w_bank w)) (cctx cfg x w) a score) as H.
        change (Model_Credit.k_uc (Model_Credit.set_k_bank (j_c (w_chain w)) (w_bank w))) with (Model_Credit.k_uc (j_c (w_chain w))) in H.
        destruct (Model_Credit.slash_credit _ _ _ _ _); cbn.
        * split; [discriminate|]. intros (_ & H1 & b & [= <-] & H2). discriminate (proj2 H (conj H1 H2)).
        * split; [discriminate|]. intros (_ & H1 & b & [= <-] & H2). discriminate (proj2 H (conj H1 H2)).
        * split; [|done]. intros _. split; [done|]. destruct (proj1 H eq_refl). split; [done|]. eauto.
    - (* transfers *) apply Fa. now destruct (transfer_allow _ _ _ _ _).
    - apply Fa. unfold wreserve. now destruct (reserve _ _ _ _).
    - apply Fa. discriminate.
  Qed.
  Lemma tips_hist_ok h : forall w, Forall well_typed h -> Spec_Tips.hist_ok (view cfg (tips_view1 cfg) w h).
  Proof.
    induction h as [|op r IH]; intros w F; [constructor|]. inversion F as [|? ? F1 F2]; subst. cbn [view].
    apply Forall_app; split; [|exact (IH _ F2)]. unfold tips_view1. destruct (done _); [|constructor].
    apply Forall_app; split; [|constructor; [exact I|constructor]].
    destruct op as [x a]. destruct a; cbn; constructor; [|constructor]. exact F1.
  Qed.
  Lemma tips_panic b p settings data evm u h x o c :
    let g := wgenesis b p settings data evm u in
    Forall well_typed h -> StronglySorted N.lt (wx_members x) ->
    Model_Tips.texec (wc_tips cfg) (tctx x) (Model_Tips.set_bank (w_tips (wrun cfg g h)) (w_bank (wrun cfg g h))) o c = RPanic <->
    match o, c with
    | Signed _, Model_Tips.TClose k => valueless cfg g h x Spec_Tips.Coin k
    | Signed _, Model_Tips.TCreditClose k => valueless cfg g h x Spec_Tips.Cred k
    | _, _ => False
    end.
  Proof.
    intros g F Sm. pose proof (tips_refines cfg h g) as R. pose proof (tips_hist_ok h g F) as Hh.
    change (tproj g) with (Model_Tips.tgenesis b) in R. unfold tproj in R.
    unfold valueless. change (w_bank g) with b.
    set (hist := view cfg (tips_view1 cfg) g h) in *. set (w := wrun cfg g h) in *.
    rewrite Proofs_Tips4.exec_panic. rewrite <- R.
    destruct (Proofs_Tips2.reach_votes (wc_tips cfg) b hist Hh) as [V _].
    set (s := Model_Tips.trun (wc_tips cfg) (Model_Tips.tgenesis b) hist) in *.
    assert (Ts : Model_Tips.t_tips s = Model_Tips.t_tips (w_tips w)) by (rewrite R; reflexivity).
    assert (M : forall ch k t, Model_Tips.t_tips s !! k = Some t ->
      Model_Tips.middle (wx_members x) (Proofs_Tips2.votes ch t) = None <->
      Spec_Tips.declared (wc_tips cfg) ch (Spec_Tips.tlog (wc_tips cfg) (Model_Tips.tgenesis b) hist) k (wx_members x) = []).
    { intros ch k t Ht. destruct (V _ _ Ht ch) as [O _]. pose proof (Proofs_Tips.middle_median _ _ Sm O) as M.
      rewrite (Proofs_Tips2.reach_declared (wc_tips cfg) b hist ch k t _ Hh Ht) in M. destruct (Model_Tips.middle _ _) as [v|]; [|tauto].
      split; [discriminate|]. intros E. rewrite E in M. destruct M as [M _]. now apply elem_of_nil in M. }
    rewrite Ts in M. rewrite Ts. split.
    - intros (ch & k & t & n & me & -> & -> & H3 & H4 & H5 & H6). cbn in H5, H6. apply (M ch k t H3) in H6.
      destruct ch; exists t, n; auto.
    - destruct o as [|me|]; try tauto. destruct c; try tauto; intros (t & n & H3 & H4 & H5 & H6).
      + exists Spec_Tips.Coin, h0, t, n, me. repeat (split; [done|]). now apply (M Spec_Tips.Coin h0 t H3).
      + exists Spec_Tips.Cred, h0, t, n, me. repeat (split; [done|]). now apply (M Spec_Tips.Cred h0 t H3).
  Qed.
End world.
