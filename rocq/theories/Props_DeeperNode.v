(** Properties C11-C17 and C70 (pallets/deeper-node). *)
From Verif Require Import Base Proofs_Arith Balances Proofs_Balances Model_Regions Model_DeeperNode
  Spec_DeeperNode Proofs_DeeperNode Proofs_DeeperNode2.
From stdpp Require Import gmap strings.
From Coq Require Import Lia.
Open Scope N_scope.

(** Example chain: the deposit is 100, an era has 10 blocks, the code table is
    the real one; signature [7] is valid. *)
Definition xdcfg : dcfg := DCfg 5 100 7 10 regions.
Definition xdbank : bank := Bank (list_to_map [(1, Acct 1000 3 0); (2, Acct 500 0 0); (3, Acct 50 0 0)]) 0.
Definition xd (now : N) : dctx :=
  DCtx now (fun _ sg _ => bool_decide (sg = [7])) (fun _ sg _ => bool_decide (sg = [7])).
Definition xdhist : list dop :=
  [ (xd 5, Signed 2, DRegister "US"); (xd 6, Signed 2, DRegisterServer 2);
    (xd 7, Signed 1, DRegister "FR"); (xd 8, Signed 1, DRegisterServer 3);
    (xd 9, Signed 3, DRegister "US"); (xd 9, Signed 1, DImOnline);
    (xd 12, Signed 2, DRegister "CA"); (xd 13, Signed 2, DRegisterServer 9);
    (xd 14, Signed 2, DRegisterServer 7); (xd 15, Signed 2, DImOnline);
    (xd 16, Signed 1, DRewardMapping 0 [7] 501); (xd 17, Signed 2, DRewardMapping 0 [7] 501);
    (xd 18, Signed 1, DRewardMapping 1 [7] 502); (xd 31, Signed 1, DImOnline);
    (xd 32, Signed 1, DReserveOther 20); (xd 33, Signed 1, DUnregister) ]%string.

(** The table is such that the two regions of a known code are different (so no
    account is listed twice in one list). *)
Lemma regions_levels c r :
  regions !! c = Some r -> r <> default EmptyString (regions !! r).
Proof.
  intros Hr.
  assert (H : map_Forall (fun _ r => r <> default EmptyString (regions !! r)) regions).
  { apply (bool_decide_unpack _). vm_compute. exact Logic.I. }
  exact (H c r Hr).
Qed.

Lemma table_levels cfg : d_regions cfg = regions ->
  forall c, is_Some (d_regions cfg !! c) -> region_of cfg c <> region_of cfg (region_of cfg c).
Proof.
  intros E c [r Hr]. rewrite E in Hr. pose proof (regions_levels c r Hr) as H.
  unfold region_of. rewrite E, Hr. exact H.
Qed.

(** C11. After any history, the server lists are exactly what the accepted calls
    say: an account is in the list of a country exactly if it is a device of that
    country which serves, and in the list of a region exactly if it serves and
    the region is that of its country or the region above it. An unknown upper
    level is the empty code. Registered devices are those of the registry. *)
Theorem C11_server_lists :
  forall cfg b setting h who k,
    d_regions cfg = regions ->
    let s := drun cfg (dinit b setting) h in
    let r := registry_after cfg (dinit b setting) ∅ h in
    (who ∈ get_list (d_bycountry s) k <-> serves r who k) /\
    (who ∈ get_list (d_byregion s) k <->
       exists c, serves r who c /\
         (regions !! c = Some k \/
          exists m, regions !! c = Some m /\ k = default EmptyString (regions !! m))) /\
    (n_country <$> d_dev s !! who = fst <$> r !! who).
Proof.
  intros cfg b setting h who k E. cbv zeta.
  destruct (run_reg cfg (table_levels cfg E) h _ _ (init_reg cfg b setting))
    as (_ & _ & HD & HN & MC & MR).
  split; [apply MC|]. split.
  - rewrite MR. split.
    + intros (c & Hs & Hk). exists c. split; [exact Hs|].
      destruct (HD _ _ _ Hs) as [_ [m Hm]]. rewrite E in Hm.
      unfold region_of in Hk. rewrite E, Hm in Hk. destruct Hk as [->| ->]; [left; exact Hm|].
      right. exists m. split; [exact Hm|reflexivity].
    + intros (c & Hs & Hk). exists c. split; [exact Hs|]. unfold region_of. rewrite E.
      destruct Hk as [Hk|(m & Hm & ->)].
      * left. rewrite Hk. reflexivity.
      * right. rewrite Hm. reflexivity.
  - destruct (registry_after cfg (dinit b setting) ∅ h !! who) as [[c sv]|] eqn:Er.
    + destruct (HD _ _ _ Er) as [(n & -> & <-) _]. reflexivity.
    + rewrite (HN _ Er). reflexivity.
Qed.
Example C11_example : (
  let s := drun xdcfg (dinit xdbank []) xdhist in
  let s0 := drun xdcfg (dinit xdbank []) (take 4 xdhist) in
  d_bycountry s0 !! "US" = Some [2] /\ d_bycountry s0 !! "FR" = Some [1] /\
  d_byregion s0 !! "AMN" = Some [2] /\ d_byregion s0 !! "AMER" = Some [2] /\
  d_byregion s0 !! "EUW" = Some [1] /\
  d_bycountry s !! "US" = Some [] /\ d_bycountry s !! "CA" = Some [2] /\
  d_bycountry s !! "FR" = Some [] /\ d_byregion s !! "AMN" = Some [2] /\
  registry_after xdcfg (dinit xdbank []) ∅ xdhist !! 2 = Some ("CA", true) /\
  registry_after xdcfg (dinit xdbank []) ∅ xdhist !! 1 = None)%string.
Proof. vm_compute. repeat split. Qed.
Print Assumptions C11_server_lists.

(** C12. After any history every list is strictly increasing, and the binary
    search used by the pallet finds exactly the members. *)
Theorem C12_lists_sorted :
  forall cfg b setting h k l,
    d_regions cfg = regions ->
    let s := drun cfg (dinit b setting) h in
    l = get_list (d_bycountry s) k \/ l = get_list (d_byregion s) k ->
    increasing l /\ NoDup l /\ forall who, (exists i, bsearch l who = inl i) <-> who ∈ l.
Proof.
  intros cfg b setting h k l E s Hl.
  destruct (run_reg cfg (table_levels cfg E) h _ _ (init_reg cfg b setting)) as (HC & HR & _).
  assert (Hi : increasing l) by (destruct Hl as [->| ->]; [apply HC|apply HR]).
  split; [exact Hi|]. split; [now apply increasing_nodup|]. intros who. now apply bsearch_in.
Qed.
Example C12_example :
  let h := [ (xd 5, Signed 2, DRegister "US"); (xd 6, Signed 2, DRegisterServer 2);
             (xd 7, Signed 1, DRegister "US"); (xd 8, Signed 1, DRegisterServer 3) ]%string in
  get_list (d_bycountry (drun xdcfg (dinit xdbank []) h)) "US" = [1; 2].
Proof. vm_compute. reflexivity. Qed.
Print Assumptions C12_lists_sorted.

(** C13. After any history, the amount held reserved for an account is what the
    other pallets hold plus exactly one minimum lock amount if the account has a
    registered device, and nothing for this pallet otherwise. *)
Theorem C13_one_deposit :
  forall cfg b setting h who,
    let s := drun cfg (dinit b setting) h in
    rsv (acct_of (d_bank s) who) =
      default 0 (d_other s !! who) +
      (if decide (d_dev s !! who = None) then 0 else d_minlock cfg).
Proof.
  intros cfg b setting h who. cbv zeta.
  exact (run_ind cfg (dep_inv cfg) (step_dep cfg) h _ (init_dep cfg b setting) who).
Qed.
Example C13_example :
  let s := drun xdcfg (dinit xdbank []) xdhist in
  rsv (acct_of (d_bank s) 1) = 23 /\ rsv (acct_of (d_bank s) 2) = 100 /\
  rsv (acct_of (d_bank s) 3) = 0.
Proof. vm_compute. auto. Qed.
Print Assumptions C13_one_deposit.

(** C13. Registering a new device moves exactly the minimum lock amount from free
    to reserved; registering again moves nothing. *)
Theorem C13_register_moves :
  forall cfg s x who country,
    let s' := fst (dstep cfg s x (Signed who) (DRegister country)) in
    is_ok (snd (dstep cfg s x (Signed who) (DRegister country))) = true ->
    (d_dev s !! who = None ->
       d_minlock cfg <= free_of (d_bank s) who /\
       acct_of (d_bank s') who =
         Acct (free_of (d_bank s) who - d_minlock cfg)
              (rsv (acct_of (d_bank s) who) + d_minlock cfg) (frz (acct_of (d_bank s) who)) /\
       forall w, w <> who -> acct_of (d_bank s') w = acct_of (d_bank s) w) /\
    (d_dev s !! who <> None -> d_bank s' = d_bank s).
Proof.
  intros cfg s x who country. unfold dstep.
  destruct (dexec cfg s x (Signed who) (DRegister country)) as [[s' ev]|e|] eqn:E; cbn; try discriminate.
  intros _. apply exec_moved in E. inversion E; subst; cbn.
  - split; [|congruence]. intros _. now apply (reserve_exact (d_ed cfg)).
  - split; [intros En; destruct H0; congruence|]. intros _. now destruct H1 as (-> & _).
  - contradiction.
Qed.
Example C13_register_example :
  is_ok (snd (dstep xdcfg (dinit xdbank []) (xd 1) (Signed 1) (DRegister "US"))) = true /\
  is_ok (snd (dstep xdcfg (dinit xdbank []) (xd 1) (Signed 3) (DRegister "US"))) = false.
Proof. vm_compute. auto. Qed.
Print Assumptions C13_register_moves.

(** C13. Unregistering in a reachable state moves the whole deposit back to the
    free balance (as long as the account does not end below the existential
    deposit, when the chain would reap it). *)
Theorem C13_unregister_refunds :
  forall cfg b setting h x who,
    let s := drun cfg (dinit b setting) h in
    let s' := fst (dstep cfg s x (Signed who) DUnregister) in
    is_ok (snd (dstep cfg s x (Signed who) DUnregister)) = true ->
    d_ed cfg <= free_of (d_bank s) who + d_minlock cfg ->
    acct_of (d_bank s') who =
      Acct (free_of (d_bank s) who + d_minlock cfg)
           (rsv (acct_of (d_bank s) who) - d_minlock cfg) (frz (acct_of (d_bank s) who)) /\
    d_dev s' !! who = None /\
    forall w, w <> who -> acct_of (d_bank s') w = acct_of (d_bank s) w.
Proof.
  intros cfg b setting h x who. cbv zeta.
  pose proof (C13_one_deposit cfg b setting h who) as D. cbv zeta in D.
  generalize dependent (drun cfg (dinit b setting) h). intros s D. unfold dstep.
  destruct (dexec cfg s x (Signed who) DUnregister) as [[s' ev]|e|] eqn:E; cbn; try discriminate.
  intros _ Hed. apply exec_moved in E. inversion E; subst; cbn; [|contradiction].
  destruct H0 as (Eb & _). rewrite Eb. destruct H as [n En]. rewrite En in D.
  rewrite decide_False in D by discriminate.
  destruct (unreserve_exact (d_ed cfg) (d_bank s) who (d_minlock cfg)) as [U1 U2]; [lia|auto|].
  split; [exact U1|]. split; [|exact U2]. apply H1. auto.
Qed.
Example C13_unregister_example :
  let s := drun xdcfg (dinit xdbank []) (take 15 xdhist) in
  is_ok (snd (dstep xdcfg s (xd 33) (Signed 1) DUnregister)) = true /\
  d_ed xdcfg <= free_of (d_bank s) 1 + d_minlock xdcfg /\
  acct_of (d_bank s) 1 = Acct 880 123 0.
Proof. vm_compute. repeat split; discriminate. Qed.
Print Assumptions C13_unregister_refunds.

(** C14. After any history the onboard time of an account is the block of its
    first heartbeat, and the onboard list holds each account that ever sent a
    heartbeat exactly once. *)
Theorem C14_onboard_records :
  forall cfg b setting h who,
    let s := drun cfg (dinit b setting) h in
    d_onboard s !! who = head (heartbeats who h) /\
    NoDup (d_onboarded s) /\
    (who ∈ d_onboarded s <-> heartbeats who h <> []).
Proof.
  intros cfg b setting h who. cbv zeta.
  destruct (run_online cfg h (dinit b setting) who) as [_ H]. cbn in H. rewrite lookup_empty in H.
  assert (I : onb_inv (drun cfg (dinit b setting) h)).
  { apply (run_ind cfg onb_inv (step_onb cfg)). split; [constructor|]. intros w. cbn.
    rewrite lookup_empty. split; [intros Hw; now apply elem_of_nil in Hw|intros [t Ht]; discriminate]. }
  split; [exact H|]. split; [apply I|]. destruct I as [_ I]. rewrite I, H.
  destruct (heartbeats who h); cbn; split; try congruence; eauto. intros [t Ht]; discriminate.
Qed.
(** C14. Later calls never change an onboard time, and only append to the list. *)
Theorem C14_onboard_permanent :
  forall cfg s h who t,
    (d_onboard s !! who = Some t -> d_onboard (drun cfg s h) !! who = Some t) /\
    d_onboarded s `prefix_of` d_onboarded (drun cfg s h).
Proof.
  intros cfg s h who t. split.
  - intros H. destruct (run_online cfg h s who) as [_ E]. now rewrite E, H.
  - apply (run_ind cfg (fun s' => d_onboarded s `prefix_of` d_onboarded s')); [|reflexivity].
    intros s' o H. destruct (step_online cfg s' o 0) as (_ & _ & l & -> & _).
    etrans; [exact H|]. now exists l.
Qed.
Example C14_example :
  let s := drun xdcfg (dinit xdbank []) xdhist in
  d_onboarded s = [1; 2] /\ d_onboard s !! 1 = Some 9 /\ d_online s !! 1 = Some 31 /\
  heartbeats 1 xdhist = [9; 31].
Proof. vm_compute. auto. Qed.
Print Assumptions C14_onboard_records.
Print Assumptions C14_onboard_permanent.

(** C15. A binding of an EVM address is never changed or removed. *)
Theorem C15_binding_permanent :
  forall cfg s h e a,
    d_e2d s !! e = Some a -> d_e2d (drun cfg s h) !! e = Some a.
Proof. intros. now apply run_binding. Qed.
(** C15. The current EVM address of an account always maps back to the account,
    so no two accounts share one (the genesis table must not repeat an address). *)
Theorem C15_maps_back :
  forall cfg b setting h a e,
    NoDup (snd <$> setting) ->
    d_d2e (drun cfg (dinit b setting) h) !! a = Some e ->
    d_e2d (drun cfg (dinit b setting) h) !! e = Some a.
Proof.
  intros cfg b setting h a e HN.
  refine (run_ind cfg back_inv (step_back cfg) h (dinit b setting) _ a e).
  intros a' e' H. now apply init_maps.
Qed.
(** C15. A binding is in the genesis table or was made by an accepted call of the
    account itself carrying a valid operator signature. *)
Theorem C15_binding_authorised :
  forall cfg b setting h e a,
    d_e2d (drun cfg (dinit b setting) h) !! e = Some a ->
    (a, e) ∈ setting \/
    exists h1 x nonce sg h2, h = h1 ++ (x, Signed a, DRewardMapping nonce sg e) :: h2 /\
      x_verify_new x nonce sg a = true /\
      is_ok (snd (dstep cfg (drun cfg (dinit b setting) h1) x (Signed a) (DRewardMapping nonce sg e))) = true.
Proof.
  intros cfg b setting h e a H. apply binding_origin in H as [H|H]; [left|right; exact H].
  now apply init_e2d.
Qed.
Example C15_example :
  let s := drun xdcfg (dinit xdbank [(9, 900)]) xdhist in
  NoDup (snd <$> [(9, 900)]) /\ d_d2e s !! 1 = Some 502 /\ d_e2d s !! 502 = Some 1 /\
  d_e2d s !! 501 = Some 1 /\ d_e2d s !! 900 = Some 9.
Proof. split; [apply NoDup_singleton|]. vm_compute. auto. Qed.
Print Assumptions C15_binding_permanent.
Print Assumptions C15_maps_back.
Print Assumptions C15_binding_authorised.

(** C16 is false: after an account moves to a new EVM address the old one still
    resolves to it. *)
Theorem C16_unbinding_refuted :
  exists cfg b h a e1 e2,
    let s := drun cfg (dinit b []) h in
    d_d2e s !! a = Some e2 /\ e1 <> e2 /\ d_e2d s !! e1 = Some a.
Proof. exists xdcfg, xdbank, xdhist, 1, 501, 502. vm_compute. repeat split; discriminate. Qed.
(** C16, what holds: the old address stays reserved for the account for ever, and
    nobody, the account included, can bind it again. *)
Theorem C16_old_address_dead_partial :
  forall cfg s h x who nonce sg e a,
    d_e2d s !! e = Some a ->
    is_ok (snd (dstep cfg (drun cfg s h) x (Signed who) (DRewardMapping nonce sg e))) = false.
Proof.
  intros cfg s h x who nonce sg e a H. apply (run_binding cfg h) in H.
  unfold dstep; cbn. unfold reward_mapping. destruct (x_verify_new x nonce sg who); cbn; [|reflexivity].
  rewrite H. reflexivity.
Qed.
Example C16_example :
  let s := drun xdcfg (dinit xdbank []) xdhist in
  d_e2d s !! 501 = Some 1 /\
  snd (dstep xdcfg s (xd 40) (Signed 1) (DRewardMapping 2 [7] 501)) = RErr DEthAddressAlreadyMapped /\
  is_ok (snd (dstep xdcfg s (xd 40) (Signed 1) (DRewardMapping 2 [7] 503))) = true.
Proof. vm_compute. auto. Qed.
Print Assumptions C16_unbinding_refuted.
Print Assumptions C16_old_address_dead_partial.

(** C17. After any history whose blocks do not exceed [now], the number of eras
    offline at [now] is the number of whole eras since the last heartbeat, or
    since block 0 for an account that never sent one. *)
Theorem C17_eras_offline :
  forall cfg b setting h who now,
    Forall (fun o => x_now o.1.1 <= now) h -> now < two32 ->
    eras_offline cfg (drun cfg (dinit b setting) h) now who =
      (now - default 0 (last (heartbeats who h))) / d_bpe cfg.
Proof.
  intros cfg b setting h who now HF Hn. unfold eras_offline.
  destruct (run_online cfg h (dinit b setting) who) as [E _]. rewrite E. cbn. rewrite lookup_empty.
  destruct (last (heartbeats who h)) as [l|] eqn:El; cbn.
  - pose proof (heartbeats_le who h now l HF El). rewrite sub32_exact by lia. reflexivity.
  - rewrite sub32_exact by lia. reflexivity.
Qed.
(** C17. From a heartbeat until one era later the account is zero eras offline. *)
Theorem C17_zero_after_heartbeat :
  forall cfg b setting h x who now,
    Forall (fun o => x_now o.1.1 <= x_now x) h ->
    x_now x <= now < x_now x + d_bpe cfg -> now < two32 ->
    eras_offline cfg (drun cfg (dinit b setting) (h ++ [(x, Signed who, DImOnline)])) now who = 0.
Proof.
  intros cfg b setting h x who now HF Hn H32. rewrite C17_eras_offline.
  - rewrite heartbeats_app, last_app. cbn. rewrite N.eqb_refl. cbn.
    apply N.div_small. lia.
  - apply Forall_app. split; [|repeat constructor; cbn; lia].
    eapply Forall_impl; [exact HF|]. cbn. intros. lia.
  - exact H32.
Qed.
(** C17. Without a heartbeat of the account the count never decreases. *)
Theorem C17_monotone :
  forall cfg b setting h1 h2 who now1 now2,
    Forall (fun o => x_now o.1.1 <= now1) h1 -> Forall (fun o => x_now o.1.1 <= now2) h2 ->
    heartbeats who h2 = [] -> now1 <= now2 < two32 ->
    eras_offline cfg (drun cfg (dinit b setting) h1) now1 who <=
    eras_offline cfg (drun cfg (dinit b setting) (h1 ++ h2)) now2 who.
Proof.
  intros cfg b setting h1 h2 who now1 now2 H1 H2 Hb Hn.
  rewrite !C17_eras_offline; [|apply Forall_app; split; [|exact H2]|lia|exact H1|lia].
  - rewrite heartbeats_app, Hb, app_nil_r. destruct (N.eq_dec (d_bpe cfg) 0) as [->|Hz].
    + now destruct (now1 - _), (now2 - _).
    + apply N.div_le_mono; [exact Hz|]. lia.
  - eapply Forall_impl; [exact H1|]. cbn. intros. lia.
Qed.
Example C17_example :
  let s := drun xdcfg (dinit xdbank []) xdhist in
  Forall (fun o => x_now o.1.1 <= 33) xdhist /\
  eras_offline xdcfg s 33 1 = 0 /\ eras_offline xdcfg s 33 2 = 1 /\ eras_offline xdcfg s 33 3 = 3 /\
  eras_offline xdcfg s 95 2 = 8 /\ heartbeats 2 (drop 12 xdhist) = [].
Proof.
  split; [|vm_compute; auto]. repeat constructor; vm_compute; discriminate.
Qed.
Print Assumptions C17_eras_offline.
Print Assumptions C17_zero_after_heartbeat.
Print Assumptions C17_monotone.

(** C70 is false: the signature of a credit proof does not cover its content. A
    signature accepted once is accepted with every other content, again and
    again. *)
Theorem C70_proof_content_refuted :
  (exists cfg b x who nonce sg,
     is_ok (snd (dstep cfg (dinit b []) x (Signed who) (DReportProof nonce sg 1 1 1))) = true) /\
  (forall cfg s s' x who nonce sg t f u t' f' u',
     is_ok (snd (dstep cfg s x (Signed who) (DReportProof nonce sg t f u))) = true ->
     is_ok (snd (dstep cfg s' x (Signed who) (DReportProof nonce sg t' f' u'))) = true /\
     d_proof (fst (dstep cfg s' x (Signed who) (DReportProof nonce sg t' f' u'))) !! who =
       Some (t', f', u')).
Proof.
  split.
  - exists xdcfg, xdbank, (xd 1), 1, 0, [7]. vm_compute. reflexivity.
  - intros cfg s s' x who nonce sg t f u t' f' u'. unfold dstep; cbn. unfold report_credit_proof.
    destruct (x_verify x nonce sg who); cbn; [|discriminate]. intros _. split; [reflexivity|].
    apply lookup_insert.
Qed.
(** C70, what holds: a proof is recorded only for the sender, and only with an
    operator signature on the nonce and the sender. *)
Theorem C70_proof_signed_partial :
  forall cfg s o who,
    d_proof (ddo cfg s o) !! who <> d_proof s !! who ->
    exists nonce sg t f u, o.1.2 = Signed who /\ o.2 = DReportProof nonce sg t f u /\
      x_verify o.1.1 nonce sg who = true /\ d_proof (ddo cfg s o) !! who = Some (t, f, u).
Proof.
  intros cfg s o who. destruct (ddo_cases cfg s o) as [[-> _]|(w & Eo & _ & M)]; [congruence|].
  destruct o as [[x og] c]. cbn [fst snd] in *. subst og.
  generalize dependent (ddo cfg s (x, Signed w, c)). intros s' M.
  inversion M; subst; try (intros Hc; exfalso; apply Hc; reflexivity).
  - destruct H0 as (_ & -> & _). congruence.
  - destruct H0 as (_ & E & _). cbn. rewrite E. congruence.
  - destruct H as (_ & -> & _). congruence.
  - unfold im_online in H. injection H as <- _. cbn. congruence.
  - cbn. destruct (decide (w = who)) as [->|Hn].
    + rewrite lookup_insert. eauto 10.
    + rewrite lookup_insert_ne by exact Hn. congruence.
  - destruct (decide (d_d2e s !! w = Some evm)) as [Hd|Hd].
    + rewrite (H2 Hd). congruence.
    + rewrite (H1 Hd). cbn. congruence.
Qed.
Example C70_example :
  let o := (xd 3, Signed 2, DReportProof 4 [7] 100 200 300) in
  d_proof (ddo xdcfg (dinit xdbank []) o) !! 2 = Some (100, 200, 300).
Proof. vm_compute. reflexivity. Qed.
Print Assumptions C70_proof_content_refuted.
Print Assumptions C70_proof_signed_partial.
