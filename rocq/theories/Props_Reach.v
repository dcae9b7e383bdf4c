(** Properties of the whole chain: what each privilege gives over the affairs of others. *)
From Verif Require Import Base Balances Model_UserPrivileges Spec_UserPrivileges.
From Verif Require Model_CreditAccumulation Model_Credit Model_Staking Model_StakingLedger Model_DeeperNode Model_Operation Model_Adsc.
From Verif Require Import Model_Chain Model_World Spec_World Spec_World3 Spec_World6 Spec_World7 Spec_Reach.
From Verif Require Import Proofs_World2 Proofs_World3 Proofs_World16 Proofs_World17 Proofs_World18 Proofs_Reach Props_World.
From stdpp Require Import gmap strings.
Open Scope N_scope.
Local Notation D := Model_Credit.DPR.

(** * C195: what each privilege reaches *)
Section reach.
Context (cfg : wcfg) (Hs : Model_Credit.kc_step (jc_c (wc_chain cfg)) <> Model_Credit.U64MAX).
Context (b : bank) (p : Model_Staking.pars) (settings : list Model_Credit.setting)
  (data : list (N * Model_Credit.cdata)) (evm : list (N * N)) (u : Model_Adsc.uniques).
Local Notation g := (wgenesis b p settings data evm u).

(** Whatever happened before: a call that changes a part of what the chain keeps about another
    account, and is not on its behalf, is signed by a holder of a privilege over that part. *)
Theorem C195_reach h x a me you i :
  money b + created false (wlog cfg g h) < 2 ^ 128 -> let w := wrun cfg g h in
  signer a = Some me -> me <> you -> ~ on_behalf cfg w me a you ->
  ~ same i (affairs_of w you) (affairs_of (wstep cfg w (x, a)).1 you) ->
  exists q, q ∈ over i /\ acc_holds (granted h) me q = true.
Proof.
  intros F w Hm Hn Hb Hc. destruct (reach cfg Hs (granted h) w x a me you i) as [S|(q & Q1 & Q2)]; eauto; try contradiction.
  - apply genesis_priv.
  - destruct (C150_supply cfg b p settings data evm u h Hs F) as [E _]. fold w in E. change two128 with (2 ^ 128). lia.
  - apply (run_wpaired cfg Hs); [|exact (genesis_wpaired b p settings data evm u)]. rewrite (genesis_supply cfg Hs). exact F.
Qed.
(** So a part stays as it is however many calls are made by others without such a privilege,
    whatever other privileges they hold. *)
Theorem C195_kept h1 h2 you i :
  money b + created false (wlog cfg g (h1 ++ h2)) < 2 ^ 128 -> let w := wrun cfg g h1 in
  out_of_reach cfg i h1 w h2 you -> same i (affairs_of w you) (affairs_of (wrun cfg w h2) you).
Proof.
  intros F w Hb. unfold w. apply (run_reach cfg Hs i h2 h1 (wrun cfg g h1)); [apply genesis_priv| | |exact Hb].
  - apply (created_split cfg Hs h2 h1 g). rewrite (genesis_supply cfg Hs). exact F.
  - apply (run_wpaired cfg Hs); [|exact (genesis_wpaired b p settings data evm u)].
    rewrite (genesis_supply cfg Hs). unfold wlog in *. eapply N.le_lt_trans; [|exact F]. apply N.add_le_mono_l, (created_prefix cfg Hs).
Qed.
(** Contracts reach the credit score of the account bound to the address they name, and
    nothing else, and only with the privilege for that. *)
Theorem C195_evm h x caller user points add you i : let w := wrun cfg g h in
  ~ same i (affairs_of w you) (affairs_of (wstep cfg w (x, WEvm caller user points add)).1 you) ->
  i = PScore /\ evm_holds (granted h) caller EvmCreditOperation = true /\ bound w user you.
Proof.
  intros w Hc. destruct (evm_reach cfg Hs (granted h) w x caller user points add you i) as [S|]; [apply genesis_priv|contradiction|assumption].
Qed.
End reach.
Print Assumptions C195_reach.
Print Assumptions C195_kept.
Print Assumptions C195_evm.

(** Officers with one privilege each. *)
Definition xofficers : list wop :=
  [at_ 30 (WPriv Root (USetUser 31 DeviceAdmin)); at_ 30 (WPriv Root (USetUser 32 BlackListAdmin))].
Definition xrh : list wop := firstn (length xwh - 5) xwh ++ xofficers.
Definition reaches (i : part) (q : privilege) : wop * N :=
  match i, q with
  | PScore, CreditAdmin => (at_ 31 (WCredit (Signed 10) (Model_Credit.KUnstakingSlash 5)), 10)
  | PScore, _ => (at_ 31 (WOperation (Signed 8) (Model_Operation.OUnstake 5 3 (20 * DAY) (300 * D))), 8)
  | PCredit, _ => (at_ 31 (WCredit (Signed 10) (Model_Credit.KSetNoSwitch [5])), 10)
  | PMaintained, _ => (at_ 31 (WCredit (Signed 31) (Model_Credit.KSetMaintain 5)), 31)
  | PDelegation, _ => (stk 31 10 (Model_Staking.KForceUnstakingDelegate 5), 10)
  | PBlack, _ => (stk 31 32 (Model_Staking.KBlackAdd 5 3), 32)
  | PReferral, _ => (stk 31 10 (Model_Staking.KSetReferer 6 5), 10)
  | PRelease, _ => (at_ 31 (WOperation (Signed 8) (Model_Operation.OUnstake 5 3 (20 * DAY) (300 * D))), 8)
  | PAdsc, _ => (at_ 31 (WAdsc (Signed 10) (Model_Adsc.AAdd 5)), 10)
  | _, _ => (at_ 31 (WOperation (Signed 9) (Model_Operation.OReserve 5 D)), 9)
  end.
(** The list of privileges over each part is not too long: with each of them alone, an officer
    changes the part for somebody else. *)
Theorem C195_exact i q : q ∈ over i ->
  exists cfg b p settings data evm u h x a me you,
  let w := wrun cfg (wgenesis b p settings data evm u) h in
  signer a = Some me /\ me <> you /\ ~ on_behalf cfg w me a you /\
  (forall q', acc_holds (granted h) me q' = true <-> q' = q) /\
  ~ same i (affairs_of w you) (affairs_of (wstep cfg w (x, a)).1 you).
Proof.
  intros Hq. exists xwcfg, xwbank, Props_Chain.jpars, Props_Chain.jsettings, Props_Chain.jdata, [], (Model_Adsc.Uniques ∅ ∅ ∅), xrh.
  exists (reaches i q).1.1, (reaches i q).1.2, (reaches i q).2, 5. fold xw0. cbv zeta.
  destruct i; cbn [over] in Hq; repeat (apply elem_of_cons in Hq as [->|Hq]); try (apply elem_of_nil in Hq; contradiction).
  all: split; [reflexivity|split; [discriminate|split; [intros []|split; [intros []; vm_compute; split; (reflexivity || discriminate)|]]]].
  all: cbn [same reaches fst snd]; intros H; repeat match type of H with _ /\ _ => destruct H as [? H] end;
    repeat match goal with H : _ = _ |- _ => vm_compute in H; first [discriminate H|clear H] end.
Qed.
Print Assumptions C195_exact.

(** Officers of every kind but the one in question leave the part as it is: the delegation of
    account 5 stays while it is blacklisted, put in maintenance, reserved from and set to be
    released. *)
Example C195_example :
  let w := wrun xwcfg xw0 xrh in
  let h := [(reaches PBlack BlackListAdmin).1; (reaches PMaintained DeviceAdmin).1; (reaches PLocked LockerMember).1;
            (reaches PRelease ReleaseSetter).1] in
  out_of_reach xwcfg PDelegation xrh w h 5 /\ map fine (wouts xwcfg w h) = repeat true 4 /\
  money xwbank + created false (wlog xwcfg xw0 (xrh ++ h)) < 2 ^ 128 /\
  Model_Staking.dr_vals <$> af_delegation (affairs_of w 5) = Some [1] /\
  (let f := affairs_of w 5 in let f' := affairs_of (wrun xwcfg w h) 5 in
   af_maintained f = false /\ af_maintained f' = true /\ af_black f = None /\ af_black f' = Some 3 /\
   af_locked f = Some (70 * D) /\ af_locked f' = Some (71 * D) /\ af_release f = None /\
   Model_Operation.r_total <$> af_release f' = Some (300 * D)).
Proof.
  split; [|vm_compute; repeat split].
  cbn [out_of_reach snd reaches fst].
  repeat (split; [eexists; split; [reflexivity|split; [discriminate|split; [|intros []]]];
    intros q Hq; apply elem_of_list_singleton in Hq as ->; vm_compute; reflexivity|]). exact Logic.I.
Qed.
(** A contract with the privilege takes points from the account bound to an address, one without it none. *)
Example C195_contract :
  let h := xrh ++ [at_ 30 (WPriv Root (USetUser 33 EvmAddressSetter)); at_ 30 (WPriv (Signed 33) (USetEvm 700 EvmCreditOperation))] in
  let w := wrun xwcfg (wgenesis xwbank Props_Chain.jpars Props_Chain.jsettings Props_Chain.jdata [(5, 505)] (Model_Adsc.Uniques ∅ ∅ ∅)) h in
  let take c user := (wstep xwcfg w (at_ 32 (WEvm c user 10 false))).1 in
  let points r := Model_Credit.cd_credit <$> af_record (affairs_of r 5) in
  bound w 505 5 /\ evm_holds (granted h) 700 EvmCreditOperation = true /\
  (points w, points (take 700 505), points (take 701 505), points (take 700 506)) = (Some 350, Some 340, Some 350, Some 350).
Proof. vm_compute. repeat split. Qed.
