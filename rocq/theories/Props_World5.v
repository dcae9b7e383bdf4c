(** Properties of the whole chain: calls that bring down a block. *)
From Verif Require Import Base Balances Model_UserPrivileges Spec_UserPrivileges.
From Verif Require Model_Credit Model_Staking Model_DeeperNode Model_Adsc Model_Tips Spec_Tips.
From Verif Require Import Model_Chain Model_World Spec_World Spec_World2 Spec_World3 Spec_World5 Proofs_World11 Props_World.
From Verif Require Props_Chain.
From stdpp Require Import gmap sorting.
Open Scope N_scope.
Local Notation D := Model_Credit.DPR.

(** * C169: no call brings down the block *)

(** Root makes 10 an officer, who lets contract 700 change credit, ADSC comes into being
    and account 5 gets some; the members 21 and 22 tip account 2 in credit. *)
Definition xdown0 : wstate :=
  wgenesis xwbank Props_Chain.jpars Props_Chain.jsettings Props_Chain.jdata [(3, 503)] (Model_Adsc.Uniques ∅ ∅ ∅).
Definition xtip : N := Model_Tips.tc_thash (wc_tips xwcfg) (Model_Tips.tc_rhash (wc_tips xwcfg) [3; 4]) 2.
Definition xdown : list wop :=
  [at_ 1 (WPriv Root (USetUser 10 CreditAdmin)); at_ 1 (WPriv Root (USetUser 10 EvmAddressSetter));
   at_ 1 (WPriv (Signed 10) (USetEvm 700 EvmCreditOperation));
   at_ 2 (WBlock (BAdsc Model_Adsc.AUpgrade)); at_ 3 (WAdsc (Signed 10) (Model_Adsc.ABridgeMint 5 (30 * D)));
   at_ 4 (WTips (Signed 21) (Model_Tips.TCreditNew [3; 4] 2 7)); at_ 5 (WTips (Signed 22) (Model_Tips.TCreditTip xtip 9))].
Lemma xdown_typed : Forall well_typed xdown.
Proof. repeat constructor. Qed.

(** C169 is false: without any privilege, an account closes a tip that the members valued
    in credit as if it had been valued in DPR. *)
Theorem C169_refuted :
  exists cfg b p settings data evm u h x me k,
    let g := wgenesis b p settings data evm u in
    Forall well_typed h /\ StronglySorted N.lt (wx_members x) /\
    Forall (fun o => o <> WPanic) (wouts cfg g h) /\ (forall q, acc_holds (granted h) me q = false) /\ me ∉ wx_members x /\
    (wstep cfg (wrun cfg g h) (x, WTips (Signed me) (Model_Tips.TClose k))).2 = WPanic.
Proof.
  exists xwcfg, xwbank, Props_Chain.jpars, Props_Chain.jsettings, Props_Chain.jdata, [(3, 503)], (Model_Adsc.Uniques ∅ ∅ ∅),
    xdown, (xw 12 (21 * DAY)), 6, xtip.
  split; [exact xdown_typed|]. split; [repeat constructor|].
  split; [vm_compute; repeat constructor; discriminate|]. split; [intros []; reflexivity|].
  split; [intros H; repeat (apply elem_of_cons in H as [H|H]; [discriminate|]); now apply elem_of_nil in H|].
  vm_compute. reflexivity.
Qed.
Print Assumptions C169_refuted.

(** Which calls do, exactly: swaps of ADSC at a rate of zero, closings of tips that no
    present member has valued in this kind, and penalties of Root and of EVM contracts
    for accounts without a credit record. Missing: that these are refused. *)
Theorem C169_partial cfg b p settings data evm u h op :
  let g := wgenesis b p settings data evm u in
  Forall well_typed h -> is_call op -> well_typed op ->
  (wstep cfg (wrun cfg g h) op).2 = WPanic <-> brings_down cfg g h op.
Proof.
  intros g F Hc T. rewrite (call_panic cfg _ op Hc T). unfold brings_down.
  destruct op as [x a]. destruct a; try reflexivity. destruct T as [Sm _]. cbn [fst snd] in *.
  unfold g. rewrite (tips_panic cfg b p settings data evm u h x o c F Sm). destruct o, c; reflexivity.
Qed.
Print Assumptions C169_partial.

(** So an account that signs any other call cannot. *)
Theorem C169_accounts cfg b p settings data evm u h x me a :
  let g := wgenesis b p settings data evm u in
  Forall well_typed h -> well_typed (x, a) ->
  match a with
  | WPriv o _ | WProof o _ | WNode o _ | WCredit o _ | WStaking o _ | WOperation o _ => o = Signed me
  | WAdsc o c => o = Signed me /\ forall amount, c <> Model_Adsc.ASwap amount
  | WTips o c => o = Signed me /\ forall k, c <> Model_Tips.TClose k /\ c <> Model_Tips.TCreditClose k
  | WChannel who _ | WTransfer who _ _ => who = me
  | _ => False
  end ->
  (wstep cfg (wrun cfg g h) (x, a)).2 <> WPanic.
Proof.
  intros g F T H E. apply C169_partial in E; [|exact F|destruct a; exact I || contradiction|exact T].
  unfold brings_down in E. cbn [fst snd] in E.
  destruct a; try contradiction; try (subst o; destruct c; contradiction); destruct H as [-> H]; destruct c; try contradiction.
  - exact (H _ eq_refl).
  - exact (proj1 (H _) eq_refl).
  - exact (proj2 (H _) eq_refl).
Qed.
Print Assumptions C169_accounts.

(** The same calls with and without effect: the tip's other closing is fine, and so are a
    swap at the first rate, a penalty for an account with credit and the removal of a
    record that does not exist. *)
Example C169_example :
  let w := wrun xwcfg xdown0 xdown in
  let out h op := (wstep xwcfg (wrun xwcfg w h) op).2 in
  let swap := at_ 12 (WAdsc (Signed 5) (Model_Adsc.ASwap D)) in
  let zero := [at_ 11 (WAdsc (Signed 10) (Model_Adsc.ASetRate 0 1))] in
  let penal l := at_ 12 (WStaking Root (JForceUndelegate l)) in
  let take a n := at_ 12 (WEvm 700 a n false) in
  let fresh a := Model_Credit.k_uc (j_c (w_chain w)) !! a in
  Forall well_typed xdown /\ fresh 3 = None /\ is_Some (fresh 5) /\
  map (fun op => fine (out [] op))
    [at_ 12 (WTips (Signed 6) (Model_Tips.TCreditClose xtip)); swap; penal [(5, 1)]; penal [(3, Model_Credit.U64MAX)]; take 502 4]
    = [true; true; true; true; true] /\
  out [] (at_ 12 (WTips (Signed 6) (Model_Tips.TClose xtip))) = WPanic /\ out zero swap = WPanic /\
  out [] (penal [(5, 1); (3, 2)]) = WPanic /\ out [] (penal [(5, Model_Credit.U64MAX); (5, 2)]) = WPanic /\
  out [] (take 503 4) = WPanic.
Proof. split; [exact xdown_typed|]. vm_compute. repeat split; eexists; reflexivity. Qed.
