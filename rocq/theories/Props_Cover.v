(** Staking pallet: stakes and the money behind them: property C201. *)
From Verif Require Import Base Balances Model_StakingLedger Model_Staking Spec_Staking Spec_Cover Proofs_Cover Props_Staking Props_OtherLocks.
From Verif Require Model_Operation Model_Chain Model_World Model_Tips Props_World.
From stdpp Require Import gmap.
Open Scope N_scope.

(** * C201: a stake is money the stash has *)
(** Full statement: what the ledger of a stash says, active and unlocking together, is never
    more than the free and reserved money of the stash. It holds of every history of the
    staking pallet in which the stash is not reaped and in which what else happens to
    balances takes nothing that is frozen. Missing: in the whole chain something does. *)
Theorem C201_partial cfg s h a :
  0 < kc_ed cfg -> paired s -> guarded cfg s a -> locked_all s a -> covered s a -> run_cover cfg a s h ->
  let s' := krun cfg s h in
  covered s' a /\ locked_all s' a /\ guarded cfg s' a /\ paired s'.
Proof.
  intros Z P G L C X s'. destruct (run_inv cfg a Z h s X) as [P1 G1 L1 C1]; [split; assumption|]. auto.
Qed.
Print Assumptions C201_partial.
(** From genesis, where nothing is bonded, all that is asked holds by itself. *)
Theorem C201_genesis_partial cfg b p h a :
  0 < kc_ed cfg -> kc_ed cfg <= free (acct_of b a) -> run_cover cfg a (kgenesis b p) h ->
  covered (krun cfg (kgenesis b p) h) a.
Proof.
  intros Z G X. apply C201_partial; auto.
  - split; [intros st c H|intros c l H]; cbn in H; now rewrite lookup_empty in H.
  - split; [exact G|]. cbn. rewrite lookup_empty. cbn. lia.
  - intros c l H. cbn in H. now rewrite lookup_empty in H.
  - intros c l H. cbn in H. now rewrite lookup_empty in H.
Qed.
Print Assumptions C201_genesis_partial.
(** What other pallets and users do to balances takes nothing that is frozen, whoever they
    do it to: deposits, mints, transfers, fees, reservations and their release. *)
Theorem C201_balances ed b b' a who to v :
  ed <= free (acct_of b a) -> ed <= frz (acct_of b a) -> 0 < ed ->
  b' = deposit_creating ed b who v \/ (exists got, Model_Operation.mint ed b who v = (b', got)) \/
  transfer_keep ed b who to v = Some b' \/ transfer_allow ed b who to v = Some b' \/
  (exists k, withdraw ed k b who v = Some b') \/ reserve ed b who v = Some b' \/ b' = unreserve ed b who v ->
  polite ed b b' a.
Proof.
  intros G F Z [->|[[got E]|[E|[E|[[k E]|[E| ->]]]]]].
  - now apply deposit_keeps.
  - now apply (mint_keeps ed a _ _ _ _ _ E).
  - now apply (transfer_keep_keeps ed a _ _ _ _ _ E).
  - apply (transfer_allow_keeps ed a b who to v); [lia|exact E|exact G].
  - now apply (withdraw_keeps ed a _ _ _ _ _ F E).
  - now apply (reserve_keeps ed a _ _ _ _ E).
  - now apply unreserve_keeps.
Qed.
Print Assumptions C201_balances.

(** Stash 2 of the example of C200: it bonds, unbonds, is slashed and paid, reserves money
    and is paid by others, and burns some of its stake. *)
Definition y201h : list kop :=
  y200a ++ [KBank (default y200bank (reserve (kc_ed zcfg) (k_bank (krun zcfg (kgenesis y200bank zpars) y200a)) 2 (600 * DPR)))] ++ y200b.
Example C201_example :
  let s0 := kgenesis y200bank zpars in
  let s := krun zcfg s0 y201h in
  0 < kc_ed zcfg /\ kc_ed zcfg <= free (acct_of (k_bank s0) 2) /\ run_cover zcfg 2 s0 y201h /\
  l_total <$> s_ledger (k_stk s) !! 12 = Some (230 * DPR) /\ money_of (k_bank s) 2 = 930 * DPR /\ rsv (acct_of (k_bank s) 2) = 600 * DPR.
Proof.
  cbv zeta. split; [vm_compute; reflexivity|]. split; [vm_compute; discriminate|].
  split; [vm_compute; repeat split; discriminate|].
  repeat match goal with |- _ /\ _ => split end; vm_compute; reflexivity.
Qed.

(** In the whole chain it does not hold. Reserved money counts towards what is frozen, so
    that stash 3, with 700 of 1000 DPR bonded and 23 DPR deposited for a tip, can send 300
    DPR away. Its tip is then slashed: 677 DPR are all it has, its stake stays 700 DPR, and
    it can still be elected with it. *)
Import Model_Chain Model_World Props_World.
Definition y201tip : N := Model_Tips.tc_thash (wc_tips xwcfg) (Model_Tips.tc_rhash (wc_tips xwcfg) [1; 2; 3]) 5.
Definition y201w : list wop :=
  [stk 1 3 (KBond 13 (700 * DPR) PStaked); stk 2 13 KValidate;
   at_ 3 (WTips (Signed 3) (Model_Tips.TReport [1; 2; 3] 5)); at_ 4 (WTransfer 3 5 (300 * DPR))].
Definition y201x : wctx :=
  WCtx 5 (21 * DAY) [21; 22; 23] true (fun _ => 0) (fun _ => 0) (fun _ => false) (fun _ => true) (0, repeat 7 64) (fun _ => false) true.
Theorem C201_refuted :
  exists cfg w h x tip stash c l,
    let before := wrun cfg w h in
    let after := wrun cfg before [(x, WTips (Signed 0) (Model_Tips.TSlash tip))] in
    Forall (fun o => exists ev, o = WDone ev) (wouts cfg w h) /\
    s_ledger (k_stk (j_s (w_chain before))) !! c = Some l /\ l_stash l = stash /\
    l_total l <= money_of (w_bank before) stash /\ wx_dies x stash = false /\
    s_ledger (k_stk (j_s (w_chain after))) !! c = Some l /\ stash ∈ s_valid (k_stk (j_s (w_chain after))) /\
    money_of (w_bank after) stash < l_total l.
Proof.
  exists xwcfg, xw0, y201w, y201x, y201tip, 3, 13, (Ledger 3 (700 * DPR) (700 * DPR) []). cbv zeta.
  split; [vm_compute; repeat constructor; eauto|].
  repeat match goal with |- _ /\ _ => split end; first [vm_compute; reflexivity|vm_compute; discriminate|apply bool_decide_unpack; vm_compute; exact I].
Qed.
Print Assumptions C201_refuted.
