(** Staking pallet: locks of others: property C200. *)
From Verif Require Import Base Balances Model_StakingLedger Model_Staking Spec_Staking Spec_OtherLocks
  Proofs_OtherLocks Props_Staking.
From stdpp Require Import gmap.
Open Scope N_scope.

(** * C200: locks of others *)
(** Each call, hook, payment and slash leaves an account that may not be reaped in place, and
    what is frozen of it is the greater of the staking lock and the lock of others. *)
Theorem C200_step cfg s op a f s' out :
  (forall b, op <> KBank b) -> step_others cfg a f s op -> kstep cfg s op = (s', out) ->
  lasting cfg s a -> frozen_right s a f -> lasting cfg s' a /\ frozen_right s' a f.
Proof. intros _ X E L F. pose proof (step_right cfg a f s op X L F) as H. now rewrite E in H. Qed.
Print Assumptions C200_step.
(** So it is after any history, and neither lock ever gives way to the other. *)
Theorem C200_run cfg s h a f :
  run_others cfg a f s h -> lasting cfg s a -> frozen_right s a f ->
  let s' := krun cfg s h in
  lasting cfg s' a /\ frozen_right s' a f /\ f <= frz (acct_of (k_bank s') a) /\
  forall v, s_lock (k_stk s') !! a = Some v -> v <= frz (acct_of (k_bank s') a).
Proof.
  intros X L F s'. destruct (run_right _ _ _ _ _ X L F) as [L1 F1]. fold s' in L1, F1.
  split; [exact L1|]. split; [exact F1|]. unfold frozen_right in F1. rewrite F1. split; [lia|].
  intros v ->. cbn. lia.
Qed.
Print Assumptions C200_run.

(** Stash 2 has a lock of 250 DPR from elsewhere. It bonds, unbonds, is slashed,
    burns some of its stake, and is unstaked: 250 DPR stay frozen. *)
Definition y200x : kctx :=
  KCtx 0 (fun _ => true) (fun _ _ _ => None) (fun _ => None) (fun _ => []) (fun _ => [])
       1 (fun _ => false) (fun _ => false) (fun w => w =? 7) (fun _ => false) (fun _ => true)
       (fun w => if w =? 2 then 250 * DPR else 0) (fun w => negb (w =? 2)) (fun _ => true) (fun _ => true) (fun _ => false).
Definition y200bank : bank :=
  Bank (<[1 := Acct (1000 * DPR) 0 0]> (<[2 := Acct (1000 * DPR) 0 (250 * DPR)]>
       (<[3 := Acct (1000 * DPR) 0 0]> (<[99 := Acct (1000 * DPR) 0 0]> ∅)))) 0.
Definition y200c (w : N) (c : kcall) : kop := KCall y200x (Signed w) c.
Definition y200era (i : N) : list kop := [KNewSession i; KEndSession y200x (i - 1); KStartSession y200x i; KFinal; KInit y200x].
Definition y200a : list kop :=
  [y200c 1 (KBond 11 (500 * DPR) PStaked); y200c 2 (KBond 12 (300 * DPR) PStaked);
   y200c 3 (KBond 13 (400 * DPR) PStash); y200c 11 KValidate; y200c 12 KValidate; y200c 13 KValidate].
Definition y200b : list kop :=
  y200era 0 ++ y200era 2 ++ [KAuthor 2; KAuthor 3; y200c 12 (KUnbond (50 * DPR));
    KOffence y200x [(2, Expo (300 * DPR) (300 * DPR) [], [5], 200000000)] 2] ++
  y200era 4 ++ y200era 6 ++ [y200c 12 (KBurnStake (10 * DPR))].
Example C200_example :
  let s0 := kgenesis y200bank zpars in
  let s1 := krun zcfg s0 y200a in
  let s2 := krun zcfg s1 y200b in
  let s3 := (kstep zcfg s2 (KCall y200x Root (KForceUnstake 2 9))).1 in
  lasting zcfg s0 2 /\ frozen_right s0 2 (250 * DPR) /\
  run_others zcfg 2 (250 * DPR) s0 (y200a ++ y200b ++ [KCall y200x Root (KForceUnstake 2 9)]) /\
  frz (acct_of (k_bank s1) 2) = 300 * DPR /\ s_lock (k_stk s1) !! 2 = Some (300 * DPR) /\
  frz (acct_of (k_bank s2) 2) = 250 * DPR /\ s_lock (k_stk s2) !! 2 = Some (230 * DPR) /\
  frz (acct_of (k_bank s3) 2) = 250 * DPR /\ s_lock (k_stk s3) !! 2 = None.
Proof.
  cbv zeta. split; [left; vm_compute; discriminate|]. split; [vm_compute; reflexivity|].
  split; [cbn [run_others step_others]; vm_compute; repeat split|].
  repeat match goal with |- _ /\ _ => split end; vm_compute; reflexivity.
Qed.
