(** Property C190 (pallets/adsc): the record of what the pool holds. *)
From Verif Require Import Base Balances Model_Adsc Spec_Pool Proofs_Pool.
From stdpp Require Import gmap.
Open Scope N_scope.

Definition pcfg : acfg := ACfg (DPR / 5) 99 (fun a => a).
Definition px : actx := ACtx 86400000 (fun _ => 0) (fun w => w =? 7) true.
Definition pinit : astate := ainit (Bank ∅ 0) (Uniques ∅ ∅ ∅).
Definition pup : aop := (px, inr AUpgrade).
Definition padd (v : N) : aop := (px, inl (Root, AAddPool v)).
Definition pcall (o : N) (c : acall) : aop := (px, inl (Signed o, c)).

(** C190. The record is the sum of what was put in: Root's additions, and a hundred million
    DPR once. *)
Theorem C190_record_partial :
  forall cfg b u h,
    a_pool (fst (arun cfg (ainit b u) h)) = N.min (put_in false h) (2 ^ 128 - 1).
Proof. intros cfg b u h. apply (run_record cfg h (ainit b u)). reflexivity. Qed.
Print Assumptions C190_record_partial.

(** It is what the pool holds as long as nobody swaps and nobody else pays the pool, if its
    account was empty and no addition is below the existential deposit. *)
Theorem C190_holds_partial :
  forall cfg b u h,
    ac_ed cfg <= 10 ^ 26 ->
    put_in false h < 2 ^ 128 ->
    Forall (fun op => takes op = false /\ adds_dust (ac_ed cfg) op = false) h ->
    acct_of b (ac_acct cfg) = Acct 0 0 0 ->
    let s := fst (arun cfg (ainit b u) h) in
    free_of (a_bank s) (ac_acct cfg) = a_pool s.
Proof.
  intros cfg b u h He L F H. cbv zeta. unfold free_of.
  rewrite (run_held cfg He h (ainit b u)); [reflexivity|exact L|exact F|exact H].
Qed.
Print Assumptions C190_holds_partial.

(** A swap takes DPR out of the pool and the record does not tell. *)
Theorem C190_refuted :
  exists h, Forall (fun op => match snd op with inr (ABankMove _) => False | _ => True end) h /\
    let s := fst (arun pcfg pinit h) in
    free_of (a_bank s) 99 + 3 * DPR = a_pool s.
Proof.
  exists [pup; pcall 7 (ABridgeMint 3 (10 * DPR)); pcall 3 (ASwap (6 * DPR))].
  split; [repeat constructor|]. vm_compute. reflexivity.
Qed.
Print Assumptions C190_refuted.

(** An addition below the existential deposit is recorded and never arrives. *)
Theorem C190_dust_refuted :
  exists v, let s := fst (arun pcfg pinit [padd v]) in
    a_pool s = v /\ v <> 0 /\ free_of (a_bank s) 99 = 0.
Proof. exists (DPR / 10). vm_compute. repeat split; discriminate. Qed.
Print Assumptions C190_dust_refuted.

Example C190_partial_nonvacuous :
  let h := [pup; padd (5 * DPR); pup; pcall 7 (ABridgeMint 3 (10 * DPR)); pcall 3 (AAddPool 9)] in
  put_in false h = 100000005 * DPR /\
  Forall (fun op => takes op = false /\ adds_dust (ac_ed pcfg) op = false) h /\
  a_pool (fst (arun pcfg pinit h)) = 100000005 * DPR /\
  free_of (a_bank (fst (arun pcfg pinit h))) 99 = 100000005 * DPR.
Proof.
  intros h. split; [vm_compute; reflexivity|]. split; [repeat constructor|].
  split; vm_compute; reflexivity.
Qed.
