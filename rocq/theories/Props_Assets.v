(** C187: who makes ADSC. *)
From Verif Require Import Base Balances Model_Adsc Spec_Adsc Model_Assets Spec_Assets Proofs_Assets.
From stdpp Require Import gmap.
Open Scope N_scope.

(** The promise, whatever accounts have done and whichever version the chain starts with. *)
Definition C187_promise : Prop :=
  forall cfg b u v h, Forall (ordinary cfg) h -> issued_only cfg (winit b u v) h.

(** It holds if nobody has created asset 0 before the upgrade that is to create it. *)
Theorem C187_supply_partial : forall cfg b u v h,
  v < 2 -> Forall (ordinary cfg) h -> Forall (fun op => ~ creates op) (before_upgrade h) ->
  issued_only cfg (winit b u v) h.
Proof. exact run_issued. Qed.
Print Assumptions C187_supply_partial.

(** Then the asset is and stays the pallet's: no call of pallet_assets but a transfer does
    anything, and everything goes as in the model of the ADSC pallet alone, so that
    C39-C43 and C77-C80 speak about this chain as well. *)
Theorem C187_same_partial : forall cfg b u v h,
  v < 2 -> Forall (ordinary cfg) h -> Forall (fun op => ~ creates op) (before_upgrade h) ->
  let '(w, out) := wrun cfg (winit b u v) h in
  (existsb upgrades h = true -> pallet_made cfg w) /\
  arun cfg (set_a_version (ainit b u) v) (flat_map plain h) = (w_s w, out).
Proof.
  intros cfg b u v h V O C.
  assert (F : unmade (winit b u v)) by (split; [reflexivity|split; [reflexivity|exact V]]).
  destruct (run_fresh cfg h _ F O C) as [H1 H2]. destruct (wrun cfg (winit b u v) h) as [w out].
  split; [|exact H2]. intros U. now rewrite U in H1.
Qed.
Print Assumptions C187_same_partial.

(** And nobody's ADSC falls but by its own transfer or swap, or by an admin's bridge transfer. *)
Theorem C187_holdings_partial : forall cfg w op w' evs a,
  pallet_made cfg w -> ordinary cfg op -> wdo cfg w op = (w', evs) ->
  adsc_of (w_s w') a < adsc_of (w_s w) a -> asked_by op evs a.
Proof. intros cfg w op w' evs a M O E. now apply (step_made _ _ _ _ _ M O E). Qed.
Print Assumptions C187_holdings_partial.

(** And a holder can pay another holder, whatever has happened. *)
Theorem C187_usable_partial : forall cfg b u v h w x who dst amount,
  v < 2 -> Forall (ordinary cfg) h -> Forall (fun op => ~ creates op) (before_upgrade h) ->
  (wrun cfg (winit b u v) h).1 = w ->
  who <> dst -> amount <= adsc_of (w_s w) who -> 0 < adsc_of (w_s w) dst ->
  adsc_of (w_s w) dst + amount < 2 ^ 128 ->
  adsc_of (w_s (wdo cfg w (x, inr (Signed who, WTransfer dst amount))).1) dst = adsc_of (w_s w) dst + amount.
Proof. exact run_usable. Qed.
Print Assumptions C187_usable_partial.

(** ** A chain: 7 is an admin, 99 the pallet's account, 6 has 1000 DPR. *)
Definition xwcfg : acfg := ACfg (DPR / 5) 99 (fun a => a).
Definition xwx : actx := ACtx MS_PER_DAY (fun _ => 0) (fun w => w =? 7) true.
Definition xwb : bank := Bank (<[6 := Acct (1000 * DPR) 0 0]> ∅) 0.
Definition xwu : uniques := Uniques ∅ ∅ ∅.
Definition xwup : wop := (xwx, inl (inr AUpgrade)).
Definition xwcall (who : N) (c : acall) : wop := (xwx, inl (inl (Signed who, c))).
Definition xwasset (who : N) (c : wcall) : wop := (xwx, inr (Signed who, c)).
(** What 6 tries: to create, mint, freeze, burn, destroy; and 3 pays 4. *)
Definition xwtry : list wop :=
  [xwasset 6 (WCreate 6 1); xwasset 6 (WMint 6 (200000000 * DPR)); xwasset 6 (WFreeze 3); xwasset 6 WFreezeAsset;
   xwasset 6 (WBurn 3 DPR); xwasset 6 (WForceTransfer 3 6 DPR); xwasset 6 (WSetTeam 6 6 6); xwasset 6 (WSetOwner 6);
   xwasset 6 WStartDestroy; xwasset 3 (WTransfer 4 DPR); xwasset 3 (WTransfer 5 DPR)].
Definition xwgood : list wop := xwup :: xwcall 7 (ABridgeMint 3 (5 * DPR)) :: xwtry.
Example C187_partial_nonvacuous :
  Forall (ordinary xwcfg) xwgood /\ before_upgrade xwgood = [] /\
  let w := (wrun xwcfg (winit xwb xwu 1) xwgood).1 in
  pallet_made xwcfg w /\
  adsc_of (w_s w) 3 = 3 * DPR /\ adsc_of (w_s w) 4 = DPR /\ adsc_of (w_s w) 5 = DPR /\ adsc_of (w_s w) 6 = 0.
Proof.
  split; [repeat (constructor; [exact Logic.I || discriminate|]); constructor|]. split; [reflexivity|].
  cbv zeta. split; [split; [vm_compute; reflexivity|vm_compute; eauto]|]. vm_compute. auto.
Qed.

(** If 6 creates asset 0 first, for a deposit of 100 DPR, the upgrade that funds the pool leaves
    it to 6: 6 mints ADSC out of nothing and swaps it for the whole pool but one DPR; 6 can
    also freeze 3 so that 3's transfer does nothing. *)
Definition xwbad : list wop :=
  [xwasset 6 (WCreate 6 1); xwup; xwcall 7 (ABridgeMint 3 (5 * DPR)); xwasset 6 (WFreeze 3); xwasset 3 (WTransfer 4 DPR);
   xwasset 6 (WMint 6 (200000000 * DPR)); xwcall 6 (ASwap (199999998 * DPR))].
Theorem C187_refuted :
  exists cfg b u v h who, v < 2 /\ Forall (ordinary cfg) h /\ ~ issued_only cfg (winit b u v) h /\
    let '(w, out) := wrun cfg (winit b u v) h in
    free_of b who = 1000 * DPR /\ free_of (a_bank (w_s w)) who = (900 + 99999999) * DPR /\
    adsc_of (w_s w) 4 = 0 /\ adsc_of (w_s w) 3 = 5 * DPR.
Proof.
  exists xwcfg, xwb, xwu, 1, xwbad, 6. split; [reflexivity|].
  split; [repeat (constructor; [exact Logic.I || discriminate|]); constructor|].
  split; [vm_compute; intros H; now apply H|]. vm_compute. auto.
Qed.
Print Assumptions C187_refuted.
(** On a new chain the storage version is 2 from the start: no upgrade ever creates the asset
    and the first to create it has it. *)
Theorem C187_new_chain_refuted :
  exists cfg b u h who, Forall (ordinary cfg) h /\ existsb upgrades (before_upgrade h) = false /\
    existsb upgrades h = true /\ ~ issued_only cfg (winit b u 2) h /\
    match w_det (wrun cfg (winit b u 2) h).1 with Some d => t_issuer (d_team d) = who | None => False end.
Proof.
  exists xwcfg, xwb, xwu, [xwup; xwasset 6 (WCreate 6 1); xwasset 6 (WMint 6 DPR)], 6.
  split; [repeat (constructor; [exact Logic.I || discriminate|]); constructor|].
  split; [reflexivity|]. split; [reflexivity|]. split; [vm_compute; intros H; now apply H|]. vm_compute. auto.
Qed.
Print Assumptions C187_new_chain_refuted.
Theorem C187_promise_refuted : ~ C187_promise.
Proof.
  intros P. destruct C187_refuted as (cfg & b & u & v & h & who & _ & O & N0 & _). exact (N0 (P cfg b u v h O)).
Qed.
Print Assumptions C187_promise_refuted.
