(** Who can make, take or hold up ADSC, said over histories of the whole of pallet_assets. *)
From Verif Require Import Base Balances Model_Adsc Spec_Adsc Model_Assets.
From stdpp Require Import gmap.
Open Scope N_scope.

(** Nobody holds the key of the pallet's account, and Root stays out of the asset. *)
Definition ordinary (cfg : acfg) (op : wop) : Prop :=
  match snd op with
  | inr (Signed who, _) => who <> ac_acct cfg
  | inr (Root, _) => False
  | _ => True
  end.
(** [op] would create the asset. *)
Definition creates (op : wop) : Prop := match snd op with inr (_, WCreate _ _) => True | _ => False end.
Definition upgrades (op : wop) : bool := match snd op with inl (inr AUpgrade) => true | _ => false end.
Fixpoint before_upgrade (h : list wop) : list wop :=
  match h with
  | [] => []
  | op :: r => if upgrades op then [] else op :: before_upgrade r
  end.

(** The asset is the pallet's: all powers with its account, nothing frozen. *)
Definition pallet_made (cfg : acfg) (w : wst) : Prop :=
  let p := ac_acct cfg in
  w_det w = Some (Details (Team p p p p) Live [] None) /\ is_Some (a_ass (w_s w)).

(** ADSC held is at most what the pallet has paid and bridged in, less what it bridged out. *)
Definition issued_only (cfg : acfg) (w : wst) (h : list wop) : Prop :=
  let '(w', out) := wrun cfg w h in
  circulating (w_s w') + lsum (bridge_out out) <= lsum (reward_amounts out) + lsum (bridge_in out).

(** The same operation for the ADSC model alone; nothing for the other calls of pallet_assets. *)
Definition plain (op : wop) : list aop :=
  match snd op with
  | inl i => [(fst op, i)]
  | inr (Signed who, WTransfer dst v) => [(fst op, inr (AAssetMove who dst v))]
  | inr _ => []
  end.

(** The account itself asked for the operation that takes its ADSC, or an admin bridged it out. *)
Definition asked_by (op : wop) (evs : list aev) (a : N) : Prop :=
  match snd op with
  | inl (inl (Signed who, ASwap _)) => who = a
  | inl (inr (AAssetMove src _ _)) => src = a
  | inr (Signed who, WTransfer _ _) => who = a
  | inl (inl (Signed who, ABridgeBurn w v)) => w = a /\ ax_admin (fst op) who = true /\ evs = [EBridgeBurned a v]
  | _ => False
  end.
