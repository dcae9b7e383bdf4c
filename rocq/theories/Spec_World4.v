(** What users of the whole chain rely on for their channels and devices. *)
From Verif Require Import Base Balances Model_UserPrivileges.
From Verif Require Model_Credit Model_Staking Model_DeeperNode Spec_DeeperNode Model_Micropayment Model_CreditAccumulation.
From Verif Require Import Model_Chain Model_World Spec_World Spec_World2.
From stdpp Require Import gmap strings.
Open Scope N_scope.

(** The events of the micropayment pallet, oldest first. *)
Definition channel_event (e : wev) : option Model_Micropayment.mevent := match e with VChannel v => Some v | _ => None end.
Definition channel_log (cfg : wcfg) (w : wstate) (h : list wop) : list Model_Micropayment.mevent :=
  map snd (events_of channel_event (wlog cfg w h)).

(** In state [w], step [op] pays server [v] for the voucher of client [c] with this channel
    nonce and session. *)
Definition honours (cfg : wcfg) (w : wstate) (op : wop) (c v nonce session : N) : Prop :=
  exists amount sig ch,
    op.2 = WChannel v (Model_Micropayment.MClaim c session amount sig) /\
    Model_Micropayment.m_chan (w_chan w) !! (c, v) = Some ch /\ Model_Micropayment.c_nonce ch = nonce /\
    (wstep cfg w op).2 = WDone [VChannel (Model_Micropayment.ClaimPayment c v amount)].

(** The registered devices, their countries and whether they serve, according to the
    accepted calls. *)
Definition register1 (r : Spec_DeeperNode.registry) (e : wop * wout) : Spec_DeeperNode.registry :=
  match e.1.2, e.2 with
  | WNode (Signed who) c, WDone _ => Spec_DeeperNode.reg_call r who c
  | _, _ => r
  end.
Definition registered (log : list (wop * wout)) : Spec_DeeperNode.registry := fold_left register1 log ∅.
(** An operator's signature that is valid in state [w] for binding an address to [who]. *)
Definition endorsed (cfg : wcfg) (w : wstate) (nonce : N) (sg : list N) (who : N) : bool :=
  Model_CreditAccumulation.verify_atomos_new_signature (wc_verify cfg) (wc_hash cfg) (w_proofs w) nonce sg who.

(** The nonces of the traffic claims of [who] that were accepted, oldest first. *)
Definition claimed (who : N) (log : list (wop * wout)) : list N :=
  omap (fun e => match e.1.2, e.2 with
                 | WProof (Signed a) (Model_CreditAccumulation.AAddCredit nonce _), WDone _ => if a =? who then Some nonce else None
                 | _, _ => None
                 end) log.

(** The account that presents a signature of the operator with an action, the nonce and the
    signature. *)
Definition presents (op : wop) : option (N * N * list N) :=
  match op.2 with
  | WProof (Signed who) (Model_CreditAccumulation.AAddCredit nonce sg) => Some (who, nonce, sg)
  | WNode (Signed who) (Model_DeeperNode.DReportProof nonce sg _ _ _) => Some (who, nonce, sg)
  | WNode (Signed who) (Model_DeeperNode.DRewardMapping nonce sg _) => Some (who, nonce, sg)
  | WStaking (Signed who) (JOf (Model_Staking.KStakeDelegate _)) => Some (who, (wx_sig op.1).1, (wx_sig op.1).2)
  | _ => None
  end.
(** How many actions of a log were accepted with this signature. *)
Definition uses (who nonce : N) (sg : list N) (log : list (wop * wout)) : nat :=
  length (List.filter (fun e => match e.2 with WDone _ => bool_decide (presents e.1 = Some (who, nonce, sg)) | _ => false end) log).
