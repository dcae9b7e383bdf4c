(** The affairs of an account, in parts, and the privileges whose holders may change each
    part for somebody else. *)
From Verif Require Import Base Model_UserPrivileges Spec_UserPrivileges Model_World Spec_World Spec_World7.
From Verif Require Spec_World6.
From stdpp Require Import gmap.
Open Scope N_scope.

Inductive part :=
| PScore (* the credit record, its history and the bought points *)
| PCredit (* what else the credit pallet keeps *)
| PMaintained | PDevice | PDelegation | PBlack | PReferral | PStake | PRelease | PAdsc | PLocked | PHeld.

Definition same (i : part) (f f' : affairs) : Prop :=
  match i with
  | PScore => af_record f' = af_record f /\ af_history f' = af_history f /\ af_bought f' = af_bought f
  | PCredit => af_from_nft f' = af_from_nft f /\ af_usdt f' = af_usdt f /\ af_last_era f' = af_last_era f /\
      af_last_time f' = af_last_time f /\ af_stays f' = af_stays f
  | PMaintained => af_maintained f' = af_maintained f
  | PDevice => af_nonce f' = af_nonce f /\ af_device f' = af_device f /\ af_report f' = af_report f /\
      af_heartbeat f' = af_heartbeat f /\ af_onboard f' = af_onboard f /\ af_address f' = af_address f
  | PDelegation => af_delegation f' = af_delegation f
  | PBlack => af_black f' = af_black f
  | PReferral => af_referer f' = af_referer f /\ af_referees f' = af_referees f /\ af_prepaid f' = af_prepaid f
  | PStake => af_controller f' = af_controller f /\ af_stake f' = af_stake f /\ af_payee f' = af_payee f /\
      af_candidate f' = af_candidate f
  | PRelease => af_release f' = af_release f
  | PAdsc => af_adsc f' = af_adsc f
  | PLocked => af_locked f' = af_locked f
  | PHeld => af_held f' = af_held f
  end.

Definition over (i : part) : list privilege :=
  match i with
  | PScore => [CreditAdmin; ReleaseSetter]
  | PCredit | PDelegation | PReferral | PAdsc => [CreditAdmin]
  | PMaintained => [DeviceAdmin]
  | PBlack => [BlackListAdmin]
  | PRelease => [ReleaseSetter]
  | PLocked => [LockerMember]
  | PDevice | PStake | PHeld => []
  end.

(** The account holds no privilege over the part. *)
Definition powerless (h : list wop) (me : N) (i : part) : Prop := forall q, q ∈ over i -> acc_holds (granted h) me q = false.
(** Every step of [h] after [h0] is signed by an account other than [you] without a privilege
    over the part, and is not on behalf of [you]. *)
Fixpoint out_of_reach (cfg : wcfg) (i : part) (h0 : list wop) (w : wstate) (h : list wop) (you : N) : Prop :=
  match h with
  | [] => True
  | op :: r =>
      (exists me, Spec_World6.signer op.2 = Some me /\ me <> you /\ powerless h0 me i /\ ~ on_behalf cfg w me op.2 you) /\
      out_of_reach cfg i (h0 ++ [op]) (wstep cfg w op).1 r you
  end.
