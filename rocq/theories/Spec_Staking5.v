(** What it means to leave the staking pallet. *)
From Verif Require Import Base Balances Model_StakingLedger Model_Staking Spec_Staking Spec_Staking2 Spec_Staking3.
From stdpp Require Import gmap.
Open Scope N_scope.

(** Neither of these two accounts makes a call. *)
Definition away (st ct : N) (op : kop) : Prop :=
  match op with KCall _ (Signed a) _ => a <> st /\ a <> ct | _ => True end.
(** What the slashes of a history take from a stash. *)
Fixpoint slashed_over (cfg : kcfg) (st : N) (s : kstate) (h : list kop) : N :=
  match h with
  | [] => 0
  | op :: r =>
      (match op, (kstep cfg s op).2 with
       | (KStartSession _ _ | KOffence _ _ _), KDone ev => slash_sum st ev
       | _, _ => 0
       end) + slashed_over cfg st (kstep cfg s op).1 r
  end.
Definition accepted (o : kout) : Prop := exists ev, o = KDone ev.
(** Everything unlocking is free by era [e]. *)
Definition free_by (e : N) (l : ledger) : Prop := forall ch, ch ∈ l_unl l -> c_era ch <= e.
