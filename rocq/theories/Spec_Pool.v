(** Specification vocabulary for the record of what was put into the ADSC pool. *)
From Verif Require Import Base Balances Model_Adsc.
From stdpp Require Import gmap.
Open Scope N_scope.

(** What a history puts into the pool: Root's additions, and a hundred million DPR with the
    first upgrade of the runtime ([up]: it has happened). *)
Fixpoint put_in (up : bool) (h : list aop) : N :=
  match h with
  | [] => 0
  | op :: r =>
      match snd op with
      | inl (Root, AAddPool v) => v + put_in up r
      | inr AUpgrade => (if up then 0 else 100000000 * 10 ^ 18) + put_in true r
      | _ => put_in up r
      end
  end.

(** The operation swaps, or is not of the pallet and moves DPR. *)
Definition takes (op : aop) : bool :=
  match snd op with inl (_, ASwap _) | inr (ABankMove _) => true | _ => false end.
(** Root adds less than the existential deposit. *)
Definition adds_dust (ed : N) (op : aop) : bool :=
  match snd op with inl (Root, AAddPool v) => v <? ed | _ => false end.
