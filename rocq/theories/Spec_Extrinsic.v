(** Words for the properties of signed transactions. *)
From Verif Require Import Base Model_Extrinsic.
From stdpp Require Import gmap.
Open Scope N_scope.

(** How often an account's nonce was raised. *)
Definition raised (a : N) (log : list ev) : N :=
  N.of_nat (length (List.filter (fun e => match e with Bumped b => b =? a | _ => false end) log)).
(** The hashes of the blocks of the chain, block 0 first. *)
Definition history {State Call Sig} (genesis : N) (l : list (step State Call Sig)) : list N :=
  genesis :: flat_map (fun t => match t with SBlock h => [h] | _ => [] end) l.
(** A signature that proves one payload only. *)
Definition proves_only {Call Sig} (verify : payload Call -> Sig -> N -> bool) (sig : Sig) (who : N) (p : payload Call) : Prop :=
  forall p', verify p' sig who = true -> p' = p.
