(** Vocabulary of the fee properties (C133-C135). *)
From Verif Require Import Base Model_Price.
From stdpp Require Import numbers.
Open Scope N_scope.

(** The time normal extrinsics may use in a block (75 % of two seconds), the target the chain aims
    at (a quarter of it), and the smallest deviation the properties speak of (a 5000th of it). *)
Definition room : N := 1500000000000.
Definition target : N := 375000000000.
Definition margin : N := 300000000.

(** A block is judged by the time it used: its proof is shorter than ten billion bytes. *)
Definition by_time (b : wt) : Prop := proof_size b < 10000000000.

(** A block clearly above or below the target. *)
Definition busy (b : wt) : Prop := by_time b /\ target + margin <= ref_time b.
Definition quiet (b : wt) : Prop := by_time b /\ ref_time b + margin <= target.

(** The bounds of the multiplier, in units of 10^-18: a billionth, and the largest number. *)
Definition lowest : N := 1000000000.
Definition highest : N := 2 ^ 128 - 1.
