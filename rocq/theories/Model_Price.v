(** Model of how a transaction's fee is computed on this chain: /repo/runtime/src/lib.rs:238-268 (the
    block's weight limits) and 528-550 (the configuration of pallet_transaction_payment). The
    pallet itself ([TargetedFeeAdjustment], [compute_fee]), [FixedU128] and [Weight] are library
    code of polkadot-v1.1.0, written down from their published source. Only the weight's two
    dimensions used there appear; the base weight of an extrinsic is a parameter because its
    value is not in /repo. *)
From Verif Require Import Base.
From Coq Require Import List.
From stdpp Require Import numbers.
Open Scope N_scope.

(** [FixedU128]: a number of 10^-18 units below 2^128; operations saturate and round down. *)
Definition DIV : N := 1000000000000000000.
Definition FMAX : N := two128 - 1.
Definition fmul (x y : N) : N := N.min (x * y / DIV) FMAX.
Definition frat (n d : N) : N := N.min (n * DIV / d) FMAX.
Definition fdiv (x y : N) : N := x * DIV / y.

(** A weight: time and proof size (both u64). *)
Record wt := Wt { ref_time : N; proof_size : N }.

(** lib.rs:240-242 MAXIMUM_BLOCK_WEIGHT: two seconds (10^12 units each), no limit on the proof. *)
Definition max_block : wt := Wt 2000000000000 (two64 - 1).
(** lib.rs:238, 256-258: normal extrinsics may fill 75 % of it. *)
Definition normal_max : wt :=
  Wt (frac_mul 750000000 PERBILL (ref_time max_block)) (frac_mul 750000000 PERBILL (proof_size max_block)).

(** lib.rs:530-533. *)
Definition target_fullness : N := 250000000000000000.
Definition adjustment : N := frat 1 100000.
Definition min_multiplier : N := frat 1 1000000000.
Definition max_multiplier : N := FMAX.

(** [Perbill::from_rational]: both numbers are shortened until they fit. *)
Definition parts_of (p q : N) : N :=
  let f := N.max (q / PERBILL) 1 in (p / f) * PERBILL / (q / f).

(** [TargetedFeeAdjustment::convert] with the parameters above; [used] is what the normal
    extrinsics of the block consumed. *)
Definition next_multiplier (previous : N) (used : wt) : N :=
  let prev := N.max previous min_multiplier in
  let r := N.min (ref_time used) (ref_time normal_max) in
  let p := N.min (proof_size used) (proof_size normal_max) in
  let '(w, m) :=
    if parts_of r (N.max (ref_time normal_max) 1) <? parts_of p (N.max (proof_size normal_max) 1)
    then (p, proof_size normal_max) else (r, ref_time normal_max) in
  let target := frac_mul target_fullness DIV m in
  let diff := frat (N.max w target - N.min w target) (N.max m 1) in
  let v2 := fdiv (fmul adjustment adjustment) (2 * DIV) in
  let first := fmul adjustment diff in
  let second := fmul v2 (fmul diff diff) in
  if target <=? w then
    let excess := fmul (N.min (first + second) FMAX) prev in
    N.min (N.max (N.min (prev + excess) FMAX) min_multiplier) max_multiplier
  else
    let negative := fmul (first - second) prev in
    N.min (N.max (prev - negative) min_multiplier) max_multiplier.

(** The multiplier after a sequence of blocks ([on_finalize] of pallet_transaction_payment). *)
Definition after_blocks (m : N) (l : list wt) : N := List.fold_left next_multiplier l m.

(** lib.rs:529 TransactionByteFee: one millicent (constants.rs:24). *)
Definition byte_fee : N := 10000000000000.

Section price.
  (** [ExtrinsicBaseWeight] (lib.rs:254). *)
  Variable base_weight : N.

  (** lib.rs:540 IdentityFee, after the cap of [Pallet::weight_to_fee]. *)
  Definition weight_fee (w : N) : N := N.min w (ref_time max_block).
  (** lib.rs:549 ConstantMultiplier. *)
  Definition length_fee (len : N) : N := N.min (len * byte_fee) (two128 - 1).

  (** [Pallet::compute_fee_raw] and [final_fee]: the multiplier in force, the encoded length, the
      weight, the tip, and whether the call pays at all. *)
  Definition compute_fee (m len w tip : N) (pays : bool) : N :=
    if pays then
      let adjusted := N.min (m * weight_fee w / DIV) (two128 - 1) in
      sadd two128 (sadd two128 (sadd two128 (weight_fee base_weight) (length_fee len)) adjusted) tip
    else sadd two128 0 tip.

  (** [compute_actual_fee]: the weight the call reported (none: the announced one), never more than
      announced; the call may declare afterwards that it is free. *)
  Definition compute_actual (m len w tip : N) (pays : bool) (actual : option N) (pays_after : bool) : N :=
    compute_fee m len (N.min (match actual with Some a => a | None => w end) w) tip (pays && pays_after).
End price.
