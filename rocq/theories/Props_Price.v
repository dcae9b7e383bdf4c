(** Properties C133-C135: the fee multiplier and the fee (runtime/src/lib.rs, impls.rs). *)
From Verif Require Import Base Model_Price Spec_Price Proofs_Price Proofs_Price2.
From stdpp Require Import list.
Open Scope N_scope.

(** Blocks of the examples: full, at the target, empty. *)
Definition xfull : wt := Wt 1500000000000 5000000.
Definition xideal : wt := Wt 375000000000 5000000.
Definition xempty : wt := Wt 0 0.

(** C133. Whatever the blocks, the multiplier stays between a billionth and the largest number. *)
Theorem C133_bounds :
  forall m l, lowest <= m <= highest \/ l <> [] -> lowest <= after_blocks m l <= highest.
Proof. intros m l. apply after_range. Qed.
(** A block at or above the target does not lower it, one at or below does not raise it; clearly
    above it grows, clearly below it shrinks, whatever its value, unless it is at its bound. *)
Theorem C133_moves :
  forall m b, lowest <= m <= highest -> by_time b ->
  (target <= ref_time b -> m <= next_multiplier m b) /\
  (ref_time b <= target -> next_multiplier m b <= m) /\
  (busy b -> m < highest -> m < next_multiplier m b) /\
  (quiet b -> lowest < m -> next_multiplier m b < m).
Proof.
  intros m b Hm Hb. destruct (next_moves m b Hm Hb) as (H1 & H2 & H3 & H4). split_and!; auto.
  - intros [_ H] Hl. specialize (H3 H). lia.
  - intros [_ H] Hl. specialize (H4 H). unfold lowest in *. lia.
Qed.
(** Enough busy blocks take it to any height, enough quiet ones back to the bottom. *)
Theorem C133_lasting :
  forall m l, lowest <= m <= highest ->
  (Forall busy l -> N.min (m + N.of_nat (length l)) highest <= after_blocks m l) /\
  (Forall quiet l -> m <= N.of_nat (length l) -> after_blocks m l = lowest).
Proof.
  intros m l Hm. split.
  - now apply after_busy.
  - intros Hl Hk. pose proof (after_quiet l m Hm Hl). pose proof (after_range l m (or_introl Hm)) as [? _].
    unfold lowest in *. lia.
Qed.
(** A heavier block after a higher multiplier leaves a multiplier at least as high. *)
Theorem C133_order :
  forall m m' b b',
  lowest <= m <= highest -> lowest <= m' <= highest -> by_time b -> by_time b' ->
  m <= m' -> ref_time b <= ref_time b' -> next_multiplier m b <= next_multiplier m' b'.
Proof. exact next_mono. Qed.
Example C133_example :
  next_multiplier lowest xfull = 1000007500 /\ next_multiplier 1000007500 xempty = 1000005000 /\
  next_multiplier DIV xideal = DIV /\ next_multiplier 0 xempty = lowest /\
  after_blocks DIV [xfull; xempty] = 1000005000012499954 /\
  next_multiplier highest xfull = highest /\
  next_multiplier DIV (Wt 0 (two64 - 1)) = 1000007500028124998.
Proof. vm_compute. auto 10. Qed.
Example C133_busy_example : busy xfull /\ quiet xempty /\ by_time xideal.
Proof. vm_compute. repeat split; discriminate. Qed.
Print Assumptions C133_bounds.
Print Assumptions C133_moves.
Print Assumptions C133_lasting.
Print Assumptions C133_order.

(** C134. Over [k] blocks the multiplier is at most divided by 1 - k * 7.5001 / 10^6 and at least
    multiplied by 1 - k * 2.5 / 10^6. *)
Theorem C134_pace :
  forall m l, lowest <= m <= highest -> Forall by_time l ->
  let k := N.of_nat (length l) in
  after_blocks m l * (10 ^ 10 - 75001 * k) <= m * 10 ^ 10 /\
  m * (10 ^ 10 - 25000 * k) <= after_blocks m l * 10 ^ 10.
Proof. intros m l. apply after_pace. Qed.
(** For a day (17280 blocks): at most 15 % dearer, at most 5 % cheaper. *)
Theorem C134_day :
  forall m l, lowest <= m <= highest -> Forall by_time l -> N.of_nat (length l) <= 17280 ->
  after_blocks m l * 100 <= m * 115 /\ m * 95 <= after_blocks m l * 100.
Proof.
  intros m l Hm Hl Hk. destruct (after_pace l m Hm Hl) as [H1 H2].
  set (k := N.of_nat (length l)) in *. set (x := after_blocks m l) in *. clearbody k x.
  assert (8703982720 <= 10000000000 - 75001 * k) as G1 by lia.
  assert (9568000000 <= 10000000000 - 25000 * k) as G2 by lia.
  apply (N.mul_le_mono_l _ _ x) in G1. apply (N.mul_le_mono_l _ _ m) in G2. lia.
Qed.
Example C134_example :
  Forall by_time (replicate (N.to_nat 17280) xfull) /\
  N.of_nat (length (replicate (N.to_nat 17280) xfull)) = 17280.
Proof.
  split; [apply Forall_replicate; vm_compute; reflexivity|]. rewrite replicate_length. apply N2Nat.id.
Qed.
Example C134_pace_example : after_blocks DIV (replicate 100 xfull) = 1000750281320318597.
Proof. vm_compute. reflexivity. Qed.
Print Assumptions C134_pace.
Print Assumptions C134_day.

(** C135. What is settled after the call never exceeds what was announced and withdrawn before it. *)
Theorem C135_actual :
  forall base m len w tip pays actual pays_after,
  compute_actual base m len w tip pays actual pays_after <= compute_fee base m len w tip pays.
Proof. exact actual_le. Qed.
(** A longer or heavier extrinsic, a larger tip or a higher multiplier never cost less. *)
Theorem C135_order :
  forall base m m' len len' w w' tip tip' pays pays',
  m <= m' -> len <= len' -> w <= w' -> tip <= tip' -> (pays = true -> pays' = true) ->
  compute_fee base m len w tip pays <= compute_fee base m' len' w' tip' pays'.
Proof. exact fee_mono. Qed.
(** The fee: the base, a millicent per byte, the weight times the multiplier, and the tip. *)
Theorem C135_fee :
  forall base m len w tip,
  base <= 2 * 10 ^ 12 -> w <= 2 * 10 ^ 12 -> len < 2 ^ 32 -> m <= 2 ^ 100 -> tip < 2 ^ 120 ->
  compute_fee base m len w tip true = base + len * 10 ^ 13 + m * w / 10 ^ 18 + tip /\
  compute_fee base m len w tip false = tip.
Proof.
  intros base m len w tip Hb Hw Hl Hm Ht. split.
  - exact (fee_exact base m len w tip Hb Hw Hl Hm Ht).
  - unfold compute_fee, sadd, two128. change (2 ^ 120) with 1329227995784915872903807060280344576 in Ht. lia.
Qed.
Example C135_example :
  compute_fee 113638000 DIV 140 200000000 7 true = 1400000313638007 /\
  compute_actual 113638000 DIV 140 200000000 7 true (Some 150000000) true = 1400000263638007 /\
  compute_actual 113638000 DIV 140 200000000 7 true (Some 900000000) true = 1400000313638007 /\
  compute_actual 113638000 DIV 140 200000000 7 true None false = 7.
Proof. vm_compute. auto. Qed.
Print Assumptions C135_actual.
Print Assumptions C135_order.
Print Assumptions C135_fee.
