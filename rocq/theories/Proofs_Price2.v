(** Sequences of blocks, and the fee (C133-C135). *)
From Verif Require Import Base Model_Price Spec_Price Proofs_Price.
From stdpp Require Import list.
Open Scope N_scope.

Lemma next_moves p b :
  inrange p -> by_time b ->
  (target <= ref_time b -> p <= next_multiplier p b) /\
  (ref_time b <= target -> next_multiplier p b <= p) /\
  (target + margin <= ref_time b -> N.min (p + 1) highest <= next_multiplier p b) /\
  (ref_time b + margin <= target -> next_multiplier p b <= N.max (p - 1) lowest).
Proof.
  intros Hp Hb. destruct (next_eq p b Hb Hp) as [-> _].
  split_and!; intros H.
  - apply moved_up; [done|]. unfold target, room in *. lia.
  - apply moved_down; [done|]. unfold target, room in *. lia.
  - apply moved_busy; [done|]. unfold target, room, margin in *. lia.
  - apply moved_quiet; [done|]. unfold target, room, margin in *. lia.
Qed.

Lemma next_mono p p' b b' :
  inrange p -> inrange p' -> by_time b -> by_time b' ->
  p <= p' -> ref_time b <= ref_time b' -> next_multiplier p b <= next_multiplier p' b'.
Proof.
  intros Hp Hp' Hb Hb' Hle Hr.
  destruct (next_eq p b Hb Hp) as [-> _]. destruct (next_eq p' b' Hb' Hp') as [-> _].
  transitivity (moved p (N.min (ref_time b') room)).
  - apply moved_mono_w; [done|]. lia.
  - apply moved_mono_p; [|done]. lia.
Qed.

Lemma after_cons m b l : after_blocks m (b :: l) = after_blocks (next_multiplier m b) l.
Proof. reflexivity. Qed.

Lemma after_range l : forall m, inrange m \/ l <> [] -> inrange (after_blocks m l).
Proof.
  induction l as [|b l IH]; intros m H.
  - destruct H as [H|H]; [exact H|done].
  - rewrite after_cons. apply IH. left. apply next_bounds.
Qed.

Lemma after_busy l : forall m, inrange m -> Forall busy l ->
  N.min (m + N.of_nat (length l)) highest <= after_blocks m l.
Proof.
  induction l as [|b l IH]; intros m Hm Hl.
  - simpl. unfold after_blocks. simpl. lia.
  - apply Forall_cons in Hl as [[Hb Hr] Hl]. rewrite after_cons.
    destruct (next_moves m b Hm Hb) as (_ & _ & H & _). specialize (H Hr).
    specialize (IH (next_multiplier m b) (next_bounds m b) Hl). simpl length. lia.
Qed.
Lemma after_quiet l : forall m, inrange m -> Forall quiet l ->
  after_blocks m l <= N.max (m - N.of_nat (length l)) lowest.
Proof.
  induction l as [|b l IH]; intros m Hm Hl.
  - simpl. unfold after_blocks. simpl. lia.
  - apply Forall_cons in Hl as [[Hb Hr] Hl]. rewrite after_cons.
    destruct (next_moves m b Hm Hb) as (_ & _ & _ & H). specialize (H Hr).
    specialize (IH (next_multiplier m b) (next_bounds m b) Hl). simpl length. lia.
Qed.

Lemma next_pace p b : inrange p -> by_time b ->
  next_multiplier p b * 10000000000 <= p * 10000075001 /\
  p * 9999975000 <= next_multiplier p b * 10000000000.
Proof.
  intros Hp Hb. destruct (next_eq p b Hb Hp) as [-> _].
  split; [|apply moved_ge; [done|lia]].
  destruct (moved_le p (N.min (ref_time b) room) ltac:(lia)) as [H|H]; [exact H|].
  rewrite H. destruct Hp. lia.
Qed.

Lemma pace_up (A M M1 C a k : N) :
  A * (C - a * k) <= M1 * C -> M1 * C <= M * (C + a) -> 0 < C ->
  A * (C - a * (k + 1)) <= M * C.
Proof.
  intros H1 H2 HC.
  destruct (N.le_gt_cases C (a * (k + 1))) as [H|H].
  { replace (C - a * (k + 1)) with 0 by lia. lia. }
  apply (N.mul_le_mono_pos_r _ _ (C + a)); [lia|].
  transitivity (A * (C - a * k) * C).
  - rewrite <- !N.mul_assoc. apply N.mul_le_mono_l.
    assert (Hk : a * k + a < C) by lia.
    set (x := a * k) in *. replace (a * (k + 1)) with (x + a) by (unfold x; lia). clearbody x.
    replace C with (C - (x + a) + (x + a)) at 2 3 4 by lia.
    set (y := C - (x + a)) in *. clearbody y. replace (y + (x + a) - x) with (y + a) by lia. nia.
  - transitivity (M1 * C * C); [apply N.mul_le_mono_r; exact H1|].
    transitivity (M * (C + a) * C); [apply N.mul_le_mono_r; exact H2|]. lia.
Qed.
Lemma pace_down (A M M1 C a k : N) :
  M1 * (C - a * k) <= A * C -> M * (C - a) <= M1 * C -> 0 < C ->
  M * (C - a * (k + 1)) <= A * C.
Proof.
  intros H1 H2 HC.
  destruct (N.le_gt_cases C (a * (k + 1))) as [H|H].
  { replace (C - a * (k + 1)) with 0 by lia. lia. }
  apply (N.mul_le_mono_pos_r _ _ C); [lia|].
  transitivity (M1 * (C - a * k) * C); [|apply N.mul_le_mono_r; exact H1].
  transitivity (M * (C - a) * (C - a * k)).
  - rewrite <- !N.mul_assoc. apply N.mul_le_mono_l.
    set (x := a * k) in *. replace (a * (k + 1)) with (x + a) in * by (unfold x; lia). clearbody x.
    set (y := C - (x + a)) in *. replace C with (y + (x + a)) by lia. clearbody y.
    replace (y + (x + a) - a) with (y + x) by lia. replace (y + (x + a) - x) with (y + a) by lia. nia.
  - transitivity (M1 * C * (C - a * k)); [apply N.mul_le_mono_r; exact H2|]. lia.
Qed.

Lemma after_pace l : forall m, inrange m -> Forall by_time l ->
  after_blocks m l * (10000000000 - 75001 * N.of_nat (length l)) <= m * 10000000000 /\
  m * (10000000000 - 25000 * N.of_nat (length l)) <= after_blocks m l * 10000000000.
Proof.
  induction l as [|b l IH]; intros m Hm Hl.
  - unfold after_blocks. simpl. lia.
  - apply Forall_cons in Hl as [Hb Hl]. rewrite after_cons.
    destruct (IH (next_multiplier m b) (next_bounds m b) Hl) as [I1 I2].
    destruct (next_pace m b Hm Hb) as [P1 P2].
    simpl length. replace (N.of_nat (S (length l))) with (N.of_nat (length l) + 1) by lia.
    split.
    + eapply pace_up; [exact I1| |lia]. lia.
    + eapply pace_down; [exact I2| |lia]. change (10000000000 - 25000) with 9999975000. lia.
Qed.

Section fee.
  Variable base : N.

  Lemma sadd_mono x y x' y' : x <= x' -> y <= y' -> sadd two128 x y <= sadd two128 x' y'.
  Proof. unfold sadd. lia. Qed.

  Lemma fee_mono m m' len len' w w' tip tip' pays pays' :
    m <= m' -> len <= len' -> w <= w' -> tip <= tip' -> (pays = true -> pays' = true) ->
    compute_fee base m len w tip pays <= compute_fee base m' len' w' tip' pays'.
  Proof.
    intros H1 H2 H3 H4 H5. unfold compute_fee.
    assert (F : forall mm ll ww tt, tt <= tip' -> sadd two128 0 tt <=
      sadd two128 (sadd two128 (sadd two128 (weight_fee base) (length_fee ll)) (N.min (mm * weight_fee ww / DIV) (two128 - 1))) tip').
    { intros. apply sadd_mono; lia. }
    destruct pays.
    - rewrite H5 by done. apply sadd_mono; [|done]. apply sadd_mono; [apply sadd_mono; [done|]|].
      + unfold length_fee. assert (len * byte_fee <= len' * byte_fee) by (apply N.mul_le_mono_r; done). lia.
      + apply N.min_le_compat_r. apply N.div_le_mono; [discriminate|].
        apply N.mul_le_mono; [done|]. unfold weight_fee. lia.
    - destruct pays'; [now apply F|]. now apply sadd_mono.
  Qed.

  Lemma actual_le m len w tip pays actual pays_after :
    compute_actual base m len w tip pays actual pays_after <= compute_fee base m len w tip pays.
  Proof.
    unfold compute_actual. apply fee_mono; try lia. now intros [? _]%andb_true_iff.
  Qed.

  Lemma fee_exact m len w tip :
    base <= 2000000000000 -> w <= 2000000000000 -> len < 2 ^ 32 -> m <= 2 ^ 100 -> tip < 2 ^ 120 ->
    compute_fee base m len w tip true = base + len * byte_fee + m * w / DIV + tip.
  Proof.
    intros Hb Hw Hl Hm Ht. unfold compute_fee, weight_fee. change (ref_time max_block) with 2000000000000.
    rewrite (N.min_l base), (N.min_l w) by done.
    assert (Hlen : len * byte_fee <= 2 ^ 80).
    { transitivity (2 ^ 32 * byte_fee); [apply N.mul_le_mono_r; lia|]. vm_compute. discriminate. }
    assert (Hmw : m * w / DIV <= 2 ^ 100).
    { apply N.div_le_upper_bound; [discriminate|]. rewrite (N.mul_comm DIV).
      apply N.mul_le_mono; [done|]. unfold DIV. lia. }
    unfold length_fee. set (x := len * byte_fee) in *. set (y := m * w / DIV) in *. clearbody x y.
    unfold sadd, two128. change (2 ^ 120) with 1329227995784915872903807060280344576 in *.
    change (2 ^ 100) with 1267650600228229401496703205376 in *.
    change (2 ^ 80) with 1208925819614629174706176 in *.
    lia.
  Qed.
End fee.
