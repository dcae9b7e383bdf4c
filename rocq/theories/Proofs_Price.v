(** Proofs about the fee multiplier and the fee (C133-C135). *)
From Verif Require Import Base Model_Price Spec_Price.
From stdpp Require Import list.
Open Scope N_scope.

(** Replace a quotient by its defining inequalities. *)
Ltac dm x d :=
  pose proof (N.div_mod x d ltac:(discriminate)); pose proof (N.mod_lt x d ltac:(discriminate));
  let q := fresh "q" in let r := fresh "r" in
  set (q := x / d) in *; set (r := x mod d) in *; clearbody q r.

(** The parts per 10^18 by which a deviation of [d] from the target moves the multiplier. *)
Definition dev (d : N) : N := d * 1000000000000000000 / 1500000000000.
Definition fst_term (d : N) : N := 10000000000000 * dev d / 1000000000000000000.
Definition snd_term (d : N) : N :=
  50000000 * (dev d * dev d / 1000000000000000000) / 1000000000000000000.

Definition scaled (f p : N) : N := f * p / DIV.

(** With the time as the limiting dimension the update has this closed form. *)
Definition moved (prev w : N) : N :=
  if target <=? w
  then N.min (prev + scaled (fst_term (w - target) + snd_term (w - target)) prev) highest
  else N.max (prev - scaled (fst_term (target - w) - snd_term (target - w)) prev) lowest.

Lemma min_mult_eq : min_multiplier = lowest.
Proof. vm_compute. reflexivity. Qed.
Lemma fmax_eq : FMAX = highest.
Proof. vm_compute. reflexivity. Qed.
Lemma adj_eq : adjustment = 10000000000000.
Proof. vm_compute. reflexivity. Qed.
Lemma v2_eq : fdiv (fmul adjustment adjustment) (2 * DIV) = 50000000.
Proof. vm_compute. reflexivity. Qed.
Lemma nm_eq : normal_max = Wt 1500000000000 13835058055282163711.
Proof. vm_compute. reflexivity. Qed.
Lemma target_eq : frac_mul target_fullness DIV 1500000000000 = target.
Proof. vm_compute. reflexivity. Qed.

Lemma dev_le d : d <= room -> dev d <= DIV.
Proof.
  intros H. unfold dev, room, DIV in *.
  apply N.div_le_upper_bound; lia.
Qed.

Lemma fmul_small x y : x * y / DIV <= FMAX -> fmul x y = x * y / DIV.
Proof. intros H. unfold fmul. lia. Qed.

Lemma fst_le d : d <= room -> fst_term d <= 10000000000000.
Proof.
  intros H. apply dev_le in H. unfold fst_term, DIV in *. apply N.div_le_upper_bound; lia.
Qed.
Lemma sq_le d : d <= room -> dev d * dev d / 1000000000000000000 <= DIV.
Proof.
  intros H. apply dev_le in H. unfold DIV in *.
  apply N.div_le_upper_bound; [lia|]. nia.
Qed.
Lemma snd_le d : d <= room -> snd_term d <= 50000000.
Proof.
  intros H. apply sq_le in H. unfold snd_term, DIV in *. apply N.div_le_upper_bound; lia.
Qed.
Lemma snd_fst d : d <= room -> snd_term d <= fst_term d.
Proof.
  intros H. pose proof (dev_le d H) as Hd. unfold snd_term, fst_term.
  apply N.div_le_mono; [lia|]. transitivity (50000000 * dev d); [|lia].
  apply N.mul_le_mono_l. apply N.div_le_upper_bound; [lia|]. unfold DIV in Hd. nia.
Qed.

Lemma next_moved prev b :
  by_time b -> prev <= highest -> next_multiplier prev b =
  N.min (N.max (moved (N.max prev lowest) (N.min (ref_time b) room)) lowest) highest.
Proof.
  intros Hb Hh. unfold by_time in Hb. unfold next_multiplier. rewrite nm_eq, min_mult_eq, v2_eq, adj_eq.
  unfold max_multiplier. rewrite fmax_eq. cbn [ref_time proof_size].
  assert (E : parts_of (N.min (proof_size b) 13835058055282163711) (N.max 13835058055282163711 1) = 0).
  { unfold parts_of. rewrite (N.div_small (N.min _ _)); [reflexivity|].
    change (N.max (N.max 13835058055282163711 1 / PERBILL) 1) with 13835058055. lia. }
  rewrite E. clear E.
  assert (E : parts_of (N.min (ref_time b) 1500000000000) (N.max 1500000000000 1) <? 0 = false)
    by (apply N.ltb_ge; lia).
  rewrite E. clear E. rewrite target_eq.
  change 1500000000000 with room.
  set (w := N.min (ref_time b) room). assert (Hw : w <= room) by lia. clearbody w.
  set (p := N.max prev lowest). assert (Hp : lowest <= p <= highest) by (unfold lowest, highest in *; lia).
  clearbody p.
  unfold moved.
  assert (F : forall d, d <= room ->
    frat d (N.max room 1) = dev d /\
    fmul 10000000000000 (dev d) = fst_term d /\
    fmul 50000000 (fmul (dev d) (dev d)) = snd_term d).
  { intros d Hd. pose proof (dev_le d Hd). pose proof (fst_le d Hd). pose proof (sq_le d Hd).
    pose proof (snd_le d Hd). split_and!.
    - unfold frat. change (N.max room 1) with 1500000000000. change DIV with 1000000000000000000.
      fold (dev d). rewrite fmax_eq. unfold highest, DIV in *. lia.
    - rewrite fmul_small; [reflexivity|]. change DIV with 1000000000000000000 in *.
      fold (fst_term d). rewrite fmax_eq. unfold highest. lia.
    - rewrite (fmul_small (dev d)).
      + rewrite fmul_small; [reflexivity|]. change DIV with 1000000000000000000 in *.
        fold (snd_term d). rewrite fmax_eq. unfold highest. lia.
      + change DIV with 1000000000000000000 in *. rewrite fmax_eq. unfold highest. lia. }
  destruct (N.leb_spec target w) as [Hle|Hlt].
  - replace (N.max w target - N.min w target) with (w - target) by lia.
    destruct (F (w - target)) as (-> & -> & ->); [unfold room in *; lia|].
    pose proof (fst_le (w - target) ltac:(lia)) as H1. pose proof (snd_le (w - target) ltac:(lia)) as H2.
    rewrite (N.min_l (fst_term (w - target) + snd_term (w - target))) by (unfold highest; lia).
    unfold fmul. rewrite fmax_eq. fold (scaled (fst_term (w - target) + snd_term (w - target)) p).
    unfold lowest, highest in *. lia.
  - replace (N.max w target - N.min w target) with (target - w) by lia.
    destruct (F (target - w)) as (-> & -> & ->); [unfold room, target in *; lia|].
    unfold fmul. rewrite fmax_eq. fold (scaled (fst_term (target - w) - snd_term (target - w)) p).
    unfold lowest, highest in *. lia.
Qed.

(** Bounds, without any assumption about the block. *)
Lemma next_bounds prev b : lowest <= next_multiplier prev b <= highest.
Proof.
  unfold next_multiplier. rewrite min_mult_eq. unfold max_multiplier. rewrite fmax_eq.
  destruct (if _ <? _ then _ else _) as [w m].
  destruct (_ <=? w); unfold lowest, highest; lia.
Qed.

Definition inrange (p : N) : Prop := lowest <= p <= highest.

Lemma next_eq p b :
  by_time b -> inrange p -> next_multiplier p b = moved p (N.min (ref_time b) room) /\
  inrange (moved p (N.min (ref_time b) room)).
Proof.
  intros Hb [H1 H2]. rewrite (next_moved p b Hb H2). rewrite (N.max_l p lowest H1).
  assert (H : inrange (moved p (N.min (ref_time b) room))).
  { assert (L : lowest <= highest) by (vm_compute; discriminate).
    unfold inrange, moved. destruct (_ <=? _); lia. }
  split; [|exact H]. destruct H. lia.
Qed.

Lemma dev_ge d : margin <= d -> 200000000000000 <= dev d.
Proof. intros H. unfold dev, margin in *. apply N.div_le_lower_bound; lia. Qed.

Lemma fst_ge d : margin <= d -> 1000000000 <= fst_term d.
Proof. intros H%dev_ge. unfold fst_term. apply N.div_le_lower_bound; lia. Qed.

Lemma snd_lin d : d <= room -> snd_term d <= 50000000 * dev d / 1000000000000000000.
Proof.
  intros H. pose proof (dev_le d H) as Hd. unfold snd_term. apply N.div_le_mono; [lia|].
  apply N.mul_le_mono_l. apply N.div_le_upper_bound; [lia|]. unfold DIV in Hd. nia.
Qed.

Lemma net_ge d : margin <= d -> d <= room -> 1000000000 <= fst_term d - snd_term d.
Proof.
  intros H Hr. pose proof (snd_lin d Hr) as Hs. pose proof (dev_ge d H) as Hd.
  unfold fst_term. dm (10000000000000 * dev d) 1000000000000000000.
  dm (50000000 * dev d) 1000000000000000000. lia.
Qed.

Lemma scaled_ge f p : 1000000000 <= f -> lowest <= p -> 1 <= scaled f p.
Proof.
  intros Hf Hp. unfold scaled, lowest, DIV in *. apply N.div_le_lower_bound; [lia|].
  transitivity (1000000000 * p); nia.
Qed.

(** Above the target the multiplier does not fall, clearly above it rises. *)
Lemma moved_up p w : inrange p -> target <= w -> p <= moved p w.
Proof.
  intros [_ H] Hw. unfold moved. apply N.leb_le in Hw. rewrite Hw. lia.
Qed.
Lemma moved_busy p w : inrange p -> target + margin <= w -> N.min (p + 1) highest <= moved p w.
Proof.
  intros [H1 H2] Hw. unfold moved. replace (target <=? w) with true by (symmetry; apply N.leb_le; lia).
  pose proof (fst_ge (w - target) ltac:(lia)) as Hf.
  pose proof (scaled_ge (fst_term (w - target) + snd_term (w - target)) p ltac:(lia) H1). lia.
Qed.
Lemma moved_down p w : inrange p -> w <= target -> moved p w <= p.
Proof.
  intros [H1 H2] Hw. unfold moved. destruct (N.leb_spec target w) as [H|H].
  - replace (w - target) with 0 by lia. change (fst_term 0 + snd_term 0) with 0.
    change (scaled 0 p) with (0 / DIV). change (0 / DIV) with 0. lia.
  - lia.
Qed.
Lemma moved_quiet p w : inrange p -> w + margin <= target -> moved p w <= N.max (p - 1) lowest.
Proof.
  intros [H1 H2] Hw. unfold moved. destruct (N.leb_spec target w) as [H|H]; [unfold margin in *; lia|].
  pose proof (net_ge (target - w) ltac:(lia) ltac:(unfold target, room; lia)) as Hf.
  pose proof (scaled_ge _ p Hf H1). lia.
Qed.

(** Heavier blocks lead to larger multipliers. *)
Lemma dev_mono d d' : d <= d' -> dev d <= dev d'.
Proof. intros H. unfold dev. apply N.div_le_mono; lia. Qed.
Lemma terms_mono d d' : d <= d' -> fst_term d + snd_term d <= fst_term d' + snd_term d'.
Proof.
  intros H%dev_mono. unfold fst_term, snd_term.
  apply N.add_le_mono; apply N.div_le_mono; try lia.
  apply N.mul_le_mono_l, N.div_le_mono; [lia|]. nia.
Qed.
Lemma net_mono d d' :
  d <= d' -> d' <= target -> fst_term d - snd_term d <= fst_term d' - snd_term d'.
Proof.
  intros H Ht. destruct (N.eq_dec d d') as [->|Hn]; [lia|].
  assert (Hdev : dev d + 666666 <= dev d').
  { unfold dev. dm (d * 1000000000000000000) 1500000000000.
    dm (d' * 1000000000000000000) 1500000000000. lia. }
  assert (Hd' : dev d' <= 250000000000000000).
  { unfold dev, target in *. apply N.div_le_upper_bound; lia. }
  assert (Hsq : dev d' * dev d' <= dev d * dev d + (dev d' - dev d) * 500000000000000000) by nia.
  unfold fst_term, snd_term.
  set (a := dev d) in *. set (a' := dev d') in *. clearbody a a'.
  set (q := a * a) in *. set (q' := a' * a') in *. clearbody q q'.
  dm q 1000000000000000000. dm q' 1000000000000000000.
  dm (50000000 * q0) 1000000000000000000. dm (50000000 * q1) 1000000000000000000.
  dm (10000000000000 * a) 1000000000000000000. dm (10000000000000 * a') 1000000000000000000. lia.
Qed.

Lemma scale_mono f f' p : f <= f' -> scaled f p <= scaled f' p.
Proof. intros H. unfold scaled. apply N.div_le_mono; [discriminate|]. nia. Qed.

Lemma moved_mono_w p w w' : inrange p -> w <= w' -> moved p w <= moved p w'.
Proof.
  intros Hp Hw. destruct (N.le_gt_cases target w) as [H|H].
  { unfold moved. replace (target <=? w) with true by (symmetry; apply N.leb_le; lia).
    replace (target <=? w') with true by (symmetry; apply N.leb_le; lia).
    pose proof (terms_mono (w - target) (w' - target) ltac:(lia)) as Ht.
    pose proof (scale_mono _ _ p Ht). lia. }
  destruct (N.le_gt_cases target w') as [H'|H'].
  { pose proof (moved_down p w Hp ltac:(lia)). pose proof (moved_up p w' Hp H'). lia. }
  unfold moved. replace (target <=? w) with false by (symmetry; apply N.leb_gt; lia).
  replace (target <=? w') with false by (symmetry; apply N.leb_gt; lia).
  pose proof (net_mono (target - w') (target - w) ltac:(lia) ltac:(lia)) as Ht.
  pose proof (scale_mono _ _ p Ht). lia.
Qed.

Lemma shrink_mono f p p' : f <= DIV -> p <= p' -> p - scaled f p <= p' - scaled f p'.
Proof.
  intros Hf Hp. unfold scaled. dm (f * p) DIV. dm (f * p') DIV. rename q into x, q0 into x'.
  assert (x <= p) by (apply (N.mul_le_mono_pos_l _ _ DIV); [reflexivity|]; transitivity (f * p); [lia|apply N.mul_le_mono_r; exact Hf]).
  assert (f * p' <= f * p + DIV * (p' - p)).
  { replace p' with (p + (p' - p)) at 1 by lia. rewrite N.mul_add_distr_l.
    apply N.add_le_mono_l, N.mul_le_mono_r; exact Hf. }
  assert (DIV * x' < DIV * (x + (p' - p) + 1)) by lia.
  assert (x' < x + (p' - p) + 1) by (apply (N.mul_lt_mono_pos_l DIV); [reflexivity|assumption]).
  lia.
Qed.

Lemma moved_mono_p p p' w : w <= room -> p <= p' -> moved p w <= moved p' w.
Proof.
  intros Hw Hp. unfold moved. destruct (N.leb_spec target w) as [H|H].
  - assert (scaled (fst_term (w - target) + snd_term (w - target)) p <=
            scaled (fst_term (w - target) + snd_term (w - target)) p')
      by (apply N.div_le_mono; [discriminate|nia]). lia.
  - pose proof (fst_le (target - w) ltac:(unfold target, room in *; lia)) as Hf.
    pose proof (shrink_mono (fst_term (target - w) - snd_term (target - w)) p p'
                  ltac:(unfold DIV; lia) Hp). lia.
Qed.

(** How far one block moves the multiplier. *)
Lemma moved_le p w : w <= room -> moved p w * 10000000000 <= p * 10000075001 \/ moved p w = lowest.
Proof.
  intros Hw. unfold moved. destruct (N.leb_spec target w) as [H|H].
  - left.
    assert (Hd : dev (w - target) <= 750000000000000000).
    { unfold dev, target, room in *. apply N.div_le_upper_bound; lia. }
    assert (H1 : fst_term (w - target) <= 7500000000000).
    { unfold fst_term. apply N.div_le_upper_bound; lia. }
    pose proof (snd_le (w - target) ltac:(unfold target, room in *; lia)) as H2.
    set (f := fst_term (w - target) + snd_term (w - target)).
    assert (Hf : f <= 7500100000000) by lia. clearbody f.
    assert (H0 : DIV <> 0) by discriminate.
    pose proof (N.mul_div_le (f * p) DIV H0) as Hx. unfold scaled.
    set (x := f * p / DIV) in *. clearbody x.
    assert (DIV * x <= 7500100000000 * p) by nia. unfold DIV in *. lia.
  - destruct (N.max_spec (p - scaled (fst_term (target - w) - snd_term (target - w)) p) lowest)
      as [[_ ->]|[_ ->]]; [now right|left]. lia.
Qed.
Lemma moved_ge p w : inrange p -> w <= room -> p * 9999975000 <= moved p w * 10000000000.
Proof.
  intros Hp Hw. destruct (N.le_gt_cases target w) as [H|H].
  { pose proof (moved_up p w Hp H). lia. }
  unfold moved. replace (target <=? w) with false by (symmetry; apply N.leb_gt; lia).
  assert (Hd : dev (target - w) <= 250000000000000000).
  { unfold dev, target, room in *. apply N.div_le_upper_bound; lia. }
  assert (H1 : fst_term (target - w) - snd_term (target - w) <= 2500000000000).
  { transitivity (fst_term (target - w)); [lia|]. unfold fst_term. apply N.div_le_upper_bound; lia. }
  set (f := fst_term (target - w) - snd_term (target - w)) in *. clearbody f.
  assert (H0 : DIV <> 0) by discriminate.
  pose proof (N.mul_div_le (f * p) DIV H0) as Hx. unfold scaled.
    set (x := f * p / DIV) in *. clearbody x.
  assert (DIV * x <= 2500000000000 * p) by nia. unfold DIV in *. lia.
Qed.
