(** Shared vocabulary of all models: results of calls, fixed-width machine
    integers, fixed-point fractions, and sums over finite maps. *)
From Coq Require Import NArith List Lia Bool.
From stdpp Require Import gmap fin_maps.
Open Scope N_scope.

(** Result of a dispatchable or helper: success, a [DispatchError] (the kind is
    a pallet-specific code), or a panic (unwrap on None, division by zero,
    index out of bounds). *)
Inductive res (E A : Type) : Type :=
| ROk (a : A)
| RErr (e : E)
| RPanic.
Arguments ROk {E A} a.
Arguments RErr {E A} e.
Arguments RPanic {E A}.

Definition rbind {E A B} (x : res E A) (f : A -> res E B) : res E B :=
  match x with
  | ROk a => f a
  | RErr e => RErr e
  | RPanic => RPanic
  end.
Notation "x <-? e ; k" := (rbind e (fun x => k))
  (at level 60, e at level 59, right associativity).
Definition ensure {E} (b : bool) (e : E) : res E unit :=
  if b then ROk tt else RErr e.

Definition is_ok {E A} (x : res E A) : bool :=
  match x with ROk _ => true | _ => false end.

(** frame_system::RawOrigin. *)
Inductive origin := Root | Signed (who : N) | NoOrigin.

(** Unsigned machine integers. The release profile has no overflow checks
    (/repo/Cargo.toml, [profile.release] and [profile.production]), so plain
    [+], [-] and [as] casts reduce modulo the width. *)
Definition two32 : N := 4294967296.
Definition two64 : N := 18446744073709551616.
Definition two128 : N := 340282366920938463463374607431768211456.
Definition w8 (x : N) : N := x mod 256.
Definition w32 (x : N) : N := x mod two32.
Definition w64 (x : N) : N := x mod two64.
Definition w128 (x : N) : N := x mod two128.
Definition add32 (x y : N) : N := w32 (x + y).
Definition add64 (x y : N) : N := w64 (x + y).
Definition add128 (x y : N) : N := w128 (x + y).
Definition mul128 (x y : N) : N := w128 (x * y).
(** [x - y] without overflow check. *)
Definition sub32 (x y : N) : N := w32 (x + (two32 - w32 y)).
Definition sub64 (x y : N) : N := w64 (x + (two64 - w64 y)).
Definition sub128 (x y : N) : N := w128 (x + (two128 - w128 y)).
(** [saturating_sub]: truncated subtraction of N. *)
Definition ssub (x y : N) : N := x - y.
(** [saturating_add] on a type with [lim] values. *)
Definition sadd (lim x y : N) : N := N.min (x + y) (lim - 1).

(** [P * x] for a [Percent] or [Perbill] with accuracy [d] and parts [p]
    (sp_arithmetic::per_things, [overflow_prune_mul] with
    [Rounding::NearestPrefDown]): nearest integer, ties downwards. *)
Definition frac_mul (p d x : N) : N :=
  x / d * p + (x mod d * p / d + (if d / 2 <? (x mod d * p) mod d then 1 else 0)).

Definition PERCENT : N := 100.
Definition PERBILL : N := 1000000000.

(** Sum of [f k v] over a finite map. *)
Definition msum {K V} `{Countable K} (f : K -> V -> N) (m : gmap K V) : N :=
  map_fold (fun k v acc => f k v + acc) 0 m.

(** Sum of a list of numbers. *)
Fixpoint lsum (l : list N) : N :=
  match l with nil => 0 | x :: r => x + lsum r end.

Section msum.
  Context {K V : Type} `{Countable K}.
  Implicit Types (f : K -> V -> N) (m : gmap K V).

  Lemma msum_empty f : msum f ∅ = 0.
  Proof. unfold msum. apply map_fold_empty. Qed.

  Lemma msum_insert f m k v :
    m !! k = None -> msum f (<[k := v]> m) = f k v + msum f m.
  Proof.
    intros Hk. unfold msum. rewrite map_fold_insert_L; auto.
    intros j1 j2 z1 z2 y _ _ _. lia.
  Qed.

  Lemma msum_delete f m k v :
    m !! k = Some v -> msum f m = f k v + msum f (delete k m).
  Proof.
    intros Hk. rewrite <- (insert_delete m k v Hk) at 1.
    apply msum_insert, lookup_delete.
  Qed.

  Lemma msum_insert_over f m k v v' :
    m !! k = Some v -> f k v + msum f (<[k := v']> m) = f k v' + msum f m.
  Proof.
    intros Hk. rewrite (msum_delete f m k v Hk), <- insert_delete_insert.
    rewrite msum_insert; [lia|apply lookup_delete].
  Qed.

  Lemma msum_le f m k v : m !! k = Some v -> f k v <= msum f m.
  Proof. intros Hk. rewrite (msum_delete f m k v Hk). lia. Qed.

  Lemma msum_ext f g m :
    (forall k v, m !! k = Some v -> f k v = g k v) -> msum f m = msum g m.
  Proof.
    revert f g. induction m as [|k v m Hk IH] using map_ind; intros f g Hfg.
    - now rewrite !msum_empty.
    - rewrite !msum_insert by auto. f_equal.
      + apply Hfg. apply lookup_insert.
      + apply IH. intros j w Hj. apply Hfg. rewrite lookup_insert_ne; auto.
        intros ->. congruence.
  Qed.

  Lemma msum_zero f m :
    (forall k v, m !! k = Some v -> f k v = 0) -> msum f m = 0.
  Proof.
    intros Hz. rewrite (msum_ext f (fun _ _ => 0) m Hz). clear Hz.
    induction m as [|k v m Hk IH] using map_ind.
    - apply msum_empty.
    - rewrite msum_insert by auto. now rewrite IH.
  Qed.
End msum.

Lemma lsum_app l1 l2 : lsum (l1 ++ l2) = lsum l1 + lsum l2.
Proof. induction l1; simpl; lia. Qed.

Lemma w32_small x : x < two32 -> w32 x = x.
Proof. apply N.mod_small. Qed.
Lemma w64_small x : x < two64 -> w64 x = x.
Proof. apply N.mod_small. Qed.
Lemma w128_small x : x < two128 -> w128 x = x.
Proof. apply N.mod_small. Qed.
Lemma add128_small x y : x + y < two128 -> add128 x y = x + y.
Proof. apply N.mod_small. Qed.
Lemma w32_lt x : w32 x < two32.
Proof. apply N.mod_lt. discriminate. Qed.
Lemma w64_lt x : w64 x < two64.
Proof. apply N.mod_lt. discriminate. Qed.
Lemma w128_lt x : w128 x < two128.
Proof. apply N.mod_lt. discriminate. Qed.

(** The fraction of a number is at most the number. *)
Lemma frac_mul_le p d x : d <> 0 -> p <= d -> frac_mul p d x <= x.
Proof.
  intros Hd Hp. unfold frac_mul.
  pose proof (N.div_mod x d Hd) as Hx.
  pose proof (N.mod_lt x d Hd) as Hm.
  set (q := x / d) in *. set (r := x mod d) in *.
  pose proof (N.div_mod (r * p) d Hd) as Hr.
  pose proof (N.mod_lt (r * p) d Hd) as Hm2.
  set (q2 := r * p / d) in *. set (r2 := (r * p) mod d) in *.
  assert (q * p <= d * q) by nia.
  assert (r * p <= d * r) by nia.
  destruct (N.ltb_spec (d / 2) r2) as [Hlt|Hge]; [|nia].
  assert (0 < r2) by (apply (N.le_lt_trans _ (d / 2)); [apply N.le_0_l|exact Hlt]).
  assert (q2 + 1 <= r); [|nia].
  destruct (N.le_gt_cases (q2 + 1) r) as [|Hc]; [assumption|].
  exfalso. assert (r <= q2) by lia. assert (d * r <= d * q2) by nia. lia.
Qed.

(** [frac_mul] is the nearest integer to [p * x / d], ties downwards. *)
Lemma frac_mul_nearest p d x :
  d <> 0 -> 2 * p * x <= d * (2 * frac_mul p d x + 1) /\
            d * (2 * frac_mul p d x) <= 2 * p * x + d.
Proof.
  intros Hd. unfold frac_mul.
  pose proof (N.div_mod x d Hd) as Hx.
  generalize dependent (x / d). generalize (x mod d). intros r q Hx.
  pose proof (N.div_mod (r * p) d Hd) as Hr.
  pose proof (N.mod_lt (r * p) d Hd) as Hm2.
  generalize dependent (r * p / d). generalize dependent ((r * p) mod d).
  intros r2 Hm2 q2 Hr.
  assert (H2 : 2 <> 0) by lia.
  pose proof (N.div_mod d 2 H2) as Hh. pose proof (N.mod_lt d 2 H2) as Hhm.
  generalize dependent (d / 2). generalize dependent (d mod 2). intros e He h Hh.
  assert (E : 2 * p * x = 2 * (d * q * p) + 2 * (d * q2 + r2)).
  { rewrite <- Hr, Hx. ring. }
  rewrite E. clear E Hx Hr.
  destruct (N.ltb_spec h r2).
  - replace (d * (2 * (q * p + (q2 + 1)) + 1)) with (2 * (d * q * p) + 2 * (d * q2) + 3 * d) by ring.
    replace (d * (2 * (q * p + (q2 + 1)))) with (2 * (d * q * p) + 2 * (d * q2) + 2 * d) by ring.
    split; lia.
  - replace (d * (2 * (q * p + (q2 + 0)) + 1)) with (2 * (d * q * p) + 2 * (d * q2) + d) by ring.
    replace (d * (2 * (q * p + (q2 + 0)))) with (2 * (d * q * p) + 2 * (d * q2)) by ring.
    split; lia.
Qed.

(** Stable insertion sort by a numeric key. *)
Fixpoint kins {A} (key : A -> N) (x : A) (l : list A) : list A :=
  match l with
  | [] => [x]
  | y :: r => if key x <=? key y then x :: l else y :: kins key x r
  end.
Definition ksort {A} (key : A -> N) (l : list A) : list A := foldr (kins key) [] l.

Lemma kins_perm {A} (key : A -> N) x l : kins key x l ≡ₚ x :: l.
Proof.
  induction l as [|y r IH]; simpl; [done|].
  destruct (_ <=? _); [done|]. rewrite IH. apply Permutation_swap.
Qed.
Lemma ksort_perm {A} (key : A -> N) l : ksort key l ≡ₚ l.
Proof. induction l as [|x r IH]; simpl; [done|]. now rewrite kins_perm, IH. Qed.
