(** Machine integer arithmetic where nothing overflows. *)
From Verif Require Import Base.
From Coq Require Import Lia NArith.
Open Scope N_scope.

Lemma w32_small x : x < two32 -> w32 x = x.
Proof. unfold w32, two32. intros. apply N.mod_small. lia. Qed.
Lemma w64_small x : x < two64 -> w64 x = x.
Proof. unfold w64, two64. intros. apply N.mod_small. lia. Qed.
Lemma w128_small x : x < two128 -> w128 x = x.
Proof. unfold w128, two128. intros. apply N.mod_small. lia. Qed.
Lemma w32_lt x : w32 x < two32.
Proof. apply N.mod_lt. discriminate. Qed.
Lemma w64_lt x : w64 x < two64.
Proof. apply N.mod_lt. discriminate. Qed.
Lemma w128_lt x : w128 x < two128.
Proof. apply N.mod_lt. discriminate. Qed.

Lemma sub_mod lim x y : y <= x -> x < lim -> (x + (lim - y mod lim)) mod lim = x - y.
Proof.
  intros H1 H2. rewrite (N.mod_small y) by lia.
  replace (x + (lim - y)) with (x - y + 1 * lim) by lia.
  rewrite N.mod_add by lia. apply N.mod_small. lia.
Qed.
Lemma sub32_exact x y : y <= x -> x < two32 -> sub32 x y = x - y.
Proof. apply sub_mod. Qed.
Lemma sub64_exact x y : y <= x -> x < two64 -> sub64 x y = x - y.
Proof. apply sub_mod. Qed.
Lemma sub128_exact x y : y <= x -> x < two128 -> sub128 x y = x - y.
Proof. apply sub_mod. Qed.
Lemma add32_exact x y : x + y < two32 -> add32 x y = x + y.
Proof. apply w32_small. Qed.
Lemma add64_exact x y : x + y < two64 -> add64 x y = x + y.
Proof. apply w64_small. Qed.
Lemma add128_exact x y : x + y < two128 -> add128 x y = x + y.
Proof. apply w128_small. Qed.
Lemma mul128_exact x y : x * y < two128 -> mul128 x y = x * y.
Proof. apply w128_small. Qed.
