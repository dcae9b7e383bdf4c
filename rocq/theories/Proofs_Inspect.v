(** Reading addresses of blocks and extrinsics. *)
From Verif Require Import Base Model_Inspect Spec_Inspect.
From stdpp Require Import list numbers.
From Coq Require Import ZifyBool Lia.
Open Scope N_scope.

Lemma nibble_digit b d : hex_digit b d -> nibble b = Some d.
Proof.
  intros [[H ->]|[H [->| ->]]]; unfold nibble.
  - replace (48 <=? 48 + d) with true by lia. replace (48 + d <=? 57) with true by lia. cbn. f_equal. lia.
  - replace (65 + (d - 10) <=? 57) with false by lia. rewrite andb_false_r.
    replace (65 <=? 65 + (d - 10)) with true by lia. replace (65 + (d - 10) <=? 70) with true by lia. cbn. f_equal. lia.
  - replace (97 + (d - 10) <=? 57) with false by lia. rewrite andb_false_r.
    replace (97 + (d - 10) <=? 70) with false by lia. rewrite andb_false_r.
    replace (97 <=? 97 + (d - 10)) with true by lia. replace (97 + (d - 10) <=? 102) with true by lia. cbn. f_equal. lia.
Qed.
Lemma digit_nibble b d : nibble b = Some d -> hex_digit b d.
Proof.
  unfold nibble, hex_digit. destruct ((48 <=? b) && (b <=? 57)) eqn:A.
  { intros H. assert (b - 48 = d) by congruence. left. lia. }
  destruct ((65 <=? b) && (b <=? 70)) eqn:B.
  { intros H. assert (b - 65 + 10 = d) by congruence. right. lia. }
  destruct ((97 <=? b) && (b <=? 102)) eqn:C; [|discriminate].
  intros H. assert (b - 97 + 10 = d) by congruence. right. lia.
Qed.
Lemma hex_digit_lt b d : hex_digit b d -> d < 16.
Proof. unfold hex_digit. lia. Qed.
Lemma nibble_blank b d : nibble b = Some d -> blank b = false.
Proof. intros H. apply digit_nibble in H. unfold hex_digit, blank in *. lia. Qed.

Lemma lor_low a d : d < 16 -> N.lor (16 * a) d = 16 * a + d.
Proof.
  intros D. assert (E : 16 * a = N.shiftl a 4) by (rewrite N.shiftl_mul_pow2; lia).
  assert (L : N.land (N.shiftl a 4) d = 0).
  { apply N.bits_inj. intros n. rewrite N.land_spec, N.bits_0. destruct (N.lt_ge_cases n 4) as [L|L].
    - now rewrite N.shiftl_spec_low.
    - rewrite (N.bits_above_log2 d n), andb_false_r; [reflexivity|]. destruct (N.eq_dec d 0) as [->|Z]; [cbn; lia|].
      apply N.log2_lt_pow2; [lia|]. eapply N.lt_le_trans; [exact D|]. change 16 with (2 ^ 4). now apply N.pow_le_mono_r. }
  rewrite E. rewrite <- N.lxor_lor by exact L. now rewrite <- N.add_nocarry_lxor.
Qed.
Lemma shift_mod x : (x * 16) mod 256 = 16 * (x mod 16).
Proof. rewrite (N.mul_comm x). change 256 with (16 * 16). now rewrite N.mul_mod_distr_l. Qed.
Lemma push x d : d < 16 -> N.lor ((x * 16) mod 256) d = 16 * (x mod 16) + d.
Proof. intros. rewrite shift_mod. now apply lor_low. Qed.
Lemma push2 x hi lo : hi < 16 -> lo < 16 -> N.lor ((N.lor ((x * 16) mod 256) hi * 16) mod 256) lo = 16 * hi + lo.
Proof.
  intros H L. rewrite (push _ lo), (push _ hi) by assumption. f_equal. f_equal.
  rewrite N.add_comm, N.mul_comm, N.mod_add by discriminate. now apply N.mod_small.
Qed.

Lemma raw_spells s bs : spells s bs -> forall buf, hex_raw s 0 buf = Some bs.
Proof.
  induction 1 as [|a b hi lo s bs A B Sp IH]; intros buf; [reflexivity|].
  cbn [hex_raw]. rewrite (nibble_digit _ _ A). cbn. rewrite (nibble_digit _ _ B).
  rewrite push2 by eauto using hex_digit_lt. now rewrite IH.
Qed.
Lemma spells_length s bs : spells s bs -> length s = (2 * length bs)%nat.
Proof. induction 1; cbn; lia. Qed.
Lemma from_hex_spells s bs : spells s bs -> from_hex (hexmark ++ s) = Some bs.
Proof.
  intros S. unfold from_hex. cbn [hexmark app strip]. cbv zeta. rewrite (spells_length _ _ S).
  replace (N.of_nat (2 * length bs) mod 2) with 0.
  - rewrite (raw_spells _ _ S). cbn [option_bind mbind]. replace ((2 * length bs + 1) / 2)%nat with (length bs).
    + now rewrite Nat.sub_diag, app_nil_r.
    + rewrite Nat.mul_comm, Nat.div_add_l by lia. cbn. lia.
  - rewrite Nat2N.inj_mul. change (N.of_nat 2) with 2. now rewrite N.mul_comm, N.mod_mul.
Qed.
Lemma raw_bad s : forall modulus buf b, In b s -> nibble b = None -> blank b = false -> hex_raw s modulus buf = None.
Proof.
  induction s as [|c s IH]; intros modulus buf b H N0 B; [destruct H|]. cbn [hex_raw]. destruct H as [->|H].
  - now rewrite N0, B.
  - destruct (nibble c).
    + destruct (_ =? 2); [|now apply (IH _ _ b)]. now rewrite (IH _ _ b).
    + destruct (blank c); [|reflexivity]. now apply (IH _ _ b).
Qed.
Lemma raw_good s : forall modulus buf, Forall (fun b => is_Some (nibble b) \/ blank b = true) s -> is_Some (hex_raw s modulus buf).
Proof.
  induction s as [|c s IH]; intros modulus buf F; [now exists []|]. apply Forall_cons_1 in F as [C F]. cbn [hex_raw].
  destruct (nibble c) eqn:E.
  - destruct (_ =? 2); [|now apply IH]. destruct (IH 0 (N.lor ((buf * 16) mod 256) n) F) as [o E2]. cbv zeta. rewrite E2. cbn. eauto.
  - destruct C as [[x X]| ->]; [discriminate|]. now apply IH.
Qed.
Lemma strip_cases s : strip s = s \/ s = hexmark ++ strip s.
Proof.
  unfold hexmark. destruct s as [|a [|b s]]; auto.
  - left. unfold strip. destruct a as [|p]; [reflexivity|]. now repeat (destruct p; try reflexivity).
  - destruct (decide (a = 48)) as [->|N1].
    + destruct (decide (b = 120)) as [->|N2]; [now right|]. left. unfold strip.
      destruct b as [|q]; [reflexivity|]. repeat (destruct q; try reflexivity). congruence.
    + left. unfold strip. destruct a as [|p]; [reflexivity|]. repeat (destruct p; try reflexivity). congruence.
Qed.
Lemma strip_length s : (length (strip s) <= length s)%nat.
Proof. destruct (strip_cases s) as [->|E]; [lia|]. rewrite E at 2. rewrite app_length. lia. Qed.
Lemma strip_in s b : b <> 48 -> b <> 120 -> In b s -> In b (strip s).
Proof.
  intros A B H. destruct (strip_cases s) as [->|E]; [exact H|]. rewrite E in H. cbn in H.
  destruct H as [H|[H|H]]; [congruence|congruence|exact H].
Qed.

(** ** Hashes *)
Lemma next_length s : forall m buf b r, hex_next s m buf = (Some (Some b), r) -> (m = 0 -> (length r + 2 <= length s)%nat) /\ (length r + 1 <= length s)%nat.
Proof.
  induction s as [|c s IH]; intros m buf b r H; cbn [hex_next] in H.
  { destruct (m =? 0); discriminate. }
  cbn [length]. destruct (nibble c).
  - destruct (m + 1 =? 2) eqn:E.
    + injection H as _ <-. split; lia.
    + apply IH in H. lia.
  - destruct (blank c); [|discriminate]. apply IH in H. lia.
Qed.
Lemma hash_length k : forall s h, hash_bytes k s = Some h -> (2 * k <= length s)%nat.
Proof.
  induction k as [|k IH]; intros s h H; [lia|]. cbn [hash_bytes] in H.
  destruct (hex_next s 0 0) as [[[b|]|] r] eqn:E; try discriminate.
  destruct (hash_bytes k r) as [h'|] eqn:F; [|discriminate]. apply IH in F. apply next_length in E. lia.
Qed.
Lemma next_spells a b hi lo s : hex_digit a hi -> hex_digit b lo -> hex_next (a :: b :: s) 0 0 = (Some (Some (16 * hi + lo)), s).
Proof.
  intros A B. cbn [hex_next]. rewrite (nibble_digit _ _ A). cbn [N.add N.eqb Pos.eqb]. rewrite (nibble_digit _ _ B).
  change (1 + 1 =? 2) with true. cbv iota. now rewrite push2 by eauto using hex_digit_lt.
Qed.
Lemma hash_spells s bs : spells s bs -> forall k, hash_bytes k s = if decide (length bs = k) then Some bs else None.
Proof.
  induction 1 as [|a b hi lo s bs A B Sp IH]; intros [|k].
  - reflexivity.
  - reflexivity.
  - cbn [hash_bytes]. rewrite (next_spells _ _ _ _ _ A B). reflexivity.
  - cbn [hash_bytes]. rewrite (next_spells _ _ _ _ _ A B), IH. cbn [length].
    destruct (decide (length bs = k)), (decide (S (length bs) = S k)); try reflexivity; lia.
Qed.
Lemma strip_spells s bs : spells s bs -> strip s = s.
Proof.
  intros S. destruct (strip_cases s) as [->|E]; [reflexivity|]. rewrite E in S. inversion S as [|? ? hi lo ? ? A B].
  subst. unfold hex_digit in B. lia.
Qed.
Lemma hash_of_spells s h : spells s h -> length h = 32%nat -> hash_of s = Some h.
Proof.
  intros S L. unfold hash_of. rewrite (strip_spells _ _ S), (hash_spells _ _ S). now rewrite decide_True.
Qed.

(** ** Numbers *)
Lemma digits_value bound s : forall acc, Forall digit s -> fold_left (fun v b => 10 * v + (b - 48)) s acc < bound ->
  digits bound acc s = Some (fold_left (fun v b => 10 * v + (b - 48)) s acc).
Proof.
  assert (M : forall s acc, acc <= fold_left (fun v b => 10 * v + (b - 48)) s acc).
  { induction s0 as [|b s0 IH]; intros acc; cbn [fold_left]; [lia|]. etransitivity; [|apply IH]. lia. }
  induction s as [|b s IH]; intros acc F L; [reflexivity|]. apply Forall_cons_1 in F as [D F]. cbn [fold_left digits] in *.
  unfold digit in D. replace ((48 <=? b) && (b <=? 57)) with true by lia.
  pose proof (M s (10 * acc + (b - 48))). rewrite (N.mul_comm acc).
  replace (bound <=? 10 * acc) with false by lia. replace (bound <=? 10 * acc + (b - 48)) with false by lia. now apply IH.
Qed.
Lemma numeral_read bound s n : numeral s n -> n < bound -> number_of bound s = Some n.
Proof.
  intros (N0 & F & _ & V) L. unfold value in V. rewrite <- V in L |- *. rewrite <- (digits_value bound) by assumption.
  destruct s as [|b s]; [congruence|]. apply Forall_cons_1 in F as [D _]. unfold digit in D.
  unfold number_of. destruct (decide (b = 43)); [lia|]. destruct (decide (b = 45)); [lia|].
  destruct b as [|p]; [reflexivity|]. destruct s; repeat (destruct p; try reflexivity); congruence.
Qed.
Lemma value_ge s : forall acc, Forall digit s -> acc * 10 ^ N.of_nat (length s) <= fold_left (fun v b => 10 * v + (b - 48)) s acc.
Proof.
  induction s as [|b s IH]; intros acc F; [cbn; lia|]. apply Forall_cons_1 in F as [_ F]. cbn [fold_left length].
  rewrite Nat2N.inj_succ, N.pow_succ_r'. etransitivity; [|apply IH, F].
  rewrite N.mul_assoc. apply N.mul_le_mono_r. lia.
Qed.
Lemma numeral_short s n k : numeral s n -> n < 10 ^ N.of_nat k -> (length s <= k \/ length s = 1)%nat.
Proof.
  intros (N0 & F & Z & V) L. destruct s as [|b s]; [congruence|]. destruct (decide (b = 48)) as [->|Nb].
  { specialize (Z eq_refl). injection Z as ->. now right. }
  left. apply Forall_cons_1 in F as [D F]. unfold digit in D. unfold value in V. cbn [fold_left] in V.
  pose proof (value_ge s (10 * 0 + (b - 48)) F) as G. rewrite V in G.
  destruct (Nat.le_gt_cases (length (b :: s)) k) as [|C]; [assumption|exfalso]. cbn [length] in C.
  assert (10 ^ N.of_nat k <= 10 ^ N.of_nat (length s)) by (apply N.pow_le_mono_r; lia).
  assert (1 * 10 ^ N.of_nat (length s) <= (10 * 0 + (b - 48)) * 10 ^ N.of_nat (length s)) by (apply N.mul_le_mono_r; lia). lia.
Qed.
Lemma numeral_no_hash s n : numeral s n -> n < two32 -> hash_of s = None.
Proof.
  intros H L. destruct (hash_of s) as [h|] eqn:E; [|reflexivity]. apply hash_length in E.
  pose proof (strip_length s). assert (n < 10 ^ N.of_nat 10) by (change (10 ^ N.of_nat 10) with 10000000000; unfold two32 in L; lia).
  destruct (numeral_short _ _ 10 H ltac:(assumption)); lia.
Qed.
Lemma prefix_no_number bound s : number_of bound (hexmark ++ s) = None.
Proof. cbn. destruct (bound <=? 0); [reflexivity|]. now destruct (bound <=? _). Qed.
Lemma digits_sound bound s : forall acc n, digits bound acc s = Some n ->
  Forall digit s /\ fold_left (fun v b => 10 * v + (b - 48)) s acc = n.
Proof.
  induction s as [|b s IH]; intros acc n H; cbn [digits] in H; [injection H as <-; split; [constructor|reflexivity]|].
  destruct (_ && _) eqn:D; [|discriminate]. do 2 (destruct (bound <=? _); [discriminate|]). apply IH in H as [F V].
  split; [constructor; [unfold digit; lia|exact F]|]. cbn [fold_left]. rewrite <- V. now rewrite (N.mul_comm 10).
Qed.
Lemma number_sound bound s n : number_of bound s = Some n ->
  exists t, (s = t \/ s = 43 :: t) /\ t <> [] /\ Forall digit t /\ value t = n.
Proof.
  intros H. destruct s as [|b s]; [discriminate|].
  assert (Q : (b = 43 /\ s <> [] /\ digits bound 0 s = Some n) \/ digits bound 0 (b :: s) = Some n).
  { unfold number_of in H. destruct (decide (b = 43)) as [->|N1].
    - destruct s; [discriminate|]. left. repeat split; [discriminate|exact H].
    - right. destruct b as [|p]; [exact H|]. destruct s; repeat (destruct p; try exact H; try discriminate H); congruence. }
  destruct Q as [(-> & N0 & Q)|Q]; apply digits_sound in Q as [F V].
  - exists s. split; [now right|]. split; [exact N0|]. split; [exact F|exact V].
  - exists (b :: s). split; [now left|]. split; [discriminate|]. split; [exact F|exact V].
Qed.

(** ** Hashes, converse *)
Lemma next_one s : forall d r b, d < 16 -> forall buf, buf mod 16 = d -> hex_next s 1 buf = (Some (Some b), r) ->
  exists p c lo, s = p ++ r /\ visible p = [c] /\ hex_digit c lo /\ b = 16 * d + lo.
Proof.
  induction s as [|c s IH]; intros d r b Hd buf Hb H; cbn [hex_next] in H; [discriminate|].
  destruct (nibble c) as [lo|] eqn:E.
  - change (1 + 1 =? 2) with true in H. injection H as <- <-. exists [c], c, lo.
    pose proof (nibble_blank _ _ E) as Bl. apply digit_nibble in E. pose proof (hex_digit_lt _ _ E).
    repeat split; [|exact E|rewrite push by assumption; lia].
    unfold visible. cbn [List.filter]. unfold blank in Bl. now rewrite Bl.
  - destruct (blank c) eqn:Bl; [|discriminate].
    apply (IH d) in H as (p & c' & lo & -> & V & D & ->); [|exact Hd|].
    + exists (c :: p), c', lo. repeat split; [|exact D]. unfold visible in *. cbn [List.filter]. unfold blank in Bl. now rewrite Bl.
    + rewrite shift_mod, N.mul_comm, N.div_mul by discriminate. rewrite N.mod_mod by discriminate. exact Hb.
Qed.
Lemma next_zero s : forall buf r b, hex_next s 0 buf = (Some (Some b), r) ->
  exists p a c hi lo, s = p ++ r /\ visible p = [a; c] /\ hex_digit a hi /\ hex_digit c lo /\ b = 16 * hi + lo.
Proof.
  induction s as [|a s IH]; intros buf r b H; cbn [hex_next] in H; [discriminate|].
  destruct (nibble a) as [hi|] eqn:E.
  - change (0 + 1 =? 2) with false in H. cbv iota in H. pose proof (nibble_blank _ _ E) as Bl.
    apply digit_nibble in E. pose proof (hex_digit_lt _ _ E) as L. change (0 + 1) with 1 in H.
    apply (next_one s hi) in H as (p & c & lo & -> & V & D & ->); [|exact L|].
    + exists (a :: p), a, c, hi, lo. repeat split; [|exact E|exact D]. unfold visible in *. cbn [List.filter]. unfold blank in Bl.
      rewrite Bl. cbn [negb]. now rewrite V.
    + rewrite push by exact L. rewrite N.add_comm, N.mul_comm, N.mod_add by discriminate. now apply N.mod_small.
  - destruct (blank a) eqn:Bl; [|discriminate]. apply IH in H as (p & a' & c & hi & lo & -> & V & A & D & ->).
    exists (a :: p), a', c, hi, lo. repeat split; [|exact A|exact D]. unfold visible in *. cbn [List.filter]. unfold blank in Bl. now rewrite Bl.
Qed.
Lemma next_end s : forall m buf, (hex_next s m buf).1 = None -> m = 0 /\ visible s = [].
Proof.
  induction s as [|a s IH]; intros m buf H; cbn [hex_next] in H.
  { destruct (m =? 0) eqn:E; [split; [lia|reflexivity]|discriminate]. }
  destruct (nibble a).
  - destruct (m + 1 =? 2); [discriminate|]. apply IH in H as [H _]. lia.
  - destruct (blank a) eqn:Bl; [|discriminate]. apply IH in H as [-> V]. split; [reflexivity|].
    unfold visible in *. cbn [List.filter]. unfold blank in Bl. now rewrite Bl.
Qed.
Lemma hash_sound k : forall s h, hash_bytes k s = Some h -> spells (visible s) h /\ length h = k.
Proof.
  induction k as [|k IH]; intros s h H; cbn [hash_bytes] in H.
  - destruct (hex_next s 0 0).1 as [|] eqn:E; [discriminate|]. injection H as <-. apply next_end in E as [_ ->]. split; constructor.
  - destruct (hex_next s 0 0) as [[[b|]|] r] eqn:E; try discriminate.
    destruct (hash_bytes k r) as [h'|] eqn:F; [|discriminate]. injection H as <-. apply IH in F as [F L].
    apply next_zero in E as (p & a & c & hi & lo & -> & V & A & C & ->). split; [|cbn; now rewrite L].
    unfold visible in *. rewrite List.filter_app, V. cbn [app]. now constructor.
Qed.

(** ** Separators *)
Lemma split_at s x r : Forall (fun b => separator b = false) s -> separator x = true -> split_first (s ++ x :: r) = (s, Some r).
Proof.
  induction 1 as [|b s B F IH]; intros X; cbn [app split_first]; [now rewrite X|]. rewrite B, IH by exact X. reflexivity.
Qed.
Lemma split_none s : Forall (fun b => separator b = false) s -> (split_first s).1 = s.
Proof.
  induction 1 as [|b s B F IH]; [reflexivity|]. cbn [split_first]. rewrite B. destruct (split_first s). cbn in *. now rewrite IH.
Qed.
Lemma digit_plain s : Forall digit s -> Forall (fun b => separator b = false) s.
Proof. apply Forall_impl. unfold digit, separator. intros b. lia. Qed.
Lemma spells_plain s bs : spells s bs -> Forall (fun b => separator b = false) s.
Proof. induction 1 as [|a b hi lo s bs A B Sp IH]; constructor; [|constructor; [|exact IH]]; unfold hex_digit, separator in *; lia. Qed.
Lemma spells_hexes s bs : spells s bs -> Forall (fun b => is_Some (nibble b) \/ blank b = true) s.
Proof.
  induction 1 as [|a b hi lo s bs A B Sp IH]; constructor; [|constructor; [|exact IH]]; left;
    [rewrite (nibble_digit _ _ A)|rewrite (nibble_digit _ _ B)]; now eexists.
Qed.
Lemma digit_hexes s : Forall digit s -> Forall (fun b => is_Some (nibble b) \/ blank b = true) s.
Proof.
  apply Forall_impl. intros b D. left. unfold digit in D. unfold nibble. replace (_ && _) with true by lia. now eexists.
Qed.
Lemma from_hex_bad s b : In b s -> nibble b = None -> blank b = false -> b <> 120 -> from_hex s = None.
Proof.
  intros H N0 B X. unfold from_hex. cbv zeta. rewrite (raw_bad _ _ _ b); [reflexivity| |exact N0|exact B].
  apply strip_in; [intros ->; discriminate|exact X|exact H].
Qed.
Lemma from_hex_good s : Forall (fun b => is_Some (nibble b) \/ blank b = true) s -> exists b, from_hex s = Some b.
Proof.
  intros F. unfold from_hex. cbv zeta.
  assert (F' : Forall (fun b => is_Some (nibble b) \/ blank b = true) (strip s)).
  { destruct (strip_cases s) as [->|E]; [exact F|]. rewrite E in F. now apply Forall_app in F as [_ F]. }
  destruct (raw_good _ (N.of_nat (length (strip s)) mod 2) 0 F') as [o ->]. cbn. eauto.
Qed.

Definition addr_text (s : text) (a : baddr) : Prop :=
  (exists n, a = BNumber n /\ numeral s n /\ n < two32) \/ (exists h, a = BHash h /\ spells s h /\ length h = 32%nat).
Lemma addr_plain s a : addr_text s a -> Forall (fun b => separator b = false) s.
Proof. intros [(n & _ & (_ & F & _) & _)|(h & _ & S & _)]; [now apply digit_plain|now apply spells_plain in S]. Qed.
Lemma addr_hexes s a : addr_text s a -> Forall (fun b => is_Some (nibble b) \/ blank b = true) s.
Proof. intros [(n & _ & (_ & F & _) & _)|(h & _ & S & _)]; [now apply digit_hexes|now apply spells_hexes in S]. Qed.
Lemma addr_read s a : addr_text s a -> block_addr s = Some a.
Proof.
  unfold block_addr. intros [(n & -> & H & L)|(h & -> & S & L)].
  - rewrite (numeral_no_hash _ _ H L), (numeral_read _ _ _ H L). reflexivity.
  - now rewrite (hash_of_spells _ _ S L).
Qed.
Lemma bytes_read s b : spells s b -> (length b <> 32)%nat -> block_addr (hexmark ++ s) = Some (BBytes b).
Proof.
  intros S L. unfold block_addr, hash_of. cbn [hexmark app strip]. rewrite (hash_spells _ _ S), decide_False by exact L.
  change (48 :: 120 :: s) with (hexmark ++ s). rewrite prefix_no_number, (from_hex_spells _ _ S). reflexivity.
Qed.
Lemma pair_read s a x t i : addr_text s a -> x = 58 \/ x = 46 -> numeral t i -> i < two64 ->
  extrinsic_addr (s ++ x :: t) = Some (XBlock a i).
Proof.
  intros A X T L. unfold extrinsic_addr. rewrite (from_hex_bad _ x);
    [|apply in_or_app; right; now left|destruct X as [->| ->]; reflexivity|destruct X as [->| ->]; reflexivity|destruct X as [->| ->]; discriminate].
  rewrite (split_at _ _ _ (addr_plain _ _ A)) by (destruct X as [->| ->]; reflexivity).
  rewrite (addr_read _ _ A). cbn [mbind option_bind].
  rewrite split_none by (destruct T as (_ & F & _); now apply digit_plain). now rewrite (numeral_read _ _ _ T L).
Qed.
Lemma space_bytes s a t i : addr_text s a -> numeral t i -> exists b, extrinsic_addr (s ++ 32 :: t) = Some (XBytes b).
Proof.
  intros A T. unfold extrinsic_addr. destruct (from_hex_good (s ++ 32 :: t)) as [b ->]; [|eauto].
  apply Forall_app. split; [exact (addr_hexes _ _ A)|]. constructor; [now right|]. destruct T as (_ & F & _). now apply digit_hexes.
Qed.
