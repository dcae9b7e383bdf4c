(** C176-C178: what the inspect subcommand shows. *)
From Verif Require Import Base Model_Inspect Spec_Inspect Proofs_Inspect.
From stdpp Require Import list numbers.
Open Scope N_scope.

(** The chain of the examples: two blocks, each header a number, each extrinsic a number. *)
Definition xih (k : N) : list N := repeat k 32.
Definition xic : chain N N :=
  Chain N N (fun n => if n =? 5 then Some (xih 171) else if n =? 6 then Some (xih 18) else None)
    (fun h => if decide (h = xih 171) then Some [70; 71] else if decide (h = xih 18) then Some [80] else None)
    (fun h => if decide (h = xih 171) then Some 500 else if decide (h = xih 18) then Some 600 else None)
    (fun b => Some (N.of_nat (length b), b)) (fun b => Some (N.of_nat (length b))).
(** "ab" and "aB" over and over. *)
Definition xilow : list N := concat (repeat [97; 98] 32).
Definition xiup : list N := concat (repeat [97; 66] 32).
Lemma xi_spells a b hi lo : hex_digit a hi -> hex_digit b lo ->
  forall k, spells (concat (repeat [a; b] k)) (repeat (16 * hi + lo) k).
Proof. intros A B. induction k; cbn [repeat concat app]; constructor; assumption. Qed.

(** ** C176 *)
(** A number in decimal: the block of that number on the chain. *)
Theorem C176_number : forall (hdr ext : Type) (c : chain hdr ext) s n, numeral s n -> n < 2 ^ 32 ->
  forall header body, inspect_block c s = Some (header, body) <->
    exists h, c_number c n = Some h /\ c_header c h = Some header /\ c_body c h = Some body.
Proof.
  intros hdr ext c s n H L header body. unfold inspect_block.
  rewrite (addr_read s (BNumber n)) by (left; eauto). cbn. unfold by_hash. split.
  - destruct (c_number c n) as [h|]; [|discriminate]. cbn. destruct (c_body c h) as [b|] eqn:B; [|discriminate]. cbn.
    destruct (c_header c h) as [e|] eqn:E; [|discriminate]. cbn. intros [= <- <-]. eauto.
  - intros (h & -> & E & B). cbn. now rewrite B, E.
Qed.
Print Assumptions C176_number.
Example C176_number_nonvacuous :
  numeral [53] 5 /\ inspect_block xic [53] = Some (500, [70; 71]) /\ inspect_block xic [54] = Some (600, [80]) /\ inspect_block xic [55] = None.
Proof.
  split; [|vm_compute; repeat split]. repeat split; [discriminate|repeat constructor; unfold digit; lia|].
  intros [=].
Qed.

(** A hash of 32 bytes in hex, either case, no prefix: the block of that hash. *)
Theorem C176_hash : forall (hdr ext : Type) (c : chain hdr ext) s h, spells s h -> length h = 32%nat ->
  forall header body, inspect_block c s = Some (header, body) <-> c_header c h = Some header /\ c_body c h = Some body.
Proof.
  intros hdr ext c s h H L header body. unfold inspect_block.
  rewrite (addr_read s (BHash h)) by (right; eauto). cbn. unfold by_hash. split.
  - destruct (c_body c h) as [b|] eqn:B; [|discriminate]. cbn.
    destruct (c_header c h) as [e|] eqn:E; [|discriminate]. cbn. intros [= <- <-]. auto.
  - intros (E & B). cbn. now rewrite B, E.
Qed.
Print Assumptions C176_hash.
Example C176_hash_nonvacuous :
  spells xilow (xih 171) /\ spells xiup (xih 171) /\
  inspect_block xic xilow = Some (500, [70; 71]) /\ inspect_block xic xiup = Some (500, [70; 71]).
Proof.
  split; [apply (xi_spells 97 98 10 11); right; lia|]. split; [apply (xi_spells 97 66 10 11); right; lia|].
  vm_compute. repeat split.
Qed.

(** "0x" and more than 32 bytes in hex, as every encoded block is: the block so encoded. *)
Theorem C176_bytes : forall (hdr ext : Type) (c : chain hdr ext) s b, spells s b -> (32 < length b)%nat ->
  inspect_block c (hexmark ++ s) = c_block c b.
Proof. intros hdr ext c s b H L. unfold inspect_block. rewrite (bytes_read s b H) by lia. reflexivity. Qed.
Print Assumptions C176_bytes.
Example C176_bytes_nonvacuous :
  spells (concat (repeat [97; 98] 33)) (repeat 171 33) /\
  inspect_block xic (hexmark ++ concat (repeat [97; 98] 33)) = Some (33, repeat 171 33).
Proof. split; [apply (xi_spells 97 98 10 11); right; lia|]. now vm_compute. Qed.

(** Nothing else is taken for a number or a hash: a text read as the number n is n in decimal, with
    zeros or one plus in front at most; a text read as a hash spells it once blanks are dropped,
    after "0x" at most. *)
Theorem C176_only : forall s,
  (forall n, block_addr s = Some (BNumber n) -> exists t, (s = t \/ s = 43 :: t) /\ t <> [] /\ Forall digit t /\ value t = n) /\
  (forall h, block_addr s = Some (BHash h) ->
    exists t, (s = t \/ s = hexmark ++ t) /\ spells (visible t) h /\ length h = 32%nat).
Proof.
  intros s. unfold block_addr. split.
  - intros n H. destruct (hash_of s); [discriminate|]. destruct (number_of two32 s) as [m|] eqn:E.
    + injection H as ->. exact (number_sound _ _ _ E).
    + destruct (from_hex s); discriminate.
  - intros h H. destruct (hash_of s) as [h'|] eqn:E.
    + injection H as ->. unfold hash_of in E. apply hash_sound in E as [E L]. exists (strip s). split; [|auto].
      destruct (strip_cases s) as [Q|Q]; [left; now symmetry|now right].
    + destruct (number_of two32 s); [discriminate|]. destruct (from_hex s); discriminate.
Qed.
Print Assumptions C176_only.
Example C176_only_nonvacuous :
  block_addr [43; 48; 53] = Some (BNumber 5) /\ block_addr (hexmark ++ [32] ++ xilow) = Some (BHash (xih 171)).
Proof. now vm_compute. Qed.

(** ** C177 *)
(** Block and index with a colon between: the extrinsic at that place in that block. *)
Theorem C177_number : forall (hdr ext : Type) (c : chain hdr ext) s n t i,
  numeral s n -> n < 2 ^ 32 -> numeral t i -> i < 2 ^ 64 ->
  forall x, inspect_extrinsic c (s ++ COLON :: t) = Some x <->
    exists header body, inspect_block c s = Some (header, body) /\ body !! N.to_nat i = Some x.
Proof.
  intros hdr ext c s n t i H L T I x. assert (A : addr_text s (BNumber n)) by (left; eauto).
  unfold inspect_extrinsic, inspect_block. rewrite (pair_read _ _ COLON _ _ A (or_introl eq_refl) T I), (addr_read _ _ A).
  cbn [mbind option_bind get_extrinsic]. destruct (get_block c (BNumber n)) as [[e b]|]; cbn.
  - split; [eauto|]. now intros (? & ? & [= <- <-] & ?).
  - split; [discriminate|]. now intros (? & ? & ? & ?).
Qed.
Print Assumptions C177_number.
Theorem C177_hash : forall (hdr ext : Type) (c : chain hdr ext) s h t i,
  spells s h -> length h = 32%nat -> numeral t i -> i < 2 ^ 64 ->
  forall x, inspect_extrinsic c (s ++ COLON :: t) = Some x <->
    exists header body, inspect_block c s = Some (header, body) /\ body !! N.to_nat i = Some x.
Proof.
  intros hdr ext c s h t i H L T I x. assert (A : addr_text s (BHash h)) by (right; eauto).
  unfold inspect_extrinsic, inspect_block. rewrite (pair_read _ _ COLON _ _ A (or_introl eq_refl) T I), (addr_read _ _ A).
  cbn [mbind option_bind get_extrinsic]. destruct (get_block c (BHash h)) as [[e b]|]; cbn.
  - split; [eauto|]. now intros (? & ? & [= <- <-] & ?).
  - split; [discriminate|]. now intros (? & ? & ? & ?).
Qed.
Print Assumptions C177_hash.
(** "0x" and bytes in hex, however many: the extrinsic so encoded. *)
Theorem C177_bytes : forall (hdr ext : Type) (c : chain hdr ext) s b, spells s b ->
  inspect_extrinsic c (hexmark ++ s) = c_extrinsic c b.
Proof.
  intros hdr ext c s b H. unfold inspect_extrinsic, extrinsic_addr. rewrite (from_hex_spells _ _ H). reflexivity.
Qed.
Print Assumptions C177_bytes.
Example C177_nonvacuous :
  inspect_extrinsic xic ([53] ++ COLON :: [49]) = Some 71 /\ inspect_extrinsic xic ([53] ++ COLON :: [50]) = None /\
  inspect_extrinsic xic (xiup ++ COLON :: [48]) = Some 70 /\ inspect_extrinsic xic (hexmark ++ xiup) = Some 32.
Proof. vm_compute. repeat split. Qed.

(** ** C178 *)
(** The address is split at a dot, a colon or a space, but a space never gets that far: what is in
    front of it and behind it is taken for the encoding of an extrinsic. *)
Definition separates (x : N) : Prop :=
  forall (hdr ext : Type) (c : chain hdr ext) s n t i, numeral s n -> n < 2 ^ 32 -> numeral t i -> i < 2 ^ 64 ->
  forall e, inspect_extrinsic c (s ++ x :: t) = Some e <->
    exists header body, inspect_block c s = Some (header, body) /\ body !! N.to_nat i = Some e.
Theorem C178_partial : separates COLON /\ separates DOT.
Proof.
  split; intros hdr ext c s n t i H L T I x.
  { now apply (C177_number _ _ c s n t i). }
  assert (A : addr_text s (BNumber n)) by (left; eauto).
  unfold inspect_extrinsic, inspect_block. rewrite (pair_read _ _ DOT _ _ A (or_intror eq_refl) T I), (addr_read _ _ A).
  cbn [mbind option_bind get_extrinsic]. destruct (get_block c (BNumber n)) as [[e b]|]; cbn.
  - split; [eauto|]. now intros (? & ? & [= <- <-] & ?).
  - split; [discriminate|]. now intros (? & ? & ? & ?).
Qed.
Print Assumptions C178_partial.
Example C178_partial_nonvacuous : inspect_extrinsic xic ([53] ++ DOT :: [48]) = Some 70.
Proof. now vm_compute. Qed.

Theorem C178_refuted : exists s t : list N, exists n i : N, numeral s n /\ numeral t i /\
  inspect_block xic s = Some (500, [70; 71]) /\ [70; 71] !! N.to_nat i = Some 70 /\
  inspect_extrinsic xic (s ++ SPACE :: t) = Some 2.
Proof.
  exists [53], [48], 5, 0. vm_compute. repeat split; try discriminate; try (repeat constructor; discriminate).
Qed.
Print Assumptions C178_refuted.
(** Whatever the block, the index and the chain. *)
Theorem C178_never : forall s n t i, numeral s n -> n < 2 ^ 32 -> numeral t i ->
  exists b, forall (hdr ext : Type) (c : chain hdr ext), inspect_extrinsic c (s ++ SPACE :: t) = c_extrinsic c b.
Proof.
  intros s n t i H L T. assert (A : addr_text s (BNumber n)) by (left; eauto).
  destruct (space_bytes _ _ _ _ A T) as [b E]. exists b. intros hdr ext c. unfold inspect_extrinsic.
  change (s ++ SPACE :: t) with (s ++ 32 :: t). rewrite E. reflexivity.
Qed.
Print Assumptions C178_never.
Example C178_never_nonvacuous : extrinsic_addr ([53] ++ SPACE :: [48]) = Some (XBytes [5; 0]).
Proof. now vm_compute. Qed.
(** The crate's own test, lib.rs:298-323. *)
Example C178_test :
  extrinsic_addr [49; 50; 51; 52] = Some (XBytes [18; 52]) /\ extrinsic_addr [48; 32; 48] = Some (XBytes [0; 0]) /\
  extrinsic_addr [49; 50; 51; 52; 58; 48] = Some (XBlock (BNumber 1234) 0).
Proof. vm_compute. repeat split. Qed.
