(** Model of the inspect subcommand, /repo/inspect/src/lib.rs:142-271 and command.rs:41-54: how
    the address of a block or an extrinsic is read and what is looked up. Text is a list of bytes.
    Library code written down from its published source: [from_hex] of impl-serde 0.4 (re-exported
    as sp_core::bytes::from_hex), [FromStr] of the 32-byte hash (fixed-hash 0.8 with rustc-hex 2.1)
    and of the integers (core). The client of the node and the SCALE decoders are parameters; how
    a block is printed is left out. *)
From Verif Require Import Base.
From stdpp Require Import list numbers.
Open Scope N_scope.

Notation text := (list N).

(** A hex digit: '0'..'9', 'A'..'F', 'a'..'f'. *)
Definition nibble (b : N) : option N :=
  if (48 <=? b) && (b <=? 57) then Some (b - 48)
  else if (65 <=? b) && (b <=? 70) then Some (b - 65 + 10)
  else if (97 <=? b) && (b <=? 102) then Some (b - 97 + 10) else None.
(** ' ', '\r', '\n', '\t'. *)
Definition blank (b : N) : bool := (b =? 32) || (b =? 13) || (b =? 10) || (b =? 9).
(** [strip_prefix("0x")]. *)
Definition strip (s : text) : text := match s with 48 :: 120 :: r => r | _ => s end.

(** impl-serde [from_hex_raw]: the byte under construction is a u8. *)
Fixpoint hex_raw (s : text) (modulus buf : N) : option (list N) :=
  match s with
  | [] => Some []
  | b :: r =>
      let buf := (buf * 16) mod 256 in
      match nibble b with
      | Some d =>
          let buf := N.lor buf d in
          if modulus + 1 =? 2 then cons buf <$> hex_raw r 0 buf else hex_raw r (modulus + 1) buf
      | None => if blank b then hex_raw r modulus (buf / 16) else None
      end
  end.
(** impl-serde [from_hex]: a vector of (length + 1) / 2 zeros is filled from the front. *)
Definition from_hex (s : text) : option (list N) :=
  let v := strip s in
  out ← hex_raw v (N.of_nat (length v) mod 2) 0;
  Some (out ++ repeat 0 ((length v + 1) / 2 - length out)%nat).

(** rustc-hex [FromHexIter::next]: None at the end, Some None an error. *)
Fixpoint hex_next (s : text) (modulus buf : N) : option (option N) * text :=
  match s with
  | [] => (if modulus =? 0 then None else Some None, [])
  | b :: r =>
      let buf := (buf * 16) mod 256 in
      match nibble b with
      | Some d => if modulus + 1 =? 2 then (Some (Some (N.lor buf d)), r) else hex_next r (modulus + 1) (N.lor buf d)
      | None => if blank b then hex_next r modulus (buf / 16) else (Some None, r)
      end
  end.
(** fixed-hash [from_str]: exactly [k] bytes. *)
Fixpoint hash_bytes (k : nat) (s : text) : option (list N) :=
  match k with
  | O => match (hex_next s 0 0).1 with None => Some [] | Some _ => None end
  | S k' => match hex_next s 0 0 with
            | (Some (Some b), r) => cons b <$> hash_bytes k' r
            | _ => None
            end
  end.
Definition hash_of (s : text) : option (list N) := hash_bytes 32 (strip s).

(** core [from_str] of an unsigned integer below [bound]. *)
Fixpoint digits (bound acc : N) (s : text) : option N :=
  match s with
  | [] => Some acc
  | b :: r =>
      if (48 <=? b) && (b <=? 57) then
        if bound <=? acc * 10 then None else
        if bound <=? acc * 10 + (b - 48) then None else digits bound (acc * 10 + (b - 48)) r
      else None
  end.
Definition number_of (bound : N) (s : text) : option N :=
  match s with
  | [] => None
  | [43] | [45] => None
  | 43 :: r => digits bound 0 r
  | _ => digits bound 0 s
  end.

(** lib.rs:203-212 BlockAddress; 214-236 its [from_str]: hash, then number (u32), then bytes. *)
Inductive baddr := BHash (h : list N) | BNumber (n : N) | BBytes (b : list N).
Definition block_addr (s : text) : option baddr :=
  match hash_of s with
  | Some h => Some (BHash h)
  | None =>
      match number_of two32 s with
      | Some n => Some (BNumber n)
      | None => BBytes <$> from_hex s
      end
  end.
(** [split] at '.', ':' and ' ': the first part and the second, if there is one. *)
Definition separator (b : N) : bool := (b =? 46) || (b =? 58) || (b =? 32).
Fixpoint split_first (s : text) : text * option text :=
  match s with
  | [] => ([], None)
  | b :: r => if separator b then ([], Some r) else let '(f, t) := split_first r in (b :: f, t)
  end.
(** lib.rs:238-245 ExtrinsicAddress; 247-271 its [from_str]: bytes first, then block and index
    (usize, 64 bits); what follows a further separator is ignored. *)
Inductive xaddr := XBlock (a : baddr) (index : N) | XBytes (b : list N).
Definition extrinsic_addr (s : text) : option xaddr :=
  match from_hex s with
  | Some b => Some (XBytes b)
  | None =>
      let '(first, rest) := split_first s in
      a ← block_addr first;
      r ← rest;
      i ← number_of two64 (split_first r).1;
      Some (XBlock a i)
  end.

(** What the client knows and the decoders. *)
Record chain (hdr ext : Type) := Chain {
  c_number : N -> option (list N);
  c_body : list N -> option (list ext);
  c_header : list N -> option hdr;
  c_block : list N -> option (hdr * list ext);
  c_extrinsic : list N -> option ext }.
Arguments c_number {_ _}. Arguments c_body {_ _}. Arguments c_header {_ _}.
Arguments c_block {_ _}. Arguments c_extrinsic {_ _}.

Section inspect.
  Context {hdr ext : Type} (c : chain hdr ext).
  (** lib.rs:142-172 get_block. *)
  Definition by_hash (h : list N) : option (hdr * list ext) :=
    body ← c_body c h; header ← c_header c h; Some (header, body).
  Definition get_block (a : baddr) : option (hdr * list ext) :=
    match a with
    | BBytes b => c_block c b
    | BNumber n => h ← c_number c n; by_hash h
    | BHash h => by_hash h
    end.
  (** lib.rs:174-200 extrinsic. *)
  Definition get_extrinsic (a : xaddr) : option ext :=
    match a with
    | XBlock b i => blk ← get_block b; blk.2 !! N.to_nat i
    | XBytes b => c_extrinsic c b
    end.
  (** command.rs:41-54. *)
  Definition inspect_block (s : text) : option (hdr * list ext) := a ← block_addr s; get_block a.
  Definition inspect_extrinsic (s : text) : option ext := a ← extrinsic_addr s; get_extrinsic a.
End inspect.
