(** Model of /repo/pallets/tips/src/lib.rs:725-777, [migrate_retract_tip_for_tip_new], on the
    bytes in storage. Nothing in /repo but a unit test calls it: it is there for the runtime to
    call. SCALE as in Model_Migration; [storage_key_iter(..).drain()] (frame_support) passes over
    values that do not decode and takes the others out; the pallet's map and the map that is
    read are taken to be the same, as in tests.rs:750-764. Keys stand for hashes. *)
From Verif Require Import Base Model_Migration.
From stdpp Require Import gmap.
Open Scope N_scope.

(** SCALE [Option<T>] and [Vec<T>] of values of a fixed length. *)
Definition opt_dec {A} (d : list N -> option (A * list N)) (l : list N) : option (option A * list N) :=
  match l with
  | 0 :: r => Some (None, r)
  | 1 :: r => '(x, r) ← d r; Some (Some x, r)
  | _ => None
  end.
Definition int_dec (k : nat) (l : list N) : option (N * list N) := '(b, r) ← read k l; Some (le_val b, r).
(** An account and an integer of [k] bytes. *)
Definition entry_dec (k : nat) (l : list N) : option (list N * N * list N) :=
  '(a, r) ← read 32 l; '(v, r) ← int_dec k r; Some (a, v, r).
Fixpoint entries_dec (k : nat) (n : nat) (l : list N) : option (list (list N * N) * list N) :=
  match n with
  | O => Some ([], l)
  | S m => '(e, r) ← entry_dec k l; '(es, r) ← entries_dec k m r; Some (e :: es, r)
  end.
Definition items_dec (k : nat) (l : list N) : option (list (list N * N) * list N) :=
  '(n, r) ← compact_dec l; entries_dec k (N.to_nat n) r.
Definition flag_dec (l : list N) : option (bool * list N) :=
  match l with 0 :: r => Some (false, r) | 1 :: r => Some (true, r) | _ => None end.

(** lib.rs:728-749 OldOpenTip, its [Decode]. *)
Record old_tip := OldTip {
  q_reason : list N; q_who : list N; q_finder : option (list N * N); q_closes : option N;
  q_tips : list (list N * N) }.
Definition old_dec (l : list N) : option old_tip :=
  '(reason, r) ← read 32 l;
  '(who, r) ← read 32 r;
  '(finder, r) ← opt_dec (entry_dec 16) r;
  '(closes, r) ← opt_dec (int_dec 4) r;
  '(tips, _) ← items_dec 16 r;
  Some (OldTip reason who finder closes tips).

(** lib.rs:86-111 OpenTip, its [Encode] and [Decode]. *)
Record new_tip := NewTip {
  p_reason : list N; p_who : list N; p_finder : list N; p_deposit : N; p_closes : option N;
  p_tips : list (list N * N); p_fee : bool; p_credits : list (list N * N) }.
Definition opt_enc (o : option N) : list N := match o with None => [0] | Some x => 1 :: le_enc 4 x end.
Definition items_enc (k : nat) (v : list (list N * N)) : list N :=
  compact_enc (N.of_nat (length v)) ++ concat (map (fun e => e.1 ++ le_enc k e.2) v).
Definition new_enc (t : new_tip) : list N :=
  p_reason t ++ p_who t ++ p_finder t ++ le_enc 16 (p_deposit t) ++ opt_enc (p_closes t) ++
  items_enc 16 (p_tips t) ++ [if p_fee t then 1 else 0] ++ items_enc 8 (p_credits t).
Definition new_dec (l : list N) : option new_tip :=
  '(reason, r) ← read 32 l;
  '(who, r) ← read 32 r;
  '(finder, r) ← read 32 r;
  '(deposit, r) ← int_dec 16 r;
  '(closes, r) ← opt_dec (int_dec 4) r;
  '(tips, r) ← items_dec 16 r;
  '(fee, r) ← flag_dec r;
  '(credits, _) ← items_dec 8 r;
  Some (NewTip reason who finder deposit closes tips fee credits).

(** lib.rs:759-775: one tip. *)
Definition zero_account : list N := repeat 0 32.
Definition convert (t : old_tip) : new_tip :=
  let '(finder, deposit, fee) :=
    match q_finder t with Some (f, d) => (f, d, true) | None => (zero_account, 0, false) end in
  NewTip (q_reason t) (q_who t) finder deposit (q_closes t) (q_tips t) fee [].
Definition translate (v : list N) : list N :=
  match old_dec v with Some t => new_enc (convert t) | None => v end.
(** lib.rs:753-776. *)
Definition migrate (tips : gmap N (list N)) : gmap N (list N) := translate <$> tips.
(** What the pallet then reads (lib.rs:168-175; an undecodable value reads as none). *)
Definition tip_at (tips : gmap N (list N)) (h : N) : option new_tip := v ← tips !! h; new_dec v.
