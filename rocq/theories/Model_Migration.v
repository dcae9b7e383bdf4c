(** Model of /repo/pallets/deeper-node/src/migration.rs, run by /repo/runtime/src/lib.rs:1694-1704
    ([Migrations] of the Executive), on the bytes in storage. The SCALE codec
    (parity-scale-codec 3) and [StorageMap::translate] (frame_support) are library code, written
    down here from their published behaviour. Storage keys stand for the accounts they hash; a
    key that does not decode (none is ever written) is left out. *)
From Verif Require Import Base.
From stdpp Require Import gmap.
Open Scope N_scope.

(** SCALE: unsigned integers are little-endian. *)
Fixpoint le_enc (k : nat) (x : N) : list N :=
  match k with O => [] | S k' => x mod 256 :: le_enc k' (x / 256) end.
Fixpoint le_val (l : list N) : N :=
  match l with [] => 0 | x :: r => x + 256 * le_val r end.
(** [Input::read]: take exactly [k] bytes. *)
Definition read (k : nat) (l : list N) : option (list N * list N) :=
  if Nat.leb k (length l) then Some (take k l, drop k l) else None.

(** [Compact<u32>]: encode and decode; a length written with more bytes than needed is refused. *)
Definition compact_enc (n : N) : list N :=
  if n <? 64 then [4 * n]
  else if n <? 16384 then le_enc 2 (4 * n + 1)
  else if n <? 1073741824 then le_enc 4 (4 * n + 2)
  else 3 :: le_enc 4 n.
Definition compact_dec (l : list N) : option (N * list N) :=
  match l with
  | [] => None
  | p :: r =>
      match p mod 4 with
      | 0 => Some (p / 4, r)
      | 1 => '(b, r') ← read 1 r;
             let x := le_val (p :: b) / 4 in
             if (63 <? x) && (x <=? 16383) then Some (x, r') else None
      | 2 => '(b, r') ← read 3 r;
             let x := le_val (p :: b) / 4 in
             if (16383 <? x) && (x <=? 1073741823) then Some (x, r') else None
      | _ => if p / 4 =? 0 then
               '(b, r') ← read 4 r;
               let x := le_val b in
               if 1073741823 <? x then Some (x, r') else None
             else None
      end
  end.
(** [Vec<u8>]. *)
Definition bytes_enc (v : list N) : list N := compact_enc (N.of_nat (length v)) ++ v.
Definition bytes_dec (l : list N) : option (list N * list N) :=
  '(n, r) ← compact_dec l; read (N.to_nat n) r.

(** migration.rs:15-20 OldNode (account: 32 bytes, expire: u32), its [Decode]. *)
Record old_node := OldNode { o_acct : list N; o_ipv4 : list N; o_country : list N; o_expire : N }.
Definition old_dec (l : list N) : option old_node :=
  '(a, r) ← read 32 l;
  '(ip, r) ← bytes_dec r;
  '(c, r) ← bytes_dec r;
  '(e, _) ← read 4 r;
  Some (OldNode a ip c (le_val e)).
(** lib.rs:43-48 Node, its [Encode] and [Decode]. *)
Record new_node := NewNode { w_acct : list N; w_country : list N; w_expire : N }.
Definition new_enc (n : new_node) : list N :=
  w_acct n ++ bytes_enc (w_country n) ++ le_enc 4 (w_expire n).
Definition new_dec (l : list N) : option new_node :=
  '(a, r) ← read 32 l;
  '(c, r) ← bytes_dec r;
  '(e, _) ← read 4 r;
  Some (NewNode a c (le_val e)).

(** The pallet's on-chain storage version and the raw [DeviceInfo]. *)
Record gstate := GState { g_version : N; g_devices : gmap N (list N) }.

(** migration.rs:30-40: [DeviceInfo::translate]. A value that does not decode is skipped. *)
Definition translate (v : list N) : list N :=
  match old_dec v with
  | Some n => new_enc (NewNode (o_acct n) (o_country n) (o_expire n))
  | None => v
  end.
(** migration.rs:24-57 MigrateToV1::on_runtime_upgrade; the pallet's own version is 1 (lib.rs:95). *)
Definition current_version : N := 1.
Definition upgrade (s : gstate) : gstate :=
  if (g_version s =? 0) && (current_version =? 1)
  then GState current_version (translate <$> g_devices s)
  else s.

(** What the pallet reads of an account's device (lib.rs:110-117; ValueQuery: nothing or
    undecodable bytes read as the default). *)
Definition device (s : gstate) (a : N) : new_node :=
  default (NewNode (repeat 0 32) [] 0) (v ← g_devices s !! a; new_dec v).
