(** What the node migration promises: the SCALE format of the two record types, as in the
    codec's documentation. *)
From Verif Require Import Base Model_Migration.
From stdpp Require Import gmap.
Open Scope N_scope.

Definition byte (x : N) : Prop := x < 256.
(** The bytes [l] are the number [x], least significant first. *)
Fixpoint little (l : list N) (x : N) : Prop :=
  match l with
  | [] => x = 0
  | b :: r => byte b /\ exists y, x = b + 256 * y /\ little r y
  end.
(** The bytes [l] are the length [n]: the two low bits say how many bytes there are. *)
Definition is_length (l : list N) (n : N) : Prop :=
  (length l = 1%nat /\ n < 2 ^ 6 /\ little l (4 * n)) \/
  (length l = 2%nat /\ 2 ^ 6 <= n < 2 ^ 14 /\ little l (4 * n + 1)) \/
  (length l = 4%nat /\ 2 ^ 14 <= n < 2 ^ 30 /\ little l (4 * n + 2)) \/
  (exists r, l = 3 :: r /\ length r = 4%nat /\ 2 ^ 30 <= n < 2 ^ 32 /\ little r n).
(** The bytes [l] are the byte string [v]. *)
Definition is_string (l v : list N) : Prop :=
  exists h, l = h ++ v /\ is_length h (N.of_nat (length v)) /\ Forall byte v.
(** The record before: account, IP address, country, expiry block. *)
Definition is_old (l acct ip country : list N) (expire : N) : Prop :=
  exists i c e, l = acct ++ i ++ c ++ e /\ length acct = 32%nat /\ Forall byte acct /\
    is_string i ip /\ is_string c country /\ length e = 4%nat /\ little e expire.
(** The record after: account, country, expiry block. *)
Definition is_new (l acct country : list N) (expire : N) : Prop :=
  exists c e, l = acct ++ c ++ e /\ length acct = 32%nat /\ Forall byte acct /\
    is_string c country /\ length e = 4%nat /\ little e expire.
