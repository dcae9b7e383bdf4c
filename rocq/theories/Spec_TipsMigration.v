(** The SCALE format of stored tips, before and after the migration. *)
From Verif Require Import Base Spec_Migration.
From stdpp Require Import gmap.
Open Scope N_scope.

Definition is_account (l : list N) : Prop := length l = 32%nat /\ Forall byte l.
(** The bytes [l] are the integer [x] of [k] bytes; an account and such an integer. *)
Definition is_int (k : nat) (l : list N) (x : N) : Prop := length l = k /\ little l x.
Definition is_entry (k : nat) (l : list N) (e : list N * N) : Prop :=
  exists v, l = e.1 ++ v /\ is_account e.1 /\ is_int k v e.2.
Definition is_option {A} (P : list N -> A -> Prop) (l : list N) (o : option A) : Prop :=
  match o with None => l = [0] | Some x => exists r, l = 1 :: r /\ P r x end.
Definition is_list (k : nat) (l : list N) (es : list (list N * N)) : Prop :=
  exists h ls, l = h ++ concat ls /\ is_length h (N.of_nat (length es)) /\ Forall2 (is_entry k) ls es.
Definition is_bool (l : list N) (b : bool) : Prop := l = [if b then 1 else 0].

(** A tip before: reason, beneficiary, finder and deposit if there is a finder, closing block
    if it closes, what the members said. *)
Definition is_old_tip (l reason who : list N) (finder : option (list N * N)) (closes : option N)
    (tips : list (list N * N)) : Prop :=
  exists f c t, l = reason ++ who ++ f ++ c ++ t /\ is_account reason /\ is_account who /\
    is_option (is_entry 16) f finder /\ is_option (is_int 4) c closes /\ is_list 16 t tips.
(** A tip after: finder and deposit always, whether the finder gets a fee, and credit tips. *)
Definition is_new_tip (l reason who finder : list N) (deposit : N) (closes : option N)
    (tips : list (list N * N)) (fee : bool) (credits : list (list N * N)) : Prop :=
  exists d c t b k, l = reason ++ who ++ finder ++ d ++ c ++ t ++ b ++ k /\
    is_account reason /\ is_account who /\ is_account finder /\ is_int 16 d deposit /\
    is_option (is_int 4) c closes /\ is_list 16 t tips /\ is_bool b fee /\ is_list 8 k credits.
