(** How people write numbers, hashes and bytes. *)
From Verif Require Import Base.
From stdpp Require Import list numbers.
Open Scope N_scope.

(** '0' is 48, 'A' 65, 'a' 97. *)
Definition hex_digit (b d : N) : Prop :=
  (d < 10 /\ b = 48 + d) \/ (10 <= d < 16 /\ (b = 65 + (d - 10) \/ b = 97 + (d - 10))).
(** Two digits a byte, the high half first. *)
Inductive spells : list N -> list N -> Prop :=
| spells_nil : spells [] []
| spells_cons a b hi lo s bs : hex_digit a hi -> hex_digit b lo -> spells s bs ->
    spells (a :: b :: s) (16 * hi + lo :: bs).

Definition digit (b : N) : Prop := 48 <= b <= 57.
Definition value (s : list N) : N := fold_left (fun v b => 10 * v + (b - 48)) s 0.
(** A decimal number without leading zeros. *)
Definition numeral (s : list N) (n : N) : Prop :=
  s <> [] /\ Forall digit s /\ (head s = Some 48 -> s = [48]) /\ value s = n.
(** '0x', ':', '.' and ' '. *)
Definition hexmark : list N := [48; 120].
Definition COLON : N := 58.
Definition DOT : N := 46.
Definition SPACE : N := 32.
Definition visible (s : list N) : list N := List.filter (fun b => negb ((b =? 32) || (b =? 13) || (b =? 10) || (b =? 9))) s.
