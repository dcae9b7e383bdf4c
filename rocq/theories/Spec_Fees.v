(** Who ought to pay and receive what. *)
From Verif Require Import Base Balances.
From stdpp Require Import gmap.
Open Scope N_scope.

(** The account exists and may receive any amount. *)
Definition alive (ed : N) (b : bank) (who : N) : Prop := ed <= free_of b who \/ rsv (acct_of b who) <> 0.
(** Four fifths, rounded down. *)
Definition most (x : N) : N := 4 * x / 5.
(** An amount that concerns [who] only. *)
Definition if_is (w who v : N) : N := if w =? who then v else 0.
Definition if_some (w : N) (who : option N) (v : N) : N := match who with Some a => if_is w a v | None => 0 end.
