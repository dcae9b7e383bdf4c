(** Specification vocabulary for traffic claims. *)
From Verif Require Import Base Model_CreditAccumulation.
From stdpp Require Import gmap.
Open Scope N_scope.

Section spec.
  Context (verify : N -> list N -> list N -> bool) (hash : list N -> list N).

  (** The nonce of the claim that step [x] makes for [who], if it succeeds in [s]. *)
  Definition accepted_one (who : N) (s : astate) (x : origin * acall) : list N :=
    match x with
    | (Signed a, AAddCredit nonce _) =>
        if (a =? who) && is_ok (snd (astep verify hash s x.1 x.2)) then [nonce] else []
    | _ => []
    end.

  (** Nonces of the accepted claims of [who] in a history, oldest first. *)
  Fixpoint accepted (who : N) (s : astate) (h : list (origin * acall)) : list N :=
    match h with
    | [] => []
    | x :: r => accepted_one who s x ++ accepted who (ado verify hash s x) r
    end.

  (** [sg] is a signature under [key] on exactly this nonce and account. *)
  Definition signed_claim (key nonce who : N) (sg : list N) : Prop :=
    verify key (hash (claim_bytes key nonce who))
      (if (length sg =? 64)%nat then sg else repeat 0 64) = true.
End spec.

(** 0, 1, 2, ... as 64-bit numbers. *)
Definition counter (len : nat) : list N := map (fun i => N.of_nat i mod two64) (seq 0 len).
