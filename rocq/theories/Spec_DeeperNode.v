(** Specification vocabulary for devices and servers. *)
From Verif Require Import Base Balances Model_DeeperNode.
From stdpp Require Import gmap strings.
Open Scope N_scope.

(** What the accepted calls say about the devices: the country of each
    registered device and whether it serves. *)
Notation registry := (gmap N (string * bool)).

Definition reg_call (r : registry) (who : N) (c : dcall) : registry :=
  match c with
  | DRegister country =>
      match r !! who with
      | Some (old, sv) =>
          <[who := (country, if bool_decide (old = country) then sv else false)]> r
      | None => <[who := (country, false)]> r
      end
  | DUnregister => delete who r
  | DRegisterServer _ =>
      match r !! who with Some (c, _) => <[who := (c, true)]> r | None => r end
  | DUnregisterServer =>
      match r !! who with Some (c, _) => <[who := (c, false)]> r | None => r end
  | _ => r
  end.

Section spec.
  Context (cfg : dcfg).

  (** Registry after a history: accepted calls only, in order. *)
  Fixpoint registry_after (s : dstate) (r : registry) (h : list dop) : registry :=
    match h with
    | [] => r
    | o :: h' =>
        let r' := match o.1.2 with
                  | Signed who =>
                      if is_ok (snd (dstep cfg s o.1.1 o.1.2 o.2)) then reg_call r who o.2 else r
                  | _ => r
                  end in
        registry_after (ddo cfg s o) r' h'
    end.
End spec.

(** [who] serves country [c]. *)
Definition serves (r : registry) (who : N) (c : string) : Prop := r !! who = Some (c, true).

(** Strictly increasing list. *)
Definition increasing (l : list N) : Prop :=
  forall (i j : nat) (x y : N), (i < j)%nat -> l !! i = Some x -> l !! j = Some y -> x < y.

(** The heartbeats of [who] in a history: block numbers, oldest first. *)
Fixpoint heartbeats (who : N) (h : list dop) : list N :=
  match h with
  | [] => []
  | o :: h' =>
      match o.1.2, o.2 with
      | Signed a, DImOnline => if a =? who then [x_now o.1.1] else []
      | _, _ => []
      end ++ heartbeats who h'
  end.

(** Accounts in the order of their first heartbeat. *)
Fixpoint beaters (h : list dop) : list N :=
  match h with
  | [] => []
  | o :: h' =>
      match o.1.2, o.2 with
      | Signed a, DImOnline => [a]
      | _, _ => []
      end ++ beaters h'
  end.
