(** What the tips pallet promises, in terms of the calls made and their outcomes. *)
From Verif Require Import Base Balances Model_Tips.
From stdpp Require Import gmap sorting.
Open Scope N_scope.

(** Every call made so far, with its outcome. *)
Definition tlog (cfg : tcfg) (s : tstate) (hist : list tiop) : list (tiop * tout) :=
  zip hist (touts cfg s hist).

(** The two kinds of values that tippers declare. *)
Inductive chan := Coin | Cred.
Global Instance chan_eq : EqDecision chan.
Proof. solve_decision. Defined.

(** What account [a] has declared for tip [h] after one more call: a new opening of
    the tip forgets everything, a tipper's own call counts, and any declaration made
    while [a] is not a tipper drops what [a] had said. *)
Definition said (cfg : tcfg) (ch : chan) (h a : N) (was : option N) (e : tiop * tout) : option N :=
  match e with
  | (TCall x o c, TDone _) =>
      let opened reason who := tc_thash cfg (tc_rhash cfg reason) who =? h in
      let by_a := match o with Signed w => w =? a | _ => false end in
      let declared ch' k v :=
        if bool_decide (ch = ch') && (k =? h)
        then if by_a then Some v else if bool_decide (a ∈ tx_members x) then was else None
        else was in
      let first ch' reason who v :=
        if opened reason who then if bool_decide (ch = ch') && by_a then Some v else None else was in
      match c with
      | TReport reason who => if opened reason who then None else was
      | TTipNew reason who v => first Coin reason who v
      | TCreditNew reason who v => first Cred reason who v
      | TTip k v => declared Coin k v
      | TCreditTip k v => declared Cred k v
      | TRetract k | TClose k | TSlash k | TCreditClose k => if k =? h then None else was
      | TSetOwner _ => was
      end
  | _ => was
  end.
Definition latest (cfg : tcfg) (ch : chan) (l : list (tiop * tout)) (h a : N) : option N :=
  fold_left (said cfg ch h a) l None.
(** The values declared by the given tippers. *)
Definition declared (cfg : tcfg) (ch : chan) (l : list (tiop * tout)) (h : N) (m : list N) : list N :=
  omap (latest cfg ch l h) m.

(** The (upper) median. *)
Definition is_median (v : N) (l : list N) : Prop :=
  v ∈ l /\ (length (filter (fun x => (x < v)%N) l) <= length l / 2)%nat /\
  (length l / 2 < length (filter (fun x => (x <= v)%N) l))%nat.

(** At least half of the tippers. *)
Definition half_said (cfg : tcfg) (ch : chan) (l : list (tiop * tout)) (h : N) (m : list N) : Prop :=
  (length m <= 2 * length (declared cfg ch l h m))%nat.

(** The call by which a tipper declares a value for an open tip. *)
Definition declare (ch : chan) (h v : N) : tcall :=
  match ch with Coin => TTip h v | Cred => TCreditTip h v end.
(** Nothing that opens tip [h] or starts its countdown. *)
Definition quiet (h : N) (e : tiop * tout) : Prop :=
  match e.2 with
  | TDone ev => Forall (fun v => match v with TNew k | TNewCredit k | TClosing k => k <> h | _ => True end) ev
  | _ => True
  end.

(** Members come sorted and without repetition (elections pallet), and amounts fit. *)
Definition arg_ok (c : tcall) : Prop :=
  match c with
  | TTipNew _ _ v | TTip _ v | TCreditNew _ _ v | TCreditTip _ v => v < two128
  | _ => True
  end.
Definition op_ok (op : tiop) : Prop :=
  match op with
  | TCall x _ c => StronglySorted N.lt (tx_members x) /\ arg_ok c
  | TBank _ => True
  end.
Definition hist_ok (hist : list tiop) : Prop := Forall op_ok hist.

(** The deposits of the open tips found by [a]. *)
Definition held (s : tstate) (a : N) : N :=
  msum (fun _ t => if ot_finder t =? a then ot_deposit t else 0) (t_tips s).
Definition rsv_of (b : bank) (a : N) : N := rsv (acct_of b a).
(** Other pallets do not touch the deposits held for tips. *)
Fixpoint respects (cfg : tcfg) (s : tstate) (hist : list tiop) : Prop :=
  match hist with
  | [] => True
  | op :: r =>
      match op with TBank b => forall a, held s a <= rsv_of b a | TCall _ _ _ => True end /\
      respects cfg (tstep cfg s op).1 r
  end.
Definition hash_inj (f : N -> N -> N) : Prop := forall a b c d, f a b = f c d -> a = c /\ b = d.
Definition worth (b : bank) (a : N) : N := free_of b a + rsv_of b a.

(** The deposit of a report is at least the existential deposit and fits its type. *)
Definition deposit_ok (cfg : tcfg) : Prop :=
  tc_ed cfg <= tc_base cfg /\ tc_base cfg + tc_perbyte cfg * tc_maxlen cfg < two128 /\ tc_maxlen cfg < two32.
(** [a] can be paid [v] without being below the existential deposit, or overflowing. *)
Definition can_receive (cfg : tcfg) (b : bank) (a v : N) : Prop :=
  v = 0 \/ (tc_ed cfg <= worth b a + v /\ worth b a + v < two128).
(** [a] can pay [v] and stay alive, locked balance left alone. *)
Definition can_pay (cfg : tcfg) (b : bank) (a v : N) : Prop :=
  v + N.max (frz (acct_of b a)) (tc_ed cfg) <= free_of b a.
(** The account that pays tips. *)
Definition tip_account (s : tstate) : N := match t_owner s with Some a => a | None => 0 end.
(** Nearest hundredth part. *)
Definition percent_of (p x y : N) : Prop := 2 * p * x <= 100 * (2 * y + 1) /\ 100 * (2 * y) <= 2 * p * x + 100.

(** How the tip now open under [h] was opened: by a public report or by a tipper, by
    whom, for whom, and with which deposit. *)
Record opening := Opening { by_report : bool; by_whom : N; for_whom : N; with_deposit : N }.
Definition opened1 (cfg : tcfg) (h : N) (was : option opening) (e : tiop * tout) : option opening :=
  match e with
  | (TCall x o c, TDone _) =>
      let at_h reason who := tc_thash cfg (tc_rhash cfg reason) who =? h in
      match c, o with
      | TReport reason who, Signed w =>
          if at_h reason who
          then Some (Opening true w who (tc_base cfg + tc_perbyte cfg * N.of_nat (length reason))) else was
      | TTipNew reason who _, Signed w | TCreditNew reason who _, Signed w =>
          if at_h reason who then Some (Opening false w who 0) else was
      | TRetract k, _ | TClose k, _ | TSlash k, _ | TCreditClose k, _ => if k =? h then None else was
      | _, _ => was
      end
  | _ => was
  end.
Definition opened (cfg : tcfg) (l : list (tiop * tout)) (h : N) : option opening :=
  fold_left (opened1 cfg h) l None.
