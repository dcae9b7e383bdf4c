(** Specification vocabulary for C44-C47 and C81-C87. *)
From Verif Require Import Base Balances Model_Operation.
From stdpp Require Import gmap.
Open Scope N_scope.

(** The calendar day (since 1970) of a time in milliseconds. *)
Definition day (ms : N) : N := ms / (24 * 3600 * 1000).

(** Releases: day and account; the amounts paid to [who] with their days; the sum
    paid to [who]; the sum paid on day [d]; the sum of all. *)
Definition releases (out : list (N * oev)) : list (N * N) :=
  omap (fun p => match p.2 with EReleased w _ => Some (day p.1, w) | _ => None end) out.
Definition payments (who : N) (out : list (N * oev)) : list (N * N) :=
  omap (fun p => match p.2 with EReleased w v => if w =? who then Some (day p.1, v) else None | _ => None end) out.
Definition paid_to (who : N) (out : list (N * oev)) : N := lsum (map snd (payments who out)).
Definition paid_on (d : N) (out : list (N * oev)) : N :=
  lsum (omap (fun p => match p.2 with EReleased _ v => if day p.1 =? d then Some v else None | _ => None end) out).
Definition paid_out (out : list (N * oev)) : N :=
  lsum (omap (fun p => match p.2 with EReleased _ v => Some v | _ => None end) out).
(** Bridged amounts of a chain. *)
Definition bridged_out (chain : N) (out : list (N * oev)) : N :=
  lsum (omap (fun p => match p.2 with EBridgeOut _ v c => if c =? chain then Some v else None | _ => None end) out).
Definition bridged_in (chain : N) (out : list (N * oev)) : N :=
  lsum (omap (fun p => match p.2 with EBridgeIn _ v c => if c =? chain then Some v else None | _ => None end) out).

(** Storage keys of different accounts differ. *)
Definition keys_differ (cfg : ocfg) : Prop := forall a b, oc_key cfg a = oc_key cfg b -> a = b.
(** Block times never go back, and fit the u32 day counter. *)
Fixpoint chrono (t : N) (h : list oop) : Prop :=
  match h with
  | [] => True
  | op :: r => t <= ox_time op.1 /\ day (ox_time op.1) < 2 ^ 32 /\ chrono (ox_time op.1) r
  end.

(** The operation asks for a new schedule of [who]; touches its schedule by a
    call; changes the limits; is the end of a block. *)
Definition schedules (who : N) (op : oop) : Prop :=
  match op.2 with inl (_, OUnstake w _ _ _) => w = who | _ => False end.
Definition edits_schedules (op : oop) : bool :=
  match op.2 with inl (_, OUnstake _ _ _ _) | inl (_, ORemoveInfo _) => true | _ => false end.
Definition sets_limits (op : oop) : bool := match op.2 with inl (_, OSetLimits _ _) => true | _ => false end.
Definition is_block (op : oop) : bool := match op.2 with inr OFinalize => true | _ => false end.
Definition is_bank (op : oop) : bool := match op.2 with inr (OBank _) => true | _ => false end.
Definition blocks (h : list oop) : N := N.of_nat (length (List.filter is_block h)).

(** Every limit set in [h] is at most [S] (single) and [D] (daily). *)
Definition limits_within (S D : N) (op : oop) : Prop :=
  match op.2 with inl (_, OSetLimits s d) => s <= S /\ d <= D | _ => True end.

(** Payments (day, amount) after day [last], each worth the days since the one
    before at [per] a day; an account that cannot be credited gets nothing. *)
Fixpoint covers (per last : N) (l : list (N * N)) : Prop :=
  match l with
  | [] => True
  | (d, v) :: r => last < d /\ (v = per * (d - last) \/ v = 0) /\ covers per d r
  end.

(** The schedule is due on day [d] with amount [v]. *)
Definition due_amount (d : N) (r : sched) : N := r_per r * (d - r_last r).

(** Everything bridged out of and into the chain. *)
Definition all_out (out : list (N * oev)) : N :=
  lsum (omap (fun p => match p.2 with EBridgeOut _ v _ => Some v | _ => None end) out).
Definition all_in (out : list (N * oev)) : N :=
  lsum (omap (fun p => match p.2 with EBridgeIn _ v _ => Some v | _ => None end) out).
(** A bridge call. *)
Definition is_bridge (op : oop) : bool :=
  match op.2 with inl (_, OBridgeOut _ _ _) | inl (_, OBridgeIn _ _ _) => true | _ => false end.
(** The pool's account stays [pool], and apart from the bridge nothing moves its
    free balance; the pool does not bridge to itself. *)
Fixpoint pool_quiet (cfg : ocfg) (pool : N) (s : ostate) (h : list oop) : Prop :=
  match h with
  | [] => True
  | op :: r =>
      o_fund s = Some pool /\
      (match op.2 with
       | inl (_, OBridgeOut from _ _) => from <> pool
       | inl (_, OBridgeIn to _ _) => to <> pool
       | _ => free_of (o_bank (fst (odo cfg s op))) pool = free_of (o_bank s) pool
       end) /\ pool_quiet cfg pool (fst (odo cfg s op)) r
  end.

(** Operations of one day that leave limits and schedules alone. *)
Definition plain_op (d : N) (op : oop) : Prop :=
  sets_limits op = false /\ edits_schedules op = false /\ (is_block op = true -> day (ox_time op.1) = d).
