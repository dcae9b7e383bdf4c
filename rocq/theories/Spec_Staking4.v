(** What it means that the session pallet drives the staking pallet, and how eras
    follow one another. *)
From Verif Require Import Base Balances Model_StakingLedger Model_Staking Spec_Staking Spec_Staking2.
From stdpp Require Import gmap.
Open Scope N_scope.

(** ** Sessions *)

(** Where the session pallet is. Its genesis plans the sessions 0 and 1 and starts
    session 0; a rotation ends the current session, starts the next one and plans the
    one after that. Between two rotations at least one block is finalised. *)
Inductive stage :=
| Setup                            (* before the genesis of the session pallet *)
| Planned0 | Planned1              (* sessions 0; 0 and 1 are planned *)
| Running (i : N) (closed : bool)  (* session [i] runs, [i + 1] is planned; has a block been finalised? *)
| Ended (i : N)                    (* session [i] has just ended *)
| Started (i : N).                 (* session [i] has just started *)
Definition advance (g : stage) (op : kop) : option stage :=
  match op with
  | KNewSession i =>
      match g with
      | Setup => if i =? 0 then Some Planned0 else None
      | Planned0 => if i =? 1 then Some Planned1 else None
      | Started j => if i =? j + 1 then Some (Running j false) else None
      | _ => None
      end
  | KStartSession _ i =>
      match g with
      | Planned1 => if i =? 0 then Some (Running 0 false) else None
      | Ended j => if i =? j + 1 then Some (Started i) else None
      | _ => None
      end
  | KEndSession _ i =>
      match g with
      | Running j true => if i =? j then Some (Ended j) else None
      | _ => None
      end
  | KFinal => match g with Running j _ => Some (Running j true) | _ => Some g end
  | _ => Some g
  end.
(** Where the session pallet is after a history, if the history follows its order. *)
Fixpoint driven (g : stage) (h : list kop) : option stage :=
  match h with
  | [] => Some g
  | op :: r => match advance g op with Some g' => driven g' r | None => None end
  end.
(** How many sessions have started. *)
Definition started (g : stage) : N :=
  match g with Setup | Planned0 | Planned1 => 0 | Running i _ | Ended i | Started i => i + 1 end.

(** ** Eras *)

(** The numbers below [n]. *)
Definition upto (n : N) : list N := map N.of_nat (seq 0 (N.to_nat n)).

(** Each session that starts, with the era that is active then. *)
Definition opens (op : kop) (s' : kstate) : list (N * N) :=
  match op with
  | KStartSession _ i => match active_era s' with Some e => [(i, e)] | None => [] end
  | _ => []
  end.
Fixpoint timeline (cfg : kcfg) (s : kstate) (h : list kop) : list (N * N) :=
  match h with
  | [] => []
  | op :: r => let s' := (kstep cfg s op).1 in opens op s' ++ timeline cfg s' r
  end.
(** The history keeps at least one era besides the current one. *)
Definition kept (s : kstate) : Prop := 1 <= p_depth (k_par s) < 2 ^ 32 - 1.
Definition mode (s : kstate) : forcing := e_force (k_era s).
(** [k] is the first session of era [e]. *)
Definition since (t : list (N * N)) (e k : N) : Prop :=
  (k, e) ∈ t /\ forall j, (j, e) ∈ t -> k <= j.
(** The era of session [j], if era [c] lasts until session [n] begins the next one and from then
    on eras last [len] sessions. *)
Definition scheduled (len c n j : N) : N := if j <? n then c else c + 1 + (j - n) / len.
(** Steps that may change the mode: calls of Root, and reports about somebody whom the session
    pallet then disables. *)
Definition meddles (op : kop) : Prop :=
  match op with
  | KCall _ Root (KForce _) => True
  | KOffence x os _ => exists st ex reps f, (st, ex, reps, f) ∈ os /\ kx_disable x st = true
  | _ => False
  end.

(** ** Pay *)

(** During the history session [i] ended, and with it era [e], whose validators are paid then,
    see property C95; [t] is the state in which that happens. *)
Definition payday (cfg : kcfg) (s : kstate) (h : list kop) (i e : N) (t : kstate) : Prop :=
  exists h1 x h2, h = h1 ++ KEndSession x i :: h2 /\ t = krun cfg s h1 /\ ends_era t i e.
(** The sets of validators elected for era [e] during the history. *)
Definition elects (e : N) (op : kop) (o : kout) : list (list N) :=
  match op, o with
  | KNewSession _, KDone ev =>
      omap (fun v => match v with KElected e' l => if e' =? e then Some l else None | _ => None end) ev
  | _, _ => []
  end.
Fixpoint elections (cfg : kcfg) (s : kstate) (h : list kop) (e : N) : list (list N) :=
  match h with
  | [] => []
  | op :: r => elects e op (kstep cfg s op).2 ++ elections cfg (kstep cfg s op).1 r e
  end.
