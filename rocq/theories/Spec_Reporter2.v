(** What all the reports about one slashing span promise: specification for property C197. *)
From Verif Require Import Base Balances Model_StakingLedger Model_Staking Spec_Staking Spec_Staking2 Spec_Reporter.
From stdpp Require Import gmap.
Open Scope N_scope.

(** The slashes of [st] that a step adds to those waiting, each with the span of [st] that
    the report is about. *)
Definition bill (cfg : kcfg) (s : kstate) (op : kop) (st : N) : list (N * uslash) :=
  match op with
  | KOffence _ _ session =>
      match active_era s, report_era s session with
      | Some a, Some era =>
          map (fun u => (default 0 (span_at cfg s st era), u))
              (List.filter (fun u => u_val u =? st)
                 (drop (length (pending s a)) (pending (kstep cfg s op).1 a)))
      | _, _ => []
      end
  | _ => []
  end.
Fixpoint bills (cfg : kcfg) (s : kstate) (h : list kop) (st : N) : list (N * uslash) :=
  match h with [] => [] | op :: r => bill cfg s op st ++ bills cfg (kstep cfg s op).1 r st end.
(** What the bills of span [i] take from the stash, and what they promise. *)
Definition taken (i : N) (l : list (N * uslash)) : N :=
  lsum (map (fun p => if p.1 =? i then u_own p.2 else 0) l).
Definition vows (i : N) (l : list (N * uslash)) : N :=
  lsum (map (fun p => if p.1 =? i then u_pay p.2 else 0) l).
(** Exposures are u128, fractions are parts per billion. *)
Definition fit_report (op : kop) : Prop :=
  match op with
  | KOffence _ os _ => Forall (fun '(_, ex, _, f) => x_own ex < two128 /\ f <= PERBILL) os
  | _ => True
  end.
