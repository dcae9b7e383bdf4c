(** What the further properties of the staking pallet mean: money, deferred slashes,
    the pay of validators, and reports of offences. *)
From Verif Require Import Base Balances Model_StakingLedger Model_Staking Spec_Staking.
From stdpp Require Import gmap.
Open Scope N_scope.

(** ** Money *)
(** What was slashed from a stash, and charged to it, by these events. *)
Definition slash_sum (st : N) (ev : list kev) : N :=
  lsum (map (fun e => match e with KSlashed a v => if a =? st then v else 0 | _ => 0 end) ev).
Definition charge_sum (st : N) (ev : list kev) : N :=
  lsum (map (fun e => match e with KCharge a _ _ _ d => if a =? st then d else 0 | _ => 0 end) ev).
Definition burnt (ev : list kev) : N :=
  lsum (map (fun e => match e with KBurned _ v => v | _ => 0 end) ev).
(** What a step with these events may cost the free balance of an account: a stash its
    slashes, a buyer of credit the difference between the two levels, a stash what
    its controller burns. *)
Definition cost (s : kstate) (op : kop) (ev : list kev) (a : N) : N :=
  match op with
  | KStartSession _ _ | KOffence _ _ _ => slash_sum a ev
  | KCall x (Signed w) (KStakeDelegate level) =>
      if a =? w then default 0 (kx_dpr x w !! N.to_nat level) -
                     default 0 (kx_dpr x w !! N.to_nat (default 0 (kx_level x w)))
      else 0
  | KCall _ (Signed c) (KBurnStake _) =>
      if bool_decide (s_bonded (k_stk s) !! a = Some c) then burnt ev else 0
  | _ => 0
  end.
(** No other pallet moves money. *)
Definition no_bank (op : kop) : Prop := forall b, op <> KBank b.

(** ** Deferred slashes *)
Definition active_era (s : kstate) : option N := fst <$> e_act (k_era s).
(** The slashes waiting since era [e]. *)
Definition pending (s : kstate) (e : N) : list uslash := default [] (s_unapp (k_stk s) !! e).
(** Those that have waited long enough when era [a] starts, oldest first. *)
Definition ripe (cfg : kcfg) (s : kstate) (a : N) : list uslash :=
  concat (map (fun i => pending s (N.of_nat i)) (seq 0 (N.to_nat (a - kc_defer cfg)))).
(** A slash of [v] on a stake; property C51 says what [slash_ledger] takes. *)
Definition punish (ed : N) (l : option ledger) (v : N) : option ledger :=
  match l with
  | None => None
  | Some l => let '(l', got) := slash_ledger v ed l in Some (if got =? 0 then l else l')
  end.
Definition against (st : N) (us : list uslash) : list N :=
  map u_own (List.filter (fun u => u_val u =? st) us).

(** Steps that neither start a session, nor report offences, nor are cancellations. *)
Definition leaves_slashes (op : kop) : Prop :=
  match op with
  | KStartSession _ _ | KOffence _ _ _ | KCall _ Root (KCancel _ _) => False
  | _ => True
  end.

(** ** The pay of validators *)
(** The points of an era, and of a validator in it. *)
Definition all_points (s : kstate) (e : N) : N := fst (default (0, ∅) (e_points (k_era s) !! e)).
Definition points_of (s : kstate) (e v : N) : N :=
  default 0 (snd (default (0, ∅) (e_points (k_era s) !! e)) !! v).
(** [w] is the share [p / t] of [pay]: at most half a unit above it, and below it by at
    most half a unit and one part per billion of the pay. *)
Definition fair (pay p t w : N) : Prop :=
  2 * w * t <= 2 * p * pay + t /\
  2 * PERBILL * p * pay <= PERBILL * t * (2 * w + 1) + 2 * t * pay.
(** The account that receives the reward of a validator. *)
Definition payee_of (s : kstate) (st : N) : option N :=
  match default PStaked (s_payee (k_stk s) !! st) with
  | PController => s_bonded (k_stk s) !! st
  | PStash => Some st
  | PStaked => match s_bonded (k_stk s) !! st with Some _ => Some st | None => None end
  | PAccount a => Some a
  end.
Definition restakes (s : kstate) (st : N) : bool :=
  match default PStaked (s_payee (k_stk s) !! st) with PStaked => true | _ => false end.
(** The session [i] is the last of era [e], which is active and has begun. *)
Definition ends_era (s : kstate) (i e : N) : Prop :=
  e_act (k_era s) = Some (e, true) /\ e_start (k_era s) !! (e + 1) = Some (i + 1).
Definition elected (s : kstate) (e : N) : list N := default [] (e_vals (k_era s) !! e).
Definition grown (n : N) (l : ledger) : ledger :=
  Ledger (l_stash l) (l_total l + n) (l_active l + n) (l_unl l).

(** ** Reward points *)
Definition is_author (v : N) (op : kop) : bool := match op with KAuthor a => a =? v | _ => false end.
Definition authors (op : kop) : bool := match op with KAuthor _ => true | _ => false end.
(** Blocks authored by [v], and by anybody. *)
Definition authored (v : N) (h : list kop) : N := N.of_nat (length (List.filter (is_author v) h)).
Definition blocks (h : list kop) : N := N.of_nat (length (List.filter authors h)).
(** Era [e] is active, it or the next is planned, and two eras of history are kept. *)
Definition working (e : N) (s : kstate) : Prop :=
  active_era s = Some e /\ e <= cur_era s <= e + 1 /\ 2 <= p_depth (k_par s) < 2 ^ 32 - 1.

(** ** Reports of offences *)
(** The era that a report about a session is put on. *)
Definition report_era (s : kstate) (session : N) : option N :=
  match active_era s with Some a => slash_era (k_era s) a session | None => None end.
(** The eras that can still be reported start here. *)
Definition window (cfg : kcfg) (s : kstate) : N := default 0 (active_era s) - kc_bonding cfg.
(** The number of the span of [st] that contains an era, see property C61; a stash without
    record has one span, which starts with the window. *)
Definition span_at (cfg : kcfg) (s : kstate) (st era : N) : option N :=
  sn_index <$> era_span (default (spans_new (window cfg s)) (s_spans (k_stk s) !! st)) era.
(** The spans of [st] that a step reports, each with its part of the stake: all reports
    count, except against invulnerable validators. *)
Definition demand (cfg : kcfg) (s : kstate) (op : kop) (st : N) : list (N * N) :=
  match op with
  | KOffence _ os session =>
      match report_era s session with
      | Some era =>
          match span_at cfg s st era with
          | Some i =>
              if bool_decide (st ∈ p_invul (k_par s)) then []
              else map (fun '(_, ex, _, f) => (i, frac_mul f PERBILL (x_own ex)))
                       (List.filter (fun '(a, _, _, _) => a =? st) os)
          | None => []
          end
      | None => []
      end
  | _ => []
  end.
Fixpoint demands (cfg : kcfg) (s : kstate) (h : list kop) (st : N) : list (N * N) :=
  match h with [] => [] | op :: r => demand cfg s op st ++ demands cfg (kstep cfg s op).1 r st end.
(** The worst that is demanded of span [i]. *)
Definition worst (i : N) (ds : list (N * N)) : N :=
  foldr (fun d m => N.max (if d.1 =? i then d.2 else 0) m) 0 ds.
(** Reports of [st] for era [e] carry the exposure [own e] of that era. *)
Fixpoint same_exposure (cfg : kcfg) (own : N -> N) (s : kstate) (h : list kop) (st : N) : Prop :=
  match h with
  | [] => True
  | op :: r =>
      match op with
      | KOffence _ os session =>
          forall era ex reps f, report_era s session = Some era -> (st, ex, reps, f) ∈ os ->
            x_own ex = own era /\ x_own ex <= x_total ex
      | _ => True
      end /\ same_exposure cfg own (kstep cfg s op).1 r st
  end.
