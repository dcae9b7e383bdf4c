(** pallets/tips/src/lib.rs. Accounts, hashes and amounts are [N]; block numbers
    wrap at 2^32, credits fit u64 and deposits wrap at 2^128. The hash functions are
    parameters. Left out: benchmarking, weights and the debug assertions, which
    release builds omit. The storage migration (lib.rs:725-777) is in Model_TipsMigration. *)
From Verif Require Import Base Balances.
From stdpp Require Import gmap sorting.
Open Scope N_scope.

(** lib.rs:86-111 OpenTip. *)
Record otip := OTip {
  ot_reason : N; ot_who : N; ot_finder : N; ot_deposit : N; ot_closes : option N;
  ot_tips : list (N * N); ot_fee : bool; ot_credits : list (N * N) }.
Definition set_tips (t : otip) (l : list (N * N)) : otip :=
  OTip (ot_reason t) (ot_who t) (ot_finder t) (ot_deposit t) (ot_closes t) l (ot_fee t) (ot_credits t).
Definition set_credits (t : otip) (l : list (N * N)) : otip :=
  OTip (ot_reason t) (ot_who t) (ot_finder t) (ot_deposit t) (ot_closes t) (ot_tips t) (ot_fee t) l.
Definition set_closes (t : otip) (n : N) : otip :=
  OTip (ot_reason t) (ot_who t) (ot_finder t) (ot_deposit t) (Some n) (ot_tips t) (ot_fee t) (ot_credits t).

(** lib.rs:168-187 storage, and balances. *)
Record tstate := TState {
  t_bank : bank; t_tips : gmap N otip; t_reasons : gmap N (list N); t_owner : option N }.

(** lib.rs:128-150 constants, and the hash functions: [hash(reason)] and
    [hash_of(reason_hash, who)]. *)
Record tcfg := TCfg {
  tc_ed : N; tc_maxlen : N; tc_maxcredit : N; tc_perbyte : N; tc_countdown : N; tc_fee : N;
  tc_base : N; tc_rhash : list N -> N; tc_thash : N -> N -> N }.

(** Surroundings: the block number, the members of the elections pallet
    (sorted_members, elections-phragmen/src/lib.rs:1209-1216), and whether the
    origin is accepted by RejectOrigin. *)
Record tctx := TCtx { tx_block : N; tx_members : list N; tx_reject : bool }.

Inductive terr := TBadOrigin | TTooBig | TKnown | TUnknown | TNotFinder | TStillOpen | TPremature | TBalance.
(** lib.rs:189-208 events; [TCredit] is the call of update_credit_by_tip. *)
Inductive tev :=
| TNew (h : N) | TNewCredit (h : N) | TClosing (h : N) | TClosed (h who payout : N)
| TCreditClosed (h who credit : N) | TRetracted (h : N) | TSlashed (h finder deposit : N)
| TOwner (who : N) | TCredit (who credit : N).
(** lib.rs:230-565 calls. *)
Inductive tcall :=
| TReport (reason : list N) (who : N)
| TRetract (h : N)
| TTipNew (reason : list N) (who v : N)
| TTip (h v : N)
| TClose (h : N)
| TSlash (h : N)
| TCreditNew (reason : list N) (who v : N)
| TCreditTip (h v : N)
| TCreditClose (h : N)
| TSetOwner (who : N).

(** lib.rs:610-628 retain_active_tips (685-703 the same for credits): one walk over
    the sorted members while going through the entries. *)
Fixpoint skip (a : N) (m : list N) : bool * list N :=
  match m with
  | [] => (false, [])
  | b :: r => if a <? b then (false, m) else if b <? a then skip a r else (true, r)
  end.
Fixpoint retain (m : list N) (l : list (N * N)) : list (N * N) :=
  match l with
  | [] => []
  | (a, v) :: r => let '(keep, m') := skip a m in if keep then (a, v) :: retain m' r else retain m' r
  end.
(** lib.rs:595-598 and 671-674: binary search of a sorted vector, then replace or insert. *)
Fixpoint vote (a v : N) (l : list (N * N)) : list (N * N) :=
  match l with
  | [] => [(a, v)]
  | (b, w) :: r => if b <? a then (b, w) :: vote a v r
                   else if b =? a then (a, v) :: r else (a, v) :: (b, w) :: r
  end.
(** [sort_by_key(|i| i.1)] is stable: so is insertion from the right. *)
Fixpoint vins (p : N * N) (l : list (N * N)) : list (N * N) :=
  match l with
  | [] => [p]
  | q :: r => if p.2 <=? q.2 then p :: l else q :: vins p r
  end.
Definition vsort (l : list (N * N)) : list (N * N) := foldr vins [] l.
(** lib.rs:638-644 and 710-714: the entry in the middle; None is a panic. *)
Definition middle (m : list N) (l : list (N * N)) : option N :=
  snd <$> vsort (retain m l) !! (length (vsort (retain m l)) / 2)%nat.

Section model.
  Context (cfg : tcfg).
  Local Notation ed := (tc_ed cfg).

  Definition put_tip (s : tstate) (h : N) (t : otip) : tstate :=
    TState (t_bank s) (<[h := t]> (t_tips s)) (t_reasons s) (t_owner s).
  Definition set_bank (s : tstate) (b : bank) : tstate :=
    TState b (t_tips s) (t_reasons s) (t_owner s).
  Definition open_tip (s : tstate) (h : N) (reason : list N) (t : otip) : tstate :=
    TState (t_bank s) (<[h := t]> (t_tips s)) (<[ot_reason t := reason]> (t_reasons s)) (t_owner s).
  Definition drop_tip (s : tstate) (h : N) (t : otip) : tstate :=
    TState (t_bank s) (delete h (t_tips s)) (delete (ot_reason t) (t_reasons s)) (t_owner s).
  Definition give_back (s : tstate) (t : otip) : tstate :=
    if ot_deposit t =? 0 then s
    else set_bank s (unreserve ed (t_bank s) (ot_finder t) (ot_deposit t)).

  Definition signed (o : origin) : res terr N := match o with Signed w => ROk w | _ => RErr TBadOrigin end.
  Definition tipper (x : tctx) (o : origin) : res terr N :=
    w <-? signed o ; _u <-? ensure (bool_decide (w ∈ tx_members x)) TBadOrigin ; ROk w.
  Definition known (s : tstate) (r : N) : bool := bool_decide (is_Some (t_reasons s !! r)).
  Definition find_tip (s : tstate) (h : N) : res terr otip :=
    match t_tips s !! h with Some t => ROk t | None => RErr TUnknown end.

  (** lib.rs:253-291 report_awesome. *)
  Definition report (s : tstate) (finder : N) (reason : list N) (who : N) : res terr (tstate * list tev) :=
    _u <-? ensure (N.of_nat (length reason) <=? tc_maxlen cfg) TTooBig ;
    let r := tc_rhash cfg reason in
    _u <-? ensure (negb (known s r)) TKnown ;
    let h := tc_thash cfg r who in
    _u <-? ensure (negb (bool_decide (is_Some (t_tips s !! h)))) TKnown ;
    let deposit := add128 (tc_base cfg) (w128 (tc_perbyte cfg * w32 (N.of_nat (length reason)))) in
    match reserve ed (t_bank s) finder deposit with
    | None => RErr TBalance
    | Some b => ROk (open_tip (set_bank s b) h reason (OTip r who finder deposit None [] true []), [TNew h])
    end.
  (** lib.rs:314-327 retract_tip. *)
  Definition retract (s : tstate) (who h : N) : res terr (tstate * list tev) :=
    t <-? find_tip s h ;
    _u <-? ensure (ot_finder t =? who) TNotFinder ;
    ROk (give_back (drop_tip s h t) t, [TRetracted h]).
  (** lib.rs:353-383 tip_new. *)
  Definition tip_new (s : tstate) (w : N) (reason : list N) (who v : N) : res terr (tstate * list tev) :=
    let r := tc_rhash cfg reason in
    _u <-? ensure (negb (known s r)) TKnown ;
    let h := tc_thash cfg r who in
    ROk (open_tip s h reason (OTip r who w 0 None [(w, v)] false []), [TNew h]).
  (** lib.rs:491-522 credit_tip_new. *)
  Definition credit_new (s : tstate) (w : N) (reason : list N) (who v : N) : res terr (tstate * list tev) :=
    let r := tc_rhash cfg reason in
    _u <-? ensure (negb (known s r)) TKnown ;
    let h := tc_thash cfg r who in
    ROk (open_tip s h reason (OTip r who w 0 None [] false [(w, v)]), [TNewCredit h]).
  (** lib.rs:600-606 and 676-682: close once half of the members declared. *)
  Definition check_closing (x : tctx) (n : nat) (t : otip) : otip * bool :=
    if ((length (tx_members x) + 1) / 2 <=? n)%nat && bool_decide (ot_closes t = None)
    then (set_closes t (add32 (tx_block x) (tc_countdown cfg)), true) else (t, false).
  Definition closing (h : N) (b : bool) : list tev := if b then [TClosing h] else [].
  (** lib.rs:411-425 tip and 590-607 insert_tip_and_check_closing. *)
  Definition do_tip (x : tctx) (s : tstate) (w h v : N) : res terr (tstate * list tev) :=
    t <-? find_tip s h ;
    let t1 := set_tips t (retain (tx_members x) (vote w v (ot_tips t))) in
    let '(t2, b) := check_closing x (length (ot_tips t1)) t1 in
    ROk (put_tip s h t2, closing h b).
  (** lib.rs:526-536 credit_tip and 666-683 insert_credit_tip_and_check_closing. *)
  Definition do_credit_tip (x : tctx) (s : tstate) (w h v : N) : res terr (tstate * list tev) :=
    t <-? find_tip s h ;
    let t1 := set_credits t (retain (tx_members x) (vote w v (ot_credits t))) in
    let '(t2, b) := check_closing x (length (ot_credits t1)) t1 in
    ROk (put_tip s h t2, closing h b).
  (** lib.rs:575-584 account_id: the all-zero account unless one is set. *)
  Definition payer (s : tstate) : N := default 0 (t_owner s).
  (** lib.rs:449-453 and 544-548: the closing time is set and passed. *)
  Definition ripe (x : tctx) (t : otip) : res terr unit :=
    match ot_closes t with
    | None => RErr TStillOpen
    | Some n => ensure (n <=? tx_block x) TPremature
    end.
  (** lib.rs:656 and 661: a transfer whose failure is ignored. *)
  Definition try_pay (b : bank) (src dst v : N) : bank := default b (transfer_keep ed b src dst v).
  (** lib.rs:634-664 payout_tip. *)
  Definition payout_tip (x : tctx) (s : tstate) (h : N) (t : otip) : res terr (tstate * list tev) :=
    match middle (tx_members x) (ot_tips t) with
    | None => RPanic
    | Some med =>
        let s1 := give_back s t in
        let fee := if ot_fee t && negb (ot_finder t =? ot_who t) then frac_mul (tc_fee cfg) PERCENT med else 0 in
        let b1 := if ot_fee t && negb (ot_finder t =? ot_who t)
                  then try_pay (t_bank s1) (payer s) (ot_finder t) fee else t_bank s1 in
        let b2 := try_pay b1 (payer s) (ot_who t) (sub128 med fee) in
        ROk (set_bank s1 b2, [TClosed h (ot_who t) (sub128 med fee)])
    end.
  (** lib.rs:445-459 close_tip. *)
  Definition close (x : tctx) (s : tstate) (h : N) : res terr (tstate * list tev) :=
    t <-? find_tip s h ; _u <-? ripe x t ; payout_tip x (drop_tip s h t) h t.
  (** lib.rs:706-723 payout_credit_tip and 540-554 close_credit_tip. *)
  Definition credit_close (x : tctx) (s : tstate) (h : N) : res terr (tstate * list tev) :=
    t <-? find_tip s h ; _u <-? ripe x t ;
    match middle (tx_members x) (ot_credits t) with
    | None => RPanic
    | Some med =>
        let v := N.min med (tc_maxcredit cfg) in
        ROk (give_back (drop_tip s h t) t, [TCredit (ot_who t) v; TCreditClosed h (ot_who t) v])
    end.
  (** lib.rs:475-487 slash_tip; OnSlash is (), so the deposit is burnt. *)
  Definition slash (s : tstate) (h : N) : res terr (tstate * list tev) :=
    t <-? find_tip s h ;
    let s1 := drop_tip s h t in
    let s2 := if ot_deposit t =? 0 then s1
              else let '(b, got) := slash_reserved ed (t_bank s1) (ot_finder t) (ot_deposit t) in
                   set_bank s1 (Bank (accts b) (lost b + got)) in
    ROk (s2, [TSlashed h (ot_finder t) (ot_deposit t)]).

  (** lib.rs:230-565; set_tip_owner_address is 558-564. *)
  Definition texec (x : tctx) (s : tstate) (o : origin) (c : tcall) : res terr (tstate * list tev) :=
    match c with
    | TReport reason who => w <-? signed o ; report s w reason who
    | TRetract h => w <-? signed o ; retract s w h
    | TTipNew reason who v => w <-? tipper x o ; tip_new s w reason who v
    | TTip h v => w <-? tipper x o ; do_tip x s w h v
    | TClose h => _w <-? signed o ; close x s h
    | TSlash h => _u <-? ensure (tx_reject x) TBadOrigin ; slash s h
    | TCreditNew reason who v => w <-? tipper x o ; credit_new s w reason who v
    | TCreditTip h v => w <-? tipper x o ; do_credit_tip x s w h v
    | TCreditClose h => _w <-? signed o ; credit_close x s h
    | TSetOwner who => match o with
                       | Root => ROk (TState (t_bank s) (t_tips s) (t_reasons s) (Some who), [TOwner who])
                       | _ => RErr TBadOrigin
                       end
    end.

  (** A call (transactional), or a change of balances by other pallets. *)
  Inductive tiop := TCall (x : tctx) (o : origin) (c : tcall) | TBank (b : bank).
  Inductive tout := TDone (ev : list tev) | TFail (e : terr) | TPanic.
  Definition tstep (s : tstate) (op : tiop) : tstate * tout :=
    match op with
    | TCall x o c =>
        match texec x s o c with
        | ROk (s', ev) => (s', TDone ev)
        | RErr e => (s, TFail e)
        | RPanic => (s, TPanic)
        end
    | TBank b => (set_bank s b, TDone [])
    end.
  Fixpoint trun (s : tstate) (h : list tiop) : tstate :=
    match h with [] => s | op :: r => trun (tstep s op).1 r end.
  Fixpoint touts (s : tstate) (h : list tiop) : list tout :=
    match h with [] => [] | op :: r => (tstep s op).2 :: touts (tstep s op).1 r end.
  Definition tgenesis (b : bank) : tstate := TState b ∅ ∅ None.
End model.
