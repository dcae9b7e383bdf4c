(** pallets/operation/src/lib.rs: daily release of staked balances, the DPR
    bridge, burning for EZC, and the privileged balance calls.

    Simplifications: texts (addresses on other chains, the [data] argument,
    reasons in events) are omitted and chain names are numbers. The field
    [basic_info.account] of a schedule is omitted: it always equals the key of the
    map (the only insert is lib.rs:365). What [remove_lock] leaves frozen, and
    whether [do_unstaking_slash_credit] of the credit pallet succeeds, come from
    the surroundings ([octx]); the latter is modelled in Model_Credit.v. Events
    that no property uses, and weights, are omitted. *)
From Verif Require Import Base Balances.
From stdpp Require Import gmap sorting.
Open Scope N_scope.

Definition DPR : N := 1000000000000000000.

(** lib.rs:129-174 ReleaseInfo and CurrentRelease. *)
Record sched := Sched {
  r_days : N;      (* total_release_days *)
  r_moment : N;    (* start_release_moment *)
  r_total : N;     (* total_balance *)
  r_start : N;     (* start_day *)
  r_last : N;      (* last_release_day *)
  r_per : N;       (* balance_per_day *)
}.

(** lib.rs:220-223 AccountReleaseLastKey: the prefix of the map (also when
    unset), the storage key of an account, or a key outside the map. *)
Inductive ocursor := OPrefix | OKey (k : N) | OOutside.

(** lib.rs:176-235 storage. *)
Record ostate := OState {
  o_bank : bank;
  o_total : N;                 (* TotalRelease *)
  o_dmax : N;                  (* DailyMaxLimit *)
  o_smax : N;                  (* SingleMaxLimit *)
  o_daily : gmap N N;          (* TotalDailyRelease *)
  o_info : gmap N sched;       (* AccountsReleaseInfo *)
  o_out : gmap N N;            (* DeeperToOtherAmount *)
  o_in : gmap N N;             (* OtherToDeeperAmount *)
  o_cursor : ocursor;          (* AccountReleaseLastKey *)
  o_day : N;                   (* SavedDay *)
  o_end : bool;                (* DayReleaseEnd *)
  o_fund : option N;           (* BridgeFundAddreess *)
}.
Definition set_o_bank (s : ostate) (v : bank) : ostate :=
  OState v (o_total s) (o_dmax s) (o_smax s) (o_daily s) (o_info s) (o_out s) (o_in s) (o_cursor s) (o_day s) (o_end s) (o_fund s).
Definition set_o_total (s : ostate) (v : N) : ostate :=
  OState (o_bank s) v (o_dmax s) (o_smax s) (o_daily s) (o_info s) (o_out s) (o_in s) (o_cursor s) (o_day s) (o_end s) (o_fund s).
Definition set_o_dmax (s : ostate) (v : N) : ostate :=
  OState (o_bank s) (o_total s) v (o_smax s) (o_daily s) (o_info s) (o_out s) (o_in s) (o_cursor s) (o_day s) (o_end s) (o_fund s).
Definition set_o_smax (s : ostate) (v : N) : ostate :=
  OState (o_bank s) (o_total s) (o_dmax s) v (o_daily s) (o_info s) (o_out s) (o_in s) (o_cursor s) (o_day s) (o_end s) (o_fund s).
Definition set_o_daily (s : ostate) (v : gmap N N) : ostate :=
  OState (o_bank s) (o_total s) (o_dmax s) (o_smax s) v (o_info s) (o_out s) (o_in s) (o_cursor s) (o_day s) (o_end s) (o_fund s).
Definition set_o_info (s : ostate) (v : gmap N sched) : ostate :=
  OState (o_bank s) (o_total s) (o_dmax s) (o_smax s) (o_daily s) v (o_out s) (o_in s) (o_cursor s) (o_day s) (o_end s) (o_fund s).
Definition set_o_out (s : ostate) (v : gmap N N) : ostate :=
  OState (o_bank s) (o_total s) (o_dmax s) (o_smax s) (o_daily s) (o_info s) v (o_in s) (o_cursor s) (o_day s) (o_end s) (o_fund s).
Definition set_o_in (s : ostate) (v : gmap N N) : ostate :=
  OState (o_bank s) (o_total s) (o_dmax s) (o_smax s) (o_daily s) (o_info s) (o_out s) v (o_cursor s) (o_day s) (o_end s) (o_fund s).
Definition set_o_cursor (s : ostate) (v : ocursor) : ostate :=
  OState (o_bank s) (o_total s) (o_dmax s) (o_smax s) (o_daily s) (o_info s) (o_out s) (o_in s) v (o_day s) (o_end s) (o_fund s).
Definition set_o_day (s : ostate) (v : N) : ostate :=
  OState (o_bank s) (o_total s) (o_dmax s) (o_smax s) (o_daily s) (o_info s) (o_out s) (o_in s) (o_cursor s) v (o_end s) (o_fund s).
Definition set_o_end (s : ostate) (v : bool) : ostate :=
  OState (o_bank s) (o_total s) (o_dmax s) (o_smax s) (o_daily s) (o_info s) (o_out s) (o_in s) (o_cursor s) (o_day s) v (o_fund s).
Definition set_o_fund (s : ostate) (v : option N) : ostate :=
  OState (o_bank s) (o_total s) (o_dmax s) (o_smax s) (o_daily s) (o_info s) (o_out s) (o_in s) (o_cursor s) (o_day s) (o_end s) v.

(** Constants: existential deposit, MinimumBurnedDPR, the treasury's account, and
    the order of the storage keys (Twox64Concat keys of accounts are distinct). *)
Record ocfg := OCfg { oc_ed : N; oc_minburn : N; oc_treasury : N; oc_key : N -> N }.
(** Surroundings: time in ms, the privileges LockerMember, ReleaseSetter and
    BridgeAdmin, whether the credit of an account can be slashed, and what stays
    frozen on an account when a lock is removed. *)
Record octx := OCtx {
  ox_time : N; ox_locker : N -> bool; ox_setter : N -> bool; ox_bridge : N -> bool;
  ox_slash : N -> bool; ox_frozen : N -> N }.

(** lib.rs:105-122 errors, plus those of other pallets. *)
Inductive oerr := ONotOwner | OSingleMax | ODayZero | OBurnLow | OBalanceZero | OUnauthorized
  | ONoPool | OBadOrigin | OBalance | OCredit.
(** lib.rs:83-103 the events used in properties. *)
Inductive oev :=
| EReleased (who amount : N)             (* ReleaseReward *)
| ETooMuch (who amount : N)              (* SingleReleaseTooMuch *)
| EScheduled (who : N)                   (* UnstakingResult "success" *)
| EBurnEzc (who amount : N)
| EBridgeOut (from amount chain : N)     (* BridgeDeeperToOther *)
| EBridgeIn (to amount chain : N)        (* BridgeOtherToDeeper *)
| EApply (from amount chain : N).        (* ApplyForBridgeTransfer *)

(** lib.rs:262-523 dispatchables. *)
Inductive ocall :=
| ORemoveLock (who : N)
| OReserve (who v : N)
| OSetLimits (single daily : N)
| OUnstake (who days moment total : N)
| ORemoveInfo (l : list N)
| OBurn (v : N)
| OSetPool (who : N)
| OBridgeOut (from v chain : N)
| OBridgeIn (to v chain : N)
| OApply (v chain : N)
| OUnlockDemocracy (from to v : N).

Definition sadd128 (a b : N) : N := N.min (a + b) (two128 - 1).
Definition MS_PER_DAY : N := 86400000.
Definition day_of (ms : N) : N := w32 (ms / MS_PER_DAY).

(** [deposit_creating] whose imbalance is dropped: nothing is minted when the
    account cannot be credited. Returns the amount minted ([imbalance.peek()]). *)
Definition mint (ed : N) (b : bank) (who v : N) : bank * N :=
  if v =? 0 then (b, 0) else
  let a := acct_of b who in
  if is_new a && (v <? ed) then (b, 0) else
  if two128 <=? free a + v then (b, 0) else
  (put ed b who (Acct (free a + v) (rsv a) (frz a)), v).

Section model.
  Context (cfg : ocfg).

  (** lib.rs:527-538: the entries behind the cursor by storage key, as
      [next_key] visits them. The loop changes only entries it has passed. A
      cursor outside the map is followed by no entry: it is only stored together
      with DayReleaseEnd. *)
  Definition obeyond (c : ocursor) (k : N) : bool :=
    match c with OPrefix => true | OKey k0 => k0 <? k | OOutside => false end.
  Definition okey_le (p q : N * sched) : Prop := oc_key cfg p.1 <= oc_key cfg q.1.
  Global Instance okey_le_dec : RelDecision okey_le.
  Proof. intros p q. unfold okey_le. apply _. Defined.
  Definition iter_from (s : ostate) (c : ocursor) : list (N * sched) :=
    filter (fun p => obeyond c (oc_key cfg p.1) = true) (merge_sort okey_le (map_to_list (o_info s))).

  (** lib.rs:552-608, the loop of release_staking_balance: state, local total and
      daily sums, the cursor, accounts to remove, events. *)
  Fixpoint release_loop (cur_day : N) (l : list (N * sched)) (s : ostate) (total daily blockly : N)
      : ostate * N * N * ocursor * list N * list oev :=
    match l with
    | [] => (set_o_end s true, total, daily, OOutside, [], [])
    | (who, r) :: rest =>
        let released := mul128 (r_per r) (cur_day - r_last r) in
        if released =? 0 then release_loop cur_day rest s total daily blockly else
        let here := OKey (oc_key cfg who) in
        if o_smax s <? released then (s, total, daily, here, [], [ETooMuch who released]) else
        let '(b, peek) := mint (oc_ed cfg) (o_bank s) who released in
        let total := add128 total released in
        let daily := add128 daily released in
        let blockly := add128 blockly released in
        let s := set_o_bank s b in
        let s := set_o_info s (alter (fun i => Sched (r_days i) (r_moment i) (r_total i) (r_start i) cur_day (r_per i))
                                 who (o_info s)) in
        let rem := if r_days r <=? cur_day - r_start r then [who] else [] in
        if o_dmax s <=? daily then (set_o_end s true, total, daily, here, rem, [EReleased who peek])
        else if o_smax s <=? blockly then (s, total, daily, here, rem, [EReleased who peek])
        else let '(s', total', daily', c', rem', evs') := release_loop cur_day rest s total daily blockly in
             (s', total', daily', c', rem ++ rem', EReleased who peek :: evs')
    end.

  (** lib.rs:540-615 release_staking_balance. *)
  Definition release (s : ostate) (cur_day : N) : ostate * list oev :=
    if o_end s then (s, []) else
    let '(s1, total, daily, c, rem, evs) :=
      release_loop cur_day (iter_from s (o_cursor s)) s (o_total s) (default 0 (o_daily s !! cur_day)) 0 in
    let s2 := set_o_daily s1 (<[cur_day := daily]> (o_daily s1)) in
    let s3 := set_o_total s2 total in
    let s4 := set_o_cursor s3 c in
    (set_o_info s4 (fold_left (fun m a => delete a m) rem (o_info s4)), evs).

  (** lib.rs:247-259 on_finalize. *)
  Definition on_finalize (s : ostate) (x : octx) : ostate * list oev :=
    let cur_day := day_of (ox_time x) in
    if o_day s <? cur_day
    then (set_o_cursor (set_o_end (set_o_day s cur_day) false) OPrefix, [])
    else release s cur_day.

  (** lib.rs:626-635 is_single_max_limit. *)
  Definition is_single_max_limit (s : ostate) (v : N) : bool :=
    if v <=? o_smax s
    then sadd128 (default 0 (o_daily s !! o_day s)) v <=? o_dmax s
    else false.

  Definition signed (o : origin) : res oerr N :=
    match o with Signed who => ROk who | _ => RErr OBadOrigin end.
  Definition root (o : origin) : res oerr unit :=
    match o with Root => ROk tt | _ => RErr OBadOrigin end.

  (** lib.rs:314-368 unstaking_release. *)
  Definition do_unstake (s : ostate) (x : octx) (setter who days moment total : N) : res oerr (ostate * list oev) :=
    _a <-? ensure (ox_setter x setter) ONotOwner ;
    _b <-? ensure (negb (days =? 0)) ODayZero ;
    _c <-? ensure (negb (total =? 0)) OBalanceZero ;
    let start_day := day_of moment in
    let per := total / days in
    _d <-? ensure (per <=? o_smax s) OSingleMax ;
    _e <-? ensure (ox_slash x who) OCredit ;
    ROk (set_o_info s (<[who := Sched days moment total start_day start_day per]> (o_info s)), [EScheduled who]).

  (** lib.rs:386-407 burn_for_ezc. *)
  Definition do_burn (s : ostate) (who v : N) : res oerr (ostate * list oev) :=
    _a <-? ensure (oc_minburn cfg <=? v) OBurnLow ;
    match withdraw (oc_ed cfg) true (o_bank s) who v with
    | Some b => ROk (set_o_bank s (deposit_creating (oc_ed cfg) b (oc_treasury cfg) v), [EBurnEzc who v])
    | None => RErr OBalance
    end.

  (** lib.rs:426-455 bridge_deeper_to_other. *)
  Definition do_bridge_out (s : ostate) (x : octx) (admin from v chain : N) : res oerr (ostate * list oev) :=
    _a <-? ensure (ox_bridge x admin) OUnauthorized ;
    match o_fund s with
    | None => RErr ONoPool
    | Some pool =>
        match transfer_keep (oc_ed cfg) (o_bank s) from pool v with
        | Some b => ROk (set_o_out (set_o_bank s b)
                           (<[chain := sadd128 (default 0 (o_out s !! chain)) v]> (o_out s)), [EBridgeOut from v chain])
        | None => RErr OBalance
        end
    end.

  (** lib.rs:459-488 bridge_other_to_deeper. *)
  Definition do_bridge_in (s : ostate) (x : octx) (admin to v chain : N) : res oerr (ostate * list oev) :=
    _a <-? ensure (ox_bridge x admin) OUnauthorized ;
    match o_fund s with
    | None => RErr ONoPool
    | Some pool =>
        match transfer_keep (oc_ed cfg) (o_bank s) pool to v with
        | Some b => ROk (set_o_in (set_o_bank s b)
                           (<[chain := sadd128 (default 0 (o_in s !! chain)) v]> (o_in s)), [EBridgeIn to v chain])
        | None => RErr OBalance
        end
    end.

  (** [remove_lock]: the frozen amount falls to what the other locks need. *)
  Definition remove_lock (x : octx) (b : bank) (who : N) : bank :=
    match accts b !! who with
    | Some a => Bank (<[who := Acct (free a) (rsv a) (N.min (frz a) (ox_frozen x who))]> (accts b)) (lost b)
    | None => b
    end.

  (** lib.rs:506-523 unlock_assets_via_democracy. *)
  Definition do_unlock (s : ostate) (x : octx) (from to v : N) : res oerr (ostate * list oev) :=
    match transfer_allow (oc_ed cfg) (remove_lock x (o_bank s) from) from to v with
    | Some b => ROk (set_o_bank s b, [])
    | None => RErr OBalance
    end.

  (** lib.rs:262-523. *)
  Definition oexec (s : ostate) (x : octx) (o : origin) (c : ocall) : res oerr (ostate * list oev) :=
    match c with
    | ORemoveLock who => _a <-? root o ; ROk (set_o_bank s (remove_lock x (o_bank s) who), [])
    | OReserve who v => me <-? signed o ; _a <-? ensure (ox_locker x me) OUnauthorized ;
        match reserve (oc_ed cfg) (o_bank s) who v with
        | Some b => ROk (set_o_bank s b, [])
        | None => RErr OBalance
        end
    | OSetLimits single daily => _a <-? root o ; ROk (set_o_dmax (set_o_smax s single) daily, [])
    | OUnstake who days moment total => me <-? signed o ; do_unstake s x me who days moment total
    | ORemoveInfo l => me <-? signed o ; _a <-? ensure (ox_setter x me) ONotOwner ;
        ROk (set_o_info s (fold_left (fun m a => delete a m) l (o_info s)), [])
    | OBurn v => me <-? signed o ; do_burn s me v
    | OSetPool who => me <-? signed o ; _a <-? ensure (ox_bridge x me) OUnauthorized ;
        ROk (set_o_fund s (Some who), [])
    | OBridgeOut from v chain => me <-? signed o ; do_bridge_out s x me from v chain
    | OBridgeIn to v chain => me <-? signed o ; do_bridge_in s x me to v chain
    | OApply v chain => me <-? signed o ; ROk (s, [EApply me v chain])
    | OUnlockDemocracy from to v => _a <-? root o ; do_unlock s x from to v
    end.
  (** A call: an error rolls back. *)
  Definition ostep (s : ostate) (x : octx) (o : origin) (c : ocall) : ostate * res oerr (list oev) :=
    match oexec s x o c with
    | ROk (s', evs) => (s', ROk evs)
    | RErr e => (s, RErr e)
    | RPanic => (s, RPanic)
    end.

  (** The end of a block, and what other pallets do to balances. *)
  Inductive oent := OFinalize | OBank (b : bank).
  Definition oop : Type := octx * (origin * ocall + oent).
  Definition odo (s : ostate) (op : oop) : ostate * list oev :=
    match snd op with
    | inl (o, c) => let '(s', r) := ostep s (fst op) o c in (s', match r with ROk evs => evs | _ => [] end)
    | inr OFinalize => on_finalize s (fst op)
    | inr (OBank b) => (set_o_bank s b, [])
    end.
  (** Run a history, collecting the events with the time of the block. *)
  Fixpoint orun (s : ostate) (h : list oop) : ostate * list (N * oev) :=
    match h with
    | [] => (s, [])
    | op :: r =>
        let '(s1, evs) := odo s op in
        let '(s2, out) := orun s1 r in
        (s2, map (fun e => (ox_time (fst op), e)) evs ++ out)
    end.
End model.

(** lib.rs:180-198 default storage. *)
Definition oinit (b : bank) : ostate :=
  OState b 0 (1000000 * DPR) (10000 * DPR) ∅ ∅ ∅ ∅ OPrefix 0 false None.
