(** What the properties of the staking pallet mean, independently of how the
    pallet computes. *)
From Verif Require Import Base Balances Model_StakingLedger Model_Staking.
From stdpp Require Import gmap.
Open Scope N_scope.

(** ** Ledgers *)

Definition unlocking (l : ledger) : N := lsum (map c_val (l_unl l)).
(** The total is the active part plus everything unlocking. *)
Definition sound (l : ledger) : Prop := l_total l = l_active l + unlocking l.

(** [new] is what is left of a part worth [old]: untouched, used up, or reduced to
    something above the minimum. *)
Definition no_dust (minb old new : N) : Prop := new = old \/ new = 0 \/ (minb < new /\ new < old).
(** Chunks taken from the front: some are gone, at most the first one left is
    reduced, and then to something above the minimum. *)
Definition front_taken (minb : N) (old new : list chunk) : Prop :=
  exists gone, old = gone ++ new \/
    exists v v' e r, old = gone ++ Chunk v e :: r /\ new = Chunk v' e :: r /\ minb < v' /\ v' < v.
(** Chunks taken from the back: some are gone, at most the last one left is reduced. *)
Definition back_taken (old new : list chunk) : Prop :=
  exists gone, old = new ++ gone \/
    exists v v' e r, old = r ++ Chunk v e :: gone /\ new = r ++ [Chunk v' e] /\ v' <= v.

(** ** Slashing spans *)

Definition in_span (sp : span) (era : N) : Prop :=
  sn_start sp <= era /\ match sn_len sp with None => True | Some n => era < sn_start sp + n end.
(** Newest first: numbered downwards, each older span ends where the next one starts. *)
Fixpoint chained (l : list span) : Prop :=
  match l with
  | a :: ((b :: _) as r) =>
      sn_index a = sn_index b + 1 /\
      (exists n, sn_len b = Some n /\ 0 < n /\ sn_start b + n = sn_start a) /\ chained r
  | _ => True
  end.
(** The ongoing span comes first and has no end; every era from the earliest start
    on is in exactly one span, an era before it in none. *)
Definition partitioned (l : list span) : Prop :=
  exists cur old first,
    l = cur :: old /\ sn_len cur = None /\ chained l /\
    sn_start (List.last old cur) = first /\
    (forall era, first <= era ->
       exists i sp, l !! i = Some sp /\ in_span sp era /\
         forall j sp', l !! j = Some sp' -> in_span sp' era -> j = i) /\
    (forall era sp, era < first -> sp ∈ l -> ~ in_span sp era).

(** ** Histories *)

(** No number is near the limit of its type: balances and ledger totals (with all
    validator rewards of an era) fit u128, eras fit u32. *)
Definition fits (cfg : kcfg) (s : kstate) : Prop :=
  (forall who, free_of (k_bank s) who < two128) /\
  (forall c l era, s_ledger (k_stk s) !! c = Some l ->
     l_total l + N.of_nat (length (default [] (e_vals (k_era s) !! era))) * p_reward (k_par s) < two128) /\
  cur_era s + kc_bonding cfg + 1 < two32 /\
  match e_act (k_era s) with Some (i, _) => i + 2 < two32 | None => True end.
(** The argument of rebond is a u128. *)
Definition op_typed (op : kop) : Prop :=
  match op with KCall _ _ (KRebond v) => v < two128 | _ => True end.
Fixpoint sane (cfg : kcfg) (s : kstate) (h : list kop) : Prop :=
  fits cfg s /\
  match h with [] => True | op :: r => op_typed op /\ sane cfg (kstep cfg s op).1 r end.

(** Each step of a history with the current era before it. *)
Fixpoint ktrace (cfg : kcfg) (s : kstate) (h : list kop) : list (N * kout) :=
  match h with
  | [] => []
  | op :: r => (cur_era s, (kstep cfg s op).2) :: ktrace cfg (kstep cfg s op).1 r
  end.

(** ** Stakes *)

(** The ledger of a stash. *)
Definition stake_of (s : kstate) (st : N) : option ledger :=
  match s_bonded (k_stk s) !! st with Some c => s_ledger (k_stk s) !! c | None => None end.
(** What unlocks by era [e]. *)
Definition due (e : N) (l : ledger) : N :=
  lsum (map c_val (List.filter (fun c => c_era c <=? e) (l_unl l))).

Definition ev_sum (f : kev -> N) (o : kout) : N :=
  match o with KDone ev => lsum (map f ev) | _ => 0 end.
Definition unbonded_ev (st : N) (e : kev) : N :=
  match e with KUnbonded a v => if a =? st then v else 0 | _ => 0 end.
Definition withdrawn_ev (st : N) (e : kev) : N :=
  match e with KWithdrawn a v => if a =? st then v else 0 | _ => 0 end.
(** The sum over the steps made in eras that satisfy [p]. *)
Definition sum_when (p : N -> bool) (f : kev -> N) (tr : list (N * kout)) : N :=
  lsum (map (fun q => if p q.1 then ev_sum f q.2 else 0) tr).

(** Who may change the stake of [st] by a call: the stash by bonding, its controller
    by unbonding, withdrawing, rebonding or burning, Root, and anybody if nothing
    but the existential deposit is left on the account. *)
Definition may_change (cfg : kcfg) (s : kstate) (st : N) (o : origin) (c : kcall) : Prop :=
  (o = Signed st /\ ((exists ct v d, c = KBond ct v d) \/ exists v, c = KBondExtra v)) \/
  (exists ct, o = Signed ct /\ s_bonded (k_stk s) !! st = Some ct /\
     ((exists v, c = KUnbond v) \/ (exists n, c = KWithdraw n) \/
      (exists v, c = KRebond v) \/ (exists v, c = KBurnStake v))) \/
  (o = Root /\ exists n, c = KForceUnstake st n) \/
  (exists n, c = KReap st n /\
     free (acct_of (k_bank s) st) + rsv (acct_of (k_bank s) st) = kc_ed cfg).

Definition total_of (s : kstate) (st : N) : N :=
  match stake_of s st with Some l => l_total l | None => 0 end.
(** How the total of a stake gets smaller: a withdrawal of what is due (leaving the
    active part alone, or dissolving a stake of which everything else is due and the
    active part is at most the existential deposit); a slash; the controller burning
    stake; Root; and the removal of an account with nothing but the existential deposit. *)
Definition may_drop (cfg : kcfg) (s s' : kstate) (st : N) (op : kop) : Prop :=
  (exists x ct n l, op = KCall x (Signed ct) (KWithdraw n) /\ s_bonded (k_stk s) !! st = Some ct /\
     stake_of s st = Some l /\
     ((exists l', stake_of s' st = Some l' /\ l_total l = l_total l' + due (cur_era s) l /\
                  l_active l' = l_active l) \/
      (stake_of s' st = None /\ l_active l <= kc_ed cfg /\ due (cur_era s) l = unlocking l))) \/
  ((exists x i, op = KStartSession x i) \/ (exists x os i, op = KOffence x os i /\ kc_defer cfg = 0)) \/
  (exists x ct v, op = KCall x (Signed ct) (KBurnStake v) /\ s_bonded (k_stk s) !! st = Some ct) \/
  (exists x n, op = KCall x Root (KForceUnstake st n)) \/
  (exists x o n, op = KCall x o (KReap st n) /\
     free (acct_of (k_bank s) st) + rsv (acct_of (k_bank s) st) = kc_ed cfg).

(** ** Slashes *)

(** What was charged to a span of a stash over all reports, and the largest slash
    reported in it. *)
Definition charged (st i : N) (ev : list kev) : N :=
  lsum (map (fun e => match e with
                      | KCharge a _ j _ d => if (a =? st) && (j =? i) then d else 0
                      | _ => 0 end) ev).
Fixpoint largest (st i : N) (ev : list kev) : N :=
  match ev with
  | [] => 0
  | KCharge a _ j own _ :: r => N.max (if (a =? st) && (j =? i) then own else 0) (largest st i r)
  | _ :: r => largest st i r
  end.
Definition events (outs : list kout) : list kev :=
  concat (map (fun o => match o with KDone ev => ev | _ => [] end) outs).
(** No step of the history dissolves the stake of [st]. *)
Fixpoint never_dissolved (cfg : kcfg) (s : kstate) (h : list kop) (st : N) : Prop :=
  match h with
  | [] => True
  | op :: r =>
      (is_Some (s_bonded (k_stk s) !! st) -> is_Some (s_bonded (k_stk (kstep cfg s op).1) !! st)) /\
      never_dissolved cfg (kstep cfg s op).1 r st
  end.

(** ** Deferred slashes *)

(** The entries of a list, numbered from [i], whose number is not in [idx]. *)
Fixpoint without {A} (i : N) (idx : list N) (l : list A) : list A :=
  match l with
  | [] => []
  | a :: r => if bool_decide (i ∈ idx) then without (i + 1) idx r else a :: without (i + 1) idx r
  end.
(** Strictly ascending. *)
Fixpoint ascending (l : list N) : Prop :=
  match l with a :: ((b :: _) as r) => a < b /\ ascending r | _ => True end.

(** ** Elections *)

(** Declared validators that may be elected: all if there is no whitelist. *)
Definition eligible (s : kstate) (v : N) : Prop :=
  v ∈ s_valid (k_stk s) /\ (p_white (k_par s) = [] \/ v ∈ p_white (k_par s)).
(** When a validator was last elected, and how many delegate to it. *)
Definition last_elected (s : kstate) (v : N) : N :=
  match d_cand (k_del s) !! v with Some c => cd_era c | None => 0 end.
Definition backing (s : kstate) (v : N) : N :=
  match d_cand (k_del s) !! v with Some c => N.of_nat (size (cd_dels c)) | None => 0 end.
(** [v] goes before [w]: elected longer ago, or as long ago and more delegators, or
    both equal and the smaller storage key. *)
Definition before (cfg : kcfg) (s : kstate) (v w : N) : Prop :=
  last_elected s v < last_elected s w \/
  (last_elected s v = last_elected s w /\
   (backing s w < backing s v \/ (backing s w = backing s v /\ kc_vkey cfg v <= kc_vkey cfg w))).
Definition fair_election (cfg : kcfg) (s : kstate) (l : list N) : Prop :=
  NoDup l /\ N.of_nat (length l) <= p_count (k_par s) /\
  (forall v, v ∈ l -> eligible s v) /\
  (forall v w, v ∈ l -> eligible s w -> w ∉ l -> before cfg s v w) /\
  (forall w, eligible s w -> w ∉ l -> N.of_nat (length l) = p_count (k_par s)).

(** ** Delegation *)

(** The surroundings of a step, if it has any. *)
Definition ctx_of (op : kop) : option kctx :=
  match op with
  | KCall x _ _ | KInit x | KStartSession x _ | KEndSession x _ | KOffence x _ _ => Some x
  | _ => None
  end.
(** [d] is among the delegators of validator [v]. *)
Definition backs (s : kstate) (d v : N) : Prop :=
  match d_cand (k_del s) !! v with Some c => d ∈ cd_dels c | None => False end.
(** [d] is delegating and named [v]. *)
Definition names (s : kstate) (d v : N) : Prop :=
  exists r, d_recs (k_del s) !! d = Some r /\ dr_on r = true /\ v ∈ dr_vals r.
Definition delegating (s : kstate) : gset N :=
  dom (filter (fun p : N * drec => dr_on p.2 = true) (d_recs (k_del s))).
Definition referees (s : kstate) (a : N) : gset N :=
  dom (filter (fun p : N * N => p.2 = a) (d_ref (k_del s))).
(** Fewer delegators and referrals than a u32 can count. *)
Definition countable (s : kstate) : Prop :=
  N.of_nat (size (d_recs (k_del s))) + 1 < two32 /\ N.of_nat (size (d_ref (k_del s))) + 1 < two32.
(** [P] holds in every state before a step of the history. *)
Fixpoint always (cfg : kcfg) (P : kstate -> Prop) (s : kstate) (h : list kop) : Prop :=
  match h with [] => True | op :: r => P s /\ always cfg P (kstep cfg s op).1 r end.

(** The reward computations of a history for [d]: first and last era asked for. *)
Definition asks (d : N) (ev : list kev) : list (N * N) :=
  omap (fun e => match e with KAsk a f t => if a =? d then Some (f, t) else None | _ => None end) ev.
(** Eras of the credit pallet never go back. *)
Fixpoint credit_eras (e : N) (h : list kop) : Prop :=
  match h with
  | [] => True
  | op :: r => match ctx_of op with
               | Some x => e <= kx_era x /\ kx_era x < two32 /\ credit_eras (kx_era x) r
               | None => credit_eras e r
               end
  end.
(** Intervals after era [e], each after the one before. *)
Fixpoint successive (l : list (N * N)) : Prop :=
  match l with
  | [] => True
  | (f, t) :: r => f <= t /\ Forall (fun q => t < q.1) r /\ successive r
  end.
(** How often [d] was paid as a delegator. *)
Definition payments (d : N) (ev : list kev) : nat :=
  length (List.filter (fun e => match e with KMint MDelegator a _ => a =? d | _ => false end) ev).
(** All steps of [h] happen in era [e] of the credit pallet. *)
Definition within (e : N) (h : list kop) : Prop :=
  Forall (fun op => match ctx_of op with Some x => kx_era x = e | None => True end) h.
(** Calls by which somebody may start to delegate. *)
Definition is_join (c : kcall) : bool :=
  match c with KStakeDelegate _ | KUsdtDelegate _ _ _ | KDelegate _ => true | _ => false end.
Definition joins (op : kop) : bool := match op with KCall _ _ c => is_join c | _ => false end.
(** The first block of a span of [kc_bpe] blocks resets the payment; the others pay. *)
Definition resets (cfg : kcfg) (op : kop) : bool :=
  match op with KInit x => kx_block x mod kc_bpe cfg =? 0 | _ => false end.
Definition pays (cfg : kcfg) (op : kop) : bool :=
  match op with KInit x => negb (kx_block x mod kc_bpe cfg =? 0) | _ => false end.
Definition how_many {A} (f : A -> bool) (l : list A) : N := N.of_nat (length (List.filter f l)).
(** [P] holds in every state of the history, the last included. *)
Definition throughout (cfg : kcfg) (P : kstate -> Prop) (s : kstate) (h : list kop) : Prop :=
  always cfg P s h /\ P (krun cfg s h).

(** ** The mining pool *)
Definition mining_pool (cfg : kcfg) (s : kstate) : N := default (kc_total cfg) (d_pool (k_del s)).
(** What rewards minted, and by how much Root raised the pool. *)
Definition minted (ev : list kev) : N := lsum (map (fun e => match e with KMint _ _ v => v | _ => 0 end) ev).
Definition raised (ev : list kev) : N := lsum (map (fun e => match e with KRaise v => v | _ => 0 end) ev).
(** The validators of the active era. *)
Definition on_duty (s : kstate) : list N :=
  match e_act (k_era s) with Some (i, _) => default [] (e_vals (k_era s) !! i) | None => [] end.
(** Rounding may take half a unit per validator too much out of a pool that is almost empty. *)
Definition overdraft (cfg : kcfg) (s : kstate) (op : kop) : N :=
  match op with
  | KEndSession _ _ =>
      let half := N.of_nat (length (on_duty s)) / 2 in
      if p_reward (k_par s) + half <=? mining_pool cfg s then 0 else half
  | _ => 0
  end.
Fixpoint overdrafts (cfg : kcfg) (s : kstate) (h : list kop) : N :=
  match h with [] => 0 | op :: r => overdraft cfg s op + overdrafts cfg (kstep cfg s op).1 r end.
(** At most 10^9 points in an era; the pool and half a unit per validator fit u128. *)
Definition small_points (cfg : kcfg) (s : kstate) : Prop :=
  (forall era t m, e_points (k_era s) !! era = Some (t, m) -> t + 20 <= 10 ^ 9) /\
  mining_pool cfg s + N.of_nat (length (on_duty s)) < 2 ^ 128.

(** ** Reaching every delegator *)
(** Different delegators have different storage keys. *)
Definition dkeys_differ (cfg : kcfg) : Prop := forall a b, kc_dkey cfg a = kc_dkey cfg b -> a = b.
(** The first era has begun, the pool is not empty, and [d] has a record. *)
Definition present (cfg : kcfg) (d : N) (s : kstate) : Prop :=
  0 < cur_era s /\ mining_pool cfg s <> 0 /\ is_Some (d_recs (k_del s) !! d).
