(** Model of the call filters that /repo/runtime/src/lib.rs composes: which calls a proxy of
    each kind may make ([InstanceFilter for ProxyType], 364-395), which calls may be paused
    ([TxPauseWhitelistedCalls], 1489-1511; [BaseCallFilter = TxPause], 276), and the pallets
    that hand one call's origin on to another (construct_runtime!, 1551-1624).
    The pallets themselves (pallet_proxy, pallet_tx_pause, pallet_utility, pallet_sudo,
    pallet_multisig, pallet_recovery, frame_system; polkadot-v1.1.0) are not in /repo: they are
    environment, written down here from their published behaviour. Left out: deposits (every
    caller can pay them), weights, events, announcements of delayed proxies, multisigs with a
    threshold above one, the scheduler's agenda and the origins of the collectives. *)
From Verif Require Import Base.
From stdpp Require Import gmap strings.
Local Open Scope string_scope.
Open Scope N_scope.

(** runtime/src/lib.rs:1551-1624 construct_runtime!: the pallets declared with a [Call] part. *)
Inductive pallet :=
| PSystem | PScheduler | PPreimage | PBabe | PTimestamp | PIndices | PBalances | PStaking
| PSession | PGrandpa | PImOnline | PDemocracy | PCouncil | PTechnicalCommittee | PElections
| PTechnicalMembership | PTreasury | PCredit | PVesting | PUtility | PIdentity | PProxy
| PMultisig | PBounties | PTips | PContracts | PSudo | PSociety | PRecovery | PAssets | PLottery
| PChildBounties | PUniques | PMicropayment | PDeeperNode | PCreditAccumulation | PEthereum
| PEVM | PBaseFee | PDynamicFee | POperation | PUserPrivileges | PAdsc | PTxPause.
Definition pallet_name (p : pallet) : string :=
  match p with
  | PSystem => "System" | PScheduler => "Scheduler" | PPreimage => "Preimage" | PBabe => "Babe"
  | PTimestamp => "Timestamp" | PIndices => "Indices" | PBalances => "Balances"
  | PStaking => "Staking" | PSession => "Session" | PGrandpa => "Grandpa"
  | PImOnline => "ImOnline" | PDemocracy => "Democracy" | PCouncil => "Council"
  | PTechnicalCommittee => "TechnicalCommittee" | PElections => "Elections"
  | PTechnicalMembership => "TechnicalMembership" | PTreasury => "Treasury"
  | PCredit => "Credit" | PVesting => "Vesting" | PUtility => "Utility"
  | PIdentity => "Identity" | PProxy => "Proxy" | PMultisig => "Multisig"
  | PBounties => "Bounties" | PTips => "Tips" | PContracts => "Contracts" | PSudo => "Sudo"
  | PSociety => "Society" | PRecovery => "Recovery" | PAssets => "Assets"
  | PLottery => "Lottery" | PChildBounties => "ChildBounties" | PUniques => "Uniques"
  | PMicropayment => "Micropayment" | PDeeperNode => "DeeperNode"
  | PCreditAccumulation => "CreditAccumulation" | PEthereum => "Ethereum" | PEVM => "EVM"
  | PBaseFee => "BaseFee" | PDynamicFee => "DynamicFee" | POperation => "Operation"
  | PUserPrivileges => "UserPrivileges" | PAdsc => "Adsc" | PTxPause => "TxPause"
  end.

(** runtime/src/lib.rs:352-358 ProxyType. *)
Inductive ptype := KAny | KNonTransfer | KGovernance | KStaking.
Global Instance ptype_eq : EqDecision ptype.
Proof. solve_decision. Defined.

(** The full name of a call, as pallet_tx_pause reads it off the call's metadata. *)
Definition cname : Type := string * string.

(** pallet_utility: batch, batch_all, force_batch. *)
Inductive bkind := BStop | BAll | BForce.
Global Instance bkind_eq : EqDecision bkind.
Proof. solve_decision. Defined.

(** [RuntimeCall]: the calls that dispatch other calls or that change who may dispatch, and every
    other call of the runtime as a leaf with its pallet, its name and whether its body
    succeeds. *)
Inductive rcall :=
| Leaf (p : pallet) (f : string) (ok : bool)
| Batch (k : bkind) (l : list rcall)                          (* pallet_utility *)
| AsDerivative (i : N) (c : rcall)
| ProxyFor (real : N) (force : option ptype) (c : rcall)      (* pallet_proxy *)
| AddProxy (delegate : N) (t : ptype) (delay : N)
| RemoveProxy (delegate : N) (t : ptype) (delay : N)
| RemoveProxies
| CreatePure (t : ptype) (delay index salt : N)
| KillPure (spawner : N) (t : ptype) (index salt : N)
| SudoCall (c : rcall)                                        (* pallet_sudo *)
| SudoAs (who : N) (c : rcall)
| SudoSetKey (who : N)
| AsMulti1 (others : list N) (c : rcall)                      (* pallet_multisig *)
| SetRecovered (lost rescuer : N)                             (* pallet_recovery *)
| AsRecovered (lost : N) (c : rcall)
| CreateRecovery (friends : list N) (threshold delay : N)
| InitiateRecovery (lost : N)
| VouchRecovery (lost rescuer : N)
| ClaimRecovery (lost : N)
| CloseRecovery (rescuer : N)
| RemoveRecovery
| CancelRecovered (lost : N)
| Pause (n : cname)                                           (* pallet_tx_pause *)
| Unpause (n : cname).

(** [GetCallMetadata]. *)
Definition call_pallet (c : rcall) : pallet :=
  match c with
  | Leaf p _ _ => p
  | Batch _ _ | AsDerivative _ _ => PUtility
  | ProxyFor _ _ _ | AddProxy _ _ _ | RemoveProxy _ _ _ | RemoveProxies | CreatePure _ _ _ _
  | KillPure _ _ _ _ => PProxy
  | SudoCall _ | SudoAs _ _ | SudoSetKey _ => PSudo
  | AsMulti1 _ _ => PMultisig
  | SetRecovered _ _ | AsRecovered _ _ | CreateRecovery _ _ _ | InitiateRecovery _
  | VouchRecovery _ _ | ClaimRecovery _ | CloseRecovery _ | RemoveRecovery
  | CancelRecovered _ => PRecovery
  | Pause _ | Unpause _ => PTxPause
  end.
Definition call_fun (c : rcall) : string :=
  match c with
  | Leaf _ f _ => f
  | Batch BStop _ => "batch" | Batch BAll _ => "batch_all" | Batch BForce _ => "force_batch"
  | AsDerivative _ _ => "as_derivative"
  | ProxyFor _ _ _ => "proxy" | AddProxy _ _ _ => "add_proxy" | RemoveProxy _ _ _ => "remove_proxy"
  | RemoveProxies => "remove_proxies" | CreatePure _ _ _ _ => "create_pure"
  | KillPure _ _ _ _ => "kill_pure"
  | SudoCall _ => "sudo" | SudoAs _ _ => "sudo_as" | SudoSetKey _ => "set_key"
  | AsMulti1 _ _ => "as_multi_threshold_1"
  | SetRecovered _ _ => "set_recovered" | AsRecovered _ _ => "as_recovered"
  | CreateRecovery _ _ _ => "create_recovery" | InitiateRecovery _ => "initiate_recovery"
  | VouchRecovery _ _ => "vouch_recovery" | ClaimRecovery _ => "claim_recovery"
  | CloseRecovery _ => "close_recovery" | RemoveRecovery => "remove_recovery"
  | CancelRecovered _ => "cancel_recovered"
  | Pause _ => "pause" | Unpause _ => "unpause"
  end.
Definition call_name (c : rcall) : cname := (pallet_name (call_pallet c), call_fun c).

(** runtime/src/lib.rs:365-385 InstanceFilter::filter. *)
Definition kind_filter (t : ptype) (c : rcall) : bool :=
  match t with
  | KAny => true
  | KNonTransfer =>
      negb (match call_pallet c with
            | PBalances => true
            | PVesting => String.eqb (call_fun c) "vested_transfer"
            | PIndices => String.eqb (call_fun c) "transfer"
            | _ => false
            end)
  | KGovernance =>
      match call_pallet c with
      | PDemocracy | PCouncil | PSociety | PTechnicalCommittee | PElections | PTreasury => true
      | _ => false
      end
  | KStaking => match call_pallet c with PStaking => true | _ => false end
  end.

(** runtime/src/lib.rs:386-394 InstanceFilter::is_superset. *)
Definition is_superset (x y : ptype) : bool :=
  if bool_decide (x = y) then true else
  match x, y with
  | KAny, _ => true
  | _, KAny => false
  | KNonTransfer, _ => true
  | _, _ => false
  end.

(** runtime/src/lib.rs:1489-1500 TxPauseWhitelistedCalls. *)
Definition whitelisted (n : cname) : bool :=
  String.eqb (fst n) "Sudo" || String.eqb (fst n) "System".

(** What the filters and the origin-passing pallets read: the proxies of every account (in the
    order of (delegate, kind, delay)), the paused names, the sudo key, for whom a rescuer may
    act (pallet_recovery's [Proxy]), the recovery configurations (friends, threshold, delay), the
    recoveries under way (begun at, vouched for by), and the block number. *)
Record rstate := RState {
  r_proxies : gmap N (list (N * ptype * N));
  r_paused : gset cname;
  r_key : option N;
  r_rescue : gmap N N;
  r_config : gmap N (list N * N * N);
  r_active : gmap (N * N) (N * list N);
  r_now : N }.
Definition set_proxies (s : rstate) (m : gmap N (list (N * ptype * N))) : rstate :=
  RState m (r_paused s) (r_key s) (r_rescue s) (r_config s) (r_active s) (r_now s).
Definition set_paused (s : rstate) (m : gset cname) : rstate :=
  RState (r_proxies s) m (r_key s) (r_rescue s) (r_config s) (r_active s) (r_now s).
Definition set_key (s : rstate) (k : option N) : rstate :=
  RState (r_proxies s) (r_paused s) k (r_rescue s) (r_config s) (r_active s) (r_now s).
Definition set_rescue (s : rstate) (m : gmap N N) : rstate :=
  RState (r_proxies s) (r_paused s) (r_key s) m (r_config s) (r_active s) (r_now s).
Definition set_config (s : rstate) (m : gmap N (list N * N * N)) : rstate :=
  RState (r_proxies s) (r_paused s) (r_key s) (r_rescue s) m (r_active s) (r_now s).
Definition set_active (s : rstate) (m : gmap (N * N) (N * list N)) : rstate :=
  RState (r_proxies s) (r_paused s) (r_key s) (r_rescue s) (r_config s) m (r_now s).
Definition set_now (s : rstate) (n : N) : rstate :=
  RState (r_proxies s) (r_paused s) (r_key s) (r_rescue s) (r_config s) (r_active s) n.

(** Who dispatches: Root, an account, nobody (an inherent), or an Ethereum transaction
    (runtime/src/lib.rs:1788-1800 apply_self_contained). *)
Inductive caller := CRoot | CSigned (who : N) | CNone | CEth (from : N).
Global Instance caller_eq : EqDecision caller.
Proof. solve_decision. Defined.
(** [RuntimeOrigin]: the caller, the proxy kinds whose filters were added on the way, and whether
    a surrounding batch_all forbids another one. *)
Record rorigin := ROrigin { o_caller : caller; o_kinds : list ptype; o_nested : bool }.
Definition new_origin (c : caller) : rorigin := ROrigin c [] false.

(** One call that was executed: by whom, and its name. *)
Definition entry : Type := caller * cname.

(** pallet_tx_pause [is_paused], asked by its [Contains] (the base call filter). *)
Definition is_paused (s : rstate) (n : cname) : bool :=
  if whitelisted n then false else bool_decide (n ∈ r_paused s).
(** pallet_proxy [do_proxy]: the filter added to the principal's origin. *)
Definition proxy_filter (t : ptype) (c : rcall) : bool :=
  match c with
  | AddProxy _ t' _ | RemoveProxy _ t' _ => if is_superset t t' then kind_filter t c else false
  | RemoveProxies | KillPure _ _ _ _ => if bool_decide (t = KAny) then kind_filter t c else false
  | _ => kind_filter t c
  end.
(** [OriginTrait::filter_call]: Root passes every filter. *)
Definition passes (s : rstate) (o : rorigin) (c : rcall) : bool :=
  match o_caller o with
  | CRoot => true
  | _ =>
      negb (is_paused s (call_name c)) && forallb (fun t => proxy_filter t c) (o_kinds o) &&
      negb (o_nested o && match c with Batch BAll _ => true | _ => false end)
  end.

(** pallet_proxy: proxies are kept in the order of (delegate, kind, delay). *)
Definition rank (t : ptype) : N :=
  match t with KAny => 0 | KNonTransfer => 1 | KGovernance => 2 | KStaking => 3 end.
Definition before (x y : N * ptype * N) : bool :=
  let '(d, t, l) := x in
  let '(d', t', l') := y in
  (d <? d') || ((d =? d') && ((rank t <? rank t') || ((rank t =? rank t') && (l <? l')))).
Fixpoint pins (x : N * ptype * N) (l : list (N * ptype * N)) : list (N * ptype * N) :=
  match l with
  | [] => [x]
  | y :: r => if before x y then x :: l else y :: pins x r
  end.
(** [find_proxy]: the first entry for the delegate, of the demanded kind if one is named. *)
Definition find_proxy (s : rstate) (real who : N) (force : option ptype) : option (ptype * N) :=
  match List.find (fun x => (x.1.1 =? who) && match force with None => true | Some t => bool_decide (x.1.2 = t) end)
          (default [] (r_proxies s !! real)) with
  | Some (_, t, d) => Some (t, d)
  | None => None
  end.
(** runtime/src/lib.rs:333: MaxProxies. *)
Definition MaxProxies : nat := 32.
(** runtime/src/lib.rs:1101: MaxFriends. *)
Definition MaxFriends : nat := 9.

Fixpoint ascending (l : list N) : bool :=
  match l with
  | x :: (y :: _) as r => (x <? y) && ascending r
  | _ => true
  end.

(** Insertion into an ascending list. *)
Fixpoint nins (x : N) (l : list N) : list N :=
  match l with
  | [] => [x]
  | y :: r => if x <? y then x :: l else y :: nins x r
  end.

Section model.
  (** Hashes: the account derived from one (pallet_utility), the pure account a spawner creates
      for a kind (pallet_proxy), the account of a set of signatories (pallet_multisig). *)
  Variable derive : N -> N -> N.
  Variable pure_of : N -> ptype -> N -> N -> N.
  Variable multi : list N -> N.

  Definition signer (o : rorigin) : option N :=
    match o_caller o with CSigned w => Some w | _ => None end.

  (** The body of a call, past its filter ([dispatch_bypass_filter]): the state after it and the
      calls executed, itself first; None is an error, which undoes everything. *)
  Fixpoint body (s : rstate) (o : rorigin) (c : rcall) {struct c} : option (rstate * list entry) :=
    let me : entry := (o_caller o, call_name c) in
    match c with
    | Leaf _ _ ok => if ok then Some (s, [me]) else None
    | Batch k l =>
        match o_caller o with
        | CNone => None
        | who =>
            let o' := match k, who with
                      | BAll, CRoot => o
                      | BAll, _ => ROrigin who (o_kinds o) true
                      | _, _ => o
                      end in
            let fix go (s : rstate) (l : list rcall) : option (rstate * list entry) :=
              match l with
              | [] => Some (s, [])
              | x :: r =>
                  match (if match who with CRoot => true | _ => passes s o' x end
                         then body s o' x else None) with
                  | Some (s1, t1) =>
                      match go s1 r with
                      | Some (s2, t2) => Some (s2, (t1 ++ t2)%list)
                      | None => None
                      end
                  | None =>
                      match k with
                      | BStop => Some (s, [])
                      | BAll => None
                      | BForce => go s r
                      end
                  end
              end in
            match go s l with
            | Some (s', t) => Some (s', me :: t)
            | None => None
            end
        end
    | AsDerivative i x =>
        match signer o with
        | Some w =>
            let o' := ROrigin (CSigned (derive w i)) (o_kinds o) (o_nested o) in
            if passes s o' x then
              match body s o' x with
              | Some (s', t) => Some (s', me :: t)
              | None => None
              end
            else None
        | None => None
        end
    | ProxyFor real force x =>
        match signer o with
        | Some w =>
            match find_proxy s real w force with
            | Some (t, d) =>
                if d =? 0 then
                  let o' := ROrigin (CSigned real) [t] false in
                  match (if passes s o' x then body s o' x else None) with
                  | Some (s', tr) => Some (s', me :: tr)
                  | None => Some (s, [me])
                  end
                else None
            | None => None
            end
        | None => None
        end
    | AddProxy d t delay =>
        match signer o with
        | Some w =>
            let l := default [] (r_proxies s !! w) in
            if (d =? w) || bool_decide ((d, t, delay) ∈ l) || Nat.leb MaxProxies (length l) then None
            else Some (set_proxies s (<[w := pins (d, t, delay) l]> (r_proxies s)), [me])
        | None => None
        end
    | RemoveProxy d t delay =>
        match signer o with
        | Some w =>
            let l := default [] (r_proxies s !! w) in
            if bool_decide ((d, t, delay) ∈ l) then
              let l' := filter (fun x => x <> (d, t, delay)) l in
              Some (set_proxies s (if bool_decide (l' = []) then delete w (r_proxies s)
                                   else <[w := l']> (r_proxies s)), [me])
            else None
        | None => None
        end
    | RemoveProxies =>
        match signer o with
        | Some w => Some (set_proxies s (delete w (r_proxies s)), [me])
        | None => None
        end
    | CreatePure t delay i salt =>
        match signer o with
        | Some w =>
            let p := pure_of w t i salt in
            if bool_decide (is_Some (r_proxies s !! p)) then None
            else Some (set_proxies s (<[p := [(w, t, delay)]]> (r_proxies s)), [me])
        | None => None
        end
    | KillPure spawner t i salt =>
        match signer o with
        | Some w =>
            if pure_of spawner t i salt =? w
            then Some (set_proxies s (delete w (r_proxies s)), [me]) else None
        | None => None
        end
    | SudoCall x =>
        match signer o with
        | Some w =>
            if bool_decide (r_key s = Some w) then
              match body s (new_origin CRoot) x with
              | Some (s', t) => Some (s', me :: t)
              | None => Some (s, [me])
              end
            else None
        | None => None
        end
    | SudoAs a x =>
        match signer o with
        | Some w =>
            if bool_decide (r_key s = Some w) then
              match body s (new_origin (CSigned a)) x with
              | Some (s', t) => Some (s', me :: t)
              | None => Some (s, [me])
              end
            else None
        | None => None
        end
    | SudoSetKey a =>
        match signer o with
        | Some w =>
            if bool_decide (r_key s = Some w)
            then Some (set_key s (Some a), [me]) else None
        | None => None
        end
    | AsMulti1 others x =>
        match signer o with
        | Some w =>
            if bool_decide (others = []) || negb (ascending others) || existsb (N.eqb w) others then None
            else
              let o' := new_origin (CSigned (multi (nins w others))) in
              if passes s o' x then
                match body s o' x with
                | Some (s', t) => Some (s', me :: t)
                | None => None
                end
              else None
        | None => None
        end
    | SetRecovered lost rescuer =>
        match o_caller o with
        | CRoot => Some (set_rescue s (<[rescuer := lost]> (r_rescue s)), [me])
        | _ => None
        end
    | AsRecovered lost x =>
        match signer o with
        | Some w =>
            if bool_decide (r_rescue s !! w = Some lost) then
              let o' := new_origin (CSigned lost) in
              if passes s o' x then
                match body s o' x with
                | Some (s', t) => Some (s', me :: t)
                | None => None
                end
              else None
            else None
        | None => None
        end
    | CreateRecovery friends threshold delay =>
        match signer o with
        | Some w =>
            if bool_decide (is_Some (r_config s !! w)) || (threshold =? 0) || bool_decide (friends = []) ||
               (N.of_nat (length friends) <? threshold) || negb (ascending friends) ||
               Nat.ltb MaxFriends (length friends)
            then None
            else Some (set_config s (<[w := (friends, threshold, delay)]> (r_config s)), [me])
        | None => None
        end
    | InitiateRecovery lost =>
        match signer o with
        | Some w =>
            if bool_decide (is_Some (r_config s !! lost)) && negb (bool_decide (is_Some (r_active s !! (lost, w))))
            then Some (set_active s (<[(lost, w) := (r_now s, [])]> (r_active s)), [me])
            else None
        | None => None
        end
    | VouchRecovery lost rescuer =>
        match signer o with
        | Some w =>
            match r_config s !! lost, r_active s !! (lost, rescuer) with
            | Some (friends, _, _), Some (created, vouched) =>
                if existsb (N.eqb w) friends && negb (existsb (N.eqb w) vouched)
                then Some (set_active s (<[(lost, rescuer) := (created, nins w vouched)]> (r_active s)), [me])
                else None
            | _, _ => None
            end
        | None => None
        end
    | ClaimRecovery lost =>
        match signer o with
        | Some w =>
            match r_config s !! lost, r_active s !! (lost, w) with
            | Some (_, threshold, delay), Some (created, vouched) =>
                if bool_decide (is_Some (r_rescue s !! w)) || (r_now s <? created + delay) ||
                   (N.of_nat (length vouched) <? threshold)
                then None
                else Some (set_rescue s (<[w := lost]> (r_rescue s)), [me])
            | _, _ => None
            end
        | None => None
        end
    | CloseRecovery rescuer =>
        match signer o with
        | Some w =>
            if bool_decide (is_Some (r_active s !! (w, rescuer)))
            then Some (set_active s (delete (w, rescuer) (r_active s)), [me]) else None
        | None => None
        end
    | RemoveRecovery =>
        match signer o with
        | Some w =>
            if bool_decide (is_Some (r_config s !! w)) &&
               negb (existsb (fun kv => kv.1.1 =? w) (map_to_list (r_active s)))
            then Some (set_config s (delete w (r_config s)), [me]) else None
        | None => None
        end
    | CancelRecovered lost =>
        match signer o with
        | Some w =>
            if bool_decide (r_rescue s !! w = Some lost)
            then Some (set_rescue s (delete w (r_rescue s)), [me]) else None
        | None => None
        end
    | Pause n =>
        match o_caller o with
        | CRoot =>
            if String.eqb (fst n) "TxPause" || whitelisted n || is_paused s n then None
            else Some (set_paused s ({[n]} ∪ r_paused s), [me])
        | _ => None
        end
    | Unpause n =>
        match o_caller o with
        | CRoot =>
            if is_paused s n
            then Some (set_paused s (r_paused s ∖ {[n]}), [me])
            else None
        | _ => None
        end
    end.

  (** [Dispatchable::dispatch]. *)
  Definition dispatch (s : rstate) (o : rorigin) (c : rcall) : option (rstate * list entry) :=
    if passes s o c then body s o c else None.

  (** A signed extrinsic, an Ethereum transaction, or a call scheduled by Root (an enacted
      referendum). *)
  Inductive xt :=
  | XSigned (who : N) (c : rcall)
  | XEth (from : N)
  | XRoot (c : rcall).
  Definition apply_xt (s : rstate) (x : xt) : rstate * list entry :=
    match x with
    | XSigned w c => default (s, []) (dispatch s (new_origin (CSigned w)) c)
    | XEth f => default (s, []) (dispatch s (new_origin (CEth f)) (Leaf PEthereum "transact" true))
    | XRoot c => default (s, []) (dispatch s (new_origin CRoot) c)
    end.
  Fixpoint run (s : rstate) (l : list xt) : rstate * list entry :=
    match l with
    | [] => (s, [])
    | x :: r =>
        let '(s1, t1) := apply_xt s x in
        let '(s2, t2) := run s1 r in
        (s2, (t1 ++ t2)%list)
    end.

  (** A block: the number goes up, Root's scheduled calls run in on_initialize, then the timestamp inherent is
      dispatched without a signer, then the extrinsics. When the inherent is refused, or its
      body never ran, [pallet_timestamp::on_finalize] panics and there is no block: None. *)
  Definition make_block (s : rstate) (sched : list rcall) (l : list xt) : option (rstate * list entry) :=
    let '(s0, t0) := run (set_now s (r_now s + 1)) (XRoot <$> sched) in
    match dispatch s0 (new_origin CNone) (Leaf PTimestamp "set" true) with
    | Some (s1, t1) =>
        let '(s2, t2) := run s1 l in
        Some (s2, (t0 ++ t1 ++ t2)%list)
    | None => None
    end.
End model.
