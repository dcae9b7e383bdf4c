(** pallets/adsc/src/lib.rs: daily ADSC rewards, NFT stakes, the bridge and the
    swap to DPR, over the parts of pallet_assets and pallet_uniques it calls.

    Simplifications: events other than rewards, bridge transfers and swaps are
    omitted; weights are omitted. The collection owner's deposit for an NFT is an
    oracle (whether it can be reserved). pallet_assets and pallet_uniques are
    environment code (polkadot-v1.1.0) and belong to the trusted base; freezing
    of assets is left out. *)
From Verif Require Import Base Balances.
From stdpp Require Import gmap sorting.
Open Scope N_scope.

Definition DPR : N := 1000000000000000000.

(** [Perbill::from_rational(p, q)] on u32: rounds down, 1 if p > q or q = 0; a
    denominator above 10^9 is reduced first. *)
Definition perbill_of (p q : N) : N :=
  if (q =? 0) || (q <? p) then PERBILL else
  let factor := N.max 1 ((q + (PERBILL - 1)) / PERBILL) in
  (p / factor) * PERBILL / (q / factor).

(** ** pallet_assets: one asset *)
Record ledger := Ledger { as_bal : gmap N N; as_supply : N; as_min : N }.
Definition abal (l : ledger) (who : N) : N := default 0 (as_bal l !! who).
(** [mint_into]: fails on overflow of the supply, or for a new account below the
    minimum balance. *)
Definition amint (l : ledger) (who v : N) : option ledger :=
  if two128 <=? as_supply l + v then None else
  if v =? 0 then Some l else
  match as_bal l !! who with
  | Some b => if two128 <=? b + v then None
              else Some (Ledger (<[who := b + v]> (as_bal l)) (as_supply l + v) (as_min l))
  | None => if v <? as_min l then None
            else Some (Ledger (<[who := v]> (as_bal l)) (as_supply l + v) (as_min l))
  end.
(** What a withdrawal of [v] takes: a rest below the minimum goes as well. *)
Definition adebit (l : ledger) (b v : N) : N := if b - v <? as_min l then b else v.
Definition aset (l : ledger) (who v : N) : gmap N N :=
  if v =? 0 then delete who (as_bal l) else <[who := v]> (as_bal l).
(** [burn_from] with [Precision::Exact]. *)
Definition aburn (l : ledger) (who v : N) : option ledger :=
  if v =? 0 then Some l else
  match as_bal l !! who with
  | None => None
  | Some b =>
      if (b <? v) || (as_supply l <? v) then None else
      let act := adebit l b v in
      Some (Ledger (aset l who (b - act)) (as_supply l - act) (as_min l))
  end.
(** [transfer] with [Preservation::Expendable]; dust is lost, the supply stays. *)
Definition atransfer (l : ledger) (src dst v : N) : option ledger :=
  match as_bal l !! src with
  | None => if v =? 0 then (match as_bal l !! dst with Some _ => Some l | None => if as_min l =? 0 then Some l else None end)
            else None
  | Some b =>
      if (b <? v) || (as_supply l <? v) then None else
      match as_bal l !! dst with
      | Some d => if two128 <=? d + v then None else
          if (src =? dst) || (v =? 0) then Some l
          else Some (Ledger (<[dst := d + v]> (aset l src (b - adebit l b v))) (as_supply l) (as_min l))
      | None => if v <? as_min l then None else
          if v =? 0 then Some l
          else Some (Ledger (<[dst := v]> (aset l src (b - adebit l b v))) (as_supply l) (as_min l))
      end
  end.

(** ** State *)
(** AdscStakerLastKey: empty, the prefix of the map, or the storage key of an
    account. *)
Inductive cursor := CEmpty | CPrefix | CKey (k : N).
(** pallet_uniques: collections, items with owners, items with metadata. *)
Record uniques := Uniques { u_colls : gmap N unit; u_items : gmap (N * N) N; u_meta : gmap (N * N) unit }.

(** lib.rs:105-163 storage. *)
Record astate := AState {
  a_bank : bank;
  a_ass : option ledger;              (* asset AdscId *)
  a_uniq : uniques;
  a_stakers : gmap N N;               (* AdscStakers: days left *)
  a_nfts : gmap N (N * N);            (* AdscNfts *)
  a_cursor : cursor;                  (* AdscStakerLastKey *)
  a_base : N;                         (* CurrentAdscBaseReward *)
  a_minted : N;                       (* CurrentMintedAdsc *)
  a_target : N;                       (* CurrentHalfTarget *)
  a_period : N;                       (* CurrentRewardPeriod *)
  a_bnum : N;                         (* BlocklyRewardNum *)
  a_day : N;                          (* SavedDay *)
  a_rate : N * N;                     (* AdscExchangeRate *)
  a_pool : N;                         (* TotalPoolDpr *)
  a_version : N;                      (* StorageVersion *)
}.
Definition set_a_bank (s : astate) (v : bank) : astate :=
  AState v (a_ass s) (a_uniq s) (a_stakers s) (a_nfts s) (a_cursor s) (a_base s) (a_minted s) (a_target s) (a_period s) (a_bnum s) (a_day s) (a_rate s) (a_pool s) (a_version s).
Definition set_a_ass (s : astate) (v : option ledger) : astate :=
  AState (a_bank s) v (a_uniq s) (a_stakers s) (a_nfts s) (a_cursor s) (a_base s) (a_minted s) (a_target s) (a_period s) (a_bnum s) (a_day s) (a_rate s) (a_pool s) (a_version s).
Definition set_a_uniq (s : astate) (v : uniques) : astate :=
  AState (a_bank s) (a_ass s) v (a_stakers s) (a_nfts s) (a_cursor s) (a_base s) (a_minted s) (a_target s) (a_period s) (a_bnum s) (a_day s) (a_rate s) (a_pool s) (a_version s).
Definition set_a_stakers (s : astate) (v : gmap N N) : astate :=
  AState (a_bank s) (a_ass s) (a_uniq s) v (a_nfts s) (a_cursor s) (a_base s) (a_minted s) (a_target s) (a_period s) (a_bnum s) (a_day s) (a_rate s) (a_pool s) (a_version s).
Definition set_a_nfts (s : astate) (v : gmap N (N * N)) : astate :=
  AState (a_bank s) (a_ass s) (a_uniq s) (a_stakers s) v (a_cursor s) (a_base s) (a_minted s) (a_target s) (a_period s) (a_bnum s) (a_day s) (a_rate s) (a_pool s) (a_version s).
Definition set_a_cursor (s : astate) (v : cursor) : astate :=
  AState (a_bank s) (a_ass s) (a_uniq s) (a_stakers s) (a_nfts s) v (a_base s) (a_minted s) (a_target s) (a_period s) (a_bnum s) (a_day s) (a_rate s) (a_pool s) (a_version s).
Definition set_a_base (s : astate) (v : N) : astate :=
  AState (a_bank s) (a_ass s) (a_uniq s) (a_stakers s) (a_nfts s) (a_cursor s) v (a_minted s) (a_target s) (a_period s) (a_bnum s) (a_day s) (a_rate s) (a_pool s) (a_version s).
Definition set_a_minted (s : astate) (v : N) : astate :=
  AState (a_bank s) (a_ass s) (a_uniq s) (a_stakers s) (a_nfts s) (a_cursor s) (a_base s) v (a_target s) (a_period s) (a_bnum s) (a_day s) (a_rate s) (a_pool s) (a_version s).
Definition set_a_target (s : astate) (v : N) : astate :=
  AState (a_bank s) (a_ass s) (a_uniq s) (a_stakers s) (a_nfts s) (a_cursor s) (a_base s) (a_minted s) v (a_period s) (a_bnum s) (a_day s) (a_rate s) (a_pool s) (a_version s).
Definition set_a_period (s : astate) (v : N) : astate :=
  AState (a_bank s) (a_ass s) (a_uniq s) (a_stakers s) (a_nfts s) (a_cursor s) (a_base s) (a_minted s) (a_target s) v (a_bnum s) (a_day s) (a_rate s) (a_pool s) (a_version s).
Definition set_a_bnum (s : astate) (v : N) : astate :=
  AState (a_bank s) (a_ass s) (a_uniq s) (a_stakers s) (a_nfts s) (a_cursor s) (a_base s) (a_minted s) (a_target s) (a_period s) v (a_day s) (a_rate s) (a_pool s) (a_version s).
Definition set_a_day (s : astate) (v : N) : astate :=
  AState (a_bank s) (a_ass s) (a_uniq s) (a_stakers s) (a_nfts s) (a_cursor s) (a_base s) (a_minted s) (a_target s) (a_period s) (a_bnum s) v (a_rate s) (a_pool s) (a_version s).
Definition set_a_rate (s : astate) (v : N * N) : astate :=
  AState (a_bank s) (a_ass s) (a_uniq s) (a_stakers s) (a_nfts s) (a_cursor s) (a_base s) (a_minted s) (a_target s) (a_period s) (a_bnum s) (a_day s) v (a_pool s) (a_version s).
Definition set_a_pool (s : astate) (v : N) : astate :=
  AState (a_bank s) (a_ass s) (a_uniq s) (a_stakers s) (a_nfts s) (a_cursor s) (a_base s) (a_minted s) (a_target s) (a_period s) (a_bnum s) (a_day s) (a_rate s) v (a_version s).
Definition set_a_version (s : astate) (v : N) : astate :=
  AState (a_bank s) (a_ass s) (a_uniq s) (a_stakers s) (a_nfts s) (a_cursor s) (a_base s) (a_minted s) (a_target s) (a_period s) (a_bnum s) (a_day s) (a_rate s) (a_pool s) v.

(** Constants: existential deposit, the pallet's account, and the order of the
    storage keys of accounts (Blake2_128Concat keys are distinct). *)
Record acfg := ACfg { ac_ed : N; ac_acct : N; ac_key : N -> N }.
(** Surroundings: time in ms, eras offline, CreditAdmin, and whether the deposit
    for an NFT can be reserved. *)
Record actx := ACtx { ax_time : N; ax_offline : N -> N; ax_admin : N -> bool; ax_deposit : bool }.

(** lib.rs:196-202 errors, plus those of other pallets. *)
Inductive aerr := ANotAdmin | ASameNft | ABadOrigin | AAsset | ANft | ABalance.
(** lib.rs:165-194 the events used in properties. *)
Inductive aev :=
| EReward (who amount : N)
| EBridgeBurned (who amount : N)
| EBridgeMinted (who amount : N)
| EBridgeFailed
| ESwap (who adsc dpr : N).

(** lib.rs:261-450 dispatchables. *)
Inductive acall :=
| AAdd (who : N)
| AAddNft (who class item : N)
| ASetPeriod (period : N)
| ASetTarget (target : N)
| ASetBase (base : N)
| ABridgeBurn (who amount : N)
| ABridgeMint (who amount : N)
| ASetRate (adsc dpr : N)
| ASwap (amount : N)
| AAddPool (amount : N).

(** Hooks, and what users can do in the other pallets: move or burn an NFT, mint
    one, create or destroy a collection, set or clear metadata, move ADSC, use DPR. *)
Inductive aent :=
| AInitialize
| AUpgrade
| AUniqBurn (class item : N)
| AUniqMint (class item owner : N)
| AUniqMove (class item owner : N)
| AUniqCreate (class : N)
| AUniqDestroy (class : N)
| AUniqSetMeta (class item : N)
| AUniqClearMeta (class item : N)
| AAssetMove (src dst amount : N)
| ABankMove (b : bank).

(** ** pallet_uniques *)
(** [mint_into] then [set_metadata] as root, transactional (lib.rs:569-588 add_nft). *)
Definition add_nft (x : actx) (u : uniques) (class item who : N) : option uniques :=
  match u_colls u !! class, u_items u !! (class, item) with
  | Some _, None =>
      if ax_deposit x
      then Some (Uniques (u_colls u) (<[(class, item) := who]> (u_items u)) (<[(class, item) := tt]> (u_meta u)))
      else None
  | _, _ => None
  end.
(** [burn] without owner check, then [clear_metadata] as root; transactional
    (lib.rs:552-567 remove_nft). *)
Definition remove_nft (u : uniques) (class item : N) : option uniques :=
  match u_colls u !! class, u_items u !! (class, item), u_meta u !! (class, item) with
  | Some _, Some _, Some _ =>
      Some (Uniques (u_colls u) (delete (class, item) (u_items u)) (delete (class, item) (u_meta u)))
  | _, _, _ => None
  end.

Definition INIT_REWARD : N := 8235 * DPR.
Definition INIT_TARGET : N := 10000000000 * DPR.
Definition sadd128 (a b : N) : N := N.min (a + b) (two128 - 1).
Definition smul128 (a b : N) : N := N.min (a * b) (two128 - 1).

Section model.
  Context (cfg : acfg).

  (** lib.rs:470-488 pay_reward; [None] if the mint fails. *)
  Definition pay_reward (s : astate) (who day : N) : option (astate * N) :=
    match a_ass s with
    | None => None
    | Some l =>
        let real_pay := frac_mul (perbill_of day (a_period s)) PERBILL (a_base s) in
        match amint l who real_pay with
        | None => None
        | Some l' =>
            let s1 := set_a_minted (set_a_ass s (Some l')) (add128 (a_minted s) real_pay) in
            Some (if a_target s <=? a_minted s1
                  then set_a_base (set_a_target s1 (sadd128 (a_target s) INIT_TARGET)) (a_base s / 2)
                  else s1, real_pay)
        end
    end.

  (** [AdscStakers::iter_from(key)]: entries behind the cursor, by storage key. *)
  Definition beyond (c : cursor) (k : N) : bool :=
    match c with CEmpty => true | CPrefix => true | CKey k0 => k0 <? k end.
  Definition key_le (p q : N * N) : Prop := ac_key cfg p.1 <= ac_key cfg q.1.
  Global Instance key_le_dec : RelDecision key_le.
  Proof. intros p q. unfold key_le. apply _. Defined.
  Definition iter_from (s : astate) (c : cursor) : list (N * N) :=
    filter (fun p => beyond c (ac_key cfg p.1) = true) (merge_sort key_le (map_to_list (a_stakers s))).

  (** lib.rs:490-529, the loop of adsc_reward: state, last key, accounts to
      remove and to count down, and the rewards paid. *)
  Fixpoint reward_loop (x : actx) (bnum : N) (l : list (N * N)) (counter : N) (s : astate) (last : cursor)
      : astate * cursor * list N * list N * list aev :=
    match l with
    | [] => (s, last, [], [], [])
    | (who, period) :: r =>
        if negb (ax_offline x who =? 0) then reward_loop x bnum r counter s last else
        let last1 := CKey (ac_key cfg who) in
        let '(s1, evs) :=
          if period =? 0 then (s, [])
          else match pay_reward s who period with
               | Some (s1, v) => (s1, [EReward who v])
               | None => (s, [])
               end in
        let rem := if period =? 0 then [who] else [] in
        let sub := if period =? 0 then [] else [who] in
        if add32 counter 1 =? bnum then (s1, last1, rem, sub, evs)
        else let '(s2, last2, rem2, sub2, evs2) := reward_loop x bnum r (add32 counter 1) s1 last1 in
             (s2, last2, rem ++ rem2, sub ++ sub2, evs ++ evs2)
    end.

  (** lib.rs:532-538: removal of a staker and its NFT, ignoring failures. *)
  Definition remove_staker (s : astate) (who : N) : astate :=
    let s1 := set_a_stakers s (delete who (a_stakers s)) in
    match a_nfts s1 !! who with
    | None => s1
    | Some (class, item) =>
        let s2 := set_a_nfts s1 (delete who (a_nfts s1)) in
        match remove_nft (a_uniq s2) class item with
        | Some u => set_a_uniq s2 u
        | None => s2
        end
    end.
  (** lib.rs:540-547. *)
  Definition count_down (s : astate) (who : N) : astate :=
    set_a_stakers s (alter (fun p => p - 1) who (a_stakers s)).

  (** lib.rs:490-550 adsc_reward. *)
  Definition adsc_reward (s : astate) (x : actx) : astate * list aev :=
    match a_cursor s with
    | CEmpty => (s, [])
    | c =>
        let '(s1, last, rem, sub, evs) := reward_loop x (a_bnum s) (iter_from s c) 0 s CEmpty in
        let s2 := set_a_cursor s1 last in
        let s3 := fold_left remove_staker rem s2 in
        (fold_left count_down sub s3, evs)
    end.

  (** lib.rs:207-232 on_initialize; the counter of the map is a saturating u32. *)
  Definition MS_PER_DAY : N := 86400000.
  Definition day_of (ms : N) : N := w32 (ms / MS_PER_DAY).
  Definition on_init (s : astate) (x : actx) : astate * list aev :=
    let cur_day := day_of (ax_time x) in
    if a_day s <? cur_day then
      let staker_num := N.min (N.of_nat (size (a_stakers s))) (two32 - 1) in
      (set_a_bnum (set_a_cursor (set_a_day s cur_day) CPrefix) (add32 (staker_num / 17000) 2), [])
    else adsc_reward s x.

  (** lib.rs:455-460 do_add_pool_dpr_adsc. *)
  Definition add_pool (s : astate) (amount : N) : astate :=
    set_a_pool (set_a_bank s (deposit_creating (ac_ed cfg) (a_bank s) (ac_acct cfg) amount))
      (sadd128 (a_pool s) amount).

  (** lib.rs:234-257 on_runtime_upgrade; [create] fails if the asset exists. *)
  Definition on_upgrade (s : astate) : astate :=
    if a_version s <? 2 then
      let s1 := match a_ass s with
                | Some _ => s
                | None => set_a_ass s (Some (Ledger ∅ 0 1000000000))
                end in
      set_a_version (add_pool s1 (100000000 * DPR)) 2
    else s.

  (** Origins. *)
  Definition ensure_admin (x : actx) (o : origin) : res aerr N :=
    match o with
    | Signed who => if ax_admin x who then ROk who else RErr ANotAdmin
    | _ => RErr ABadOrigin
    end.

  (** lib.rs:283-320 add_adsc_staking_account_with_nft. *)
  Definition do_add_nft (s : astate) (x : actx) (who class item : N) : res aerr astate :=
    let s1 := set_a_stakers s (<[who := a_period s]> (a_stakers s)) in
    s2 <-? match a_nfts s1 !! who with
           | None => ROk s1
           | Some (oc, oi) =>
               if (oc =? class) && (oi =? item) then RErr ASameNft else
               match remove_nft (a_uniq s1) oc oi with
               | Some u => ROk (set_a_uniq s1 u)
               | None => RErr ANft
               end
           end ;
    let s3 := set_a_nfts s2 (<[who := (class, item)]> (a_nfts s2)) in
    match add_nft x (a_uniq s3) class item who with
    | Some u => ROk (set_a_uniq s3 u)
    | None => RErr ANft
    end.

  (** lib.rs:590-625 do_bridge_burn_adsc, do_bridge_mint_adsc. *)
  Definition do_bridge_burn (s : astate) (x : actx) (o : origin) (who amount : N) : res aerr astate :=
    _a <-? ensure_admin x o ;
    match a_ass s with
    | Some l => match aburn l who amount with Some l' => ROk (set_a_ass s (Some l')) | None => RErr AAsset end
    | None => RErr AAsset
    end.
  Definition do_bridge_mint (s : astate) (x : actx) (o : origin) (who amount : N) : res aerr astate :=
    _a <-? ensure_admin x o ;
    match a_ass s with
    | Some l => match amint l who amount with Some l' => ROk (set_a_ass s (Some l')) | None => RErr AAsset end
    | None => RErr AAsset
    end.

  (** lib.rs:411-443 swap_adsc_to_dpr; dividing by a zero rate panics. *)
  Definition do_swap (s : astate) (who amount : N) : res aerr (astate * list aev) :=
    match a_ass s with
    | None => RErr AAsset
    | Some l =>
        match atransfer l who (ac_acct cfg) amount with
        | None => RErr AAsset
        | Some l' =>
            let '(adsc_rate, dpr_rate) := a_rate s in
            if adsc_rate =? 0 then RPanic else
            let dpr := smul128 amount dpr_rate / adsc_rate in
            match transfer_allow (ac_ed cfg) (a_bank s) (ac_acct cfg) who dpr with
            | Some b => ROk (set_a_bank (set_a_ass s (Some l')) b, [ESwap who amount dpr])
            | None => RErr ABalance
            end
        end
    end.

  Definition aexec (s : astate) (x : actx) (o : origin) (c : acall) : res aerr (astate * list aev) :=
    match c with
    | AAdd who => _a <-? ensure_admin x o ;
        ROk (set_a_stakers s (<[who := a_period s]> (a_stakers s)), [])
    | AAddNft who class item => _a <-? ensure_admin x o ;
        s' <-? do_add_nft s x who class item ; ROk (s', [])
    | ASetPeriod p => _a <-? ensure_admin x o ; ROk (set_a_period s p, [])
    | ASetTarget t => _a <-? ensure_admin x o ; ROk (set_a_target s t, [])
    | ASetBase b => _a <-? ensure_admin x o ; ROk (set_a_base s b, [])
    | ABridgeBurn who amount =>
        match do_bridge_burn s x o who amount with
        | ROk s' => ROk (s', [EBridgeBurned who amount])
        | _ => ROk (s, [EBridgeFailed])
        end
    | ABridgeMint who amount =>
        match do_bridge_mint s x o who amount with
        | ROk s' => ROk (s', [EBridgeMinted who amount])
        | _ => ROk (s, [EBridgeFailed])
        end
    | ASetRate a d => _a <-? ensure_admin x o ; ROk (set_a_rate s (a, d), [])
    | ASwap amount =>
        match o with Signed who => do_swap s who amount | _ => RErr ABadOrigin end
    | AAddPool amount =>
        match o with Root => ROk (add_pool s amount, []) | _ => RErr ABadOrigin end
    end.
  (** A call: an error rolls back. *)
  Definition astep (s : astate) (x : actx) (o : origin) (c : acall) : astate * res aerr (list aev) :=
    match aexec s x o c with
    | ROk (s', evs) => (s', ROk evs)
    | RErr e => (s, RErr e)
    | RPanic => (s, RPanic)
    end.

  (** Hooks and other pallets' calls; those fail silently. *)
  Definition aentry (s : astate) (x : actx) (e : aent) : astate * list aev :=
    let u := a_uniq s in
    match e with
    | AInitialize => on_init s x
    | AUpgrade => (on_upgrade s, [])
    | AUniqBurn c i => (set_a_uniq s (Uniques (u_colls u) (delete (c, i) (u_items u)) (u_meta u)), [])
    | AUniqMint c i o =>
        (match u_colls u !! c, u_items u !! (c, i) with
         | Some _, None => set_a_uniq s (Uniques (u_colls u) (<[(c, i) := o]> (u_items u)) (u_meta u))
         | _, _ => s
         end, [])
    | AUniqMove c i o =>
        (match u_items u !! (c, i) with
         | Some _ => set_a_uniq s (Uniques (u_colls u) (<[(c, i) := o]> (u_items u)) (u_meta u))
         | None => s
         end, [])
    | AUniqCreate c => (set_a_uniq s (Uniques (<[c := tt]> (u_colls u)) (u_items u) (u_meta u)), [])
    | AUniqDestroy c =>
        (set_a_uniq s (Uniques (delete c (u_colls u)) (filter (fun p => p.1.1 <> c) (u_items u))
                         (filter (fun p => p.1.1 <> c) (u_meta u))), [])
    | AUniqSetMeta c i => (set_a_uniq s (Uniques (u_colls u) (u_items u) (<[(c, i) := tt]> (u_meta u))), [])
    | AUniqClearMeta c i => (set_a_uniq s (Uniques (u_colls u) (u_items u) (delete (c, i) (u_meta u))), [])
    | AAssetMove src dst v =>
        (match a_ass s with
         | Some l => match atransfer l src dst v with Some l' => set_a_ass s (Some l') | None => s end
         | None => s
         end, [])
    | ABankMove b => (set_a_bank s b, [])
    end.

  Definition aop : Type := actx * (origin * acall + aent).
  Definition ado (s : astate) (op : aop) : astate * list aev :=
    match snd op with
    | inl (o, c) => let '(s', r) := astep s (fst op) o c in (s', match r with ROk evs => evs | _ => [] end)
    | inr e => aentry s (fst op) e
    end.
  (** Run a history, collecting the events with the time of the block. *)
  Fixpoint arun (s : astate) (h : list aop) : astate * list (N * aev) :=
    match h with
    | [] => (s, [])
    | op :: r =>
        let '(s1, evs) := ado s op in
        let '(s2, out) := arun s1 r in
        (s2, map (fun e => (ax_time (fst op), e)) evs ++ out)
    end.
End model.

(** lib.rs:112-163 default storage, before the upgrade creates the asset. *)
Definition ainit (b : bank) (u : uniques) : astate :=
  AState b None u ∅ ∅ CEmpty INIT_REWARD 0 INIT_TARGET 365 2 0 (2, 1) 0 0.
