(** Model of /repo/pallets/deeper-node/src/lib.rs. *)
From Verif Require Import Base Balances Model_Regions.
From stdpp Require Import gmap strings.
Open Scope N_scope.

(** Runtime constants (lib.rs:77-89; runtime/src/lib.rs:1259-1275): existential
    deposit, MinLockAmt (100000), MaxDurationEras (7), BlocksPerEra, and the
    RegionMap filled in at genesis, which never changes afterwards. *)
Record dcfg := DCfg {
  d_ed : N;
  d_minlock : N;
  d_maxeras : N;
  d_bpe : N;
  d_regions : gmap string string;
}.

(** lib.rs:45-49 Node, without the account id (it is the key and never changes). *)
Record node := Node { n_country : string; n_expire : N }.

(** lib.rs:102-159 storage. [d_other] is not storage of this pallet: it is the
    sum of what the other pallets hold reserved for each account. *)
Record dstate := DState {
  d_bank : bank;
  d_dev : gmap N node;                    (* DeviceInfo *)
  d_bycountry : gmap string (list N);     (* ServersByCountry, default [] *)
  d_byregion : gmap string (list N);      (* ServersByRegion, default [] *)
  d_proof : gmap N (N * N * N);           (* DeviceCreditProof *)
  d_online : gmap N N;                    (* ImOnline *)
  d_onboard : gmap N N;                   (* OnboardTime *)
  d_onboarded : list N;                   (* DevicesOnboard *)
  d_e2d : gmap N N;                       (* RewardsAccountsEVMtoDeeper *)
  d_d2e : gmap N N;                       (* RewardsAccountsDeepertoEVM *)
  d_other : gmap N N;
}.

(** lib.rs:216-241 errors, plus the balances error and a rejected origin. *)
Inductive derr :=
| DInvalidCode | DDeviceNotRegister | DDurationOverflow | DSignatureVerifyFailed
| DEthAddressAlreadyMapped | DNpowRewardAddressNotFound | DCurrency | DBadOrigin.

(** lib.rs:188-212 events; the eight server list events are left out (the lists
    themselves are modelled). *)
Inductive devent :=
| RegisterNode (who : N) (country : string)
| UnregisterNode (who : N)
| ImOnline (who block : N)
| DeviceCreditProof (who timestamp traffic uptime : N)
| RewardsAccounts (who evm : N)
| GetNpowReward (who evm : N).

(** lib.rs:249-457 dispatchables. The last three stand for everything else on
    the chain that moves the caller's money: a transfer, and other pallets
    reserving and unreserving their own deposits. *)
Inductive dcall :=
| DRegister (country : string)
| DUnregister
| DRegisterServer (eras : N)
| DUpdateServer (eras : N)
| DUnregisterServer
| DImOnline
| DReportProof (nonce : N) (sg : list N) (timestamp traffic uptime : N)
| DRewardMapping (nonce : N) (sg : list N) (evm : N)
| DNpowReward
| DTransfer (dest amount : N)
| DReserveOther (amount : N)
| DUnreserveOther (amount : N).

(** Surroundings of a call: the block number (u32) and the two signature checks
    of the credit-accumulation pallet (Model_CreditAccumulation.v). *)
Record dctx := DCtx {
  x_now : N;
  x_verify : N -> list N -> N -> bool;        (* verify_atomos_signature *)
  x_verify_new : N -> list N -> N -> bool;    (* verify_atomos_new_signature *)
}.

(** lib.rs:610-917: RegionMap after setup (later inserts win). *)
Definition regions : gmap string string :=
  fold_left (fun m kv => <[kv.1 := kv.2]> m) region_table ∅.

(** core::slice::binary_search_by: [inl i] found at i, [inr i] insert at i. The
    fuel is the length of the list plus one. *)
Fixpoint bsearch_loop (fuel : nat) (l : list N) (x : N) (left right : nat) : nat + nat :=
  match fuel with
  | O => inr left
  | S f =>
      if (right <=? left)%nat then inr left
      else
        let mid := (left + (right - left) / 2)%nat in
        let v := nth mid l 0 in
        if v =? x then inl mid
        else if v <? x then bsearch_loop f l x (S mid) right
        else bsearch_loop f l x left mid
  end.
Definition bsearch (l : list N) (x : N) : nat + nat :=
  bsearch_loop (S (length l)) l x 0 (length l).

(** lib.rs:528-548, 569-589 country_list_insert, region_list_insert: None when
    the account is already there. *)
Definition slist_insert (l : list N) (who : N) : option (list N) :=
  match bsearch l who with
  | inl _ => None
  | inr i => Some (take i l ++ who :: drop i l)
  end.

(** lib.rs:550-567, 591-608 country_list_remove, region_list_remove: None when
    the account is not there. *)
Definition slist_remove (l : list N) (who : N) : option (list N) :=
  match bsearch l who with
  | inl i => Some (take i l ++ drop (S i) l)
  | inr _ => None
  end.

Definition get_list (m : gmap string (list N)) (k : string) : list N := default [] (m !! k).

(** Remove [who] from the list stored under [k], if it is there. *)
Definition map_remove (m : gmap string (list N)) (k : string) (who : N) : gmap string (list N) :=
  match slist_remove (get_list m k) who with
  | Some l => <[k := l]> m
  | None => m
  end.

Definition with_dev (s : dstate) (dev : gmap N node) : dstate :=
  DState (d_bank s) dev (d_bycountry s) (d_byregion s) (d_proof s) (d_online s) (d_onboard s)
    (d_onboarded s) (d_e2d s) (d_d2e s) (d_other s).
Definition with_bank (s : dstate) (b : bank) : dstate :=
  DState b (d_dev s) (d_bycountry s) (d_byregion s) (d_proof s) (d_online s) (d_onboard s)
    (d_onboarded s) (d_e2d s) (d_d2e s) (d_other s).
Definition with_lists (s : dstate) (c r : gmap string (list N)) : dstate :=
  DState (d_bank s) (d_dev s) c r (d_proof s) (d_online s) (d_onboard s)
    (d_onboarded s) (d_e2d s) (d_d2e s) (d_other s).
Definition with_maps (s : dstate) (e2d d2e : gmap N N) : dstate :=
  DState (d_bank s) (d_dev s) (d_bycountry s) (d_byregion s) (d_proof s) (d_online s) (d_onboard s)
    (d_onboarded s) e2d d2e (d_other s).
Definition with_other (s : dstate) (b : bank) (o : gmap N N) : dstate :=
  DState b (d_dev s) (d_bycountry s) (d_byregion s) (d_proof s) (d_online s) (d_onboard s)
    (d_onboarded s) (d_e2d s) (d_d2e s) o.

Section model.
  Context (cfg : dcfg).

  (** [RegionMap::get], a ValueQuery: the empty code when absent. *)
  Definition region_of (c : string) : string := default EmptyString (d_regions cfg !! c).

  (** lib.rs:461-485 try_remove_server; always Ok. *)
  Definition try_remove_server (s : dstate) (now who : N) : dstate :=
    match d_dev s !! who with
    | None => s
    | Some n =>
        let r1 := region_of (n_country n) in
        let r2 := region_of r1 in
        let mc := map_remove (d_bycountry s) (n_country n) who in
        let mr := map_remove (map_remove (d_byregion s) r1 who) r2 who in
        with_dev (with_lists s mc mr) (<[who := Node (n_country n) now]> (d_dev s))
    end.

  (** lib.rs:488-526 try_add_server. The caller throws the error away, so what
      counts is the state, in which the earlier insertions were taken back using
      the local copies of the lists. *)
  Definition try_add_server (s : dstate) (now who duration : N) : dstate :=
    let n := default (Node EmptyString 0) (d_dev s !! who) in
    let c := n_country n in
    let r1 := region_of c in
    let r2 := region_of r1 in
    match slist_insert (get_list (d_bycountry s) c) who with
    | None => s
    | Some lc =>
        let mc := <[c := lc]> (d_bycountry s) in
        match slist_insert (get_list (d_byregion s) r1) who with
        | None =>
            with_lists s
              (match slist_remove lc who with Some l => <[c := l]> mc | None => mc end)
              (d_byregion s)
        | Some l1 =>
            let m1 := <[r1 := l1]> (d_byregion s) in
            match slist_insert (get_list m1 r2) who with
            | None =>
                with_lists s
                  (match slist_remove lc who with Some l => <[c := l]> mc | None => mc end)
                  (match slist_remove l1 who with Some l => <[r1 := l]> m1 | None => m1 end)
            | Some l2 =>
                with_dev (with_lists s mc (<[r2 := l2]> m1))
                  (<[who := Node c (add32 now duration)]> (d_dev s))
            end
        end
    end.

  (** lib.rs:253-284 register_device_deprecated (the ip argument is unused;
      RegionMapInit is true after genesis). *)
  Definition register_device (s : dstate) (now who : N) (country : string)
      : res derr (dstate * list devent) :=
    _u <-? ensure (bool_decide (is_Some (d_regions cfg !! country))) DInvalidCode ;
    match d_dev s !! who with
    | None =>
        match reserve (d_ed cfg) (d_bank s) who (d_minlock cfg) with
        | None => RErr DCurrency
        | Some b =>
            ROk (with_dev (with_bank s b) (<[who := Node country now]> (d_dev s)),
                 [RegisterNode who country])
        end
    | Some n =>
        let s1 := if bool_decide (n_country n = country) then s
                  else try_remove_server s now who in
        ROk (with_dev s1 (<[who := Node country now]> (d_dev s1)), [RegisterNode who country])
    end.

  (** lib.rs:288-299 unregister_device. *)
  Definition unregister_device (s : dstate) (now who : N) : res derr (dstate * list devent) :=
    match d_dev s !! who with
    | None => RErr DDeviceNotRegister
    | Some _ =>
        let s1 := try_remove_server s now who in
        let s2 := with_dev s1 (delete who (d_dev s1)) in
        ROk (with_bank s2 (unreserve (d_ed cfg) (d_bank s2) who (d_minlock cfg)),
             [UnregisterNode who])
    end.

  (** lib.rs:303-319 register_server. *)
  Definition register_server (s : dstate) (now who eras : N) : res derr (dstate * list devent) :=
    match d_dev s !! who with
    | None => RErr DDeviceNotRegister
    | Some _ =>
        _u <-? ensure (eras <=? d_maxeras cfg) DDurationOverflow ;
        ROk (try_add_server s now who (w32 (eras * d_bpe cfg)), [])
    end.

  (** lib.rs:323-341 update_server. *)
  Definition update_server (s : dstate) (now who eras : N) : res derr (dstate * list devent) :=
    match d_dev s !! who with
    | None => RErr DDeviceNotRegister
    | Some n =>
        _u <-? ensure (eras <=? d_maxeras cfg) DDurationOverflow ;
        ROk (with_dev s (<[who := Node (n_country n) (add32 now (w32 (eras * d_bpe cfg)))]> (d_dev s)), [])
    end.

  (** lib.rs:345-353 unregister_server. *)
  Definition unregister_server (s : dstate) (now who : N) : res derr (dstate * list devent) :=
    match d_dev s !! who with
    | None => RErr DDeviceNotRegister
    | Some _ => ROk (try_remove_server s now who, [])
    end.

  (** lib.rs:357-367 im_online. *)
  Definition im_online (s : dstate) (now who : N) : res derr (dstate * list devent) :=
    let fresh := bool_decide (d_onboard s !! who = None) in
    ROk (DState (d_bank s) (d_dev s) (d_bycountry s) (d_byregion s) (d_proof s)
           (<[who := now]> (d_online s))
           (if fresh then <[who := now]> (d_onboard s) else d_onboard s)
           (if fresh then d_onboarded s ++ [who] else d_onboarded s)
           (d_e2d s) (d_d2e s) (d_other s),
         [ImOnline who now]).

  (** lib.rs:371-400 report_credit_proof. *)
  Definition report_credit_proof (s : dstate) (x : dctx) (who nonce : N) (sg : list N)
      (timestamp traffic uptime : N) : res derr (dstate * list devent) :=
    _u <-? ensure (x_verify x nonce sg who) DSignatureVerifyFailed ;
    ROk (DState (d_bank s) (d_dev s) (d_bycountry s) (d_byregion s)
           (<[who := (timestamp, traffic, uptime)]> (d_proof s)) (d_online s)
           (d_onboard s) (d_onboarded s) (d_e2d s) (d_d2e s) (d_other s),
         [DeviceCreditProof who timestamp traffic uptime]).

  (** lib.rs:406-443 reward_mapping. *)
  Definition reward_mapping (s : dstate) (x : dctx) (who nonce : N) (sg : list N) (evm : N)
      : res derr (dstate * list devent) :=
    _u <-? ensure (x_verify_new x nonce sg who) DSignatureVerifyFailed ;
    _u <-? ensure (bool_decide (d_e2d s !! evm = None)) DEthAddressAlreadyMapped ;
    match d_d2e s !! who with
    | Some old =>
        if evm =? old then ROk (s, [])
        else ROk (with_maps s (<[evm := who]> (d_e2d s)) (<[who := evm]> (d_d2e s)),
                  [RewardsAccounts who evm])
    | None =>
        ROk (with_maps s (<[evm := who]> (d_e2d s)) (<[who := evm]> (d_d2e s)),
             [RewardsAccounts who evm])
    end.

  (** lib.rs:447-456 get_npow_reward. *)
  Definition get_npow_reward (s : dstate) (who : N) : res derr (dstate * list devent) :=
    match d_d2e s !! who with
    | Some evm => ROk (s, [GetNpowReward who evm])
    | None => RErr DNpowRewardAddressNotFound
    end.

  (** Environment moves: a plain transfer, and another pallet reserving or
      releasing a deposit of its own. *)
  Definition env_transfer (s : dstate) (who dest amount : N) : res derr (dstate * list devent) :=
    match transfer_allow (d_ed cfg) (d_bank s) who dest amount with
    | None => RErr DCurrency
    | Some b => ROk (with_bank s b, [])
    end.
  Definition env_reserve (s : dstate) (who amount : N) : res derr (dstate * list devent) :=
    match reserve (d_ed cfg) (d_bank s) who amount with
    | None => RErr DCurrency
    | Some b => ROk (with_other s b (<[who := default 0 (d_other s !! who) + amount]> (d_other s)), [])
    end.
  Definition env_unreserve (s : dstate) (who amount : N) : res derr (dstate * list devent) :=
    let held := default 0 (d_other s !! who) in
    let a := N.min held amount in
    ROk (with_other s (unreserve (d_ed cfg) (d_bank s) who a) (<[who := held - a]> (d_other s)), []).

  Definition dexec (s : dstate) (x : dctx) (o : origin) (c : dcall)
      : res derr (dstate * list devent) :=
    match o with
    | Signed who =>
        match c with
        | DRegister country => register_device s (x_now x) who country
        | DUnregister => unregister_device s (x_now x) who
        | DRegisterServer eras => register_server s (x_now x) who eras
        | DUpdateServer eras => update_server s (x_now x) who eras
        | DUnregisterServer => unregister_server s (x_now x) who
        | DImOnline => im_online s (x_now x) who
        | DReportProof nonce sg t f u => report_credit_proof s x who nonce sg t f u
        | DRewardMapping nonce sg evm => reward_mapping s x who nonce sg evm
        | DNpowReward => get_npow_reward s who
        | DTransfer dest amount => env_transfer s who dest amount
        | DReserveOther amount => env_reserve s who amount
        | DUnreserveOther amount => env_unreserve s who amount
        end
    | _ => RErr DBadOrigin
    end.

  (** Transactional dispatch. *)
  Definition dstep (s : dstate) (x : dctx) (o : origin) (c : dcall)
      : dstate * res derr (list devent) :=
    match dexec s x o c with
    | ROk (s', ev) => (s', ROk ev)
    | RErr e => (s, RErr e)
    | RPanic => (s, RPanic)
    end.
  Definition dop : Type := dctx * origin * dcall.
  Definition ddo (s : dstate) (o : dop) : dstate := fst (dstep s o.1.1 o.1.2 o.2).
  Definition drun (s : dstate) (h : list dop) : dstate := fold_left ddo h s.

  (** lib.rs:929-934 get_eras_offline at block [now]. *)
  Definition eras_offline (s : dstate) (now who : N) : N :=
    sub32 now (default 0 (d_online s !! who)) / d_bpe cfg.

  (** lib.rs:925-927 im_ever_online. *)
  Definition im_ever_online (s : dstate) (who : N) : bool :=
    bool_decide (is_Some (d_online s !! who)).

  (** lib.rs:174-183 genesis build. Whatever the accounts hold reserved at genesis
      belongs to other pallets. *)
  Definition dinit (b : bank) (setting : list (N * N)) : dstate :=
    DState b ∅ ∅ ∅ ∅ ∅ ∅ []
      (fold_left (fun m ae => <[ae.2 := ae.1]> m) setting ∅)
      (fold_left (fun m ae => <[ae.1 := ae.2]> m) setting ∅)
      (rsv <$> accts b).
End model.
