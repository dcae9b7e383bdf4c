(** pallets/elections-phragmen/src/lib.rs. Accounts and amounts are [N]; balances are
    u128. [sp_npos_elections::seq_phragmen] is not in /repo: it is the parameter
    [ec_elect]. The council is the pallet_collective instance to which
    [T::ChangeMembers] is bound (runtime/src/lib.rs:769): its member list and its prime.
    Left out: weights, benchmarking, logging, debug assertions (release builds omit
    them), the storage migrations, and council motions. The runtime links the upstream
    pallet of the same name (runtime/Cargo.toml:69), not this one. *)
From Verif Require Import Base Balances.
From stdpp Require Import gmap.
Open Scope N_scope.

(** lib.rs:124 MAXIMUM_VOTE. *)
Definition MAXIMUM_VOTE : nat := 16.

(** lib.rs:143-154 Voter. *)
Record voter := Voter { v_votes : list N; v_stake : N; v_deposit : N }.
Definition voter0 : voter := Voter [] 0 0.
(** lib.rs:166-177 SeatHolder. *)
Record seat := Seat { s_who : N; s_stake : N; s_deposit : N }.

(** lib.rs:672-710 storage, the balances, and what the pallet shares with others: its
    own lock and the highest lock of the others on each account, what others have
    reserved, who has an email identity, and the council's members and prime. *)
Record estate := EState {
  e_members : list seat; e_runners : list seat; e_cands : list (N * N); e_rounds : N;
  e_voting : gmap N voter; e_bank : bank; e_own : gmap N N; e_oth : gmap N N;
  e_rsv : gmap N N; e_ident : gset N; e_council : list N; e_prime : option N }.
Definition set_roles (s : estate) (ms rs : list seat) (cs : list (N * N)) : estate :=
  EState ms rs cs (e_rounds s) (e_voting s) (e_bank s) (e_own s) (e_oth s) (e_rsv s)
    (e_ident s) (e_council s) (e_prime s).
Definition set_rounds (s : estate) (n : N) : estate :=
  EState (e_members s) (e_runners s) (e_cands s) n (e_voting s) (e_bank s) (e_own s)
    (e_oth s) (e_rsv s) (e_ident s) (e_council s) (e_prime s).
Definition set_voting (s : estate) (m : gmap N voter) : estate :=
  EState (e_members s) (e_runners s) (e_cands s) (e_rounds s) m (e_bank s) (e_own s)
    (e_oth s) (e_rsv s) (e_ident s) (e_council s) (e_prime s).
Definition set_ebank (s : estate) (b : bank) : estate :=
  EState (e_members s) (e_runners s) (e_cands s) (e_rounds s) (e_voting s) b (e_own s)
    (e_oth s) (e_rsv s) (e_ident s) (e_council s) (e_prime s).
Definition set_locks (s : estate) (own oth : gmap N N) : estate :=
  EState (e_members s) (e_runners s) (e_cands s) (e_rounds s) (e_voting s) (e_bank s) own
    oth (e_rsv s) (e_ident s) (e_council s) (e_prime s).
Definition set_ersv (s : estate) (m : gmap N N) : estate :=
  EState (e_members s) (e_runners s) (e_cands s) (e_rounds s) (e_voting s) (e_bank s)
    (e_own s) (e_oth s) m (e_ident s) (e_council s) (e_prime s).
Definition set_ident (s : estate) (m : gset N) : estate :=
  EState (e_members s) (e_runners s) (e_cands s) (e_rounds s) (e_voting s) (e_bank s)
    (e_own s) (e_oth s) (e_rsv s) m (e_council s) (e_prime s).
Definition set_council (s : estate) (l : list N) (p : option N) : estate :=
  EState (e_members s) (e_runners s) (e_cands s) (e_rounds s) (e_voting s) (e_bank s)
    (e_own s) (e_oth s) (e_rsv s) (e_ident s) l p.

(** lib.rs:198-269 constants (values in runtime/src/lib.rs:747-760), the existential
    deposit, and seq_phragmen(to_elect, candidates, voters): winners with their backing,
    best first, or an error. *)
Record ecfg := ECfg {
  ec_ed : N; ec_bond : N; ec_base : N; ec_factor : N; ec_members : nat; ec_runners : nat;
  ec_term : N; ec_maxcand : N; ec_maxvoters : nat;
  ec_elect : nat -> list N -> list (N * N * list N) -> option (list (N * N)) }.

(** lib.rs:632-670. *)
Inductive eerr :=
| BadOrigin | UnableToVote | NoVotes | TooManyVotes | MaximumVotesExceeded | LowBalance
| UnableToPayBond | MustBeVoter | DuplicatedCandidate | TooManyCandidates | MemberSubmit
| RunnerUpSubmit | InsufficientCandidateFunds | NotMember | InvalidWitnessData
| InvalidRenouncing | NotHasEmailIdentity.
(** lib.rs:592-630 events; [EChange] is the call of change_members_sorted. *)
Inductive eev :=
| ENewTerm (l : list (N * N)) | EEmptyTerm | EElectionError | EKicked (who : N)
| ERenounced (who : N) | ECandSlashed (who v : N) | ESeatSlashed (who v : N)
| EChange (incoming outgoing new : list N).
(** lib.rs:289-590 calls. *)
Inductive ecall :=
| EVote (votes : list N) (value : N)
| ERemoveVoter
| ESubmit (count : N)
| ERenounceMember | ERenounceRunner | ERenounceCandidate (count : N)
| ERemoveMember (who : N) (slash rerun : bool)
| EClean.

(** [slice::binary_search_by] of the standard library, on the key of the elements:
    [inl i] is [Ok(i)], [inr i] is [Err(i)]. *)
Fixpoint bsearch_from {A} (key : A -> N) (l : list A) (x : N) (fuel lo hi : nat) : nat + nat :=
  match fuel with
  | O => inr lo
  | S n =>
      if (lo <? hi)%nat then
        let mid := (lo + (hi - lo) / 2)%nat in
        match l !! mid with
        | None => inr lo
        | Some y => if key y <? x then bsearch_from key l x n (S mid) hi
                    else if x <? key y then bsearch_from key l x n lo mid else inl mid
        end
      else inr lo
  end.
Definition bsearch {A} (key : A -> N) (l : list A) (x : N) : nat + nat :=
  bsearch_from key l x (S (length l)) 0 (length l).
Definition found (r : nat + nat) : bool := match r with inl _ => true | inr _ => false end.
(** [Vec::insert]. *)
Definition insert_at {A} (i : nat) (x : A) (l : list A) : list A := take i l ++ x :: drop i l.

(** [saturating_mul] on u128. *)
Definition smul128 (x y : N) : N := N.min (x * y) (two128 - 1).

(** U128CurrencyToVote (sp_staking): the scale that makes the issuance fit u64. *)
Definition issuance (b : bank) : N := msum (fun _ a => free a + rsv a) (accts b).
Definition vote_factor (i : N) : N := N.max (i / (two64 - 1)) 1.
Definition to_vote (i b : N) : N := N.min (b / vote_factor i) (two64 - 1).
Definition to_currency (i e : N) : N := smul128 e (vote_factor i).

(** [ChangeMembers::compute_members_diff_sorted] (frame_support). *)
Definition diff (l k : list N) : list N := filter (fun x => x ∉ k) l.

(** lib.rs:1073-1094: the Borda count. Every vote for a new member adds the voter's stake
    times [MAXIMUM_VOTE - position]. *)
Definition add_vote (pv : list (N * N)) (stake : N) (pos : nat) (who : N) : list (N * N) :=
  match bsearch fst pv who with
  | inl i => alter (fun p => (p.1, sadd two128 p.2 (smul128 stake (N.of_nat (MAXIMUM_VOTE - pos))))) i pv
  | inr _ => pv
  end.
Fixpoint add_votes (pv : list (N * N)) (stake : N) (pos : nat) (votes : list N) : list (N * N) :=
  match votes with
  | [] => pv
  | w :: r => add_votes (add_vote pv stake pos w) stake (S pos) r
  end.
Definition count_votes (pv : list (N * N)) (bs : list (N * N * list N)) : list (N * N) :=
  foldl (fun acc b => add_votes acc b.1.2 0 b.2) pv bs.
(** lib.rs:1095-1101: [max_by_key] keeps the last of the largest. *)
Definition pick_prime (pv : list (N * N)) : option N :=
  match pv with
  | [] => None
  | p :: r => Some (foldl (fun best x => if best.2 <=? x.2 then x else best) p r).1
  end.

Section model.
  Context (cfg : ecfg).
  Local Notation ed := (ec_ed cfg).

  (** lib.rs:787-790 deposit_of. *)
  Definition deposit_of (count : nat) : N :=
    sadd two128 (ec_base cfg) (smul128 (ec_factor cfg) (w32 (N.of_nat count))).
  (** lib.rs:888-917. *)
  Definition is_candidate (s : estate) (who : N) : bool := found (bsearch fst (e_cands s) who).
  Definition is_voter (s : estate) (who : N) : bool := bool_decide (is_Some (e_voting s !! who)).
  Definition is_member (s : estate) (who : N) : bool := found (bsearch s_who (e_members s) who).
  Definition is_runner_up (s : estate) (who : N) : bool := existsb (fun r => s_who r =? who) (e_runners s).
  Definition members_ids (s : estate) : list N := s_who <$> e_members s.

  (** pallet_balances: [frozen] is the highest lock; [set_lock] of nothing is ignored. *)
  Definition lock_of (m : gmap N N) (who : N) : N := default 0 (m !! who).
  Definition relock (s : estate) (who : N) (own oth : gmap N N) : estate :=
    let a := acct_of (e_bank s) who in
    set_ebank (set_locks s own oth)
      (put ed (e_bank s) who (Acct (free a) (rsv a) (N.max (lock_of own who) (lock_of oth who)))).
  Definition set_lock (s : estate) (who v : N) : estate :=
    if v =? 0 then s else relock s who (<[who := v]> (e_own s)) (e_oth s).
  Definition remove_lock (s : estate) (who : N) : estate :=
    relock s who (delete who (e_own s)) (e_oth s).
  (** [LoserCandidate = ()] (runtime/src/lib.rs:777): what is slashed is burnt. *)
  Definition slash_bond (s : estate) (who v : N) : estate :=
    let '(b, x) := slash_reserved ed (e_bank s) who v in
    set_ebank s (Bank (accts b) (lost b + x)).
  Definition give_bond (s : estate) (who v : N) : estate :=
    set_ebank s (unreserve ed (e_bank s) who v).

  (** lib.rs:320-392 vote. *)
  Definition move_deposit (s : estate) (who old new : N) : option estate :=
    if old <? new then set_ebank s <$> reserve ed (e_bank s) who (sub128 new old)
    else if new <? old then Some (give_bond s who (sub128 old new))
    else Some s.
  Definition vote (s : estate) (who : N) (votes : list N) (value : N) : res eerr (estate * list eev) :=
    _u <-? ensure (length votes <=? MAXIMUM_VOTE)%nat MaximumVotesExceeded ;
    _u <-? ensure (negb (length votes =? 0)%nat) NoVotes ;
    let allowed := (length (e_cands s) + length (e_members s) + length (e_runners s))%nat in
    _u <-? ensure (negb (allowed =? 0)%nat) UnableToVote ;
    _u <-? ensure (length votes <=? allowed)%nat TooManyVotes ;
    _u <-? ensure (ed <? value) LowBalance ;
    let new := deposit_of (length votes) in
    let old := v_deposit (default voter0 (e_voting s !! who)) in
    match move_deposit s who old new with
    | None => RErr UnableToPayBond
    | Some s1 =>
        let stake := N.min value (free_of (e_bank s1) who) in
        let s2 := set_lock s1 who stake in
        ROk (set_voting s2 (<[who := Voter votes stake new]> (e_voting s2)), [])
    end.

  (** lib.rs:943-953 do_remove_voter. *)
  Definition do_remove_voter (s : estate) (who : N) : estate :=
    let d := v_deposit (default voter0 (e_voting s !! who)) in
    give_bond (remove_lock (set_voting s (delete who (e_voting s))) who) who d.
  (** lib.rs:401-406 remove_voter. *)
  Definition remove_voter (s : estate) (who : N) : res eerr (estate * list eev) :=
    _u <-? ensure (is_voter s who) MustBeVoter ;
    ROk (do_remove_voter s who, []).

  (** lib.rs:425-454 submit_candidacy. *)
  Definition submit_candidacy (s : estate) (who count : N) : res eerr (estate * list eev) :=
    let actual := w32 (N.of_nat (length (e_cands s))) in
    _u <-? ensure (actual <=? count) InvalidWitnessData ;
    _u <-? ensure (actual <=? ec_maxcand cfg) TooManyCandidates ;
    _u <-? ensure (bool_decide (who ∈ e_ident s)) NotHasEmailIdentity ;
    match bsearch fst (e_cands s) who with
    | inl _ => RErr DuplicatedCandidate
    | inr i =>
        _u <-? ensure (negb (is_member s who)) MemberSubmit ;
        _u <-? ensure (negb (is_runner_up s who)) RunnerUpSubmit ;
        match reserve ed (e_bank s) who (ec_bond cfg) with
        | None => RErr InsufficientCandidateFunds
        | Some b => ROk (set_roles (set_ebank s b) (e_members s) (e_runners s)
                           (insert_at i (who, ec_bond cfg) (e_cands s)), [])
        end
    end.

  (** lib.rs:808-886 remove_and_replace_member; the boolean tells whether a replacement
      was found. *)
  Definition remove_and_replace (s : estate) (who : N) (slash : bool) : res eerr (estate * list eev * bool) :=
    match bsearch s_who (e_members s) who with
    | inr _ => RErr NotMember
    | inl i =>
        let d := match e_members s !! i with Some m => s_deposit m | None => 0 end in
        let ms := delete i (e_members s) in
        let s1 := if slash then slash_bond s who d else give_bond s who d in
        let ev := if slash then [ESeatSlashed who d] else [] in
        let best := last (e_runners s) in
        let rs := removelast (e_runners s) in
        let ms' := match best with
                   | None => ms
                   | Some b => match bsearch s_who ms (s_who b) with
                               | inr j => insert_at j b ms
                               | inl _ => ms
                               end
                   end in
        let ids := s_who <$> ms' in
        let incoming := match best with Some b => [s_who b] | None => [] end in
        let prime := match e_prime s with
                     | Some p => if p =? who then None else Some p
                     | None => None
                     end in
        ROk (set_council (set_roles s1 ms' rs (e_cands s)) ids prime,
             ev ++ [EChange incoming [who] ids],
             match best with Some _ => true | None => false end)
    end.

  (** lib.rs:480-520 renounce_candidacy. *)
  Definition renounce_member (s : estate) (who : N) : res eerr (estate * list eev) :=
    match remove_and_replace s who false with
    | ROk (s', ev, _) => ROk (s', ev ++ [ERenounced who])
    | RErr _ => RErr InvalidRenouncing
    | RPanic => RPanic
    end.
  Definition renounce_runner (s : estate) (who : N) : res eerr (estate * list eev) :=
    match list_find (fun r => s_who r = who) (e_runners s) with
    | None => RErr InvalidRenouncing
    | Some (i, r) =>
        ROk (give_bond (set_roles s (e_members s) (delete i (e_runners s)) (e_cands s)) who (s_deposit r),
             [ERenounced who])
    end.
  Definition renounce_candidate (s : estate) (who count : N) : res eerr (estate * list eev) :=
    _u <-? ensure (w32 (N.of_nat (length (e_cands s))) <=? count) InvalidWitnessData ;
    match bsearch fst (e_cands s) who with
    | inr _ => RErr InvalidRenouncing
    | inl i =>
        let d := match e_cands s !! i with Some c => c.2 | None => 0 end in
        ROk (give_bond (set_roles s (e_members s) (e_runners s) (delete i (e_cands s))) who d,
             [ERenounced who])
    end.

  (** lib.rs:922-929 implicit_candidates_with_deposit, with the candidates in front
      (964-966). *)
  Definition standing (s : estate) : list (N * N) :=
    e_cands s ++ ((fun m => (s_who m, s_deposit m)) <$> e_members s)
              ++ ((fun m => (s_who m, s_deposit m)) <$> e_runners s).
  (** lib.rs:989-1018: all voters, in the order of the storage map. *)
  Definition ballots (s : estate) : list (N * N * list N) :=
    (fun '(w, v) => (w, v_stake v, v_votes v)) <$> map_to_list (e_voting s).
  (** lib.rs:1137-1145: the deposit of a candidate as recorded before the election. *)
  Definition deposit_in (l : list (N * N)) (who : N) : N :=
    match list_find (fun p => p.1 = who) l with Some (_, p) => p.2 | None => 0 end.
  (** lib.rs:1121-1134: everyone who keeps no seat loses the deposit. *)
  Fixpoint slash_losers (s : estate) (ms rs : list N) (l : list (N * N)) : estate * list eev :=
    match l with
    | [] => (s, [])
    | (c, d) :: r =>
        if negb (found (bsearch id ms c)) && negb (found (bsearch id rs c))
        then let '(s', ev) := slash_losers (slash_bond s c d) ms rs r in (s', ECandSlashed c d :: ev)
        else slash_losers s ms rs r
    end.
  (** lib.rs:1028-1177: what is done with the winners. *)
  Definition install (s : estate) (winners : list (N * N)) : estate * list eev :=
    let i := issuance (e_bank s) in
    let std := standing s in
    let set := (fun p => (p.1, to_currency i p.2)) <$> filter (fun p => p.2 <> 0) winners in
    let new_ms := ksort fst (take (ec_members cfg) set) in
    let new_rs := reverse (drop (ec_members cfg) set) in
    let rids := ksort id (fst <$> new_rs) in
    let prime := pick_prime (count_votes ((fun p => (p.1, 0)) <$> new_ms) (ballots s)) in
    let ids := fst <$> new_ms in
    let old := members_ids s in
    let '(s1, ev) := slash_losers s ids rids std in
    let mk p := Seat p.1 p.2 (deposit_in std p.1) in
    (set_rounds (set_council (set_roles s1 (mk <$> new_ms) (mk <$> new_rs) []) ids prime)
       (add32 (e_rounds s) 1),
     EChange (diff ids old) (diff old ids) ids :: ev ++ [ENewTerm new_ms]).
  (** lib.rs:959-1193 do_phragmen. *)
  Definition do_phragmen (s : estate) : estate * list eev :=
    let std := standing s in
    if (length std =? 0)%nat then (s, [EEmptyTerm]) else
    if (ec_maxvoters cfg <? length (ballots s))%nat then (s, [EElectionError]) else
    let i := issuance (e_bank s) in
    match ec_elect cfg (ec_runners cfg + ec_members cfg)%nat (fst <$> std)
            ((fun b => (b.1.1, to_vote i b.1.2, b.2)) <$> ballots s) with
    | None => (s, [EElectionError])
    | Some winners => install s winners
    end.

  (** lib.rs:546-564 remove_member. *)
  Definition remove_member (s : estate) (who : N) (slash rerun : bool) : res eerr (estate * list eev) :=
    r <-? remove_and_replace s who slash ;
    let '(s1, ev, _) := r in
    if rerun then let '(s2, ev2) := do_phragmen s1 in ROk (s2, ev ++ EKicked who :: ev2)
    else ROk (s1, ev ++ [EKicked who]).

  (** lib.rs:936-940 is_defunct_voter. *)
  Definition is_defunct (s : estate) (votes : list N) : bool :=
    forallb (fun v => negb (is_member s v) && negb (is_runner_up s v) && negb (is_candidate s v)) votes.
  (** lib.rs:578-589 clean_defunct_voters. *)
  Definition clean (s : estate) : estate :=
    foldl do_remove_voter s
      (fst <$> filter (fun p => is_defunct s (v_votes p.2) = true) (map_to_list (e_voting s))).

  Definition signed (o : origin) : res eerr N := match o with Signed w => ROk w | _ => RErr BadOrigin end.
  Definition root (o : origin) : res eerr unit := match o with Root => ROk tt | _ => RErr BadOrigin end.
  Definition dispatch (s : estate) (o : origin) (c : ecall) : res eerr (estate * list eev) :=
    match c with
    | EVote votes value => w <-? signed o ; vote s w votes value
    | ERemoveVoter => w <-? signed o ; remove_voter s w
    | ESubmit n => w <-? signed o ; submit_candidacy s w n
    | ERenounceMember => w <-? signed o ; renounce_member s w
    | ERenounceRunner => w <-? signed o ; renounce_runner s w
    | ERenounceCandidate n => w <-? signed o ; renounce_candidate s w n
    | ERemoveMember who slash rerun => _u <-? root o ; remove_member s who slash rerun
    | EClean => _u <-? root o ; ROk (clean s, [])
    end.

  (** lib.rs:279-286 on_initialize. *)
  Definition on_initialize (s : estate) (n : N) : estate * list eev :=
    if negb (ec_term cfg =? 0) && (n mod ec_term cfg =? 0) then do_phragmen s else (s, []).

  (** Calls, blocks, and what the rest of the chain does: money comes and goes, others
      slash, reserve, release and lock. Other pallets release only what they reserved,
      and accounts with reserves or locks are kept alive (the reference counts of
      frame_system). *)
  Inductive eop :=
  | ECall (o : origin) (c : ecall)
  | EBlock (n : N)
  | EIdentity (who : N) (has : bool)
  | ECredit (who v : N)
  | EDebit (who v : N)
  | ESlash (who v : N)
  | EHold (who v : N)
  | ERelease (who v : N)
  | ELock (who v : N).
  Inductive eout := EDone (l : list eev) | EFail (e : eerr) | EPanic.

  Definition tied (a : acct) : bool := negb (rsv a =? 0) || negb (frz a =? 0).
  Definition eexec (s : estate) (op : eop) : estate * eout :=
    match op with
    | ECall o c =>
        match dispatch s o c with
        | ROk (s', l) => (s', EDone l)
        | RErr e => (s, EFail e)
        | RPanic => (s, EPanic)
        end
    | EBlock n => let '(s', l) := on_initialize s n in (s', EDone l)
    | EIdentity who has =>
        (set_ident s (if has then {[who]} ∪ e_ident s else e_ident s ∖ {[who]}), EDone [])
    | ECredit who v => (set_ebank s (deposit_creating ed (e_bank s) who v), EDone [])
    | EDebit who v =>
        (match withdraw ed (tied (acct_of (e_bank s) who)) (e_bank s) who v with
         | Some b => set_ebank s b
         | None => s
         end, EDone [])
    | ESlash who v =>
        let a := acct_of (e_bank s) who in
        let act := N.min v (if tied a then free a - ed else free a) in
        (set_ebank s (put ed (e_bank s) who (Acct (free a - act) (rsv a) (frz a))), EDone [])
    | EHold who v =>
        (match reserve ed (e_bank s) who v with
         | Some b => set_ersv (set_ebank s b) (<[who := lock_of (e_rsv s) who + v]> (e_rsv s))
         | None => s
         end, EDone [])
    | ERelease who v =>
        let v' := N.min v (lock_of (e_rsv s) who) in
        (set_ersv (set_ebank s (unreserve ed (e_bank s) who v'))
           (<[who := lock_of (e_rsv s) who - v']> (e_rsv s)), EDone [])
    | ELock who v =>
        (if ed <=? free_of (e_bank s) who then relock s who (e_own s) (<[who := v]> (e_oth s)) else s, EDone [])
    end.
  Definition erun (s : estate) (l : list eop) : estate := foldl (fun s op => (eexec s op).1) s l.

  (** lib.rs:725-782 genesis_build: None is a failed assertion. [InitializeMembers] is
      [()] (runtime/src/lib.rs:772): the council is told nothing. Locks and reserves of
      the genesis accounts belong to others. *)
  Fixpoint genesis_members (b : bank) (l : list (N * N)) (ms : list seat) (vs : gmap N voter) : option (list seat * gmap N voter) :=
    match l with
    | [] => Some (ms, vs)
    | (w, st) :: r =>
        if free_of b w <? st then None else
        match bsearch s_who ms w with
        | inl _ => None
        | inr i => genesis_members b r (insert_at i (Seat w st 0) ms) (<[w := Voter [w] st 0]> vs)
        end
    end.
  Definition genesis (b : bank) (l : list (N * N)) : option estate :=
    if (ec_members cfg <? length l)%nat then None else
    match genesis_members b l [] ∅ with
    | None => None
    | Some (ms, vs) => Some (EState ms [] [] 0 vs b ∅ (frz <$> accts b) (rsv <$> accts b) ∅ [] None)
    end.
End model.
