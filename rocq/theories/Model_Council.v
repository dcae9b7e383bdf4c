(** Model of the council and the technical committee as /repo/runtime/src/lib.rs sets them up:
    pallet_collective with [PrimeDefaultVote] (726-745, 789-806) and the powers given to
    proportions of the members (425-428, 637-640, 673-710, 808-811, 853-856, 1133-1134).
    pallet_collective (polkadot-v1.1.0) is library code, written down from its published behaviour.
    Left out: weights and lengths of the proposed calls, the calls' own effects, the order
    inside the lists of votes, deposits. *)
From Verif Require Import Base.
From stdpp Require Import gmap.
Open Scope N_scope.

(** [Votes]: index, threshold, ayes, nays, last block. *)
Record motion := Motion { m_index : N; m_threshold : N; m_ayes : list N; m_nays : list N; m_end : N }.
(** Members, prime, open motions by the hash of the proposed call, number of motions so far, block. *)
Record cstate := CState {
  c_members : list N; c_prime : option N; c_motions : gmap N motion; c_count : N; c_now : N }.

(** runtime/src/lib.rs:726-729, 789-792: MotionDuration and MaxProposals. *)
Record ccfg := CCfg { q_duration : N; q_max : N }.

(** What the pallet's events tell, plus blocks and changes of the membership; [EExecuted] says
    with which [Members(n, m)] origin the call was dispatched. *)
Inductive cevent :=
| EBlock
| EMembers (l : list N)
| EPrime (p : option N)
| EProposed (h : N) (who : N)
| EVoted (h who : N) (aye : bool)
| EExecuted (h n m : N)
| EDisapproved (h : N).

(** Calls and what other pallets do to the collective ([ChangeMembers], called by the elections
    respectively the membership pallet). *)
Inductive cop :=
| OBlock
| OMembers (l : list N)
| OPrime (p : option N)
| OPropose (who h threshold : N)
| OVote (who h index : N) (aye : bool)
| OClose (h index : N)
| ODisapprove (h : N).

(** [change_members_sorted]: the votes of those who leave are removed, the prime too. *)
Definition keep_votes (l : list N) (m : motion) : motion :=
  Motion (m_index m) (m_threshold m) (filter (fun w => w ∈ l) (m_ayes m)) (filter (fun w => w ∈ l) (m_nays m)) (m_end m).

(** [PrimeDefaultVote] with the prime's own vote. *)
Definition default_vote (s : cstate) (m : motion) : bool :=
  match c_prime s with Some p => bool_decide (p ∈ m_ayes m) | None => false end.

Section model.
  Variable cfg : ccfg.

  (** [do_close]. *)
  Definition close (s : cstate) (h : N) (m : motion) : option (cstate * list cevent) :=
    let yes := N.of_nat (length (m_ayes m)) in
    let no := N.of_nat (length (m_nays m)) in
    let seats := N.of_nat (length (c_members s)) in
    let s' := CState (c_members s) (c_prime s) (delete h (c_motions s)) (c_count s) (c_now s) in
    if m_threshold m <=? yes then Some (s', [EExecuted h yes seats])
    else if seats - no <? m_threshold m then Some (s', [EDisapproved h])
    else if c_now s <? m_end m then None
    else
      let abstain := seats - (yes + no) in
      let yes' := if default_vote s m then yes + abstain else yes in
      if m_threshold m <=? yes' then Some (s', [EExecuted h yes' seats]) else Some (s', [EDisapproved h]).

  (** One step: None is an error. *)
  Definition cstep (s : cstate) (o : cop) : option (cstate * list cevent) :=
    match o with
    | OBlock => Some (CState (c_members s) (c_prime s) (c_motions s) (c_count s) (c_now s + 1), [EBlock])
    | OMembers l => Some (CState l None (keep_votes l <$> c_motions s) (c_count s) (c_now s), [EMembers l])
    | OPrime p => Some (CState (c_members s) p (c_motions s) (c_count s) (c_now s), [EPrime p])
    | OPropose who h t =>
        if bool_decide (who ∈ c_members s) then
          if bool_decide (is_Some (c_motions s !! h)) then None
          else if t <? 2 then Some (s, [EProposed h who; EExecuted h 1 (N.of_nat (length (c_members s)))])
          else if q_max cfg <=? N.of_nat (size (c_motions s)) then None
          else Some (CState (c_members s) (c_prime s)
                       (<[h := Motion (c_count s) t [] [] (c_now s + q_duration cfg)]> (c_motions s))
                       (c_count s + 1) (c_now s), [EProposed h who])
        else None
    | OVote who h i aye =>
        if bool_decide (who ∈ c_members s) then
          match c_motions s !! h with
          | Some m =>
              if m_index m =? i then
                if bool_decide (who ∈ (if aye then m_ayes m else m_nays m)) then None
                else
                  let m' := if aye
                            then Motion (m_index m) (m_threshold m) (who :: m_ayes m) (filter (fun w => w <> who) (m_nays m)) (m_end m)
                            else Motion (m_index m) (m_threshold m) (filter (fun w => w <> who) (m_ayes m)) (who :: m_nays m) (m_end m) in
                  Some (CState (c_members s) (c_prime s) (<[h := m']> (c_motions s)) (c_count s) (c_now s), [EVoted h who aye])
              else None
          | None => None
          end
        else None
    | OClose h i =>
        match c_motions s !! h with
        | Some m => if m_index m =? i then close s h m else None
        | None => None
        end
    | ODisapprove h =>
        if bool_decide (is_Some (c_motions s !! h))
        then Some (CState (c_members s) (c_prime s) (delete h (c_motions s)) (c_count s) (c_now s), [EDisapproved h])
        else None
    end.

  (** A history, and the events with the latest first. *)
  Fixpoint crun (s : cstate) (log : list cevent) (l : list cop) : cstate * list cevent :=
    match l with
    | [] => (s, log)
    | o :: r =>
        match cstep s o with
        | Some (s', e) => crun s' (rev e ++ log) r
        | None => crun s log r
        end
    end.
  Definition cinit : cstate := CState [] None ∅ 0 0.
End model.

(** [EnsureProportionAtLeast<N, D>] and [EnsureProportionMoreThan<N, D>] of [Members(n, m)]. *)
Definition at_least (N' D n m : N) : bool := N' * m <=? n * D.
Definition more_than (N' D n m : N) : bool := N' * m <? n * D.
(** The powers of the council and the technical committee. *)
Inductive power :=
| ExternalOrigin          (* lib.rs:673-676 "a straight majority of the council" *)
| ExternalMajorityOrigin  (* 678-681 *)
| ExternalDefaultOrigin   (* 684-687 "a unanimous council" *)
| FastTrackOrigin         (* 690-693, technical committee *)
| InstantOrigin           (* 694-697, technical committee *)
| CancellationOrigin      (* 701-704 *)
| CancelProposalOrigin    (* 707-710, technical committee, "must be unanimous" *)
| SlashCancelOrigin       (* 637-640 *)
| ScheduleOrigin          (* 425-428 *)
| ApproveOrigin           (* 853-856 *)
| HalfCouncil             (* 808-811: membership of the technical committee, rejections *)
| FounderSetOrigin.       (* 1133-1134 *)
Definition empowered (p : power) (n m : N) : bool :=
  match p with
  | ExternalOrigin | ScheduleOrigin => at_least 1 2 n m
  | ExternalMajorityOrigin | ApproveOrigin => at_least 3 5 n m
  | ExternalDefaultOrigin | InstantOrigin | CancelProposalOrigin => at_least 1 1 n m
  | FastTrackOrigin | CancellationOrigin => at_least 2 3 n m
  | SlashCancelOrigin => at_least 3 4 n m
  | HalfCouncil | FounderSetOrigin => more_than 1 2 n m
  end.
