(** pallets/staking/src/lib.rs and slashing.rs: the two self-contained data
    structures of the staking pallet, the ledger of a stash and its slashing
    spans. *)
From Verif Require Import Base.
From stdpp Require Import gmap.
Open Scope N_scope.

(** ** The ledger *)

(** lib.rs:205-213 UnlockChunk. *)
Record chunk := Chunk { c_val : N; c_era : N }.
(** lib.rs:215-238 StakingLedger. [claimed_rewards] is omitted: nothing reads it. *)
Record ledger := Ledger { l_stash : N; l_total : N; l_active : N; l_unl : list chunk }.

(** lib.rs:245-268 consolidate_unlocked. *)
Definition consolidate (cur : N) (l : ledger) : ledger :=
  Ledger (l_stash l)
    (fold_left (fun t c => if cur <? c_era c then t else ssub t (c_val c)) (l_unl l) (l_total l))
    (l_active l)
    (List.filter (fun c => cur <? c_era c) (l_unl l)).

(** lib.rs:271-292 the loop of rebond, over the chunks in reverse order. In the
    second branch the loop always stops: [got + (value - got) = value]. *)
Fixpoint rebond_rev (r : list chunk) (value got active : N) : list chunk * N :=
  match r with
  | [] => ([], active)
  | c :: r' =>
      if add128 got (c_val c) <=? value then
        let got' := add128 got (c_val c) in
        let active' := add128 active (c_val c) in
        if value <=? got' then (r', active') else rebond_rev r' value got' active'
      else
        let diff := sub128 value got in
        (Chunk (sub128 (c_val c) diff) (c_era c) :: r', add128 active diff)
  end.
(** lib.rs:271-292 rebond. *)
Definition rebond (value : N) (l : ledger) : ledger :=
  let '(r, active) := rebond_rev (rev (l_unl l)) value 0 (l_active l) in
  Ledger (l_stash l) (l_total l) active (rev r).

(** lib.rs:310-325 the closure slash_out_of: new total, target and value. No
    operation in it can wrap: what is taken is at most the target, and the value
    grows by the dust only when it was below the target. *)
Definition slash_out_of (minb total target value : N) : N * N * N :=
  let take := N.min value target in
  if take =? 0 then (total, target, value) else
  let target1 := target - take in
  if target1 <=? minb
  then (ssub total (take + target1), 0, value + target1 - (take + target1))
  else (ssub total take, target1, value - take).

(** lib.rs:329-340: the lazy iterator over the chunks stops at the first chunk
    that is not used up (which it has already slashed); the ones before it are
    drained. *)
Fixpoint slash_chunks (minb total value : N) (cs : list chunk) : N * list chunk :=
  match cs with
  | [] => (total, [])
  | c :: r =>
      let '(total1, keep, value1) := slash_out_of minb total (c_val c) value in
      if keep =? 0 then slash_chunks minb total1 value1 r
      else (total1, Chunk keep (c_era c) :: r)
  end.
(** lib.rs:305-344 slash: the new ledger and the amount slashed. *)
Definition slash_ledger (value minb : N) (l : ledger) : ledger * N :=
  let '(total1, active1, value1) := slash_out_of minb (l_total l) (l_active l) value in
  let '(total2, unl2) := slash_chunks minb total1 value1 (l_unl l) in
  (Ledger (l_stash l) total2 active1 unl2, ssub (l_total l) total2).

(** ** Slashing spans *)

(** slashing.rs:47-52 SlashingSpan. *)
Record span := Span { sn_index : N; sn_start : N; sn_len : option N }.
(** slashing.rs:55-57 contains_era. *)
Definition contains_era (s : span) (era : N) : bool :=
  (sn_start s <=? era) &&
  match sn_len s with None => true | Some len => era <? add32 (sn_start s) len end.

(** slashing.rs:62-73 SlashingSpans. *)
Record spans := Spans { sp_index : N; sp_start : N; sp_last : N; sp_prior : list N }.
(** slashing.rs:78-88 new. *)
Definition spans_new (window : N) : spans := Spans 0 window 0 [].
(** slashing.rs:93-104 end_span. *)
Definition end_span (now : N) (s : spans) : spans * bool :=
  let next := add32 now 1 in
  if next <=? sp_start s then (s, false) else
  (Spans (add32 (sp_index s) 1) next (sp_last s) (sub32 next (sp_start s) :: sp_prior s), true).
(** slashing.rs:115-125 the prior spans of iter. *)
Fixpoint prior_spans (index start : N) (l : list N) : list span :=
  match l with
  | [] => []
  | len :: r => let start' := sub32 start len in
                let index' := sub32 index 1 in
                Span index' start' (Some len) :: prior_spans index' start' r
  end.
(** slashing.rs:107-128 iter. *)
Definition spans_iter (s : spans) : list span :=
  Span (sp_index s) (sp_start s) None :: prior_spans (sp_index s) (sp_start s) (sp_prior s).
(** slashing.rs:374-376 era_span. *)
Definition era_span (s : spans) (era : N) : option span :=
  List.find (fun sp => contains_era sp era) (spans_iter s).
(** slashing.rs:140-146: the position of the first span that ended before the window. *)
Fixpoint old_position (window : N) (l : list span) : option nat :=
  match l with
  | [] => None
  | sp :: r =>
      if match sn_len sp with None => false | Some len => add32 (sn_start sp) len <=? window end
      then Some 0%nat else S <$> old_position window r
  end.
(** slashing.rs:139-161 prune: the new spans and the range of pruned indices. *)
Definition prune (window : N) (s : spans) : spans * option (N * N) :=
  let earliest := sub32 (sp_index s) (N.of_nat (length (sp_prior s))) in
  let start' := N.max (sp_start s) window in
  match old_position window (tail (spans_iter s)) with
  | Some o =>
      let prior := take o (sp_prior s) in
      (Spans (sp_index s) start' (sp_last s) prior,
       Some (earliest, sub32 (sp_index s) (N.of_nat (length prior))))
  | None => (Spans (sp_index s) start' (sp_last s) (sp_prior s), None)
  end.
