(** What the elections pallet promises, in terms of its storage, the balances and the
    council. *)
From Verif Require Import Base Balances Model_Elections.
From Coq Require Import Sorting.Sorted.
From stdpp Require Import gmap sorting.
Open Scope N_scope.

(** The accounts in the three roles. *)
Definition member_ids (s : estate) : list N := s_who <$> e_members s.
Definition runner_ids (s : estate) : list N := s_who <$> e_runners s.
Definition cand_ids (s : estate) : list N := fst <$> e_cands s.
Definition role_ids (s : estate) : list N := cand_ids s ++ member_ids s ++ runner_ids s.
Definition ascending (l : list N) : Prop := StronglySorted N.lt l.

(** The bonds recorded for an account, in whatever role. *)
Definition of_who (w : N) (p : N * N) : N := if p.1 =? w then p.2 else 0.
Definition bonds (s : estate) (w : N) : N :=
  lsum (of_who w <$> e_cands s) +
  lsum ((fun m => of_who w (s_who m, s_deposit m)) <$> e_members s) +
  lsum ((fun m => of_who w (s_who m, s_deposit m)) <$> e_runners s).
(** The deposit recorded for a voter, and the stake. *)
Definition vote_deposit (s : estate) (w : N) : N :=
  match e_voting s !! w with Some v => v_deposit v | None => 0 end.
(** What other pallets have reserved on the account. *)
Definition others (s : estate) (w : N) : N := default 0 (e_rsv s !! w).

(** What is assumed of seq_phragmen: distinct winners, taken from the candidates, no more
    than asked for. *)
Definition elect_ok (cfg : ecfg) : Prop :=
  forall n cs vs ws, NoDup cs -> ec_elect cfg n cs vs = Some ws ->
    NoDup (fst <$> ws) /\ (forall w, w ∈ fst <$> ws -> w ∈ cs) /\ (length ws <= n)%nat.
(** An account holds the existential deposit or does not exist. *)
Definition sound_bank (cfg : ecfg) (b : bank) : Prop :=
  forall w, ec_ed cfg <= free (acct_of b w) \/ acct_of b w = acct0.

(** States that the chain can reach. *)
Definition reached (cfg : ecfg) (s : estate) : Prop :=
  exists b l s0 hist, sound_bank cfg b /\ genesis cfg b l = Some s0 /\ s = erun cfg s0 hist.

(** What the events of a step say was burnt. *)
Definition burnt_by (e : eev) : N :=
  match e with ECandSlashed _ v | ESeatSlashed _ v => v | _ => 0 end.
Definition burnt (ev : list eev) : N := lsum (burnt_by <$> ev).

(** The Borda count: the first name on a ballot counts 16 times the voter's stake, the
    next one 15 times, and so on. The sum saturates at the largest balance. *)
Definition weight (m : N) (votes : list N) : N :=
  lsum (imap (fun i x => if x =? m then 16 - N.of_nat i else 0) votes).
Definition score (s : estate) (m : N) : N :=
  N.min (two128 - 1) (msum (fun _ v => v_stake v * weight m (v_votes v)) (e_voting s)).

(** Holders of a seat. *)
Definition seat_ids (s : estate) : list N := member_ids s ++ runner_ids s.
(** The ballots as they are handed to the election: stakes are scaled down so that the
    whole issuance fits 64 bits. *)
Definition scale (s : estate) : N :=
  N.max (msum (fun _ a => free a + rsv a) (accts (e_bank s)) / (2 ^ 64 - 1)) 1.
Definition ballot_list (s : estate) : list (N * N * list N) :=
  (fun p => (p.1, N.min (v_stake p.2 / scale s) (2 ^ 64 - 1), v_votes p.2)) <$> map_to_list (e_voting s).

(** What an account owns. *)
Definition wealth (s : estate) (w : N) : N :=
  free (acct_of (e_bank s) w) + rsv (acct_of (e_bank s) w).

(** All outputs of a history. *)
Fixpoint outputs (cfg : ecfg) (s : estate) (hist : list eop) : list eout :=
  match hist with
  | [] => []
  | op :: r => (eexec cfg s op).2 :: outputs cfg (eexec cfg s op).1 r
  end.
Definition events (out : eout) : list eev := match out with EDone l => l | _ => [] end.
(** The number of terms that a history has seen. *)
Definition is_term (e : eev) : bool := match e with ENewTerm _ => true | _ => false end.
Definition terms (cfg : ecfg) (s : estate) (hist : list eop) : N :=
  lsum ((fun out => N.of_nat (length (List.filter is_term (events out)))) <$> outputs cfg s hist).
Definition is_change (e : eev) : bool := match e with EChange _ _ _ => true | _ => false end.

(** The account can set [v] aside: what stays free covers its locks and the existential
    deposit. *)
Definition can_reserve (cfg : ecfg) (s : estate) (w v : N) : Prop :=
  v = 0 \/ v + N.max (frz (acct_of (e_bank s) w)) (ec_ed cfg) <= free (acct_of (e_bank s) w).
(** The deposit for a number of votes. *)
Definition vote_price (cfg : ecfg) (n : nat) : N :=
  N.min (ec_base cfg + ec_factor cfg * N.of_nat n) (2 ^ 128 - 1).

(** [w] became a candidate by its own call, at a time when it had an email identity. *)
Definition submitted (cfg : ecfg) (s0 : estate) (hist : list eop) (w : N) : Prop :=
  exists h1 n h2, hist = h1 ++ ECall (Signed w) (ESubmit n) :: h2 /\ w ∈ e_ident (erun cfg s0 h1) /\
    w ∉ role_ids (erun cfg s0 h1) /\
    (eexec cfg (erun cfg s0 h1) (ECall (Signed w) (ESubmit n))).2 = EDone [].

(** The Borda count with each name counted once per ballot, where it comes first. *)
Fixpoint once (m : N) (top : N) (votes : list N) : N :=
  match votes with
  | [] => 0
  | x :: r => if x =? m then top else once m (top - 1) r
  end.
Definition score_once (s : estate) (m : N) : N :=
  N.min (two128 - 1) (msum (fun _ v => v_stake v * once m 16 (v_votes v)) (e_voting s)).

(** Highest score, the highest account among equals. *)
Definition best_of (f : N -> N) (l : list N) (p : N) : Prop :=
  p ∈ l /\ forall m, m ∈ l -> f m < f p \/ f m = f p /\ m <= p.
