(** Staking pallet: the turns of validators: property C205. *)
From Verif Require Import Base Balances Model_StakingLedger Model_Staking Spec_Staking Spec_Turns.
From Verif Require Import Proofs_Staking2 Proofs_Staking25 Proofs_Turns Props_Staking.
From stdpp Require Import gmap.
Open Scope N_scope.

(** * C205: whoever stands gets its turn *)
(** Outside of elections, when a validator was last elected stays or is forgotten. *)
Theorem C205_kept cfg s op s' out v :
  kstep cfg s op = (s', out) -> (forall i, op <> KNewSession i) ->
  last_elected s' v = last_elected s v \/ last_elected s' v = 0.
Proof. intros H N. exact (step_low cfg s op s' out H N v). Qed.
Print Assumptions C205_kept.
(** Full statement: a validator that stands at all elections is elected as soon as more
    seats have been given than there are others who stand. It holds where it is never
    forgotten when a validator was last elected. Missing: a validator whose last delegator leaves, or
    delegates anew, counts as one that was never elected, see below. *)
Theorem C205_partial cfg b p h0 h v W n :
  let s0 := kgenesis b p in
  let s := krun cfg s0 h0 in
  sane cfg s0 (h0 ++ h) -> always cfg (fun s => forall w, backing s w < 2 ^ 32) s0 h0 ->
  stands cfg v W n s h -> remembered cfg s h ->
  N.of_nat (size (W ∖ {[v]})) < n * N.of_nat (length (elections cfg s h)) ->
  exists l, l ∈ elections cfg s h /\ v ∈ l.
Proof.
  cbv zeta. intros S A St R Hn. apply sane_app in S as [S0 S1].
  pose proof (run_young cfg h0 _ S0 A (genesis_young b p)) as Y.
  destruct (decide (Exists (fun l => v ∈ l) (elections cfg (krun cfg (kgenesis b p) h0) h))) as [E|E].
  { apply Exists_exists in E. exact E. }
  apply not_Exists_Forall in E; [|intros l; apply _].
  pose proof (run_turns cfg v W n h _ S1 Y St R E) as T. pose proof (ahead_size v W (krun cfg (kgenesis b p) h0)) as B. lia.
Qed.
Print Assumptions C205_partial.

(** Checking the conditions by computation. *)
Definition backedb (s : kstate) : bool := bool_decide (map_Forall (fun _ c => N.of_nat (size (cd_dels c)) < 2 ^ 32) (d_cand (k_del s))).
Lemma backedb_ok s : backedb s = true -> forall w, backing s w < 2 ^ 32.
Proof.
  intros H w. apply bool_decide_eq_true in H. unfold backing. destruct (_ !! w) as [c|] eqn:E; [exact (H _ _ E)|reflexivity].
Qed.
Definition standsb1 (v : N) (W : gset N) (n : N) (s : kstate) : bool :=
  bool_decide (v ∈ s_valid (k_stk s)) && bool_decide (p_white (k_par s) = []) && bool_decide (s_valid (k_stk s) ⊆ W) &&
  (n <=? p_count (k_par s)) && backedb s.
Fixpoint standsb (cfg : kcfg) (v : N) (W : gset N) (n : N) (s : kstate) (h : list kop) : bool :=
  match h with
  | [] => true
  | op :: r => match op with KNewSession _ => standsb1 v W n s | _ => true end && standsb cfg v W n (kstep cfg s op).1 r
  end.
Lemma standsb_ok cfg v W n : forall h s, standsb cfg v W n s h = true -> stands cfg v W n s h.
Proof.
  induction h as [|op h IH]; intros s H; cbn [standsb stands] in *; [exact I|]. apply andb_true_iff in H as [H1 H2].
  split; [|exact (IH _ H2)]. destruct op; try exact I. unfold standsb1 in H1.
  rewrite !andb_true_iff, !bool_decide_eq_true, N.leb_le in H1. destruct H1 as [[[[A B] C] D] E].
  split; [split; [exact A|now left]|]. split; [intros w [Hw _]; exact (C w Hw)|]. split; [exact D|exact (backedb_ok _ E)].
Qed.
Fixpoint rememberedb (cfg : kcfg) (s : kstate) (h : list kop) : bool :=
  match h with
  | [] => true
  | op :: r => bool_decide (map_Forall (fun w c => cd_era c <= last_elected (kstep cfg s op).1 w) (d_cand (k_del s))) &&
               rememberedb cfg (kstep cfg s op).1 r
  end.
Lemma rememberedb_ok cfg : forall h s, rememberedb cfg s h = true -> remembered cfg s h.
Proof.
  induction h as [|op h IH]; intros s H; cbn [rememberedb remembered] in *; [exact I|]. apply andb_true_iff in H as [H1 H2].
  split; [|exact (IH _ H2)]. apply bool_decide_eq_true in H1. intros w. unfold last_elected at 1.
  destruct (_ !! w) as [c|] eqn:E; [exact (H1 _ _ E)|lia].
Qed.
Fixpoint alwaysb (cfg : kcfg) (s : kstate) (h : list kop) : bool :=
  match h with [] => true | op :: r => backedb s && alwaysb cfg (kstep cfg s op).1 r end.
Lemma alwaysb_ok cfg : forall h s, alwaysb cfg s h = true -> always cfg (fun s => forall w, backing s w < 2 ^ 32) s h.
Proof.
  induction h as [|op h IH]; intros s H; cbn [alwaysb always] in *; [exact I|]. apply andb_true_iff in H as [H1 H2].
  split; [exact (backedb_ok _ H1)|exact (IH _ H2)].
Qed.

(** Three validators, two seats; accounts 4 and 5 delegate to the first two. After two elections
    all have had a seat. *)
Definition y205 : list kop := zsetup ++ [zc 4 (KDelegate [1]); zc 5 (KDelegate [2])].
Definition y205h : list kop := zera 0 ++ zera 2.
Example C205_case :
  let s := krun zcfg zs0 y205 in
  sane zcfg zs0 (y205 ++ y205h) /\ always zcfg (fun s => forall w, backing s w < 2 ^ 32) zs0 y205 /\
  stands zcfg 3 {[1; 2; 3]} 2 s y205h /\ remembered zcfg s y205h /\
  elections zcfg s y205h = [[1; 2]; [3; 1]] /\ N.of_nat (size ({[1; 2; 3]} ∖ {[3]} : gset N)) < 2 * 2.
Proof.
  cbv zeta. split; [apply saneb_ok; vm_compute; reflexivity|]. split; [apply alwaysb_ok; vm_compute; reflexivity|].
  split; [apply standsb_ok; vm_compute; reflexivity|]. split; [apply rememberedb_ok; vm_compute; reflexivity|].
  split; vm_compute; reflexivity.
Qed.
Print Assumptions C205_case.

(** The same validators. Accounts 4 and 5 repeat their delegations before each election:
    the entries of the first two are dropped with their only delegators and made anew, as if they
    had never been elected. In twelve elections validator 3 gets no seat, though it stands all the time. *)
Definition y205r : list kop :=
  concat (map (fun k => zc 4 (KDelegate [1]) :: zc 5 (KDelegate [2]) :: zera (2 * N.of_nat k)) (seq 0 12)).
Theorem C205_refuted :
  exists cfg b p h0 h v W n,
    let s0 := kgenesis b p in
    let s := krun cfg s0 h0 in
    sane cfg s0 (h0 ++ h) /\ always cfg (fun s => forall w, backing s w < 2 ^ 32) s0 h0 /\ stands cfg v W n s h /\
    N.of_nat (size (W ∖ {[v]})) = 2 /\ n * N.of_nat (length (elections cfg s h)) = 24 /\
    Forall (fun l => v ∉ l) (elections cfg s h).
Proof.
  exists zcfg, zbank, zpars, y205, y205r, 3, {[1; 2; 3]}, 2. cbv zeta.
  split; [apply saneb_ok; vm_compute; reflexivity|]. split; [apply alwaysb_ok; vm_compute; reflexivity|].
  split; [apply standsb_ok; vm_compute; reflexivity|].
  split; [vm_compute; reflexivity|]. split; [vm_compute; reflexivity|].
  assert (E : elections zcfg (krun zcfg (kgenesis zbank zpars) y205) y205r = repeat [1; 2] 12) by (vm_compute; reflexivity).
  rewrite E. apply Forall_forall. intros l Hl. apply elem_of_list_In, repeat_spec in Hl. subst l.
  rewrite !elem_of_cons. intros [H|[H|H]]; [discriminate..|]. now apply elem_of_nil in H.
Qed.
Print Assumptions C205_refuted.
