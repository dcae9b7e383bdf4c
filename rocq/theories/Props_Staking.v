(** Staking pallet, first part: bonding, ledgers, elections and slashing:
    properties C48-C53, C59-C61 and C88. *)
From Verif Require Import Base Balances Model_StakingLedger Model_Staking Spec_Staking
  Proofs_StakingLedger Proofs_Staking Proofs_Staking2 Proofs_Staking3 Proofs_Staking4
  Proofs_Staking5 Proofs_Staking6 Proofs_Staking7.
From stdpp Require Import gmap.
Open Scope N_scope.

(** ** A concrete chain: stashes 1, 2 and 3 with controllers 11, 12 and 13; bonding
    duration 3 eras, slashes deferred by 1 era, 2 sessions per era. *)
Definition DPR : N := 1000000000000000000.
Definition zcfg : kcfg :=
  KCfg (DPR / 5) 3 1 2 1 (250000000 * DPR) 10 90 99 (fun a => a) (fun a => a).
Definition zx : kctx :=
  KCtx 0 (fun _ => true) (fun _ _ _ => None) (fun _ => None) (fun _ => []) (fun _ => [])
       1 (fun _ => false) (fun _ => false) (fun w => w =? 7) (fun _ => false) (fun _ => true)
       (fun _ => 0) (fun _ => true) (fun _ => true) (fun _ => true) (fun _ => false).
Definition zpars : pars := Pars (DPR / 5) (100 * DPR) 2 1 [] [] 100000000 84.
Definition zbank : bank :=
  Bank (<[1 := Acct (1000 * DPR) 0 0]> (<[2 := Acct (1000 * DPR) 0 0]>
       (<[3 := Acct (1000 * DPR) 0 0]> (<[99 := Acct (1000 * DPR) 0 0]> ∅)))) 0.
Definition zs0 : kstate := kgenesis zbank zpars.
Definition zc (w : N) (c : kcall) : kop := KCall zx (Signed w) c.
Definition zroot (c : kcall) : kop := KCall zx Root c.
(** The start of an era, whose first session is [i]. *)
Definition zera (i : N) : list kop := [KNewSession i; KStartSession zx i; KFinal].
Definition zoff (st own frac i : N) : kop := KOffence zx [(st, Expo own own [], [5], frac)] i.
Definition zsetup : list kop :=
  [zc 1 (KBond 11 (500 * DPR) PStaked); zc 2 (KBond 12 (300 * DPR) PStash);
   zc 3 (KBond 13 (400 * DPR) PStash); zc 11 KValidate; zc 12 KValidate; zc 13 KValidate].
(** Unbonding, two offences of the first stash in era 1, one of the second, the
    eras in which they are applied, and a withdrawal after the bonding duration. *)
Definition zh : list kop :=
  zsetup ++ zera 0 ++ [zc 11 (KUnbond (100 * DPR)); zc 12 (KUnbond (50 * DPR)); zc 11 (KWithdraw 0)] ++
  zera 2 ++ [zoff 1 (400 * DPR) 100000000 2; zoff 2 (250 * DPR) 200000000 2; zoff 1 (400 * DPR) 300000000 2;
             zc 11 (KRebond (40 * DPR))] ++
  zera 4 ++ [zoff 1 (440 * DPR) 50000000 4; zc 11 KValidate; zc 12 KValidate; zc 12 (KUnbond (20 * DPR))] ++
  zera 6 ++ [zc 11 (KWithdraw 9); zc 12 (KWithdraw 9); zc 2 (KSetController 22)] ++ zera 8.

(** Checking [sane] by computation. *)
Definition fitsb (cfg : kcfg) (s : kstate) : bool :=
  bool_decide (map_Forall (fun _ a => free a < two128) (accts (k_bank s))) &&
  bool_decide (map_Forall (fun _ l => l_total l < two128 /\
     map_Forall (fun _ vs => l_total l + N.of_nat (length vs) * p_reward (k_par s) < two128) (e_vals (k_era s)))
     (s_ledger (k_stk s))) &&
  (cur_era s + kc_bonding cfg + 1 <? two32) &&
  match e_act (k_era s) with Some (i, _) => i + 2 <? two32 | None => true end.
Definition typedb (op : kop) : bool := match op with KCall _ _ (KRebond v) => v <? two128 | _ => true end.
Fixpoint saneb (cfg : kcfg) (s : kstate) (h : list kop) : bool :=
  fitsb cfg s && match h with [] => true | op :: r => typedb op && saneb cfg (kstep cfg s op).1 r end.
Lemma fitsb_ok cfg s : fitsb cfg s = true -> fits cfg s.
Proof.
  unfold fitsb, fits. rewrite !andb_true_iff, !bool_decide_eq_true, N.ltb_lt. intros [[[A B] C] D].
  split; [|split; [|split; [exact C|]]].
  - intros who. unfold free_of, acct_of. destruct (accts (k_bank s) !! who) as [a|] eqn:E; [exact (A _ _ E)|reflexivity].
  - intros c l era E. destruct (B _ _ E) as [B1 B2]. destruct (e_vals (k_era s) !! era) as [vs|] eqn:Ev; cbn; [exact (B2 _ _ Ev)|lia].
  - destruct (e_act (k_era s)) as [[i b]|]; [now apply N.ltb_lt|auto].
Qed.
Lemma saneb_ok cfg : forall h s, saneb cfg s h = true -> sane cfg s h.
Proof.
  induction h as [|op h IH]; intros s H; cbn [saneb sane] in *; apply andb_true_iff in H as [F H]; (split; [now apply fitsb_ok|]); [auto|].
  apply andb_true_iff in H as [T H]. split; [|auto]. destruct op as [x o c| | | | | | | |]; try exact I. destruct c; try exact I. now apply N.ltb_lt.
Qed.
Lemma zsane : sane zcfg zs0 zh.
Proof. apply saneb_ok. vm_compute. reflexivity. Qed.
Definition zs : kstate := krun zcfg zs0 zh.

(** * C48: stash and controller stay paired *)
Theorem C48_paired cfg b p h s :
  sane cfg (kgenesis b p) h -> s = krun cfg (kgenesis b p) h ->
  (forall st c, s_bonded (k_stk s) !! st = Some c <->
     exists l, s_ledger (k_stk s) !! c = Some l /\ l_stash l = st) /\
  (forall st st' c, s_bonded (k_stk s) !! st = Some c -> s_bonded (k_stk s) !! st' = Some c -> st = st').
Proof.
  intros S ->. pose proof (run_linv cfg h _ S (genesis_linv b p)) as [A B _ _ _ _].
  split.
  - intros st c. split; [apply A|]. intros (l & E & <-). exact (B _ _ E).
  - intros st st' c H1 H2. destruct (A _ _ H1) as (l & E & <-). destruct (A _ _ H2) as (l' & E' & <-). cbn in *. congruence.
Qed.
Print Assumptions C48_paired.
(** In the example three stashes are bonded at the end, one to a new controller. *)
Example C48_example :
  s_bonded (k_stk zs) !! 1 = Some 11 /\ s_bonded (k_stk zs) !! 2 = Some 22 /\ s_bonded (k_stk zs) !! 3 = Some 13 /\
  (l_stash <$> s_ledger (k_stk zs) !! 22) = Some 2 /\ s_ledger (k_stk zs) !! 12 = None.
Proof. vm_compute. repeat split; reflexivity. Qed.
Example C48_case : sane zcfg (kgenesis zbank zpars) zh. Proof. exact zsane. Qed.

(** * C49: the total is the active part plus everything unlocking *)
Theorem C49_total cfg b p h s c l :
  sane cfg (kgenesis b p) h -> s = krun cfg (kgenesis b p) h ->
  s_ledger (k_stk s) !! c = Some l -> l_total l = l_active l + lsum (map c_val (l_unl l)).
Proof. intros S -> E. exact (li_sound _ (run_linv cfg h _ S (genesis_linv b p)) _ _ E). Qed.
Print Assumptions C49_total.
(** The lock on the stash is the total as claimed. *)
Definition C49_lock_claim : Prop := forall cfg b p h s c l,
  sane cfg (kgenesis b p) h -> s = krun cfg (kgenesis b p) h ->
  s_ledger (k_stk s) !! c = Some l -> default 0 (s_lock (k_stk s) !! l_stash l) = l_total l.
(** False: set_lock with amount zero does nothing, so after a slash of the whole
    stake the old lock of 500 DPR stays on the stash although the ledger is empty. *)
Definition z49 : list kop :=
  zsetup ++ zera 0 ++ zera 2 ++ [zoff 1 (500 * DPR) 1000000000 2] ++ zera 4 ++ zera 6.
Theorem C49_lock_refuted : ~ C49_lock_claim.
Proof.
  intros H.
  specialize (H zcfg zbank zpars z49 (krun zcfg zs0 z49) 11 (Ledger 1 0 0 [])
                ltac:(apply saneb_ok; vm_compute; reflexivity) eq_refl ltac:(vm_compute; reflexivity)).
  revert H. vm_compute. discriminate.
Qed.
Print Assumptions C49_lock_refuted.
(** True as long as something is left of the stake; and a lock belongs to a bonded stash. *)
Theorem C49_lock_partial cfg b p h s :
  sane cfg (kgenesis b p) h -> s = krun cfg (kgenesis b p) h ->
  (forall c l, s_ledger (k_stk s) !! c = Some l -> l_total l <> 0 ->
     s_lock (k_stk s) !! l_stash l = Some (l_total l)) /\
  (forall st v, s_lock (k_stk s) !! st = Some v -> v <> 0 /\ is_Some (s_bonded (k_stk s) !! st)).
Proof.
  intros S ->. pose proof (run_linv cfg h _ S (genesis_linv b p)) as [_ _ _ _ A B]. split; [exact A|exact B].
Qed.
Print Assumptions C49_lock_partial.
Example C49_example :
  s_ledger (k_stk zs) !! 11 = Some (Ledger 1 (298 * DPR) (298 * DPR) []) /\
  s_ledger (k_stk zs) !! 22 = Some (Ledger 2 (200 * DPR) (180 * DPR) [Chunk (20 * DPR) 5]) /\
  s_lock (k_stk zs) !! 1 = Some (298 * DPR) /\ s_lock (k_stk zs) !! 2 = Some (200 * DPR).
Proof. vm_compute. repeat split; reflexivity. Qed.

(** * C50: what is unbonded waits *)
(** Whatever a stash withdrew in steps up to era [E] it had unbonded at least the
    bonding duration before. *)
Theorem C50_waits_partial cfg b p h E st :
  sane cfg (kgenesis b p) h ->
  sum_when (fun era => era <=? E) (withdrawn_ev st) (ktrace cfg (kgenesis b p) h) <=
  sum_when (fun era => era + kc_bonding cfg <=? E) (unbonded_ev st) (ktrace cfg (kgenesis b p) h).
Proof.
  intros S. exact (proj1 (run_covered cfg h _ [] S (genesis_linv b p) (genesis_covered cfg b p) E st)).
Qed.
Print Assumptions C50_waits_partial.
(** A step that makes a stake smaller is one of the listed kinds; a withdrawal takes
    exactly what is due and leaves the active part. *)
Theorem C50_drop_partial cfg b p h s op s' out st :
  sane cfg (kgenesis b p) h -> s = krun cfg (kgenesis b p) h -> op_typed op ->
  kstep cfg s op = (s', out) -> total_of s' st < total_of s st -> may_drop cfg s s' st op.
Proof.
  intros S -> T H L. eapply step_drop; eauto; [|exact (run_linv cfg h _ S (genesis_linv b p))].
  revert S. generalize (kgenesis b p). clear. induction h as [|op h IH]; intros s [F S]; [exact F|]. destruct S as [_ S]. exact (IH _ S).
Qed.
Print Assumptions C50_drop_partial.
(** The claim as stated allows only slashes and withdrawals. *)
Definition C50_claim : Prop := forall cfg b p h s op s' out st,
  sane cfg (kgenesis b p) h -> s = krun cfg (kgenesis b p) h -> op_typed op ->
  kstep cfg s op = (s', out) -> total_of s' st < total_of s st ->
  (exists x o n, op = KCall x o (KWithdraw n)) \/ (exists x i, op = KStartSession x i) \/
  (exists x os i, op = KOffence x os i).
(** False: Root can dissolve a stake at once; so can anybody if the account holds
    exactly the existential deposit; and a controller may burn its stake. *)
Definition z50 : list kop := zsetup ++ [zc 11 (KUnbond (100 * DPR))].
Theorem C50_refuted : ~ C50_claim.
Proof.
  intros H.
  pose (r := kstep zcfg (krun zcfg zs0 z50) (zroot (KForceUnstake 1 0))).
  specialize (H zcfg zbank zpars z50 (krun zcfg zs0 z50) (zroot (KForceUnstake 1 0)) r.1 r.2 1
                ltac:(apply saneb_ok; vm_compute; reflexivity) eq_refl I (surjective_pairing _)
                ltac:(vm_compute; reflexivity)).
  destruct H as [(x & o & n & E)|[(x & i & E)|(x & os & i & E)]]; discriminate E.
Qed.
Print Assumptions C50_refuted.
(** In the example 100 DPR are unbonded in era 0, 40 rebonded in era 1, and 60
    withdrawn in era 3, not before. *)
Example C50_example :
  let tr := ktrace zcfg zs0 zh in
  sum_when (fun era => era <=? 2) (withdrawn_ev 1) tr = 0 /\
  sum_when (fun era => era <=? 3) (withdrawn_ev 1) tr = 60 * DPR /\
  sum_when (fun era => era + 3 <=? 3) (unbonded_ev 1) tr = 100 * DPR /\
  sum_when (fun era => era + 3 <=? 2) (unbonded_ev 1) tr = 0.
Proof. vm_compute. repeat split; reflexivity. Qed.

(** * C51: a slash takes what it says *)
Theorem C51_slash v m l l' got :
  l_total l = l_active l + lsum (map c_val (l_unl l)) -> slash_ledger v m l = (l', got) ->
  l_total l' = l_active l' + lsum (map c_val (l_unl l')) /\ l_stash l' = l_stash l /\
  l_total l = l_total l' + got /\ N.min v (l_total l) <= got /\ got <= v + m /\
  no_dust m (l_active l) (l_active l') /\ front_taken m (l_unl l) (l_unl l') /\
  (lsum (map c_val (l_unl l')) <> lsum (map c_val (l_unl l)) -> l_active l' = 0).
Proof. exact (slash_ledger_spec v m l l' got). Qed.
Print Assumptions C51_slash.
Example C51_example :
  slash_ledger 130 5 (Ledger 1 200 100 [Chunk 28 3; Chunk 52 4; Chunk 20 5]) = (Ledger 1 70 0 [Chunk 50 4; Chunk 20 5], 130) /\
  slash_ledger 98 5 (Ledger 1 100 100 []) = (Ledger 1 0 0 [], 100).
Proof. split; reflexivity. Qed.

(** * C52: rebonding moves what was asked for *)
Theorem C52_rebond v l :
  l_total l = l_active l + lsum (map c_val (l_unl l)) -> l_total l < two128 -> v < two128 ->
  l_total (rebond v l) = l_active (rebond v l) + lsum (map c_val (l_unl (rebond v l))) /\
  l_stash (rebond v l) = l_stash l /\ l_total (rebond v l) = l_total l /\
  l_active (rebond v l) = l_active l + N.min v (lsum (map c_val (l_unl l))) /\
  back_taken (l_unl l) (l_unl (rebond v l)).
Proof. exact (rebond_spec v l). Qed.
Print Assumptions C52_rebond.
Example C52_example :
  rebond 30 (Ledger 1 200 100 [Chunk 28 3; Chunk 52 4; Chunk 20 5]) = Ledger 1 200 130 [Chunk 28 3; Chunk 42 4].
Proof. reflexivity. Qed.

(** * C53: elections *)
Theorem C53_election cfg s i s' ev era l :
  (forall v, backing s v < two32) ->
  kstep cfg s (KNewSession i) = (s', KDone ev) -> KElected era l ∈ ev ->
  fair_election cfg s l /\ e_vals (k_era s') !! era = Some l /\ e_cur (k_era s') = Some era /\
  (forall v, last_elected s' v = if bool_decide (v ∈ l) then add32 era 1 else last_elected s v).
Proof.
  intros Hb H Hin. cbn [kstep settle] in H. destruct (new_session cfg s i) as [s1 ev1] eqn:E.
  injection H as <- <-. destruct (new_session_fair cfg _ _ _ _ _ _ Hb E Hin) as (A & B & C & _ & D). auto.
Qed.
Print Assumptions C53_election.
(** Three validators, two of which are elected at a time. *)
Example C53_example :
  map (fun o => match o with KDone [KElected e l] => Some (e, l) | _ => None end)
      (kouts zcfg zs0 (zsetup ++ zera 0 ++ zera 2 ++ zera 4))
  = [None; None; None; None; None; None; Some (0, [1; 2]); None; None; Some (1, [3; 1]); None; None;
     Some (2, [2; 1]); None; None].
Proof. vm_compute. reflexivity. Qed.

(** * C59: cancelling deferred slashes *)
(** With indices that are u32, the call succeeds exactly for Root with a non-empty
    ascending list of existing indices; then it removes exactly those. *)
Theorem C59_cancel cfg s x o era idx s' out :
  Forall (fun i => i < two32) idx -> kstep cfg s (KCall x o (KCancel era idx)) = (s', out) ->
  let l := default [] (s_unapp (k_stk s) !! era) in
  out <> KPanic /\
  ((exists ev, out = KDone ev) <->
     o = Root /\ idx <> [] /\ ascending idx /\ forall i, i ∈ idx -> i < N.of_nat (length l)) /\
  (forall ev, out = KDone ev ->
     ev = [] /\ s' = set_k_stk s (set_s_unapp (k_stk s) (<[era := without 0 idx l]> (s_unapp (k_stk s))))) /\
  ((forall ev, out <> KDone ev) -> s' = s).
Proof.
  intros Ty H l. cbn [kstep dispatch] in H. unfold root, with_stk in H.
  destruct o; try (injection H as <- <-; split; [discriminate|split; [|split; [discriminate|auto]]];
    split; [intros [ev E]; discriminate|intros [E _]; discriminate]).
  destruct (cancel_spec (k_stk s) era idx Ty) as (A & B & C). fold l in A, B.
  destruct (Model_Staking.cancel (k_stk s) era idx) as [k|e|] eqn:E; cbn in H; injection H as <- <-; [| |congruence].
  - pose proof (B k eq_refl) as G. specialize (A G). injection A as ->.
    split; [discriminate|]. split; [split; [auto|eauto]|]. split; [|intros N0; now destruct (N0 [])].
    intros ev [= <-]. auto.
  - split; [discriminate|]. split; [|split; [discriminate|auto]].
    split; [intros [ev E0]; discriminate|]. intros [_ G]. specialize (A G). discriminate.
Qed.
Print Assumptions C59_cancel.
Definition z59 : list kop :=
  zsetup ++ zera 0 ++ zera 2 ++ [zoff 1 (500 * DPR) 100000000 2; zoff 2 (300 * DPR) 200000000 2; zoff 3 (400 * DPR) 300000000 2].
Example C59_example :
  let s := krun zcfg zs0 z59 in
  map u_val (default [] (s_unapp (k_stk s) !! 1)) = [1; 2; 3] /\
  map u_val (default [] (s_unapp (k_stk (kstep zcfg s (zroot (KCancel 1 [0; 2]))).1) !! 1)) = [2] /\
  (kstep zcfg s (zroot (KCancel 1 [2; 0]))).2 = KFail KNotSorted /\
  (kstep zcfg s (zroot (KCancel 1 [3]))).2 = KFail KBadIndex.
Proof. vm_compute. repeat split; reflexivity. Qed.

(** * C60: offences in one span cost the maximum *)
(** What was charged to a span of a stash is the largest of the slashes booked in
    it, as long as the stash is not dissolved, whatever exposures are reported. Theorem
    C60_max (Props_Staking5) says the same of all slashes reported. *)
Theorem C60_booked cfg b p h st i :
  sane cfg (kgenesis b p) h -> never_dissolved cfg (kgenesis b p) h st ->
  charged st i (events (kouts cfg (kgenesis b p) h)) = largest st i (events (kouts cfg (kgenesis b p) h)).
Proof.
  intros S N0. pose proof (run_books cfg st h _ [] S N0 (genesis_books b p st)) as I. cbn [app] in I.
  unfold st_inv in I. destruct (s_spans _ !! st); [apply (bk_sum _ _ _ _ _ I)|].
  destruct (I i) as (_ & -> & ->). reflexivity.
Qed.
Print Assumptions C60_booked.
Fixpoint never_dissolvedb (cfg : kcfg) (s : kstate) (h : list kop) (st : N) : bool :=
  match h with
  | [] => true
  | op :: r =>
      (negb (bool_decide (is_Some (s_bonded (k_stk s) !! st))) || bool_decide (is_Some (s_bonded (k_stk (kstep cfg s op).1) !! st))) &&
      never_dissolvedb cfg (kstep cfg s op).1 r st
  end.
Lemma never_dissolvedb_ok cfg st : forall h s, never_dissolvedb cfg s h st = true -> never_dissolved cfg s h st.
Proof.
  induction h as [|op h IH]; intros s H; cbn [never_dissolved never_dissolvedb] in *; [auto|].
  apply andb_true_iff in H as [A B]. split; [|auto]. intros E. rewrite (bool_decide_true _ E) in A. cbn in A. now apply bool_decide_eq_true in A.
Qed.
(** In the example the first stash is reported three times: for 40 and 120 DPR in
    one span, for 22 DPR in the next. *)
Example C60_example :
  never_dissolved zcfg zs0 zh 1 /\
  charged 1 0 (events (kouts zcfg zs0 zh)) = 120 * DPR /\ largest 1 0 (events (kouts zcfg zs0 zh)) = 120 * DPR /\
  charged 1 1 (events (kouts zcfg zs0 zh)) = 22 * DPR.
Proof. split; [apply never_dissolvedb_ok|]; vm_compute; repeat split; reflexivity. Qed.

(** * C61: the spans partition the eras *)
Theorem C61_partition cfg b p h s st sp :
  sane cfg (kgenesis b p) h -> s = krun cfg (kgenesis b p) h ->
  s_spans (k_stk s) !! st = Some sp -> partitioned (spans_iter sp).
Proof.
  intros S -> E. assert (I : ok_at (act (kgenesis b p)) st (k_stk (kgenesis b p))) by exact I.
  assert (F : fits cfg (krun cfg (kgenesis b p) h)).
  { revert S. generalize (kgenesis b p). clear. induction h as [|op h IH]; intros s [F S]; [exact F|]. destruct S as [_ S]. exact (IH _ S). }
  pose proof (run_ok cfg st h _ S I) as K. unfold ok_at in K. rewrite E in K.
  apply (spans_partition _ _ K). destruct F as (_ & _ & _ & F). unfold act.
  destruct (e_act _) as [[a ?]|]; [lia|reflexivity].
Qed.
Print Assumptions C61_partition.
Example C61_example :
  spans_iter <$> (s_spans (k_stk zs) !! 1) = Some [Span 2 3 None; Span 1 2 (Some 1); Span 0 0 (Some 2)].
Proof. vm_compute. reflexivity. Qed.

(** * C88: only the owner moves a stake *)
Theorem C88_authority cfg b p h s x o c s' out st :
  sane cfg (kgenesis b p) h -> s = krun cfg (kgenesis b p) h ->
  kstep cfg s (KCall x o c) = (s', out) -> stake_of s' st <> stake_of s st ->
  may_change cfg s st o c.
Proof.
  intros S -> H Hn. eapply call_authority; eauto; [|exact (run_linv cfg h _ S (genesis_linv b p))].
  revert S. generalize (kgenesis b p). clear. induction h as [|op h IH]; intros s [F S]; [exact F|]. destruct S as [_ S]. exact (IH _ S).
Qed.
Print Assumptions C88_authority.
(** The controller unbonds, which changes the stake of its stash; another account
    with the same call is refused. *)
Example C88_example :
  let s := krun zcfg zs0 zsetup in
  stake_of (kstep zcfg s (zc 11 (KUnbond (100 * DPR)))).1 1 = Some (Ledger 1 (500 * DPR) (400 * DPR) [Chunk (100 * DPR) 3]) /\
  stake_of s 1 = Some (Ledger 1 (500 * DPR) (500 * DPR) []) /\
  (kstep zcfg s (zc 1 (KUnbond (100 * DPR)))).2 = KFail KNotController.
Proof. vm_compute. repeat split; reflexivity. Qed.
