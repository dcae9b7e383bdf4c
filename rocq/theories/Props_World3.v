(** Credit in the whole chain. *)
From Verif Require Import Base Balances Model_UserPrivileges Spec_UserPrivileges.
From Verif Require Model_Credit Model_Staking Model_DeeperNode Model_Operation Model_Adsc Props_Chain.
From Verif Require Import Model_Chain Model_World Spec_Chain3 Spec_World Spec_World2 Spec_World3 Proofs_World7 Proofs_World8 Props_World.
From stdpp Require Import gmap strings.
Open Scope N_scope.
Local Notation D := Model_Credit.DPR.

(** * C154: credit is lost only for a cause *)

(** Whenever a score falls, one of the causes listed in [cause] was there, and who made
    the call had the power to. A payout costs nothing unless the device was silent for a
    multiple of three eras and not in maintenance. *)
Theorem C154_causes cfg b p settings data evm u h x a w' out d :
  Model_Credit.kc_step (jc_c (wc_chain cfg)) <> Model_Credit.U64MAX ->
  Forall (fun op => wx_now op.1 <= wx_now x) h -> wx_now x < 2 ^ 32 ->
  let w := wrun cfg (wgenesis b p settings data evm u) h in
  wstep cfg w (x, a) = (w', out) -> score w d < 2 ^ 64 -> score w' d < score w d ->
  exists ev, out = WDone ev /\ cause cfg h w (x, a) ev d /\ allowed (granted h) x a.
Proof. apply step_cause. Qed.
Print Assumptions C154_causes.

(** Who sends a heartbeat at least every three eras loses nothing at payouts. *)
Theorem C154_heartbeat cfg b p settings data evm u h x d :
  Model_Credit.kc_step (jc_c (wc_chain cfg)) <> Model_Credit.U64MAX ->
  Forall (fun op => wx_now op.1 <= wx_now x) h -> wx_now x < 2 ^ 32 ->
  let w := wrun cfg (wgenesis b p settings data evm u) h in
  score w d < 2 ^ 64 -> wx_now x < heard h d + 3 * Model_DeeperNode.d_bpe (wc_node cfg) ->
  score w d <= score (wstep cfg w (x, WBlock BStakingInit)).1 d.
Proof.
  intros Hs F L w H64 Hh. destruct (wstep cfg w (x, WBlock BStakingInit)) as [w' out] eqn:E. cbn [fst].
  destruct (N.le_gt_cases (score w d) (score w' d)) as [G|G]; [exact G|exfalso].
  destruct (C154_causes cfg b p settings data evm u h x _ w' out d Hs F L E H64 G) as (ev & _ & C & _).
  cbn in C. destruct C as (C1 & C2 & _). unfold silent_eras in *.
  set (n := (wx_now x - heard h d) / Model_DeeperNode.d_bpe (wc_node cfg)) in *.
  assert (n < 3).
  { destruct (N.eq_dec (Model_DeeperNode.d_bpe (wc_node cfg)) 0) as [Z|Z]; [subst n; rewrite Z; destruct (wx_now x - heard h d); cbn; lia|]. apply N.div_lt_upper_bound; lia. }
  assert (n = 1 \/ n = 2) as [->| ->] by lia; discriminate C2.
Qed.
Print Assumptions C154_heartbeat.

(** A slash of a validator costs its delegators at most one step of credit each. *)
Theorem C154_slash cfg w x b w' ev d :
  Model_Credit.kc_step (jc_c (wc_chain cfg)) <> Model_Credit.U64MAX ->
  match b with BStartSession _ | BOffence _ _ => True | _ => False end ->
  wstep cfg w (x, WBlock b) = (w', WDone ev) ->
  score w d <= score w' d + Model_Credit.kc_step (jc_c (wc_chain cfg)) * credit_slashes (omap staking_event ev) d.
Proof. apply step_session_fall. Qed.
Print Assumptions C154_slash.

(** Accounts 4, 5 and 6 have credit; eras have ten blocks. *)
Definition xo0 : wstate :=
  wgenesis xwbank Props_Chain.jpars Props_Chain.jsettings
    ((4, Model_Credit.CData 4 150 1 0 0 1 270) :: Props_Chain.jdata) [] (Model_Adsc.Uniques ∅ ∅ ∅).
Definition xosetup : list wop :=
  [stk 1 1 (Model_Staking.KBond 11 (500 * D) Model_Staking.PStaked); stk 2 11 Model_Staking.KValidate] ++
  era_ 3 0 ++ era_ 5 2 ++
  map (fun a => at_ 12 (WNode (Signed a) Model_DeeperNode.DImOnline)) [4; 5; 6] ++
  [stk 12 5 (Model_Staking.KDelegate [1]); stk 12 6 (Model_Staking.KDelegate [1])].
Definition blocks_ (from n : nat) : list wop := map (fun i => at_ (N.of_nat i) (WBlock BStakingInit)) (seq from n).
(** Account 4 joins in block 45: account 6, which was paid in the first paying block of
    each era, is now paid in the second. *)
Definition xolate : list wop := xosetup ++ blocks_ 13 33 ++ [stk 45 4 (Model_Staking.KDelegate [1])] ++ blocks_ 46 9.
(** Account 4 is there from the start and leaves in block 33. *)
Definition xoearly : list wop :=
  xosetup ++ [stk 12 4 (Model_Staking.KDelegate [1])] ++ blocks_ 13 21 ++ [stk 33 4 Model_Staking.KUndelegate] ++ blocks_ 34 21.
(** Validator 1 is exposed with delegator 5 in era 2 and reported in block 17; the slash
    is applied when era 4 begins, in block 35. *)
Definition xoslash : list wop :=
  [stk 1 1 (Model_Staking.KBond 11 (500 * D) Model_Staking.PStaked); stk 1 2 (Model_Staking.KBond 12 (300 * D) Model_Staking.PStash);
   stk 1 3 (Model_Staking.KBond 13 (400 * D) Model_Staking.PStash);
   stk 2 11 Model_Staking.KValidate; stk 2 12 Model_Staking.KValidate; stk 2 13 Model_Staking.KValidate] ++
  era_ 3 0 ++ era_ 5 2 ++
  [stk 12 5 (Model_Staking.KDelegate [1]); stk 12 6 (Model_Staking.KDelegate [2])] ++ era_ 15 4 ++
  [at_ 17 (WBlock (BOffence [(1, Model_Staking.Expo (500 * D) (500 * D) [5], [], 100000000)] 4))] ++ era_ 25 6 ++ era_ 35 8.
Definition wevents (g : wstate) (h : list wop) : list Model_Staking.kev :=
  omap staking_event (concat (map (fun o => match o with WDone ev => ev | _ => [] end) (wouts xwcfg g h))).
Definition drops_ (g : wstate) (h : list wop) (d : N) : list N :=
  List.filter (fun n => negb (n =? 0))
    (map (fun n => score (wrun xwcfg g (firstn n h)) d - score (wrun xwcfg g (firstn (S n) h)) d) (seq 0 (length h))).
(** Account 6 is silent since block 12 and pays in blocks 42 and 51; with one more
    heartbeat in block 33 it pays nothing. Account 5 pays for the slash of its validator. *)
Definition xobeat : list wop :=
  xosetup ++ [stk 12 4 (Model_Staking.KDelegate [1])] ++ blocks_ 13 21 ++
  [at_ 33 (WNode (Signed 6) Model_DeeperNode.DImOnline)] ++ blocks_ 34 21.
Example C154_example :
  drops_ xo0 xoearly 6 = [1; 1] /\ drops_ xo0 xobeat 6 = [] /\ drops_ xo0 xoslash 5 = [1] /\
  credit_slashes (wevents xo0 xoslash) 5 = 1 /\
  forallb fine (wouts xwcfg xo0 xoearly) = true /\ forallb fine (wouts xwcfg xo0 xobeat) = true /\
  forallb fine (wouts xwcfg xo0 xoslash) = true /\
  (let h := firstn 44 xoearly in
   silent_eras xwcfg h 42 6 = 3 /\ forallb (fun op => wx_now op.1 <=? 42) h = true /\
   score (wrun xwcfg xo0 h) 6 = 205 /\ nth_error xoearly 44 = Some (at_ 42 (WBlock BStakingInit)) /\
   score (wstep xwcfg (wrun xwcfg xo0 h) (at_ 42 (WBlock BStakingInit))).1 6 = 204 /\
   heard (firstn 45 xobeat) 6 = 33 /\ 51 < 33 + 3 * Model_DeeperNode.d_bpe (wc_node xwcfg)).
Proof. vm_compute. repeat split. Qed.

(** * C155: a silent device costs a step of credit per three eras *)

(** False: what three eras of silence cost depends on when in an era the delegator is
    paid, which shifts with the number of delegators before it in the order of storage
    keys. In both histories account 6 is silent from block 12 on, delegates, is paid in
    each era and is not in maintenance. In the first it is paid after 29 blocks of silence
    and next after 40, so never in its fourth era of silence, and loses nothing. In the
    second it is paid after 30 and again after 39 blocks, both in the fourth era, and
    loses twice. *)
Theorem C155_refuted : exists cfg b p settings data h h' d,
  let g := wgenesis b p settings data [] (Model_Adsc.Uniques ∅ ∅ ∅) in
  let step := Model_Credit.kc_step (jc_c (wc_chain cfg)) in
  forallb fine (wouts cfg g h) = true /\ forallb fine (wouts cfg g h') = true /\
  ~ maintained (wrun cfg g h) d /\ ~ maintained (wrun cfg g h') d /\
  (wx_now <$> (fst <$> last h)) = Some 54 /\ (wx_now <$> (fst <$> last h')) = Some 54 /\
  silent_eras cfg h 54 d = 4 /\ silent_eras cfg h' 54 d = 4 /\
  let paid q := Spec_Staking.asks d (omap staking_event (concat (map (fun o => match o with WDone ev => ev | _ => [] end) (wouts cfg g q)))) in
  paid h = [(1, 1); (2, 2); (3, 3); (4, 4)] /\ paid h' = paid h /\
  score (wrun cfg g h) d = score g d /\ score (wrun cfg g h') d + 2 * step = score g d.
Proof.
  exists xwcfg, xwbank, Props_Chain.jpars, Props_Chain.jsettings, ((4, Model_Credit.CData 4 150 1 0 0 1 270) :: Props_Chain.jdata),
    xolate, xoearly, 6.
  vm_compute. repeat split; intros H; inversion H.
Qed.
Print Assumptions C155_refuted.

(** What holds: each payout for which the device is in its fourth, seventh, ... era of
    silence costs exactly one step, unless it is in maintenance or the payout moves it to
    another campaign; every other payout leaves the score as it is. Missing: that a payout
    falls into each fourth era of silence, and only one. *)
Theorem C155_partial cfg b p settings data evm u h x w' ev d f t r :
  let step := Model_Credit.kc_step (jc_c (wc_chain cfg)) in
  step <> Model_Credit.U64MAX ->
  Forall (fun op => wx_now op.1 <= wx_now x) h -> wx_now x < 2 ^ 32 ->
  let w := wrun cfg (wgenesis b p settings data evm u) h in
  wstep cfg w (x, WBlock BStakingInit) = (w', WDone ev) ->
  Model_Staking.KAsk d f t ∈ omap staking_event ev -> f <= t -> t < wx_now x / Model_Credit.kc_bpe (jc_c (wc_chain cfg)) ->
  record w d = Some r -> Model_Credit.cd_eras r <> 0 -> first_era cfg w (wx_now x) d + Model_Credit.cd_eras r < 2 ^ 32 ->
  let n := silent_eras cfg h (wx_now x) d in
  (0 < n /\ n mod 3 = 0 /\ ~ maintained w d -> ~ moves cfg w (wx_now x) d r f -> score w' d = score w d - step) /\
  (~ (0 < n /\ n mod 3 = 0 /\ ~ maintained w d) -> score w' d = score w d).
Proof. apply step_paid. Qed.
Print Assumptions C155_partial.
Example C155_example :
  let h := firstn 44 xoearly in let w := wrun xwcfg xo0 h in let op := at_ 42 (WBlock BStakingInit) in
  Spec_Staking.asks 6 (omap staking_event (match (wstep xwcfg w op).2 with WDone ev => ev | _ => [] end)) = [(3, 3)] /\
  record w 6 = Some (Model_Credit.CData 4 205 2 9 0 2 270) /\ first_era xwcfg w 42 6 = 1 /\
  silent_eras xwcfg h 42 6 = 3 /\ Model_Credit.k_switch (j_c (w_chain w)) = ∅ /\
  score (wstep xwcfg w op).1 6 = 204 /\
  (let h2 := firstn 33 xoearly in
   Spec_Staking.asks 6 (omap staking_event (match (wstep xwcfg (wrun xwcfg xo0 h2) (at_ 32 (WBlock BStakingInit))).2 with WDone ev => ev | _ => [] end)) = [(2, 2)] /\
   silent_eras xwcfg h2 32 6 = 2).
Proof. vm_compute. repeat split. Qed.
