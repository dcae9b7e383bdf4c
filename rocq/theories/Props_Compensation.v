(** Compensations and the limits of the operation pallet: property C198. *)
From Verif Require Import Base Balances Model_UserPrivileges Spec_UserPrivileges Proofs_UserPrivileges.
From Verif Require Model_Credit Model_Staking Model_Operation Props_Operation.
From Verif Require Import Model_Chain Model_World Spec_World Proofs_World3 Spec_Compensation Props_World.
From stdpp Require Import gmap.
Open Scope N_scope.
Local Notation D := Model_Credit.DPR.
Local Notation comp o who r p := (WStaking o (JOf (Model_Staking.KCompensate who r p))).

(** * C198: the limits on compensations *)
Lemma limit_iff (s : Model_Operation.ostate) v : Model_Operation.o_dmax s < 2 ^ 128 - 1 ->
  Model_Operation.is_single_max_limit s v = true <->
  v <= Model_Operation.o_smax s /\
  default 0 (Model_Operation.o_daily s !! Model_Operation.o_day s) + v <= Model_Operation.o_dmax s.
Proof.
  intros Hd. split; [now apply Props_Operation.C45_check|]. intros [A B]. unfold Model_Operation.is_single_max_limit.
  apply N.leb_le in A as ->. apply N.leb_le. unfold Model_Operation.sadd128. lia.
Qed.
Lemma compensate_eq cfg w x o who r p :
  let '(b, got) := Model_Operation.mint (Model_Staking.kc_ed (jc_s (wc_chain cfg))) (w_bank w) who (asked cfg w r p) in
  exists w1, w_bank w1 = b /\ w_rel w1 = w_rel w /\
  wstep cfg w (x, comp o who r p) =
  match o with
  | Signed me =>
      if has_privilege (w_priv w) me ReleaseSetter && Model_Operation.is_single_max_limit (w_rel w) (asked cfg w r p)
      then (w1, WDone [VStaking (Model_Staking.KMint Model_Staking.MComp who got)])
      else (w, WFail)
  | _ => (w, WFail)
  end.
Proof.
  destruct (Model_Operation.mint _ _ _ _) as [b got] eqn:M.
  change (wstep cfg w (x, comp o who r p)) with (of_chain w (wjstep cfg x w (JCall o (JOf (Model_Staking.KCompensate who r p))))).
  set (s := j_s (jsync (w_chain w) (w_bank w))).
  set (s1 := Model_Staking.set_k_del (Model_Staking.set_k_bank s b) (Model_Staking.set_d_pool (Model_Staking.k_del s)
    (Some (ssub (Model_Staking.pool_of (jc_s (wc_chain cfg)) (Model_Staking.k_del s)) (asked cfg w r p))))).
  exists (set_w_chain w (J (Model_Credit.set_k_bank (j_c (jsync (w_chain w) (w_bank w))) b) s1)).
  split; [reflexivity|]. split; [reflexivity|].
  assert (E : jdispatch (wc_chain cfg) (wjctx cfg x w) (j_c (jsync (w_chain w) (w_bank w))) s o
      (JOf (Model_Staking.KCompensate who r p)) =
    match o with
    | Signed me =>
        if has_privilege (w_priv w) me ReleaseSetter then
          if Model_Operation.is_single_max_limit (w_rel w) (asked cfg w r p)
          then ROk (j_c (jsync (w_chain w) (w_bank w)), s1, [Model_Staking.KMint Model_Staking.MComp who got])
          else RErr Model_Staking.KLimit
        else RErr Model_Staking.KUnauthorized
    | _ => RErr Model_Staking.KOrigin
    end).
  { destruct o as [|me|]; try reflexivity. cbn [jdispatch Model_Staking.dispatch].
    unfold Model_Staking.admin, Model_Staking.signed. cbn [Model_Staking.kx_release sctx sctx2].
    change (Model_Credit.kx_priv (jx_c (wjctx cfg x w)) me ReleaseSetter) with (has_privilege (w_priv w) me ReleaseSetter).
    destruct (has_privilege _ _ _); [|reflexivity]. cbn [ensure rbind].
    unfold Model_Staking.compensate. cbn [Model_Staking.kx_limit sctx sctx2].
    change (N.min (Model_Staking.pool_of (jc_s (wc_chain cfg)) (Model_Staking.k_del s)) (add128 r p)) with (asked cfg w r p).
    change (jx_limit (wjctx cfg x w)) with (Model_Operation.is_single_max_limit (w_rel w)).
    destruct (Model_Operation.is_single_max_limit _ _); [|reflexivity]. cbn [ensure rbind].
    change (Model_Staking.k_bank s) with (w_bank w). rewrite M. reflexivity. }
  unfold wjstep, jstep. cbn [fst snd jact_step]. unfold s in E. rewrite E.
  destruct o as [|me|]; try reflexivity. destruct (has_privilege _ _ _); [|reflexivity].
  cbn [andb]. destruct (Model_Operation.is_single_max_limit _ _); reflexivity.
Qed.

(** A compensation succeeds if and only if a release setter signs it, and what it asks for
    is at most the single limit and with what is recorded as released today at most the
    daily limit. *)
Theorem C198_when cfg b p settings data evm u h x o who r q :
  let w := wrun cfg (wgenesis b p settings data evm u) h in
  Model_Operation.o_dmax (w_rel w) < 2 ^ 128 - 1 ->
  (exists w' ev, wstep cfg w (x, comp o who r q) = (w', WDone ev)) <->
  exists me, o = Signed me /\ acc_holds (granted h) me ReleaseSetter = true /\
    asked cfg w r q <= Model_Operation.o_smax (w_rel w) /\
    released_today w + asked cfg w r q <= Model_Operation.o_dmax (w_rel w).
Proof.
  intros w Hd. pose proof (compensate_eq cfg w x o who r q) as C.
  destruct (genesis_priv cfg b p settings data evm u h) as [A _]. fold w in A.
  destruct (Model_Operation.mint _ _ _ _) as [b1 got]. destruct C as (w1 & _ & _ & C). rewrite C. clear C. split.
  - intros (w' & ev & H). destruct o as [|me|]; try discriminate H. exists me.
    destruct (has_privilege _ _ _) eqn:P; [|discriminate H]. destruct (Model_Operation.is_single_max_limit _ _) eqn:L; [|discriminate H].
    rewrite <- A. apply limit_iff in L as [? ?]; [|exact Hd]. auto.
  - intros (me & -> & Hp & L1 & L2). rewrite A, Hp. rewrite (proj2 (limit_iff _ _ Hd)) by (split; assumption). eauto.
Qed.
Print Assumptions C198_when.
(** It then pays at most that to the account named and to nobody else, and the record of
    releases is as before. The daily limit holds for each compensation with the releases
    before it, not for the compensations of one day together. *)
Theorem C198_paid_partial cfg w x o who r q w' ev :
  wstep cfg w (x, comp o who r q) = (w', WDone ev) -> Model_Operation.o_dmax (w_rel w) < 2 ^ 128 - 1 ->
  payout (WDone ev) <= asked cfg w r q /\
  payout (WDone ev) <= Model_Operation.o_smax (w_rel w) /\
  released_today w + payout (WDone ev) <= Model_Operation.o_dmax (w_rel w) /\
  free (acct_of (w_bank w') who) <= free (acct_of (w_bank w) who) + payout (WDone ev) /\
  (forall a, a <> who -> acct_of (w_bank w') a = acct_of (w_bank w) a) /\
  w_rel w' = w_rel w.
Proof.
  intros H Hd. pose proof (compensate_eq cfg w x o who r q) as C.
  destruct (Model_Operation.mint _ _ _ _) as [b1 got] eqn:M. destruct C as (w1 & B & R & C). rewrite C in H. clear C.
  destruct o as [|me|]; try discriminate H. destruct (has_privilege _ _ _); [|discriminate H].
  destruct (Model_Operation.is_single_max_limit _ _) eqn:L; [|discriminate H]. injection H as <- <-.
  apply limit_iff in L as [L1 L2]; [|exact Hd]. fold (released_today w) in L2.
  set (v := asked cfg w r q) in *. clearbody v.
  assert (P : payout (WDone [VStaking (Model_Staking.KMint Model_Staking.MComp who got)]) = got) by (cbn; lia).
  rewrite P, B, R. clear P B R.
  unfold Model_Operation.mint in M. cbv zeta in M.
  destruct (v =? 0) eqn:E0; [injection M as <- <-; repeat split; lia|].
  destruct (_ && _); [injection M as <- <-; repeat split; lia|].
  destruct (_ <=? _); [injection M as <- <-; repeat split; lia|]. injection M as <- <-.
  repeat split; try lia.
  - unfold put. cbn [free rsv]. destruct (_ && _); unfold acct_of; cbn [accts].
    + rewrite lookup_delete. cbn. lia.
    + rewrite lookup_insert. cbn. fold (acct_of (w_bank w) who). lia.
  - intros a Ha. unfold put. destruct (_ && _); unfold acct_of; cbn [accts];
      [rewrite lookup_delete_ne by congruence|rewrite lookup_insert_ne by congruence]; reflexivity.
Qed.
Print Assumptions C198_paid_partial.

(** What is missing: the compensations of one day together are not kept within the daily
    limit, as they are not recorded. Root sets the limits to 40 and 100 DPR; a
    release setter then pays 160 DPR on one day. *)
Definition y198 : list wop :=
  xwsetup ++ at_ 14 (WOperation Root (Model_Operation.OSetLimits (40 * D) (100 * D))) ::
  repeat (at_ 15 (comp (Signed 8) 5 (30 * D) (10 * D))) 4.
Theorem C198_daily_refuted : exists cfg g h d,
  day_paid cfg g h d > Model_Operation.o_dmax (w_rel (wrun cfg g h)) /\
  Forall (fun '(op, _) => match op with
    | (_, WOperation Root (Model_Operation.OSetLimits _ m)) => m = Model_Operation.o_dmax (w_rel (wrun cfg g h))
    | _ => True end) (wlog cfg g h).
Proof.
  exists xwcfg, xw0, y198, 0. split; [vm_compute; reflexivity|].
  apply List.Forall_forall. intros [[x a] out] Hin. apply in_combine_l in Hin.
  assert (F : forallb (fun op : wop => match op with
    | (_, WOperation Root (Model_Operation.OSetLimits _ m)) => m =? Model_Operation.o_dmax (w_rel (wrun xwcfg xw0 y198))
    | _ => true end) y198 = true) by (vm_compute; reflexivity).
  rewrite forallb_forall in F. specialize (F _ Hin). cbn beta iota in F.
  destruct a as [| | | | | |o c| | | | | | |]; try exact I; destruct o; try exact I; destruct c; try exact I. now apply N.eqb_eq.
Qed.
Print Assumptions C198_daily_refuted.
Definition xw198 : wstate := wrun xwcfg xw0 y198.
Example C198_example :
  let pay me r q := (wstep xwcfg xw198 (at_ 16 (comp (Signed me) 5 r q))).2 in
  asked xwcfg xw198 (30 * D) (10 * D) = 40 * D /\ released_today xw198 = 0 /\
  pay 8 (30 * D) (10 * D) = WDone [VStaking (Model_Staking.KMint Model_Staking.MComp 5 (40 * D))] /\
  pay 8 (30 * D) (11 * D) = WFail /\ pay 7 (30 * D) (10 * D) = WFail /\
  acc_holds (granted y198) 8 ReleaseSetter = true /\ day_paid xwcfg xw0 y198 0 = 160 * D.
Proof. vm_compute. repeat split. Qed.
