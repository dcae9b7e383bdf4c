(** Property C191 (pallets/credit, pallets/staking): stakes in dollars and stakes in DPR
    are kept apart. *)
From Verif Require Import Base Balances Model_UserPrivileges.
From Verif Require Model_Credit.
From Verif Require Import Model_StakingLedger Model_Staking Model_Chain Spec_Dollars Proofs_Dollars.
From Verif Require Import Props_Chain Props_Chain5.
From stdpp Require Import gmap.
Open Scope N_scope.

(** Account 8 is entered with 390 dollars, then with 60 more; account 5 is of campaign 4. *)
Definition dh1 : list jop := jusdt ++ [jc 26 7 (KUsdtDelegate 8 390 7)].
Definition dh2 : list jop := dh1 ++ [jc 27 7 (KUsdtDelegate 8 60 2); jc 28 7 (KUsdtDelegate 5 400 9); jc 29 8 (KStakeDelegate 3)].
(** The admin takes the stake of account 8 back. *)
Definition dh3 : list jop := dh1 ++ [jo 27 (JCredit (Signed 7) (Model_Credit.KUnstakingSlash 8))].

(** C191. The dollars on record for an account are those entered for it, added up, since
    a credit admin last cleared them; no other call and no hook touches them. *)
Theorem C191_dollars_partial :
  forall cfg, Model_Credit.kc_step (jc_c cfg) <> Model_Credit.U64MAX ->
  forall b p settings data h a,
    let j := jgenesis b p settings data in
    dollars (jrun cfg j h) a = entered_all a h (jouts cfg j h) None.
Proof.
  intros cfg Hs b p settings data h a j. destruct (run_dollars cfg Hs a h j) as [E _]. rewrite E. f_equal.
  unfold j, jgenesis, dollars, Model_Credit.kinit. cbn [j_c].
  cbv zeta. match goal with |- Model_Credit.k_stakebal (Model_Credit.set_k_uc ?s _) !! _ = _ => change (Model_Credit.k_stakebal s !! a = None) end.
  match goal with |- Model_Credit.k_stakebal ?s !! _ = _ => change ((part s).1 !! a = None) end. now rewrite fold_part.
Qed.
Print Assumptions C191_dollars_partial.

(** An account that buys levels with DPR has a record, and one of the kind new stakes in DPR
    are of; as long as the campaign of those is not 5, the record is not of campaign 5. *)
Theorem C191_dpr_partial :
  forall cfg x j w n j' ev,
    jstep cfg j (x, JCall (Signed w) (JOf (KStakeDelegate n))) = (j', JDone ev) ->
    exists camp, campaign_of j w = Some camp /\ (camp = 5 <-> Model_Credit.k_default_id (j_c j) = 5).
Proof. exact buys_kind. Qed.
Print Assumptions C191_dpr_partial.

(** Dollars are entered by credit admins only, and for accounts without a record or of
    campaign 5 only; afterwards the account is of campaign 5. *)
Theorem C191_kinds_partial :
  forall cfg, Model_Credit.kc_step (jc_c cfg) <> Model_Credit.U64MAX ->
  forall b p settings data h x o w u v j' ev,
    let j := jrun cfg (jgenesis b p settings data) h in
    jstep cfg j (x, JCall o (JOf (KUsdtDelegate w u v))) = (j', JDone ev) ->
    (exists a, o = Signed a /\ Model_Credit.kx_priv (jx_c x) a CreditAdmin = true) /\
    (campaign_of j w = None \/ campaign_of j w = Some 5) /\ campaign_of j' w = Some 5.
Proof.
  intros cfg Hs b p settings data h x o w u v j' ev j H.
  destruct (enters_kind cfg x j o w u v j' ev H) as (A & K & C).
  assert (Model_Credit.k_usdt_id (j_c j) = 5) as I5.
  { unfold j. rewrite (proj2 (run_dollars cfg Hs w h _)). unfold jgenesis, Model_Credit.kinit. cbn [j_c]. cbv zeta.
    match goal with |- Model_Credit.k_usdt_id (Model_Credit.set_k_uc ?s _) = _ => change (Model_Credit.k_usdt_id s = 5) end.
    match goal with |- Model_Credit.k_usdt_id ?s = _ => change ((part s).2 = 5) end. now rewrite fold_part. }
  rewrite I5 in K, C. split; [exact A|].
  destruct (campaign_of j w) as [camp|]; [|split; [now left|exact C]].
  destruct (K camp eq_refl) as [_ K2]. rewrite (K2 eq_refl) in *. split; [now right|exact C].
Qed.
Print Assumptions C191_kinds_partial.

Example C191_nonvacuous :
  let j1 := jrun jxcfg jg dh1 in let j2 := jrun jxcfg jg dh2 in
  Model_Credit.kc_step (jc_c jxcfg) <> Model_Credit.U64MAX /\
  dollars j1 8 = Some (390, 7) /\ campaign_of j1 8 = Some 5 /\
  dollars j2 8 = Some (450, 9) /\ dollars j2 5 = None /\ campaign_of j2 5 = Some 4 /\
  (exists ev, drop (length dh1) (jouts jxcfg jg dh2) = [JDone ev; JFail; JFail]).
Proof.
  cbv zeta. split; [discriminate|]. do 5 (split; [vm_compute; reflexivity|]).
  eexists. vm_compute. reflexivity.
Qed.
Example C191_dpr_nonvacuous :
  exists j' ev, jstep jxcfg (jrun jxcfg jg (jsold 9)) (jx 26, JCall (Signed 5) (JOf (KStakeDelegate 3))) = (j', JDone ev).
Proof.
  destruct (jstep jxcfg (jrun jxcfg jg (jsold 9)) (jx 26, JCall (Signed 5) (JOf (KStakeDelegate 3)))) as [j' out] eqn:E.
  assert (exists ev, out = JDone ev) as [ev ->]; [|eauto].
  apply (f_equal snd) in E. cbn [snd] in E. rewrite <- E. eexists. vm_compute. reflexivity.
Qed.

(** But a stake that was given back stays on record in dollars: the account's record begins
    anew in a campaign of the other kind, and its dollars are still there. *)
Theorem C191_refuted :
  exists cfg b p settings data h a u v camp,
    let j := jrun cfg (jgenesis b p settings data) h in
    Forall (fun out => exists ev, out = JDone ev) (drop (length jusdt) (jouts cfg (jgenesis b p settings data) h)) /\
    dollars j a = Some (u, v) /\ 0 < u /\ campaign_of j a = Some camp /\ camp <> 5 /\
    default 0 (Model_Credit.k_ustake (j_c j) !! a) = 0.
Proof.
  exists jxcfg, jbank, jpars, jsettings, jdata, dh3, 8, 390, 7, 8. cbv zeta. split.
  { match goal with |- Forall _ ?l => let v := eval vm_compute in l in replace l with v by (vm_compute; reflexivity) end.
    repeat constructor; eauto. }
  split; [vm_compute; reflexivity|]. split; [reflexivity|]. split; [vm_compute; reflexivity|].
  split; [discriminate|]. vm_compute. reflexivity.
Qed.
Print Assumptions C191_refuted.
