(** Properties of the runtime's own pallets in one chain: the single models, and
    ceilings for new DPR. *)
From Verif Require Import Base Balances Model_UserPrivileges Spec_UserPrivileges.
From Verif Require Model_Credit Model_Staking Model_Operation Model_Adsc Model_Tips Spec_Staking Spec_Operation Spec_Chain.
From Verif Require Import Model_Chain Model_World Spec_World Spec_World2 Proofs_World5 Proofs_World6 Props_World.
From Verif Require Proofs_Staking12 Props_Operation.
From stdpp Require Import gmap strings.
Open Scope N_scope.
Local Notation D := Model_Credit.DPR.

(** * C152: each pallet alone and in the chain *)

(** For the credit and staking pallets, the operation pallet, the ADSC pallet, the tips
    pallet and the user privileges: from what the pallet sees of the history of the whole
    chain, its own model, which starts at the genesis, arrives at exactly the pallet's
    state and events in the whole chain. So what is proved of all histories of the single
    models holds of the pallets in the whole chain. *)
Theorem C152_refines cfg b p settings data evm u h :
  let g := wgenesis b p settings data evm u in
  let w := wrun cfg g h in let log := wlog cfg g h in
  (let hj := view cfg (chain_view1 cfg) g h in
   jrun (wc_chain cfg) (jgenesis b p settings data) hj = jsync (w_chain w) (w_bank w) /\
   Spec_Chain.jevents (jouts (wc_chain cfg) (jgenesis b p settings data) hj) = map snd (events_of staking_event log)) /\
  Model_Operation.orun (wc_rel cfg) (Model_Operation.oinit b) (view cfg (rel_view1 cfg) g h) =
    (Model_Operation.set_o_bank (w_rel w) (w_bank w), events_of release_event log) /\
  Model_Adsc.arun (wc_adsc cfg) (Model_Adsc.ainit b u) (view cfg (adsc_view1 cfg) g h) =
    (Model_Adsc.set_a_bank (w_adsc w) (w_bank w), events_of adsc_event log) /\
  Model_Tips.trun (wc_tips cfg) (Model_Tips.tgenesis b) (view cfg (tips_view1 cfg) g h) =
    Model_Tips.set_bank (w_tips w) (w_bank w) /\
  urun uinit (priv_view h) = w_priv w.
Proof.
  intros g w log. split; [cbn; rewrite <- (genesis_jproj b p settings data evm u); exact (chain_refines cfg h g)|]. split; [exact (rel_refines cfg h g)|].
  split; [exact (adsc_refines cfg h g)|]. split; [exact (tips_refines cfg h g)|exact (priv_refines cfg h g)].
Qed.
Print Assumptions C152_refines.
(** What the pallets see of the example. *)
Example C152_example :
  let own_rel c := match snd c with inr (Model_Operation.OBank _) => false | _ => true end in
  let own_chain c := match snd c with JBank _ => false | _ => true end in
  map snd (List.filter own_rel (view xwcfg (rel_view1 xwcfg) xw0 xwh)) =
    [inr Model_Operation.OFinalize; inl (Signed 9, Model_Operation.OReserve 5 (70 * D));
     inl (Signed 8, Model_Operation.OUnstake 5 3 (20 * DAY) (300 * D));
     inr Model_Operation.OFinalize; inr Model_Operation.OFinalize; inr Model_Operation.OFinalize; inr Model_Operation.OFinalize] /\
  length (List.filter own_chain (view xwcfg (chain_view1 xwcfg) xw0 xwh)) = 25%nat /\
  length (events_of staking_event (wlog xwcfg xw0 xwh)) = 9%nat /\
  length (priv_view xwh) = 4%nat.
Proof. vm_compute. repeat split. Qed.

(** * C153: ceilings for new DPR *)

(** Rewards, delegators' pay, mints for nPoW and compensations come out of one pool,
    which only Root raises; only rounding can take more out of it. *)
Theorem C153_mints cfg b p settings data evm u h :
  Model_Credit.kc_step (jc_c (wc_chain cfg)) <> Model_Credit.U64MAX ->
  let g := wgenesis b p settings data evm u in
  along cfg (few_points cfg) g h ->
  mints (wlog cfg g h) + left_to_mint cfg (wrun cfg g h) <=
    Model_Staking.kc_total (jc_s (wc_chain cfg)) + raises (wlog cfg g h) + roundings cfg g h.
Proof. intros Hs g A. exact (run_pool_world cfg Hs h g (Proofs_Staking12.genesis_tally b p) A). Qed.
Print Assumptions C153_mints.

(** On no day are released stakes worth more than the daily limit and one payment. *)
Theorem C153_day cfg b p settings data evm u h S L d :
  let g := wgenesis b p settings data evm u in
  10000 * D <= S -> 1000000 * D <= L -> L + S < 2 ^ 128 ->
  in_time 0 h -> Forall (limits_up_to S L) h ->
  Spec_Operation.paid_on d (events_of release_event (wlog cfg g h)) < L + S.
Proof.
  intros g HS HL Hf T F.
  pose proof (Props_Operation.C45_daily (wc_rel cfg) b S L (view cfg (rel_view1 cfg) g h) d HS HL Hf
    (view_chrono cfg h g 0 T) (view_limits cfg S L h g F)) as P.
  pose proof (rel_refines cfg h g) as R. change (rproj g) with (Model_Operation.oinit b) in R. rewrite R in P. exact P.
Qed.
Print Assumptions C153_day.

(** All DPR together with what rewards and mints may still create is never more than
    what there was at genesis, the mining pool with what Root added to it, what was
    released, and what the ADSC pool was filled with. *)
Theorem C153_ceiling cfg b p settings data evm u h :
  Model_Credit.kc_step (jc_c (wc_chain cfg)) <> Model_Credit.U64MAX ->
  let g := wgenesis b p settings data evm u in let log := wlog cfg g h in
  along cfg (few_points cfg) g h ->
  money b + created false log < 2 ^ 128 ->
  supply (wrun cfg g h) + left_to_mint cfg (wrun cfg g h) <=
    money b + Model_Staking.kc_total (jc_s (wc_chain cfg)) + raises log + roundings cfg g h
    + releases_sum log + pool_fills false log.
Proof.
  intros Hs g log A F. pose proof (C153_mints cfg b p settings data evm u h Hs A) as M.
  destruct (C150_supply cfg b p settings data evm u h Hs F) as [E _].
  cbv zeta in M, E. rewrite created_split in E. subst g log. cbv zeta. lia.
Qed.
Print Assumptions C153_ceiling.
Definition few_pointsb (cfg : wcfg) (w : wstate) : bool :=
  let s := j_s (w_chain w) in
  bool_decide (map_Forall (fun _ q => q.1 + 20 <= 10 ^ 9) (Model_Staking.e_points (Model_Staking.k_era s))) &&
  (left_to_mint cfg w + N.of_nat (length (Spec_Staking.on_duty s)) <? 2 ^ 128).
Fixpoint alongb (cfg : wcfg) (P : wstate -> bool) (w : wstate) (h : list wop) : bool :=
  match h with [] => true | op :: r => P w && alongb cfg P (wstep cfg w op).1 r end.
Lemma along_few cfg h : forall w, alongb cfg (few_pointsb cfg) w h = true -> along cfg (few_points cfg) w h.
Proof.
  induction h as [|op h IH]; intros w; [done|]. cbn [alongb along]. rewrite andb_true_iff. intros [A B].
  split; [|now apply IH]. unfold few_pointsb in A. rewrite andb_true_iff, bool_decide_eq_true, N.ltb_lt in A.
  destruct A as [A C]. split; [|exact C]. intros era t m H. exact (A _ _ H).
Qed.
(** The example meets the hypotheses. *)
Example C153_case :
  along xwcfg (few_points xwcfg) xw0 xwh /\ in_time 0 xwh /\
  Forall (limits_up_to (10000 * D) (1000000 * D)) xwh /\ money xwbank + created false (wlog xwcfg xw0 xwh) < 2 ^ 128.
Proof.
  split; [apply along_few; vm_compute; reflexivity|].
  split; [vm_compute; repeat split; discriminate|].
  split; [repeat constructor|]. vm_compute. reflexivity.
Qed.
Example C153_example :
  let log := wlog xwcfg xw0 xwh in let w := wrun xwcfg xw0 xwh in
  mints log = 127739725505377981000 /\ left_to_mint xwcfg w = 250000000 * D - mints log /\
  map (fun d => Spec_Operation.paid_on d (events_of release_event log)) [20; 21; 22] = [0; 100 * D; 0] /\
  roundings xwcfg xw0 xwh = 0 /\ pool_fills false log = 100000000 * D /\
  supply w + left_to_mint xwcfg w = money xwbank + 250000000 * D + 100 * D + 100000000 * D.
Proof. vm_compute. repeat split. Qed.
