(** Properties of pallets/credit and pallets/staking in one chain, continued. *)
From Verif Require Import Base Balances Model_UserPrivileges.
From Verif Require Model_Credit Spec_Credit.
From Verif Require Import Model_StakingLedger Model_Staking Model_Chain Spec_Staking Spec_Chain
  Proofs_Arith Proofs_Chain5 Proofs_Chain6 Proofs_Chain7 Props_Chain Props_Chain2.
From stdpp Require Import gmap sorting.
Open Scope N_scope.
Local Notation D := Model_Credit.DPR.

(** * C144: who delegates has the credit for it *)

(** The EVM takes 60 from account 5, which is left with 90 where 100 are asked for.
    The account goes on delegating, and the election of era 3 counts it. *)
Definition jevm (now n : N) : list jop := [jo now (JEntry (Model_Credit.KEvmUpdate 700 505 n false))].
Theorem C144_refuted : exists cfg g h d era v ex,
  orderly cfg 0 h /\ Forall (fun out => exists ev, out = JDone ev) (jouts cfg g h) /\
  delegating (j_s (jrun cfg g h)) d /\ ~ eligible cfg (j_c (jrun cfg g h)) d /\
  e_cur (k_era (j_s (jrun cfg g h))) = Some era /\ e_stakers (k_era (j_s (jrun cfg g h))) !! (era, v) = Some ex /\ d ∈ x_others ex.
Proof.
  exists jxcfg, jg, (jsetup ++ jevm 18 60 ++ jera 25 6), 5, 3, 1. eexists. split; [apply orderlyb_ok; vm_compute; reflexivity|].
  split.
  { match goal with |- Forall _ ?l => let v := eval vm_compute in l in replace l with v by (vm_compute; reflexivity) end.
    repeat (constructor; [eexists; reflexivity|]). constructor. }
  split; [eexists; split; vm_compute; reflexivity|]. split.
  { intros (r & H1 & H2). match type of H1 with ?l = _ => let v := eval vm_compute in l in replace l with v in H1 by (vm_compute; reflexivity) end.
    injection H1 as <-. revert H2. vm_compute. intros H. now apply H. }
  split; [vm_compute; reflexivity|]. split; [vm_compute; reflexivity|]. apply elem_of_list_singleton. reflexivity.
Qed.
Print Assumptions C144_refuted.

(** Otherwise it holds: a delegator short of credit had enough once, while delegating
    already, until a step took it behind the staking pallet's back; since then it has
    been short in every state. Nobody becomes a delegator without the credit, and no
    fall of the credit in a slash, a forced undelegation, or any other step, leaves
    such a delegator behind. *)
Theorem C144_partial cfg b p settings data h d :
  let g := jgenesis b p settings data in
  Model_Credit.kc_step (jc_c cfg) <> Model_Credit.U64MAX -> Model_Credit.kc_min (jc_c cfg) <= Model_Credit.U64MAX ->
  delegating (j_s (jrun cfg g h)) d -> ~ eligible cfg (j_c (jrun cfg g h)) d ->
  exists h1 op h2, h = h1 ++ op :: h2 /\ takes_credit (j_c (jrun cfg g h1)) op d /\
    delegating (j_s (jrun cfg g h1)) d /\ eligible cfg (j_c (jrun cfg g h1)) d /\
    forall h3, h3 `prefix_of` h2 ->
      delegating (j_s (jrun cfg g (h1 ++ op :: h3))) d /\ ~ eligible cfg (j_c (jrun cfg g (h1 ++ op :: h3))) d.
Proof.
  intros g Hs Hm H1 H2. apply (run_short cfg Hs Hm d g h); [apply genesis_synced| |now split].
  intros ((r & E & _) & _). cbn in E. now rewrite lookup_empty in E.
Qed.
Print Assumptions C144_partial.

(** The slash of the offence in block 17 takes a point of credit from delegator 5, who
    keeps delegating; a forced undelegation takes 60, and the delegation with it. *)
Example C144_example :
  let h := jsetup ++ joffence ++ jera 25 6 ++ jera 35 8 in
  let u := [jo 36 (JCall Root (JForceUndelegate [(5, 60)]))] in
  delegating (j_s (jrun jxcfg jg h)) 5 /\ eligible jxcfg (j_c (jrun jxcfg jg h)) 5 /\
  Model_Credit.cd_credit <$> Model_Credit.k_uc (j_c (jrun jxcfg jg h)) !! 5 = Some 149 /\
  ~ delegating (j_s (jrun jxcfg jg (h ++ u))) 5 /\
  Model_Credit.cd_credit <$> Model_Credit.k_uc (j_c (jrun jxcfg jg (h ++ u))) !! 5 = Some 89 /\
  Model_Credit.kc_min (jc_c jxcfg) = 100 /\
  takes_credit (j_c (jrun jxcfg jg h)) (jo 18 (JEntry (Model_Credit.KEvmUpdate 700 505 60 false))) 5 /\
  (forall c d, ~ takes_credit c (jo 36 (JCall Root (JForceUndelegate [(5, 60)]))) d).
Proof.
  cbv zeta. split; [eexists; split; vm_compute; reflexivity|]. split; [eexists; split; [vm_compute; reflexivity|vm_compute; discriminate]|].
  split; [vm_compute; reflexivity|]. split.
  { intros (r & H1 & H2). match type of H1 with ?l = _ => let v := eval vm_compute in l in replace l with v in H1 by (vm_compute; reflexivity) end.
    try discriminate H1. injection H1 as <-. discriminate H2. }
  split; [vm_compute; reflexivity|]. split; [reflexivity|]. split; [reflexivity|]. intros c d H. exact H.
Qed.
Print Assumptions C144_example.
