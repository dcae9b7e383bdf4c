(** Properties of the whole chain: what its steps cost. *)
From Verif Require Import Base Balances Model_UserPrivileges.
From Verif Require Model_Credit Model_Staking Model_DeeperNode Model_Micropayment Model_Operation Model_Adsc Model_Tips Spec_Tips.
From Verif Require Import Model_Chain Model_World Spec_World Spec_World6 Proofs_World2 Proofs_World15 Proofs_World16 Props_World.
From stdpp Require Import gmap strings.
Open Scope N_scope.
Local Notation D := Model_Credit.DPR.

(** * C172: money leaves an account only for a listed price *)
Section prices.
Context (cfg : wcfg) (ed : N) (Hs : Model_Credit.kc_step (jc_c (wc_chain cfg)) <> Model_Credit.U64MAX)
  (He : one_deposit cfg ed) (Hf : Model_Tips.tc_fee (wc_tips cfg) <= 100) (Hm : Model_Micropayment.m_burn (wc_chan cfg) <= 100).
Context (b : bank) (p : Model_Staking.pars) (settings : list Model_Credit.setting)
  (data : list (N * Model_Credit.cdata)) (evm : list (N * N)) (u : Model_Adsc.uniques).
Local Notation g := (wgenesis b p settings data evm u).

(** Whatever happened before: no call and no hook takes from any account more than its
    price on the list. *)
Theorem C172_step h op w' ev a :
  money b + created false (wlog cfg g h) < 2 ^ 128 ->
  wstep cfg (wrun cfg g h) op = (w', WDone ev) -> at_most cfg ed (wrun cfg g h) op w' ev a.
Proof.
  intros F H. refine (step_at_most cfg ed Hs He Hf Hm _ _ _ _ _ H a).
  destruct (C150_supply cfg b p settings data evm u h Hs F) as [-> _]. exact F.
Qed.
(** In particular, a step that the account has not signed takes nothing from an account
    that has nothing at stake, unless an admin of the bridge or a referendum moves its money. *)
Theorem C172_others h op w' ev a :
  money b + created false (wlog cfg g h) < 2 ^ 128 -> let w := wrun cfg g h in
  wstep cfg w op = (w', WDone ev) -> uninvolved cfg w a -> signer op.2 <> Some a -> ~ seized op.2 a ->
  ed <= free_of (w_bank w) a -> owned w a <= owned w' a.
Proof.
  intros F w H U S Z L. destruct (C172_step h op w' ev a F H) as [Q|[Q _]]; fold w in Q;
    rewrite (others_free cfg ed Hs w op w' ev a H U S Z) in Q; lia.
Qed.
(** Over any time: what an account that can pay its bills has lost is at most their sum. *)
Theorem C172_bill h1 h2 a :
  money b + created false (wlog cfg g (h1 ++ h2)) < 2 ^ 128 -> let w := wrun cfg g h1 in
  solvent cfg ed w h2 a -> owned w a <= owned (wrun cfg w h2) a + bill cfg ed w h2 a.
Proof.
  intros F w Hv. apply (billed cfg ed Hs He Hf Hm); [|exact Hv]. apply (created_split cfg Hs h2 h1 g).
  assert (G : supply g = money b).
  { rewrite supply_money. cbn. unfold Spec_Micropayment.sum_channels. cbn. rewrite msum_empty. lia. }
  rewrite G. exact F.
Qed.
End prices.
Print Assumptions C172_step.
Print Assumptions C172_others.
Print Assumptions C172_bill.

(** In the life of the example account 5 pays a level and a transfer, and account 6 a voucher. *)
Definition steps_of (h : list wop) : list (wstate * wop) :=
  map (fun n => (wrun xwcfg xw0 (firstn n h), nth n h (at_ 0 (WBlock BRelease)))) (seq 0 (length h)).
Definition prices (a : N) (h : list wop) : list N :=
  map (fun q => match (wstep xwcfg q.1 q.2).2 with WDone ev => price xwcfg (D / 5) q.1 q.2 ev a | _ => 0 end) (steps_of h).
Example C172_example :
  let w := wrun xwcfg xw0 xwsetup in
  List.filter (fun v => negb (v =? 0)) (prices 5 xwh) = [200 * D; 10 * D] /\
  List.filter (fun v => negb (v =? 0)) (prices 6 xwh) = [20 * D] /\
  one_deposit xwcfg (D / 5) /\ money xwbank + created false (wlog xwcfg xw0 xwh) < 2 ^ 128 /\
  solvent xwcfg (D / 5) w xwlife 6 /\ bill xwcfg (D / 5) w xwlife 6 = 20 * D /\
  owned w 6 = 300 * D + 40 /\ owned (wrun xwcfg w xwlife) 6 = 315 * D + 40 /\ in_channels (wrun xwcfg w xwlife) 6 = 40 * D.
Proof. vm_compute. repeat split; discriminate. Qed.
(** Account 3 has money and nothing at stake. *)
Lemma uninvolved_by cfg w a :
  Model_Staking.s_bonded (Model_Staking.k_stk (j_s (w_chain w))) !! a = None ->
  bool_decide (map_Forall (fun _ l => Model_StakingLedger.l_stash l <> a) (Model_Staking.s_ledger (Model_Staking.k_stk (j_s (w_chain w))))) = true ->
  bool_decide (map_Forall (fun k _ => k.1 <> a) (Model_Micropayment.m_chan (w_chan w))) = true ->
  bool_decide (map_Forall (fun _ t => Model_Tips.ot_finder t <> a) (Model_Tips.t_tips (w_tips w))) = true ->
  bool_decide (a <> Spec_Tips.tip_account (w_tips w) /\ a <> Model_Adsc.ac_acct (wc_adsc cfg) /\ Model_Operation.o_fund (w_rel w) <> Some a) = true ->
  uninvolved cfg w a.
Proof.
  intros B E1 E2 E3 E4. apply bool_decide_eq_true in E1, E2, E3, E4.
  split; [exact B|]. split; [|split; [|split; [exact E3|exact E4]]].
  - intros c H. unfold stash_of in H. destruct (Model_Staking.s_ledger _ !! c) as [l|] eqn:E; [|discriminate].
    injection H as H. exact (E1 _ _ E H).
  - intros v. destruct (Model_Micropayment.m_chan (w_chan w) !! (a, v)) eqn:E; [|reflexivity]. destruct (E2 _ _ E). reflexivity.
Qed.
Example C172_uninvolved :
  uninvolved xwcfg (wrun xwcfg xw0 xwh) 3 /\ free_of (w_bank (wrun xwcfg xw0 xwh)) 3 = 1000 * D.
Proof. split; [apply uninvolved_by; vm_compute; reflexivity|vm_compute; reflexivity]. Qed.
