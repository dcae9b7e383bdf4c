(** Properties of pallets/credit and pallets/staking in one chain, continued. *)
From Verif Require Import Base Balances Model_UserPrivileges.
From Verif Require Model_Credit Spec_Credit.
From Verif Require Import Model_StakingLedger Model_Staking Model_Chain Spec_Staking Spec_Chain Spec_Chain2 Proofs_Chain10 Props_Chain.
From stdpp Require Import gmap.
Open Scope N_scope.
Local Notation D := Model_Credit.DPR.

(** * C148: who pays for a credit level gets it *)

(** The admin, account 7, publishes a price list with ten levels. Account 5, whose score
    is 150, asks for level 9: the price is taken and the score stays as it was. *)
Definition jlist (k : nat) : list N := map (fun i => N.of_nat i * 100 * D) (seq 0 k).
Definition jsold (k : nat) : list jop := jsetup ++ [jo 25 (JCredit (Signed 7) (Model_Credit.KSetBalances (jlist k)))].
Theorem C148_refuted : exists cfg g h x w n ev,
  let j := jrun cfg g h in let j' := (jstep cfg j (x, JCall (Signed w) (JOf (KStakeDelegate n)))).1 in
  (jstep cfg j (x, JCall (Signed w) (JOf (KStakeDelegate n)))).2 = JDone ev /\
  Spec_Credit.band (score_of j w) < n /\ w <> kc_account (jc_s cfg) /\
  purse j' w < purse j w /\ record_of j' w = record_of j w /\ Spec_Credit.band (score_of j' w) < n.
Proof.
  exists jxcfg, jg, (jsold 10), (jx 26), 5, 9, [KCreditAdd 5 0; KStakingDelegate 5 9]. cbv zeta.
  split; [vm_compute; reflexivity|]. split; [vm_compute; reflexivity|]. split; [vm_compute; discriminate|].
  split; [vm_compute; reflexivity|]. split; vm_compute; reflexivity.
Qed.
Print Assumptions C148_refuted.

(** Up to level 8 it holds: whoever asks for a level pays the difference of the two
    prices on the list of the campaign, exactly, to the pallet's account; the score rises
    by a hundred for each level and is then of the level asked for; nothing else in the
    record changes; as much is noted as bought; and the account delegates. *)
Theorem C148_partial cfg x j w n j' ev :
  jstep cfg j (x, JCall (Signed w) (JOf (KStakeDelegate n))) = (j', JDone ev) -> n <= 8 ->
  exists d lo hi, let from := Spec_Credit.band (Model_Credit.cd_credit d) in
  record_of j w = Some d /\ from < n /\
  tariff (j_c j) (Model_Credit.cd_camp d) !! N.to_nat from = Some lo /\
  tariff (j_c j) (Model_Credit.cd_camp d) !! N.to_nat n = Some hi /\
  record_of j' w = Some (Model_Credit.CData (Model_Credit.cd_camp d) (Model_Credit.cd_credit d + 100 * (n - from))
    (Model_Credit.cd_init d) (Model_Credit.cd_rank d) (Model_Credit.cd_refs d) n (Model_Credit.cd_eras d)) /\
  Spec_Credit.band (score_of j' w) = n /\
  bought j' w = (bought j w + 100 * (n - from)) mod 2 ^ 64 /\
  (w <> kc_account (jc_s cfg) -> hi - lo <= purse j w /\ purse j' w + (hi - lo) = purse j w /\
     purse j' (kc_account (jc_s cfg)) = purse j (kc_account (jc_s cfg)) + (hi - lo)) /\
  delegating j' w /\
  (forall a, a <> w -> record_of j' a = record_of j a /\ bought j' a = bought j a) /\
  (forall a, a <> w -> a <> kc_account (jc_s cfg) -> purse j' a = purse j a).
Proof. apply purchase. Qed.
Print Assumptions C148_partial.
(** Account 5 goes from 150 to level 3 for two hundred tokens. *)
Example C148_example :
  let j := jrun jxcfg jg (jsold 9) in let r := jstep jxcfg j (jx 26, JCall (Signed 5) (JOf (KStakeDelegate 3))) in
  r.2 = JDone [KCreditAdd 5 200; KStakingDelegate 5 3] /\ score_of j 5 = 150 /\ score_of r.1 5 = 350 /\
  purse j 5 = 9000 * D /\ purse r.1 5 = 8800 * D /\ bought r.1 5 = 200.
Proof. vm_compute. repeat split. Qed.

(** The same for what the admin enters as paid in USDT: the level reached is as far as
    the amount goes on the price list, an account without a record paying for level 0
    first; no money moves on the chain. *)
Theorem C148_usdt_partial cfg x j o w usdt dpr j' ev :
  jstep cfg j (x, JCall o (JOf (KUsdtDelegate w usdt dpr))) = (j', JDone ev) ->
  let from := Spec_Credit.band (score_of j w) in
  exists n rest, reach (usdt_prices j w) from rest n /\
  (match record_of j w with
   | Some _ => rest = usdt
   | None => rest + default 0 (head (usdt_prices j w)) = usdt
   end) /\
  (n <= 8 -> score_of j w < 2 ^ 64 ->
   score_of j' w = score_of j w + 100 * (n - from) /\ Spec_Credit.band (score_of j' w) = n /\
   bought j' w = (bought j w + 100 * (n - from)) mod 2 ^ 64 /\ (0 < n -> delegating j' w)) /\
  (forall a, a <> w -> record_of j' a = record_of j a /\ bought j' a = bought j a) /\
  (forall a, purse j' a = purse j a).
Proof. apply usdt_purchase. Qed.
Print Assumptions C148_usdt_partial.
(** Account 8 has no record: of 390, 50 pay for level 0, and the 340 left reach level 2
    but not level 3. *)
Definition jusdt : list jop :=
  jsetup ++ [jo 25 (JCredit (Signed 7) (Model_Credit.KSetUsdtBalances [50; 200; 350; 400]))].
Example C148_usdt_example :
  let j := jrun jxcfg jg jusdt in let r := jstep jxcfg j (jx 26, JCall (Signed 7) (JOf (KUsdtDelegate 8 390 7))) in
  (exists ev, r.2 = JDone ev) /\ record_of j 8 = None /\ usdt_prices j 8 = [50; 200; 350; 400] /\
  score_of r.1 8 = 200 /\ is_Some (d_recs (k_del (j_s r.1)) !! 8).
Proof. vm_compute. repeat split; eauto. Qed.
