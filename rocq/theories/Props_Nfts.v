(** Properties of NFTs in the whole chain. *)
From Verif Require Import Base Balances Model_UserPrivileges.
From Verif Require Model_Credit Model_Adsc Props_Chain.
From Verif Require Import Model_Chain Model_World Spec_World Props_World Model_Nfts Spec_Nfts Proofs_Nfts1 Proofs_Nfts2 Proofs_Nfts3.
From Verif Require Proofs_Nfts0.
From stdpp Require Import gmap.
Open Scope N_scope.
Local Notation D := Model_Credit.DPR.

(** ** A chain with NFTs *)
Definition nx0 : nstate := ngenesis xw0.
Definition uq (who : N) (c : ncall) : nop := (xw 2 (20 * DAY + 10), NUniq (Signed who) c).
Definition wo (a : wact) : nop := (xw 2 (20 * DAY + 10), NWorld a).
Definition on_day (d : N) : nop := (xw 4 (d * DAY + 10), NWorld (WBlock (BAdsc Model_Adsc.AInitialize))).
(** Root names a credit admin; account 3 makes collection 1 and issues its NFTs; the
    admin gives account 5 a stake of two days with NFT 7 of the collection. *)
Definition nsetup : list nop :=
  [wo (WPriv Root (USetUser 10 CreditAdmin)); wo (WBlock (BAdsc Model_Adsc.AUpgrade)); uq 3 (NCreate 1 3);
   wo (WAdsc (Signed 10) (Model_Adsc.ASetPeriod 2)); wo (WAdsc (Signed 10) (Model_Adsc.AAddNft 5 1 7))].
(** Account 5 offers the NFT, account 6 buys it. *)
Definition nsale : list nop := [uq 5 (NPrice 1 7 (Some (100 * D, None))); uq 6 (NBuy 1 7 (120 * D))].
Definition ndays : list nop := [on_day 21; on_day 21; on_day 22; on_day 22; on_day 23].

(** * C158: an NFT leaves its holder with consent *)

(** False: account 6 has bought an NFT that was made for the ADSC stake of account 5.
    When that stake ends, a block destroys the NFT of account 6. *)
Theorem C158_refuted : exists cfg b p settings data evm u h op k w s,
  let n := nrun cfg (ngenesis (wgenesis b p settings data evm u)) h in
  loses n (nstep cfg n op).1 k w /\ ~ consent n op k w /\ staked n s k /\ s <> w /\
  (exists h1 x bid h2, h = h1 ++ (x, NUniq (Signed w) (NBuy k.1 k.2 bid)) :: h2).
Proof.
  exists xwcfg, xwbank, Props_Chain.jpars, Props_Chain.jsettings, Props_Chain.jdata, [], (Model_Adsc.Uniques ∅ ∅ ∅),
    (nsetup ++ nsale ++ ndays), (on_day 23), (1, 7), 6, 5.
  fold xw0. fold nx0. cbv zeta. split; [split; [vm_compute; reflexivity|vm_compute; discriminate]|]. split; [intros []|].
  split; [vm_compute; reflexivity|]. split; [discriminate|].
  exists (nsetup ++ [uq 5 (NPrice 1 7 (Some (100 * D, None)))]), (xw 2 (20 * DAY + 10)), (120 * D), ndays. reflexivity.
Qed.
Print Assumptions C158_refuted.

(** What holds, in any state: the holder burns it, moves it or burns it for credit; the
    collection's admin does; an account approved for it moves it; it is bought at the
    price set for it; the collection's owner or Root destroys the collection - or the
    ADSC stake it was made for ends or is given another NFT. Missing: that the last of
    these takes it from the staker only. *)
Theorem C158_partial cfg n op n' r k w : nstep cfg n op = (n', r) -> loses n n' k w ->
  consent n op k w \/ stake_ends n n' op k.
Proof.
  intros H [Hw Hn]. destruct (step_items cfg _ _ _ _ k H) as [E|[(E & _)|(v & E & _ & C)]]; [congruence|congruence|].
  assert (v = w) as -> by congruence. exact C.
Qed.
Print Assumptions C158_partial.
(** A price was set by the present holder and an approval given by the holder, the admin
    or Root, since when the NFT has not changed hands; and a sale pays the holder. *)
Theorem C158_offers cfg w0 h k : let n0 := ngenesis w0 in
  (forall q, n_price (nrun cfg n0 h) !! k = Some q ->
     exists w, ever_since cfg n0 h k w (fun _ a => a = NUniq (Signed w) (NPrice k.1 k.2 (Some q)))) /\
  (forall d, n_approved (nrun cfg n0 h) !! k = Some d ->
     exists w, ever_since cfg n0 h k w (fun n a => exists o, a = NUniq o (NApprove k.1 k.2 d) /\
       (o = Root \/ exists b, o = Signed b /\ (b = w \/ admin_of n k.1 = Some b)))).
Proof. intros n0. split; intros q H; [now apply prices_stand|now apply approvals_stand]. Qed.
Print Assumptions C158_offers.
Theorem C158_sale cfg n x who c i bid n' : nstep cfg n (x, NUniq (Signed who) (NBuy c i bid)) = (n', WDone []) ->
  exists w p chosen, holder n (c, i) = Some w /\ n_price n !! (c, i) = Some (p, chosen) /\ p <= bid /\
    (chosen = None \/ chosen = Some who) /\ holder n' (c, i) = Some who /\
    free_of (w_bank (n_w n')) w = free_of (w_bank (n_w n)) w + p /\
    free_of (w_bank (n_w n')) who = free_of (w_bank (n_w n)) who - p /\ (p = 0 \/ p <= free_of (w_bank (n_w n)) who).
Proof. exact (sale_pays cfg n x who c i bid n'). Qed.
Print Assumptions C158_sale.
Example C158_example :
  let n1 := nrun xwcfg nx0 (nsetup ++ take 1 nsale) in let n2 := nrun xwcfg nx0 (nsetup ++ nsale) in
  holder n1 (1, 7) = Some 5 /\ n_price n1 !! (1, 7) = Some (100 * D, None) /\ holder n2 (1, 7) = Some 6 /\
  n_price n2 !! (1, 7) = None /\ (nstep xwcfg n1 (uq 6 (NBuy 1 7 (99 * D)))).2 = WFail /\
  (nstep xwcfg n1 (uq 6 (NBuy 1 7 (120 * D)))).2 = WDone [] /\ (nstep xwcfg n2 (uq 5 (NMove 1 7 5))).2 = WFail /\
  free_of (w_bank (n_w n2)) 5 = free_of (w_bank (n_w n1)) 5 + 100 * D /\
  let n3 := nrun xwcfg n2 (ndays) in
  holder n3 (1, 7) = Some 6 /\ days_left n3 5 = Some 0 /\ holder (nstep xwcfg n3 (on_day 23)).1 (1, 7) = None.
Proof. vm_compute. repeat split. Qed.

(** * C159: an NFT is paid for once *)
Theorem C159_once cfg n h k :
  times cfg (burns_for_credit k) n h + exists_ (nrun cfg n h) k <= times cfg (mints k) n h + exists_ n k.
Proof. apply minted_once. Qed.
Print Assumptions C159_once.
(** And what is burned for credit exists, is worth credit and is gone afterwards. *)
Theorem C159_gone cfg n op n' r k : nstep cfg n op = (n', r) -> burns_for_credit k op.2 = true -> worked r = true ->
  is_Some (holder n k) /\ holder n' k = None /\ is_Some (worth n k.1).
Proof. apply step_burn. Qed.
Print Assumptions C159_gone.
Definition score (n : nstate) (a : N) : option N :=
  Model_Credit.cd_credit <$> Model_Credit.k_uc (j_c (w_chain (n_w n))) !! a.
(** Account 5 burns the NFT for ten points, cannot burn it twice, and can burn it again
    after it was made again for the stake of account 6. *)
Definition nprice1 : nop := wo (WCredit (Signed 10) (Model_Credit.KNftClassCredit 1 10)).
Definition nburn5 : nop := wo (WCredit (Signed 5) (Model_Credit.KBurnNft 1 7)).
Example C159_example :
  let h := nsetup ++ [nprice1; nburn5; nburn5; wo (WAdsc (Signed 10) (Model_Adsc.AAddNft 6 1 7)); nburn5; uq 6 (NMove 1 7 5); nburn5] in
  times xwcfg (burns_for_credit (1, 7)) nx0 h = 2 /\ times xwcfg (mints (1, 7)) nx0 h = 2 /\
  exists_ (nrun xwcfg nx0 h) (1, 7) = 0 /\ score nx0 5 = Some 150 /\ score (nrun xwcfg nx0 h) 5 = Some 170.
Proof. vm_compute. repeat split. Qed.

(** * C160: the NFTs that are worth credit are made by the collection's issuer *)

(** False: the price is set for a number. Account 3 destroys collection 1, account 5
    creates it again, issues an NFT and burns it for credit. *)
Theorem C160_refuted : exists cfg b p settings data evm u h1 h2 op who k v v',
  let n1 := nrun cfg (ngenesis (wgenesis b p settings data evm u)) h1 in
  let n2 := nrun cfg n1 h2 in
  is_Some (worth n1 k.1) /\ (exists t, n_teams n1 !! k.1 = Some t /\ t_owner t <> who /\ t_issuer t <> who /\ t_admin t <> who) /\
  (forall pr, has_privilege (w_priv (n_w n1)) who pr = false) /\ holder n1 k = None /\
  (exists h3 x h4, h2 = h3 ++ (x, NUniq (Signed who) (NMint k.1 k.2 who)) :: h4) /\
  Forall (fun op => prices_class k.1 op.2 -> False) h2 /\
  op.2 = NWorld (WCredit (Signed who) (Model_Credit.KBurnNft k.1 k.2)) /\ worked (nstep cfg n2 op).2 = true /\
  score n2 who = Some v /\ score (nstep cfg n2 op).1 who = Some v' /\ v < v'.
Proof.
  exists xwcfg, xwbank, Props_Chain.jpars, Props_Chain.jsettings, Props_Chain.jdata, [], (Model_Adsc.Uniques ∅ ∅ ∅),
    (take 3 nsetup ++ [nprice1]), [uq 3 (NDestroy 1); uq 5 (NCreate 1 5); uq 5 (NMint 1 7 5)], nburn5, 5, (1, 7), 150, 160.
  fold xw0. fold nx0. cbv zeta. split; [vm_compute; eauto|].
  split; [exists (Team 3 3 3); vm_compute; repeat split; discriminate|]. split; [intros []; vm_compute; reflexivity|].
  split; [vm_compute; reflexivity|]. split; [exists [uq 3 (NDestroy 1); uq 5 (NCreate 1 5)]; eexists _, []; reflexivity|].
  split; [repeat constructor; intros []|]. vm_compute. repeat split.
Qed.
Print Assumptions C160_refuted.
(** What holds: unless its owner or Root changes the team or destroys the collection, the
    team stays, and whatever NFTs of the collection are new were made by its issuer or,
    for an ADSC stake, by a credit admin. Missing: collections that do not exist, or
    cease to, when they are worth credit. *)
Theorem C160_partial cfg n h c t : n_teams n !! c = Some t ->
  Forall (fun op => ~ (sets_team c op.2 /\ from_owner t op.2)) h ->
  n_teams (nrun cfg n h) !! c = Some t /\
  (forall i, holder n (c, i) = None -> is_Some (holder (nrun cfg n h) (c, i)) ->
     minted_by (fun who n' => who = t_issuer t \/ has_privilege (w_priv (n_w n')) who CreditAdmin = true) cfg n h (c, i)).
Proof. intros. now apply run_team. Qed.
Print Assumptions C160_partial.
Example C160_example :
  let n := nrun xwcfg nx0 (nsetup ++ [nprice1]) in
  let h := [uq 5 (NDestroy 1); uq 5 (NTeam 1 5 5); uq 5 (NMint 1 8 5); uq 3 (NMint 1 9 6)] in
  n_teams n !! 1 = Some (Team 3 3 3) /\ Forall (fun op => ~ (sets_team 1 op.2 /\ from_owner (Team 3 3 3) op.2)) h /\
  holder (nrun xwcfg n h) (1, 8) = None /\ holder n (1, 9) = None /\ holder (nrun xwcfg n h) (1, 9) = Some 6.
Proof.
  split; [vm_compute; reflexivity|]. split; [|vm_compute; repeat split].
  repeat constructor; cbn; intros [? ?]; (contradiction || discriminate).
Qed.

(** * C161: an NFT is used once: as a stake or for credit *)

(** False: account 5 burns the NFT of its stake for credit, and is still paid the ADSC
    reward of that stake on the next day. *)
Theorem C161_refuted : exists cfg b p settings data evm u h op days s k v v' x ev amount,
  let n := nrun cfg (ngenesis (wgenesis b p settings data evm u)) h in
  let n' := (nstep cfg n op).1 in
  staked n s k /\ holder n k = Some s /\
  op.2 = NWorld (WCredit (Signed s) (Model_Credit.KBurnNft k.1 k.2)) /\ worked (nstep cfg n op).2 = true /\
  score n s = Some v /\ score n' s = Some v' /\ v < v' /\ staked n' s k /\ holder n' k = None /\
  (nstep cfg (nrun cfg n' days) (x, NWorld (WBlock (BAdsc Model_Adsc.AInitialize)))).2 = WDone ev /\ In (VAdsc (Model_Adsc.EReward s amount)) ev /\ 0 < amount.
Proof.
  exists xwcfg, xwbank, Props_Chain.jpars, Props_Chain.jsettings, Props_Chain.jdata, [], (Model_Adsc.Uniques ∅ ∅ ∅),
    (nsetup ++ [nprice1]), nburn5, [on_day 21], 5, (1, 7), 150, 160, (xw 4 (21 * DAY + 10)).
  fold xw0. fold nx0. cbv zeta. fold (on_day 21).
  destruct (nstep xwcfg (nrun xwcfg (nstep xwcfg (nrun xwcfg nx0 (nsetup ++ [nprice1])) nburn5).1 [on_day 21]) (on_day 21)).2 as [ev| |] eqn:E;
    vm_compute in E; [|discriminate|discriminate].
  injection E as <-. eexists _, _. repeat (split; [vm_compute; reflexivity|]).
  split; [left; reflexivity|vm_compute; reflexivity].
Qed.
Print Assumptions C161_refuted.
(** What holds: if no collection is ever used for both, no NFT is. *)
Theorem C161_partial cfg b p settings data evm u h op n' r k :
  Model_Credit.kc_step (jc_c (wc_chain cfg)) <> Model_Credit.U64MAX ->
  let n := nrun cfg (ngenesis (wgenesis b p settings data evm u)) h in
  (forall c, ~ (Exists (fun op => prices_class c op.2) h /\ Exists (fun op => stakes_class c op.2) h)) ->
  nstep cfg n op = (n', r) -> burns_for_credit k op.2 = true -> worked r = true -> forall s, ~ staked n s k.
Proof.
  intros Hs n Hc E Hb Hw s Hst. destruct (step_burn cfg _ _ _ _ _ E Hb Hw) as (_ & _ & Hv). destruct k as [c i]. apply (Hc c). split.
  - apply (run_worth cfg _ _ _ Hs) in Hv; [exact Hv|]. unfold worth, ngenesis, wgenesis, jgenesis. cbn [n_w w_chain j_c]. rewrite Proofs_Nfts0.worth_at_start. reflexivity.
  - apply (run_staked cfg _ _ _ _ _) in Hst; [exact Hst|]. intros k. unfold staked. cbn. discriminate.
Qed.
Print Assumptions C161_partial.
Example C161_example :
  let h := nsetup ++ [wo (WCredit (Signed 10) (Model_Credit.KNftClassCredit 2 10)); uq 4 (NCreate 2 4); uq 4 (NMint 2 1 5)] in
  let n := nrun xwcfg nx0 h in
  (forall c, ~ (Exists (fun op => prices_class c op.2) h /\ Exists (fun op => stakes_class c op.2) h)) /\
  staked n 5 (1, 7) /\ worked (nstep xwcfg n nburn5).2 = false /\
  worked (nstep xwcfg n (wo (WCredit (Signed 5) (Model_Credit.KBurnNft 2 1)))).2 = true.
Proof.
  split; [|vm_compute; repeat split]. intros c [H1 H2].
  apply Exists_exists in H1 as (o1 & I1 & P1). apply Exists_exists in H2 as (o2 & I2 & P2).
  repeat (apply elem_of_cons in I1 as [->|I1]; [cbn in P1; try contradiction|]); [|now apply elem_of_nil in I1].
  repeat (apply elem_of_cons in I2 as [->|I2]; [cbn in P2; try contradiction; try congruence|]). now apply elem_of_nil in I2.
Qed.

(** * C162: a credit admin can give an account a new NFT stake *)

(** Exactly when it works, in any state. *)
Theorem C162_partial cfg n x a s c i :
  worked (nstep cfg n (x, NWorld (WAdsc (Signed a) (Model_Adsc.AAddNft s c i)))).2 = true <->
  has_privilege (w_priv (n_w n)) a CreditAdmin = true /\ is_Some (n_teams n !! c) /\ holder n (c, i) = None /\ wx_deposit x = true /\
  (forall k, staked n s k -> k <> (c, i) /\ is_Some (n_teams n !! k.1) /\ is_Some (holder n k) /\ is_Some (n_meta n !! k)).
Proof. apply stake_iff. Qed.
Print Assumptions C162_partial.
(** False that it always does: account 5 has burnt the NFT of its stake; now nobody can
    give it a stake with any NFT, until that stake ends or someone makes that NFT again.
    A stake without an NFT still can be given - and changes nothing about this. *)
Theorem C162_refuted : exists cfg b p settings data evm u h s k,
  let n := nrun cfg (ngenesis (wgenesis b p settings data evm u)) h in
  staked n s k /\ is_Some (n_teams n !! k.1) /\
  (exists a, has_privilege (w_priv (n_w n)) a CreditAdmin = true) /\
  (forall x a c i, worked (nstep cfg n (x, NWorld (WAdsc (Signed a) (Model_Adsc.AAddNft s c i)))).2 = false) /\
  exists x a i s', worked (nstep cfg n (x, NWorld (WAdsc (Signed a) (Model_Adsc.AAddNft s' k.1 i)))).2 = true.
Proof.
  exists xwcfg, xwbank, Props_Chain.jpars, Props_Chain.jsettings, Props_Chain.jdata, [], (Model_Adsc.Uniques ∅ ∅ ∅),
    (nsetup ++ [uq 5 (NBurn 1 7 None)]), 5, (1, 7).
  fold xw0. fold nx0. intros n. assert (Hst : staked n 5 (1, 7)) by (vm_compute; reflexivity).
  assert (Hh : holder n (1, 7) = None) by (vm_compute; reflexivity). split; [exact Hst|]. split; [vm_compute; eauto|].
  split; [exists 10; vm_compute; reflexivity|]. split.
  - intros x a c i. destruct (worked _) eqn:E; [|reflexivity]. exfalso.
    apply stake_iff in E as (_ & _ & _ & _ & E). destruct (E _ Hst) as (_ & _ & [w Hw] & _). congruence.
  - exists (xw 2 (20 * DAY + 10)), 10, 7, 6. vm_compute. reflexivity.
Qed.
Print Assumptions C162_refuted.
Example C162_example :
  let n := nrun xwcfg nx0 nsetup in
  worked (nstep xwcfg n (wo (WAdsc (Signed 10) (Model_Adsc.AAddNft 5 1 8)))).2 = true /\
  holder (nstep xwcfg n (wo (WAdsc (Signed 10) (Model_Adsc.AAddNft 5 1 8)))).1 (1, 7) = None /\
  worked (nstep xwcfg n (wo (WAdsc (Signed 10) (Model_Adsc.AAddNft 5 1 7)))).2 = false /\
  worked (nstep xwcfg n (wo (WAdsc (Signed 10) (Model_Adsc.AAddNft 6 2 1)))).2 = false /\
  (** the owner of the collection removes the metadata: the stake can no longer be renewed *)
  worked (nstep xwcfg (nstep xwcfg n (uq 3 (NClearMeta 1 7))).1 (wo (WAdsc (Signed 10) (Model_Adsc.AAddNft 5 1 8)))).2 = false.
Proof. vm_compute. repeat split. Qed.
