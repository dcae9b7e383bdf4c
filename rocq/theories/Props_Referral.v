(** Properties C193 and C194 (pallets/staking): what referers are paid, and what accounts on
    the black list are paid. *)
From Verif Require Import Base Balances Model_StakingLedger Model_Staking Spec_Staking Spec_Referral Proofs_Referral Proofs_Referral2.
From Verif Require Import Props_Staking Props_Staking2.
From stdpp Require Import gmap.
From Coq Require Import Lia.
Open Scope N_scope.

(** C193. In a block that pays delegators each referer of a delegator that was served gets
    its share, by the number of its referees, of what the delegator earned, and no referer
    gets anything else. *)
Theorem C193_shares :
  forall cfg b p h s x s' ev,
    always cfg countable (kgenesis b p) h -> s = krun cfg (kgenesis b p) h ->
    kstep cfg s (KInit x) = (s', KDone ev) ->
    shared (kc_ed cfg) x s s' (0 < pool_of cfg (k_del s')) None ev.
Proof.
  intros cfg b p h s x s' ev A E H. apply init_shared; [|exact H].
  exact (proj1 (C58_referrals cfg b p h s A E)).
Qed.
Print Assumptions C193_shares.

(** C193. No call, no change of session and no offence pays a referer. *)
Theorem C193_only :
  forall cfg s op s' ev a g,
    kstep cfg s op = (s', KDone ev) -> KMint MReferer a g ∈ ev -> exists x, op = KInit x.
Proof. intros cfg s op s' ev a g. apply only_init. Qed.
Print Assumptions C193_only.

(** Accounts 5 and 7 were referred by 6: five hundredths of their ten DPR each. *)
Definition fch : list kop := zd0 ++ [zblock 4 10; zyc 4 7 KUndelegate; zblock 4 11].
Example C193_nonvacuous :
  let s := krun zcfg zs0 fch in
  always zcfg countable (kgenesis zbank zpars) fch /\
  size (referees s 6) = 2%nat /\ 0 < pool_of zcfg (k_del (kstep zcfg s (zblock 4 12)).1) /\ kc_ed zcfg <= coins s 6 /\
  (kstep zcfg (krun zcfg zs0 fch) (zblock 4 12)).2 =
    KDone [KAsk 7 3 3; KMint MDelegator 7 (10 * DPR); KMint MReferer 6 (DPR / 2); KAsk 8 3 3] /\
  near (share 2) (10 * DPR) (DPR / 2).
Proof.
  cbv zeta. split.
  { apply (alwaysb_ok _ _ (fun s => (N.of_nat (size (d_recs (k_del s))) + 1 <? two32) && (N.of_nat (size (d_ref (k_del s))) + 1 <? two32))).
    - intros s. rewrite andb_true_iff, !N.ltb_lt. auto.
    - vm_compute. reflexivity. }
  split; [vm_compute; reflexivity|]. split; [vm_compute; reflexivity|]. split; [vm_compute; discriminate|].
  split; [vm_compute; reflexivity|]. split; vm_compute; discriminate.
Qed.

(** C194. An account on the black list is paid nothing as a delegator until its era is over.
    By C21 the eras asked for meanwhile are not asked for again. *)
Theorem C194_delegator_partial :
  forall cfg s x s' ev d g,
    kstep cfg s (KInit x) = (s', KDone ev) -> KMint MDelegator d g ∈ ev ->
    kx_era x <= default 0 (d_black (k_del s) !! d) -> g = 0.
Proof. intros cfg s x s' ev d g. apply init_banned. Qed.
Print Assumptions C194_delegator_partial.

(** Accounts 6 and 7 are on the black list until era 9: the 10 DPR of 7 are not paid. *)
Definition fcx : kctx :=
  KCtx 4 (fun _ => true) (fun _ _ _ => None) (fun _ => None) (fun _ => []) (fun _ => [])
       1 (fun w => w =? 71) (fun _ => false) (fun _ => false) (fun _ => false) (fun _ => true)
       (fun _ => 0) (fun _ => true) (fun _ => true) (fun _ => true) (fun _ => false).
Definition fcb : list kop :=
  zd0 ++ [KCall fcx (Signed 71) (KBlackAdd 7 9); KCall fcx (Signed 71) (KBlackAdd 6 9); zblock 4 10].
Example C194_nonvacuous :
  let s := krun zcfg zs0 fcb in
  (default 0 (d_black (k_del s) !! 6), default 0 (d_black (k_del s) !! 7)) = (9, 9) /\
  kx_reward (zy 4 12) 7 3 3 = Some (10 * DPR) /\
  events (kouts zcfg s [zblock 4 11; zblock 4 12]) =
    [KAsk 5 3 3; KMint MDelegator 5 (10 * DPR); KMint MReferer 6 (DPR / 2); KAsk 6 3 3; KMint MDelegator 6 0;
     KAsk 7 3 3; KMint MDelegator 7 0; KMint MReferer 6 0; KAsk 8 3 3].
Proof. cbv zeta. do 2 (split; [vm_compute; reflexivity|]). vm_compute. reflexivity. Qed.

(** But it goes on being paid for those it referred. *)
Theorem C194_refuted :
  exists cfg b p h x s' ev a g,
    let s := krun cfg (kgenesis b p) h in
    kstep cfg s (KInit x) = (s', KDone ev) /\ kx_era x <= default 0 (d_black (k_del s) !! a) /\
    KMint MReferer a g ∈ ev /\ 0 < g.
Proof.
  exists zcfg, zbank, zpars, fcb, (zy 4 11), (kstep zcfg (krun zcfg zs0 fcb) (zblock 4 11)).1,
    [KAsk 5 3 3; KMint MDelegator 5 (10 * DPR); KMint MReferer 6 (DPR / 2); KAsk 6 3 3; KMint MDelegator 6 0], 6, (DPR / 2).
  cbv zeta. split; [|split; [vm_compute; discriminate|split; [|reflexivity]]].
  - change (kgenesis zbank zpars) with zs0. unfold zblock.
    destruct (kstep zcfg (krun zcfg zs0 fcb) (KInit (zy 4 11))) as [s' out] eqn:E. cbn [fst]. f_equal.
    apply (f_equal snd) in E. cbn [snd] in E. rewrite <- E. vm_compute. reflexivity.
  - apply elem_of_list_In. cbn. tauto.
Qed.
Print Assumptions C194_refuted.
