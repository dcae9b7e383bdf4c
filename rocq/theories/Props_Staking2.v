(** Staking pallet, second part: delegations, rewards and the mining pool:
    properties C21 and C54-C58. *)
From Verif Require Import Base Balances Model_StakingLedger Model_Staking Spec_Staking
  Proofs_Arith Proofs_StakingLedger Proofs_Staking Proofs_Staking8 Proofs_Staking9 Proofs_Staking10 Proofs_Staking11
  Proofs_Staking12 Proofs_Staking13 Props_Staking.
From stdpp Require Import gmap.
Open Scope N_scope.

(** ** A chain with delegators 5, 6, 7 and 8. The reward asked for is 10 DPR, for 8 none;
    account 70 holds the privileges. *)
Definition zy (e b : N) : kctx :=
  KCtx e (fun _ => true) (fun d f t => if d =? 8 then None else Some (10 * DPR)) (fun _ => None) (fun _ => []) (fun _ => [])
       b (fun _ => false) (fun w => w =? 70) (fun w => w =? 70) (fun w => w =? 70) (fun _ => true)
       (fun _ => 0) (fun _ => true) (fun _ => true) (fun _ => true) (fun _ => false).
Definition zyc (e w : N) (c : kcall) : kop := KCall (zy e 1) (Signed w) c.
Definition zblock (e b : N) : kop := KInit (zy e b).
(** Delegations and referrals in era 3 of the credit pallet. *)
Definition zd0 : list kop :=
  zsetup ++ zera 0 ++ zera 2 ++
  [zyc 3 5 (KDelegate [1]); zyc 3 6 (KDelegate [2]); zyc 3 7 (KDelegate [1]); zyc 3 8 (KDelegate [3]);
   zyc 3 70 (KSetReferer 5 6); zyc 3 70 (KSetReferer 7 6); zyc 3 70 (KSetReferer 8 5);
   zyc 3 70 (KUnsetReferer 8); zyc 3 70 (KSetReferer 6 6); zyc 3 6 (KDelegate [3])].
(** Era 4: a payment round from block 10; delegator 7 leaves before being paid. *)
Definition zd1 : list kop := zyc 4 7 KUndelegate :: map (zblock 4) [11; 12; 13; 14; 15; 16; 17; 18; 19].
(** Validators are paid at the end of the first era, then another round in era 5. *)
Definition zd2 : list kop :=
  [KAuthor 1; KAuthor 3; KAuthor 3; KNewSession 4; KEndSession (zy 4 19) 3; KStartSession (zy 4 19) 4; KFinal;
   zyc 4 70 (KNpow 8 (7 * DPR)); KCall (zy 4 19) Root (KIncrease (5 * DPR)); zyc 4 70 (KCompensate 5 1 2)] ++
  map (zblock 5) [20; 21; 22; 23; 24; 25; 26; 27; 28; 29].
Definition zd : list kop := zd0 ++ [zblock 4 10] ++ zd1 ++ zd2.
Definition zds : kstate := krun zcfg zs0 zd.
Definition zev : list kev := events (kouts zcfg zs0 zd).

Fixpoint alwaysb (cfg : kcfg) (f : kstate -> bool) (s : kstate) (h : list kop) : bool :=
  match h with [] => true | op :: r => f s && alwaysb cfg f (kstep cfg s op).1 r end.
Lemma alwaysb_ok cfg (P : kstate -> Prop) f : (forall s, f s = true -> P s) ->
  forall h s, alwaysb cfg f s h = true -> always cfg P s h.
Proof.
  intros H. induction h as [|op h IH]; intros s A; [exact I|]. cbn [alwaysb always] in *.
  apply andb_true_iff in A as [A B]. auto.
Qed.
Lemma zcountable : always zcfg countable zs0 zd.
Proof.
  apply (alwaysb_ok _ _ (fun s => (N.of_nat (size (d_recs (k_del s))) + 1 <? two32) && (N.of_nat (size (d_ref (k_del s))) + 1 <? two32))).
  - intros s. rewrite andb_true_iff, !N.ltb_lt. auto.
  - vm_compute. reflexivity.
Qed.
Lemma zcredit : credit_eras 0 zd.
Proof. vm_compute. repeat split; discriminate. Qed.

(** * C54: delegations are mirrored *)
Theorem C54_mirror cfg b p h s d v :
  s = krun cfg (kgenesis b p) h -> (backs s d v <-> names s d v).
Proof. intros ->. apply mirror_names. apply run_mirror. apply genesis_dinv. Qed.
Print Assumptions C54_mirror.
(** After the history validator 3 is backed by 6 and 8, validator 2 by nobody (6 moved
    away) and validator 1 only by 5 (7 left). *)
Example C54_example :
  (fun c => elements (cd_dels c)) <$> d_cand (k_del zds) !! 3 = Some [8; 6] /\ (fun c => elements (cd_dels c)) <$> d_cand (k_del zds) !! 2 = Some [] /\
  (fun c => elements (cd_dels c)) <$> d_cand (k_del zds) !! 1 = Some [5] /\ d_recs (k_del zds) !! 7 = None /\
  (dr_vals <$> d_recs (k_del zds) !! 6) = Some [3].
Proof. vm_compute. repeat split; reflexivity. Qed.

(** * C55: delegator counters are right *)
Theorem C55_counts cfg b p h s :
  always cfg countable (kgenesis b p) h -> s = krun cfg (kgenesis b p) h ->
  d_count (k_del s) = N.of_nat (size (d_recs (k_del s))) /\
  d_active (k_del s) = N.of_nat (size (delegating s)).
Proof. intros A ->. exact (proj1 (proj2 (run_dinv cfg h _ A (genesis_dinv b p)))). Qed.
Print Assumptions C55_counts.
(** Between leaving and being paid, 7 has a record but does not delegate. *)
Example C55_example :
  let s := krun zcfg zs0 (zd0 ++ [zblock 4 10; zyc 4 7 KUndelegate]) in
  d_count (k_del s) = 4 /\ d_active (k_del s) = 3 /\ d_count (k_del zds) = 3 /\ d_active (k_del zds) = 3.
Proof. vm_compute. repeat split; reflexivity. Qed.
Example C55_case : always zcfg countable (kgenesis zbank zpars) zd. Proof. exact zcountable. Qed.

(** * C58: referral counts are exact *)
Theorem C58_referrals cfg b p h s :
  always cfg countable (kgenesis b p) h -> s = krun cfg (kgenesis b p) h ->
  (forall a, default 0 (d_refc (k_del s) !! a) = N.of_nat (size (referees s a))) /\
  (forall w, d_ref (k_del s) !! w <> Some w).
Proof.
  intros A ->. destruct (proj2 (proj2 (run_dinv cfg h _ A (genesis_dinv b p)))) as [B C].
  split; [|exact C]. intros a. rewrite B, referees_having. reflexivity.
Qed.
Print Assumptions C58_referrals.
Example C58_example :
  d_refc (k_del zds) !! 6 = Some 2 /\ elements (referees zds 6) = [7; 5] /\ d_refc (k_del zds) !! 5 = Some 0 /\
  nth 20 (kouts zcfg zs0 zd) KPanic = KFail KSelf.
Proof. vm_compute. repeat split; reflexivity. Qed.

(** * C21: a reward period is paid once *)
Theorem C21_disjoint cfg e b p h d :
  credit_eras e h -> successive (asks d (events (kouts cfg (kgenesis b p) h))).
Proof. apply run_asks. Qed.
Print Assumptions C21_disjoint.
Example C21_example : asks 5 zev = [(3, 3); (4, 4)] /\ asks 7 zev = [(3, 3)] /\ asks 8 zev = [(3, 3); (4, 4)].
Proof. vm_compute. repeat split; reflexivity. Qed.
Example C21_case : credit_eras 0 zd. Proof. exact zcredit. Qed.

(** * C57: each delegator is paid once per era *)
Theorem C57_once cfg e0 e b p h1 h2 d :
  credit_eras e0 (h1 ++ h2) -> within e h2 ->
  (payments d (events (kouts cfg (krun cfg (kgenesis b p) h1) h2)) <= 1)%nat.
Proof. apply once_per_era. Qed.
Print Assumptions C57_once.
(** A round of payments begins with block [x]. A delegator with a record since era
    [f] that stays is asked for and paid in the following blocks [h] of era [e], if
    there are as many of these as planned, no more calls that start a delegation, the
    pool does not run dry and the credit pallet grants a reward. *)
Theorem C57_reached cfg b p h0 s x s1 e d f h r :
  always cfg countable (kgenesis b p) h0 -> s = krun cfg (kgenesis b p) h0 ->
  dkeys_differ cfg -> 2 < kc_bpe cfg -> N.of_nat (size (d_recs (k_del s))) + kc_bpe cfg < 2 ^ 32 ->
  0 < cur_era s -> kx_block x mod kc_bpe cfg = 0 -> s1 = (kstep cfg s (KInit x)).1 ->
  d_recs (k_del s) !! d = Some r -> dr_since r = Some f -> f <> e -> 0 < e < 2 ^ 32 ->
  Forall (fun op => resets cfg op = false) h -> within e h -> throughout cfg (present cfg d) s1 h ->
  how_many joins h <= kc_bpe cfg - 2 <= how_many (pays cfg) h ->
  (f, e - 1) ∈ asks d (events (kouts cfg s1 h)) /\
  forall poc,
    (forall op y, op ∈ h -> ctx_of op = Some y -> kx_reward y d f (e - 1) = Some poc) ->
    throughout cfg (fun s => default 0 (d_black (k_del s) !! d) < e /\
                             free_of (k_bank s) d + mining_pool cfg s + poc < 2 ^ 128) s1 h ->
    kc_ed cfg <= poc -> KMint MDelegator d poc ∈ events (kouts cfg s1 h).
Proof.
  intros A -> inj B1 B2 He Hb -> Hr Hf Hn [E1 E2] Q W T [J1 J2].
  set (s := krun cfg (kgenesis b p) h0) in *.
  destruct (proj1 (proj2 (run_dinv cfg h0 _ A (genesis_dinv b p)))) as [C _]. fold s in C.
  destruct (reset_state cfg x s He Hb B1) as (k' & K1 & K2 & K3 & K4); [unfold two32; lia|rewrite C; exact B2|].
  assert (S1 : sub32 e 1 = e - 1) by (apply sub32_exact; [lia|exact E2]).
  assert (ask : (f, e - 1) ∈ asks d (events (kouts cfg (kstep cfg s (KInit x)).1 h))).
  { rewrite <- S1. apply (reached cfg inj e d f Hn); auto.
    - exists r. rewrite K1, K2. auto.
    - rewrite K1. apply ahead_elem. rewrite K2, K3, Hr. eauto.
    - rewrite K1. pose proof (ahead_le cfg k' (d_cursor k')). rewrite K2 in *. rewrite C in K4. nia. }
  split; [exact ask|]. intros poc Hp [T1 T2] Hd.
  eapply run_full; eauto. destruct T as [T3 T4]. split.
  - clear - T1 T3. revert T1 T3. generalize (kstep cfg s (KInit x)).1. induction h as [|op h IH]; intros s0; [auto|].
    intros [A1 A2] [B1 B2]. split; [|auto]. destruct B1 as (_ & B1 & _). split; [auto|]. exact A1.
  - destruct T4 as (_ & T4 & _). split; [auto|]. exact T2.
Qed.
Print Assumptions C57_reached.
(** In the example 7 leaves during the round and is still paid. *)
Example C57_example :
  payments 7 zev = 1%nat /\ payments 5 zev = 2%nat /\ payments 8 zev = 0%nat /\
  KMint MDelegator 7 (10 * DPR) ∈ events (kouts zcfg (krun zcfg zs0 (zd0 ++ [zblock 4 10])) zd1).
Proof.
  split; [vm_compute; reflexivity|]. split; [vm_compute; reflexivity|]. split; [vm_compute; reflexivity|].
  apply elem_of_list_In. vm_compute. tauto.
Qed.
Definition z57 : kstate := (kstep zcfg (krun zcfg zs0 zd0) (zblock 4 10)).1.
Example C57_case :
  always zcfg countable (kgenesis zbank zpars) zd0 /\ dkeys_differ zcfg /\ 2 < kc_bpe zcfg /\
  N.of_nat (size (d_recs (k_del (krun zcfg zs0 zd0)))) + kc_bpe zcfg < 2 ^ 32 /\
  0 < cur_era (krun zcfg zs0 zd0) /\ kx_block (zy 4 10) mod kc_bpe zcfg = 0 /\
  (dr_since <$> d_recs (k_del (krun zcfg zs0 zd0)) !! 5) = Some (Some 3) /\
  Forall (fun op => resets zcfg op = false) zd1 /\ within 4 zd1 /\ throughout zcfg (present zcfg 5) z57 zd1 /\
  how_many joins zd1 <= kc_bpe zcfg - 2 <= how_many (pays zcfg) zd1.
Proof.
  split; [|split; [intros a c H; exact H|]].
  { apply (alwaysb_ok _ _ (fun s => (N.of_nat (size (d_recs (k_del s))) + 1 <? two32) && (N.of_nat (size (d_ref (k_del s))) + 1 <? two32)));
      [intros s; rewrite andb_true_iff, !N.ltb_lt; auto|vm_compute; reflexivity]. }
  split; [reflexivity|]. split; [vm_compute; reflexivity|]. split; [vm_compute; reflexivity|]. split; [reflexivity|].
  split; [vm_compute; reflexivity|]. split; [repeat constructor|]. split; [repeat constructor|]. split; [|vm_compute; split; discriminate].
  assert (F : forall s, (0 <? cur_era s) && negb (mining_pool zcfg s =? 0) && bool_decide (is_Some (d_recs (k_del s) !! 5)) = true -> present zcfg 5 s).
  { intros s. rewrite !andb_true_iff, N.ltb_lt, negb_true_iff, N.eqb_neq, bool_decide_eq_true. intros [[? ?] ?]. repeat split; auto. }
  split; [apply (alwaysb_ok _ _ _ F)|apply F]; vm_compute; reflexivity.
Qed.

(** * C56: the mining pool *)
Definition C56_claim : Prop := forall cfg b p h,
  always cfg (small_points cfg) (kgenesis b p) h ->
  minted (events (kouts cfg (kgenesis b p) h)) + mining_pool cfg (krun cfg (kgenesis b p) h) <=
  kc_total cfg + raised (events (kouts cfg (kgenesis b p) h)).
(** False: a pool of 2 is shared by three validators with as many points each; every
    share is rounded to 1, so 3 are minted. *)
Definition z56c : kcfg := KCfg (DPR / 5) 3 1 2 1 2 10 90 99 (fun a => a) (fun a => a).
Definition z56p : pars := Pars (DPR / 5) (100 * DPR) 3 1 [] [] 100000000 84.
Definition z56 : list kop :=
  zsetup ++ zera 0 ++ [KAuthor 1; KAuthor 2; KAuthor 3; KNewSession 2; KEndSession zx 1].
Definition small_pointsb (cfg : kcfg) (s : kstate) : bool :=
  bool_decide (map_Forall (fun _ q => q.1 + 20 <= 10 ^ 9) (e_points (k_era s))) &&
  (mining_pool cfg s + N.of_nat (length (on_duty s)) <? 2 ^ 128).
Lemma small_pointsb_ok cfg s : small_pointsb cfg s = true -> small_points cfg s.
Proof.
  unfold small_pointsb. rewrite andb_true_iff, bool_decide_eq_true, N.ltb_lt. intros [A B]. split; [|exact B].
  intros era t m H. exact (A _ _ H).
Qed.
Theorem C56_refuted : ~ C56_claim.
Proof.
  intros H. specialize (H z56c zbank z56p z56). apply H; [|vm_compute; reflexivity].
  apply (alwaysb_ok _ _ _ (small_pointsb_ok z56c)). vm_compute. reflexivity.
Qed.
Print Assumptions C56_refuted.
(** Up to this rounding, which needs a pool smaller than one reward and half a unit per
    validator, the pool covers everything. *)
Theorem C56_pool_partial cfg b p h :
  always cfg (small_points cfg) (kgenesis b p) h ->
  minted (events (kouts cfg (kgenesis b p) h)) + mining_pool cfg (krun cfg (kgenesis b p) h) <=
  kc_total cfg + raised (events (kouts cfg (kgenesis b p) h)) + overdrafts cfg (kgenesis b p) h.
Proof. intros A. exact (run_pool cfg h _ (genesis_tally b p) A). Qed.
Print Assumptions C56_pool_partial.
(** Every kind of reward is minted in the example and nothing is overdrawn. *)
Example C56_example :
  minted zev = 158499999900000000003 /\ raised zev = 5 * DPR /\ overdrafts zcfg zs0 zd = 0 /\
  mining_pool zcfg zds = 250000000 * DPR + 5 * DPR - 158499999900000000003.
Proof. vm_compute. repeat split; reflexivity. Qed.
Example C56_case : always zcfg (small_points zcfg) (kgenesis zbank zpars) zd.
Proof. apply (alwaysb_ok _ _ _ (small_pointsb_ok zcfg)). vm_compute. reflexivity. Qed.
