(** Properties of pallets/credit and pallets/staking in one chain. *)
From Verif Require Import Base Balances Model_UserPrivileges.
From Verif Require Model_Credit Spec_Credit.
From Verif Require Import Model_StakingLedger Model_Staking Model_Chain Spec_Staking Spec_Chain Proofs_Arith
  Proofs_Credit Proofs_Credit2 Proofs_Credit3 Proofs_Credit6 Proofs_Staking Proofs_Staking8 Proofs_Staking10 Proofs_Staking13
  Proofs_Chain1 Proofs_Chain2 Proofs_Chain3.
From stdpp Require Import gmap sorting.
Open Scope N_scope.

(** Example chain: an era has 10 blocks; validators 1, 2 and 3 bond in block 1 and
    sessions start in blocks 3, 5, 15 and 36. Accounts 5 and 6 have credit 150 and 205
    and delegate in era 1; the node of account 6 has been offline for three eras, that
    of 5 is onboard; its EVM address is 505. *)
Local Notation D := Model_Credit.DPR.
Definition jxcfg : jcfg :=
  JCfg (Model_Credit.KCfg (D / 5) 10 5 100 1 50 99)
       (KCfg (D / 5) 3 1 2 1 (250000000 * D) 10 90 99 (fun a => a) (fun a => a)).
Definition jx (now : N) : jctx :=
  JCtx (Model_Credit.KCtx now (now * 5) (fun a => if a =? 5 then Some 0 else None) (fun a => if a =? 6 then 3 else 0)
          (fun e => if e =? 505 then Some 5 else None) (fun a _ => a =? 7) (fun a _ => a =? 700))
       (fun _ => true) (fun _ => 0) (fun _ => true) (fun _ => true) (fun _ => true) (fun _ => false).
Definition jbank : bank :=
  Bank (list_to_map [(1, Acct (1000 * D) 0 0); (2, Acct (1000 * D) 0 0); (3, Acct (1000 * D) 0 0);
                     (5, Acct (9000 * D) 0 0); (6, Acct (10 * D) 0 0); (99, Acct (1000 * D) 0 0)]) 0.
Definition jpars : pars := Pars (D / 5) (100 * D) 2 1 [] [] 100000000 84.
Definition jsettings : list Model_Credit.setting :=
  [Model_Credit.Setting 4 1 (10000 * D) 20 10 5 0 0 0; Model_Credit.Setting 4 2 (20000 * D) 30 10 5 0 0 0].
Definition jdata : list (N * Model_Credit.cdata) :=
  [(5, Model_Credit.CData 4 150 1 0 0 1 270); (6, Model_Credit.CData 4 205 2 9 0 2 270)].
Definition jg : jstate := jgenesis jbank jpars jsettings jdata.
Definition jo (now : N) (a : jact) : jop := (jx now, a).
Definition jc (now w : N) (c : kcall) : jop := jo now (JCall (Signed w) (JOf c)).
Definition jera (now i : N) : list jop := [jo now (JNewSession i); jo now (JStartSession i); jo now JFinal].
Definition jsetup : list jop :=
  [jc 1 1 (KBond 11 (500 * D) PStaked); jc 1 2 (KBond 12 (300 * D) PStash); jc 1 3 (KBond 13 (400 * D) PStash);
   jc 2 11 KValidate; jc 2 12 KValidate; jc 2 13 KValidate] ++ jera 3 0 ++ jera 5 2 ++
  [jc 12 5 (KDelegate [1]); jc 13 6 (KDelegate [2])] ++ jera 15 4.
Definition jblocks (l : list N) : list jop := map (fun n => jo n JInit) l.
(** A round of payments in era 2, a rise of credit, none in era 3, a round in era 4. *)
Definition jh : list jop :=
  jsetup ++ jblocks [20; 21; 22; 23; 24] ++
  [jo 25 (JEntry (Model_Credit.KTraffic 5)); jo 35 (JEntry (Model_Credit.KTip 5 60))] ++
  jera 36 6 ++ jblocks [40; 41; 42; 43; 44].

Fixpoint orderlyb (cfg : jcfg) (from : N) (h : list jop) : bool :=
  match h with
  | [] => true
  | op :: r => (from <=? at_block op) && (era_in cfg op <? 65536) &&
      match op.2 with
      | JCredit _ (Model_Credit.KForceHistory _ _) | JCredit _ (Model_Credit.KUpdateSetting _) => false
      | _ => true
      end && orderlyb cfg (at_block op) r
  end.
Lemma orderlyb_ok cfg : forall h from, orderlyb cfg from h = true -> orderly cfg from h.
Proof.
  induction h as [|op h IH]; intros from H; [exact Logic.I|]. cbn [orderlyb orderly] in *.
  rewrite !andb_true_iff, N.leb_le, N.ltb_lt in H. destruct H as [[[? ?] C] ?]. split; [done|]. split; [done|]. split; [|auto].
  unfold calm. destruct op as [x [o c| | | | | | | | | |]]; try exact Logic.I. destruct c; try exact Logic.I; discriminate C.
Qed.
Definition claimableb (c : credit) (d : N) : bool :=
  bool_decide (Model_Credit.k_price c = None) &&
  match Model_Credit.k_uc c !! d, default [] (Model_Credit.k_hist c !! d) with
  | Some r, (e0, _) :: _ => e0 + Model_Credit.cd_eras r <? 2 ^ 32
  | _, _ => true
  end.
Lemma claimableb_ok c d : claimableb c d = true -> claimable c d.
Proof.
  unfold claimableb. rewrite andb_true_iff, bool_decide_eq_true. intros [P H]. unfold claimable. rewrite P.
  split; [discriminate|]. split; [discriminate|]. intros r e0 r0 l E1 E2. rewrite E1, E2 in H. now apply N.ltb_lt.
Qed.
Lemma visited_claimable d l :
  forallb (fun q => claimableb (j_c q.1.1) d) l = true ->
  forall j op out, (j, op, out) ∈ (l : list (jstate * jop * jout)) -> claimable (j_c j) d.
Proof. intros H j op out Hin. rewrite forallb_forall in H. apply elem_of_list_In in Hin. exact (claimableb_ok _ _ (H _ Hin)). Qed.

(** * C142: delegators are paid what their credit earned *)

(** All the pay a delegator ever gets is backed by different eras of the past, each
    within the delegator's reward period and priced by the credit record in force in
    that era, as the credit pallet kept it when the payment was made. *)
Theorem C142_earned cfg b p settings data h d :
  Model_Credit.kc_step (jc_c cfg) <> Model_Credit.U64MAX -> Model_Credit.kc_bpe (jc_c cfg) <> 0 ->
  Forall Spec_Credit.setting_typed settings -> orderly cfg 0 h ->
  (forall j op out, (j, op, out) ∈ visited cfg (jgenesis b p settings data) h -> claimable (j_c j) d) ->
  exists l : list (N * credit),
    StronglySorted N.lt (map fst l) /\
    (forall e c, (e, c) ∈ l -> in_period c d e /\ exists j x out,
       (j, (x, JInit), out) ∈ visited cfg (jgenesis b p settings data) h /\ c = j_c j /\ e < era_in cfg (x, JInit)) /\
    paid d (jevents (jouts cfg (jgenesis b p settings data) h)) <=
      lsum (map (fun q => default 0 (Spec_Credit.era_pay (jc_c cfg) q.2 d q.1)) l).
Proof.
  intros Hs Hb Hset Ho Hc. set (g := jgenesis b p settings data) in *.
  pose proof (genesis_sound b p settings data Hset) as G.
  assert (H0 : forall op r, h = op :: r -> 0 <= era_in cfg op) by (intros; lia).
  destruct (jrun_sound cfg Hs Hb h 0 g [] H0 (ex_intro _ 0 Ho) G) as [V (e' & _ & _ & _ & A)].
  pose proof (jrun_paid cfg Hs Hb h 0 g [] d H0 (ex_intro _ 0 Ho) G Hc) as P.
  destruct (dues_split cfg Hs Hb d (dues cfg g h d)) as (q & Q1 & Q2 & Q3).
  { rewrite dues_asks. cbn [app] in A. apply A. }
  exists q. split; [exact Q1|]. split; [|lia].
  intros e c Hin. pose proof (proj1 (Forall_forall _ _) Q2 _ Hin) as (f & t & Hd & [_ Ht] & Hp). cbn [fst snd] in *.
  split; [exact Hp|]. destruct (dues_elem cfg h g c d (f, t) Hd) as (j & op & out & Hv & -> & Hq).
  destruct (V _ _ _ Hv) as (e1 & ev1 & S1 & L1 & L2 & ->).
  destruct (jstep_asks cfg Hs Hb e1 j op ev1 d f t L1 L2 S1 Hq) as (K & -> & Hf & _).
  destruct op as [x a]. cbn [snd] in K. subst a. exists j, x, (jstep cfg j (x, JInit)).2. split; [exact Hv|]. split; [done|].
  lia.
Qed.
Print Assumptions C142_earned.

(** Each payment asks the credit pallet for all eras since the delegator was last paid
    up to the previous one; as long as the pool lasts and the account is not black-
    listed, what it says is owed is minted in full if it is enough to open an account. *)
Theorem C142_full cfg b p settings data h j x ev d f t due :
  Model_Credit.kc_step (jc_c cfg) <> Model_Credit.U64MAX -> Model_Credit.kc_bpe (jc_c cfg) <> 0 ->
  Forall Spec_Credit.setting_typed settings -> orderly cfg 0 h ->
  (j, (x, JInit), JDone ev) ∈ visited cfg (jgenesis b p settings data) h ->
  KAsk d f t ∈ ev ->
  t + 1 = era_in cfg (x, JInit) /\ f <= t /\ dr_since <$> d_recs (k_del (j_s j)) !! d = Some (Some f) /\
  (claimable (j_c j) d -> Spec_Credit.claim_reward (jc_c cfg) (j_c j) d f t = Some due ->
   default 0 (d_black (k_del (j_s j)) !! d) < era_in cfg (x, JInit) ->
   mining_pool (jc_s cfg) (j_s (jstep cfg j (x, JInit)).1) <> 0 -> kc_ed (jc_s cfg) <= due ->
   free_of (k_bank (j_s j)) d + mining_pool (jc_s cfg) (j_s j) + due < 2 ^ 128 ->
   KMint MDelegator d due ∈ ev).
Proof.
  intros Hs Hb Hset Ho Hv Ha. set (g := jgenesis b p settings data) in *.
  pose proof (genesis_sound b p settings data Hset) as G.
  assert (H0 : forall op r, h = op :: r -> 0 <= era_in cfg op) by (intros; lia).
  destruct (jrun_sound cfg Hs Hb h 0 g [] H0 (ex_intro _ 0 Ho) G) as [V _].
  destruct (V _ _ _ Hv) as (e1 & ev1 & S1 & L1 & L2 & Eo).
  apply asks_elem in Ha.
  assert (Hq : (f, t) ∈ asks d (out_events (jstep cfg j (x, JInit)).2)) by (rewrite <- Eo; exact Ha).
  destruct (jstep_asks cfg Hs Hb e1 j (x, JInit) ev1 d f t L1 L2 S1 Hq) as (_ & -> & Hf & r & R1 & R2).
  split; [lia|]. split; [lia|]. split; [rewrite R1; cbn; now rewrite R2|].
  intros C E Bl P Ed F.
  destruct S1 as (Y & Ob & Po & _).
  pose proof (jstep_staking cfg j (x, JInit) Hs Y) as K. rewrite <- Eo in K.
  assert (Eop : sop cfg j (x, JInit) = KInit (sctx2 cfg x (j_c j) (j_c (jstep cfg j (x, JInit)).1))).
  { unfold sop. rewrite <- Eo. reflexivity. }
  rewrite Eop in K.
  assert (Z : KMint MDelegator d due ∈ events [KDone ev]).
  { eapply (step_full (jc_s cfg) (j_s j) _ _ _ _ d f (era_in cfg (x, JInit) - 1) due K); [reflexivity|exact P| | | |exact Ed|exact F].
    - unfold events. cbn [map concat]. rewrite app_nil_r. exact Ha.
    - rewrite (init_claim cfg Hs Hb e1 j x d f L1 L2 C Ob Po Hf). exact E.
    - exact Bl. }
  unfold events in Z. cbn [map concat] in Z. now rewrite app_nil_r in Z.
Qed.
Print Assumptions C142_full.
Example C142_example :
  let outs := jouts jxcfg jg jh in let ev := jevents outs in let s := jrun jxcfg jg jh in
  orderly jxcfg 0 jh /\
  (forall d j op out, d = 5 \/ d = 6 -> (j, op, out) ∈ visited jxcfg jg jh -> claimable (j_c j) d) /\
  List.filter (fun e => match e with KAsk _ _ _ | KMint _ _ _ => true | _ => false end) ev =
    [KAsk 5 1 1; KMint MDelegator 5 8219176516133943000; KAsk 6 1 1; KMint MDelegator 6 16438353032267886000;
     KAsk 5 2 3; KMint MDelegator 5 27397255053779810000; KAsk 6 2 3; KMint MDelegator 6 32876706064535772000] /\
  paid 5 ev = 8219176516133943000 + (8219176516133943000 + 19178078537645867000) /\
  map (fun e => Spec_Credit.era_pay (jc_c jxcfg) (j_c s) 5 e) [0; 1; 2; 3] =
    [None; Some 8219176516133943000; Some 8219176516133943000; Some 19178078537645867000].
Proof.
  split; [apply orderlyb_ok; vm_compute; reflexivity|].
  split; [|split; [vm_compute; reflexivity|split; vm_compute; reflexivity]].
  intros d j op out [-> | ->]; eapply visited_claimable; vm_compute; reflexivity.
Qed.
Print Assumptions C142_example.
