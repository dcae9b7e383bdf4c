(** Properties C165-C168: channels, devices and operator signatures in the whole chain. *)
From Verif Require Import Base Balances Proofs_Balances Proofs_Arith Model_UserPrivileges Spec_UserPrivileges.
From Verif Require Model_Credit Model_Staking Model_Operation Model_CreditAccumulation Model_Tips Model_Adsc Proofs_CreditAccumulation Spec_CreditAccumulation.
From Verif Require Import Model_Micropayment Spec_Micropayment Proofs_Micropayment Proofs_Micropayment2 Proofs_Micropayment4.
From Verif Require Model_Regions Model_DeeperNode Spec_DeeperNode Proofs_DeeperNode Proofs_DeeperNode2 Props_DeeperNode.
From Verif Require Import Model_Chain Model_World Spec_World Spec_World2 Spec_World4 Proofs_World2 Proofs_World5 Proofs_World7 Proofs_World9 Proofs_World10.
From Verif Require Spec_World3 Props_Chain Proofs_Micropayment3.
From Verif Require Import Props_World.
From stdpp Require Import gmap strings.
Open Scope N_scope.
Local Notation D := Model_Credit.DPR.

(** * C165: channels keep their guarantees in the whole chain *)

(** Whatever the other pallets do: a client's recorded total is the sum of its channels, and
    the balance of a channel is what was put in less what was paid out. *)
Theorem C165_books cfg b p settings data evm u h c v :
  Model_Credit.kc_step (jc_c (wc_chain cfg)) <> Model_Credit.U64MAX ->
  let g := wgenesis b p settings data evm u in let w := wrun cfg g h in
  money b + created false (wlog cfg g h) < 2 ^ 128 ->
  recorded_total (w_chan w) c = sum_channels_of (w_chan w) c /\
  match channel_book c v (channel_log cfg g h), m_chan (w_chan w) !! (c, v) with
  | None, None => True
  | Some (locked, paid), Some ch => c_balance ch + paid = locked
  | _, _ => False
  end.
Proof.
  intros Hs g w F. assert (G : supply g = money b).
  { rewrite supply_money. cbn. unfold Spec_Micropayment.sum_channels. cbn. rewrite msum_empty. lia. }
  destruct (run_books cfg Hs h g false c v None eq_refl) as [A B]; [rewrite G; exact F|apply totals_init|exact I|].
  split; [apply A|exact B].
Qed.
Print Assumptions C165_books.

(** Two payments for one voucher are at least 2^32 steps of the chain apart. *)
Theorem C165_replay cfg b p settings data evm u h1 op1 h2 op2 c v nonce session :
  session < 2 ^ 32 ->
  let w1 := wrun cfg (wgenesis b p settings data evm u) h1 in
  honours cfg w1 op1 c v nonce session -> honours cfg (wrun cfg w1 (op1 :: h2)) op2 c v nonce session ->
  2 ^ 32 <= N.of_nat (S (length h2)).
Proof. intros Hk w1. apply no_replay_w; [apply run_nonces, (nonces_init b)|exact Hk]. Qed.
Print Assumptions C165_replay.

(** Successive payments out of one channel are for consecutive sessions. *)
Theorem C165_sessions cfg w op1 h op2 c v n1 k1 n2 k2 :
  honours cfg w op1 c v n1 k1 ->
  (forall a, ClaimPayment c v a ∉ channel_log cfg (wstep cfg w op1).1 h) ->
  (forall t, ChannelClosed c v t ∉ channel_log cfg (wstep cfg w op1).1 h) ->
  honours cfg (wrun cfg w (op1 :: h)) op2 c v n2 k2 -> k2 = (k1 + 1) mod 2 ^ 32 /\ n2 = n1.
Proof. apply consecutive_w. Qed.
Print Assumptions C165_sessions.

(** Nothing but calls of client and server touches a channel: the client opens it and adds to
    it, the server is paid against a voucher before the channel expires, and it is closed by
    the server, after it has expired, or by the client when the server has been silent for an
    era. *)
Theorem C165_authority cfg b p settings data evm u h x a c v :
  Forall (fun op => wx_now op.1 <= wx_now x) h -> wx_now x < 2 ^ 32 ->
  let w := wrun cfg (wgenesis b p settings data evm u) h in let w' := (wstep cfg w (x, a)).1 in
  m_chan (w_chan w') !! (c, v) <> m_chan (w_chan w) !! (c, v) ->
  (exists amount d, a = WChannel c (MOpen v amount d) /\ m_chan (w_chan w) !! (c, v) = None) \/
  (exists amount, a = WChannel c (MAdd v amount)) \/
  (exists k amount sg ch ch', a = WChannel v (MClaim c k amount sg) /\
     m_chan (w_chan w) !! (c, v) = Some ch /\ m_chan (w_chan w') !! (c, v) = Some ch' /\
     wx_now x <= c_expiration ch /\ c_balance ch' + amount = c_balance ch /\
     wc_verify cfg c (voucher_bytes v (c_nonce ch) k amount) sg = true) \/
  (exists ch, m_chan (w_chan w) !! (c, v) = Some ch /\ m_chan (w_chan w') !! (c, v) = None /\
     ((a = WChannel v (MClose c)) \/
      (exists k amount sg, a = WChannel v (MClaim c k amount sg) /\ c_expiration ch < wx_now x) \/
      ((a = WChannel c MCloseExpired \/ a = WChannel c (MClose v)) /\ c_expiration ch < wx_now x) \/
      (a = WChannel c (MClose v) /\ 1 <= Spec_World3.silent_eras cfg h (wx_now x) v))).
Proof.
  intros F L w w' Hne.
  destruct (chan_step cfg w (x, a)) as [[E _]|(who & k & ev & m & E1 & _ & E & E2 & _)]; [unfold w' in Hne; rewrite E in Hne; congruence|].
  cbn [fst snd] in E1, E. subst a. unfold w' in *. rewrite E2 in *. clear E2.
  pose proof (mstep_chan_frame (wc_chan cfg) (wc_verify cfg) (chan_bank (w_chan w) (w_bank w)) (mctx cfg x w) who k c v) as P.
  rewrite E in P. cbn [fst] in P. specialize (P Hne).
  change (m_chan (chan_bank (w_chan w) (w_bank w))) with (m_chan (w_chan w)) in P.
  destruct P as [(-> & am & d & -> & Hn)|[(-> & am & ch & ch' & -> & _)|[(-> & k0 & am & sg & ch & ch' & -> & H1 & H2 & H3 & H4 & H5 & H6)|(ch & H1 & H2 & P)]]].
  - left. eauto.
  - right; left. eauto.
  - right; right; left. exists k0, am, sg, ch, ch'. repeat split; try assumption. lia.
  - right; right; right. exists ch. split; [exact H1|]. split; [exact H2|].
    destruct P as [(-> & ->)|[(-> & (k0 & am & sg & ->) & P)|[(-> & P1 & P)|(-> & -> & P)]]].
    + left. reflexivity.
    + right; left. eauto 6.
    + right; right; left. split; [|exact P]. destruct P1 as [-> | ->]; auto.
    + right; right; right. split; [reflexivity|].
      destruct (run_nonces cfg h _ (nonces_init b : nonces_ok (w_chan (wgenesis b p settings data evm u)))) as (N1 & _).
      destruct (N1 _ _ _ H1) as (_ & _ & Ev). change (1 <= offline cfg x w (c_server ch)) in P.
      unfold w in P. rewrite offline_silent, Ev in P by assumption. exact P.
Qed.
Print Assumptions C165_authority.

(** A channel from 6 to 5: opened, a claim, more money, a second try with the same voucher and
    the next claim, among mints, transfers and hooks of other pallets. *)
Definition xch : list wop :=
  xwsetup ++ [at_ 14 (WChannel 6 (MOpen 5 (60 * D) 3000)); at_ 14 (WStaking (Signed 7) (JOf (Model_Staking.KNpow 6 (25 * D))));
    at_ 15 (WChannel 5 (MClaim 6 1 (20 * D) [7])); at_ 15 (WTransfer 5 6 (10 * D)); at_ 16 (WChannel 6 (MAdd 5 (5 * D)));
    at_ 16 (WBlock BStakingInit); at_ 17 (WChannel 5 (MClaim 6 1 (20 * D) [7])); at_ 17 (WChannel 5 (MClaim 6 2 (3 * D) [7]))].
Example C165_example :
  let n := length xwsetup in let before k := wrun xwcfg xw0 (firstn (n + k) xch) in
  money xwbank + created false (wlog xwcfg xw0 xch) < 2 ^ 128 /\
  channel_book 6 5 (channel_log xwcfg xw0 xch) = Some (65 * D, 23 * D) /\
  recorded_total (w_chan (wrun xwcfg xw0 xch)) 6 = 42 * D /\
  c_balance <$> m_chan (w_chan (wrun xwcfg xw0 xch)) !! (6, 5) = Some (42 * D) /\
  honours xwcfg (before 2%nat) (at_ 15 (WChannel 5 (MClaim 6 1 (20 * D) [7]))) 6 5 0 1 /\
  (wstep xwcfg (before 6%nat) (at_ 17 (WChannel 5 (MClaim 6 1 (20 * D) [7])))).2 = WFail /\
  honours xwcfg (before 7%nat) (at_ 17 (WChannel 5 (MClaim 6 2 (3 * D) [7]))) 6 5 0 2.
Proof.
  split; [vm_compute; reflexivity|]. split; [vm_compute; reflexivity|]. split; [vm_compute; reflexivity|]. split; [vm_compute; reflexivity|].
  split; [|split; [vm_compute; reflexivity|]].
  - eexists (20 * D), [7], (Chan 6 5 (60 * D) 0 14 614). vm_compute. repeat split.
  - eexists (3 * D), [7], (Chan 6 5 (45 * D) 0 14 614). vm_compute. repeat split.
Qed.

(** * C166: devices and addresses in the whole chain *)

(** The server lists are what the accepted calls say, and sorted. *)
Theorem C166_lists cfg b p settings data evm u h who k :
  Model_DeeperNode.d_regions (wc_node cfg) = Model_DeeperNode.regions ->
  let g := wgenesis b p settings data evm u in let s := w_node (wrun cfg g h) in let r := registered (wlog cfg g h) in
  (who ∈ Model_DeeperNode.get_list (Model_DeeperNode.d_bycountry s) k <-> Spec_DeeperNode.serves r who k) /\
  (who ∈ Model_DeeperNode.get_list (Model_DeeperNode.d_byregion s) k <->
     exists c, Spec_DeeperNode.serves r who c /\
       (Model_DeeperNode.regions !! c = Some k \/
        exists m, Model_DeeperNode.regions !! c = Some m /\ k = default EmptyString (Model_DeeperNode.regions !! m))) /\
  (Model_DeeperNode.n_country <$> Model_DeeperNode.d_dev s !! who = fst <$> r !! who) /\
  Spec_DeeperNode.increasing (Model_DeeperNode.get_list (Model_DeeperNode.d_bycountry s) k) /\
  Spec_DeeperNode.increasing (Model_DeeperNode.get_list (Model_DeeperNode.d_byregion s) k).
Proof.
  intros E g s r.
  destruct (run_registered cfg (Props_DeeperNode.table_levels _ E) h g ∅ (Proofs_DeeperNode.init_reg (wc_node cfg) b evm))
    as (HC & HR & HD & HN & MC & MR). fold r s in HC, HR, HD, HN, MC, MR.
  split; [apply MC|]. split; [|split; [|split; [apply HC|apply HR]]].
  - rewrite MR. split.
    + intros (c & Hs & Hk). exists c. split; [exact Hs|].
      destruct (HD _ _ _ Hs) as [_ [m Hm]]. rewrite E in Hm.
      unfold Model_DeeperNode.region_of in Hk. rewrite E, Hm in Hk. destruct Hk as [->| ->]; [left; exact Hm|].
      right. exists m. split; [exact Hm|reflexivity].
    + intros (c & Hs & Hk). exists c. split; [exact Hs|]. unfold Model_DeeperNode.region_of. rewrite E.
      destruct Hk as [Hk|(m & Hm & ->)].
      * left. rewrite Hk. reflexivity.
      * right. rewrite Hm. reflexivity.
  - destruct (r !! who) as [[c sv]|] eqn:Er.
    + destruct (HD _ _ _ Er) as [(n & -> & <-) _]. reflexivity.
    + rewrite (HN _ Er). reflexivity.
Qed.
Print Assumptions C166_lists.

(** The time of an account's first heartbeat is kept for ever, and the accounts that sent one
    are listed once each. *)
Theorem C166_onboard cfg b p settings data evm u h who :
  let s := w_node (wrun cfg (wgenesis b p settings data evm u) h) in
  Model_DeeperNode.d_onboard s !! who = head (Spec_World3.heartbeats h who) /\
  NoDup (Model_DeeperNode.d_onboarded s) /\
  (who ∈ Model_DeeperNode.d_onboarded s <-> Spec_World3.heartbeats h who <> []).
Proof.
  intros s.
  assert (H : Model_DeeperNode.d_onboard s !! who = head (Spec_World3.heartbeats h who)) by (apply (run_onboard cfg h)).
  assert (I : Proofs_DeeperNode2.onb_inv s).
  { apply (run_node cfg Proofs_DeeperNode2.onb_inv).
    - intros s0 b0 I. exact I.
    - apply Proofs_DeeperNode2.step_onb.
    - split; [constructor|]. intros w. cbn. rewrite lookup_empty. split; [intros Hw; now apply elem_of_nil in Hw|intros [t Ht]; discriminate]. }
  split; [exact H|]. split; [apply I|]. destruct I as [_ I]. rewrite I, H.
  destruct (Spec_World3.heartbeats h who); cbn; split; try congruence; eauto. intros [t Ht]; discriminate.
Qed.
Print Assumptions C166_onboard.

(** An EVM address, once bound, stays with its account; an account's present address maps
    back to it; and a binding comes from genesis or from an accepted call of the account
    itself with a signature of the operator valid at that time. *)
Theorem C166_bound cfg w h e a : Spec_World3.bound w e a -> Spec_World3.bound (wrun cfg w h) e a.
Proof.
  intros H. apply (run_node cfg (fun s => Model_DeeperNode.d_e2d s !! e = Some a)); [done| |exact H].
  intros s o. apply Proofs_DeeperNode2.step_binding.
Qed.
Print Assumptions C166_bound.
Theorem C166_addresses cfg b p settings data evm u h a e :
  let g := wgenesis b p settings data evm u in let w := wrun cfg g h in
  (NoDup (snd <$> evm) -> Model_DeeperNode.d_d2e (w_node w) !! a = Some e -> Spec_World3.bound w e a) /\
  (Spec_World3.bound w e a ->
    (a, e) ∈ evm \/
    exists h1 x nonce sg h2, h = h1 ++ (x, WNode (Signed a) (Model_DeeperNode.DRewardMapping nonce sg e)) :: h2 /\
      endorsed cfg (wrun cfg g h1) nonce sg a = true).
Proof.
  intros g w. split.
  - intros HN. refine (run_node cfg Proofs_DeeperNode2.back_inv _ (Proofs_DeeperNode2.step_back _) h g _ a e).
    + intros s0 b0 I. exact I.
    + intros a' e' H. now apply Proofs_DeeperNode2.init_maps.
  - intros H. apply bind_origin in H as [H|(h1 & x & nonce & sg & h2 & -> & V & _)].
    + left. now apply Proofs_DeeperNode2.init_e2d.
    + right. exists h1, x, nonce, sg, h2. split; [reflexivity|exact V].
Qed.
Print Assumptions C166_addresses.

(** The one signature that the operator with key 77 ever made: nonce 0, for account 5. *)
Definition osig : list N := repeat 7 64.
Definition xdwcfg : wcfg :=
  WCfg (wc_chain xwcfg) (Model_DeeperNode.DCfg (D / 5) (100 * D) 7 10 Model_DeeperNode.regions)
    (wc_chan xwcfg) (wc_rel xwcfg) (wc_adsc xwcfg) (wc_tips xwcfg)
    (fun key m sg => (key =? 77) && bool_decide (sg = repeat 7 64) && bool_decide (m = Model_CreditAccumulation.claim_bytes 77 0 5))
    (fun l => l).
Definition node_ (now who : N) (c : Model_DeeperNode.dcall) : wop := at_ now (WNode (Signed who) c).
Definition xdev : list wop :=
  [node_ 1 5 (Model_DeeperNode.DRegister "US"); node_ 1 2 (Model_DeeperNode.DRegister "US"); node_ 2 5 (Model_DeeperNode.DRegisterServer 2);
   at_ 2 (WTransfer 5 6 (10 * D)); node_ 3 2 (Model_DeeperNode.DRegisterServer 3); node_ 3 5 Model_DeeperNode.DImOnline;
   at_ 4 (WBlock BStakingInit); node_ 4 6 (Model_DeeperNode.DRegister "FR"); node_ 9 5 Model_DeeperNode.DImOnline;
   at_ 9 (WProof Root (Model_CreditAccumulation.ASetKey 77)); node_ 9 5 (Model_DeeperNode.DRewardMapping 0 osig 501);
   node_ 9 2 (Model_DeeperNode.DRewardMapping 0 osig 502)]%string.
Example C166_example :
  let s := w_node (wrun xdwcfg xw0 xdev) in let r := registered (wlog xdwcfg xw0 xdev) in
  Model_DeeperNode.get_list (Model_DeeperNode.d_bycountry s) "US" = [2; 5] /\
  r !! 5 = Some ("US", true)%string /\ r !! 6 = Some ("FR", false)%string /\
  Model_DeeperNode.d_onboard s !! 5 = Some 3 /\ Spec_World3.heartbeats xdev 5 = [3; 9] /\
  Spec_World3.bound (wrun xdwcfg xw0 xdev) 501 5 /\ Model_DeeperNode.d_e2d s !! 502 = None.
Proof. vm_compute. repeat split. Qed.

(** * C167: the money of a channel can be had *)
Lemma deposit_other ed b who v a : a <> who -> acct_of (deposit_creating ed b who v) a = acct_of b a.
Proof.
  intros H. unfold deposit_creating. destruct (v =? 0); [reflexivity|]. destruct (_ && _); [reflexivity|].
  destruct (two128 <=? _); [reflexivity|]. now apply put_acct_ne.
Qed.
Lemma run_fits cfg b p settings data evm u h :
  Model_Credit.kc_step (jc_c (wc_chain cfg)) <> Model_Credit.U64MAX ->
  let g := wgenesis b p settings data evm u in let w := wrun cfg g h in
  money b + created false (wlog cfg g h) < 2 ^ 128 -> fits (chan_bank (w_chan w) (w_bank w)).
Proof. intros Hs g w F. destruct (C150_supply cfg b p settings data evm u h Hs F) as [E _]. refine (at_bank_fits cfg Hs w _). unfold w, g. rewrite E. exact F. Qed.

(** After the expiry of a channel, or when the server has been silent for an era, a client
    that is alive and does not owe more than it has gets the rest of the channel, less the
    fee. (A channel of the server to the client is closed first.) *)
Theorem C167_refund cfg b p settings data evm u h x client server ch :
  Model_Credit.kc_step (jc_c (wc_chain cfg)) <> Model_Credit.U64MAX -> m_burn (wc_chan cfg) <= 100 ->
  let g := wgenesis b p settings data evm u in let w := wrun cfg g h in
  money b + created false (wlog cfg g h) < 2 ^ 128 ->
  Forall (fun op => wx_now op.1 <= wx_now x) h -> wx_now x < 2 ^ 32 ->
  m_chan (w_chan w) !! (client, server) = Some ch -> m_chan (w_chan w) !! (server, client) = None ->
  c_expiration ch < wx_now x \/ 1 <= Spec_World3.silent_eras cfg h (wx_now x) server ->
  m_ed (wc_chan cfg) <= free_of (w_bank w) client -> frz (acct_of (w_bank w) client) <= free_of (w_bank w) client ->
  client <> Model_Operation.oc_treasury (wc_rel cfg) ->
  let w' := (wstep cfg w (x, WChannel client (MClose server))).1 in
  free_of (w_bank w') client = free_of (w_bank w) client + c_balance ch - fee_of (wc_chan cfg) (c_balance ch) /\
  m_chan (w_chan w') !! (client, server) = None /\
  forall a, a <> client -> a <> Model_Operation.oc_treasury (wc_rel cfg) -> acct_of (w_bank w') a = acct_of (w_bank w) a.
Proof.
  intros Hs Hp g w F T L Hch Hno Hw He Hf Ht w'.
  pose proof (run_fits cfg b p settings data evm u h Hs F) as Fit. fold g w in Fit.
  destruct (run_nonces cfg h _ (nonces_init b : nonces_ok (w_chan g))) as (N1 & _). destruct (N1 _ _ _ Hch) as (_ & _ & Ev).
  set (s := chan_bank (w_chan w) (w_bank w)) in *.
  destruct (client_close_ok (wc_chan cfg) (wc_verify cfg) s (mctx cfg x w) client server ch Fit Hp Hno Hch) as [m Em]; [|exact He|exact Hf|].
  { destruct Hw as [Hw|Hw]; [left; exact Hw|right]. rewrite Ev. change (1 <= offline cfg x w server). unfold w, g. now rewrite offline_silent. }
  destruct (client_close_effect (wc_chan cfg) (wc_verify cfg) s (mctx cfg x w) client server ch _ _ Fit Hp Hno Hch (or_intror He) Em)
    as (A & _ & B & Cd & _).
  unfold w'. cbn [wstep fst snd]. unfold wchannel. cbn [channel_call negb]. fold s. rewrite Em. cbn [fst snd].
  split; [|split].
  - unfold free_of at 1. cbn [w_bank set_w_bank set_w_chan]. rewrite deposit_other by exact Ht. exact A.
  - change (m_chan m !! (client, server) = None). rewrite Cd. apply lookup_delete.
  - intros a Ha Ha'. cbn [w_bank set_w_bank set_w_chan]. rewrite deposit_other by exact Ha'. now apply B.
Qed.
Print Assumptions C167_refund.

(** A server that is alive and does not owe more than it has is paid for the next voucher
    that the channel covers. *)
Theorem C167_paid cfg b p settings data evm u h x client server k a sg ch :
  Model_Credit.kc_step (jc_c (wc_chain cfg)) <> Model_Credit.U64MAX -> m_burn (wc_chan cfg) <= 100 ->
  let g := wgenesis b p settings data evm u in let w := wrun cfg g h in
  money b + created false (wlog cfg g h) < 2 ^ 128 ->
  m_chan (w_chan w) !! (client, server) = Some ch -> wx_now x <= c_expiration ch ->
  (m_sess (w_chan w) !! (client, server) = None \/
   exists last, m_sess (w_chan w) !! (client, server) = Some last /\ k = (last + 1) mod 2 ^ 32) ->
  wc_verify cfg client (voucher_bytes server (c_nonce ch) k a) sg = true -> a <= c_balance ch ->
  m_ed (wc_chan cfg) <= free_of (w_bank w) server -> frz (acct_of (w_bank w) server) <= free_of (w_bank w) server ->
  server <> Model_Operation.oc_treasury (wc_rel cfg) ->
  let op := (x, WChannel server (MClaim client k a sg)) in let w' := (wstep cfg w op).1 in
  honours cfg w op client server (c_nonce ch) k /\
  free_of (w_bank w') server = free_of (w_bank w) server + a - fee_of (wc_chan cfg) a /\
  forall q, q <> server -> q <> Model_Operation.oc_treasury (wc_rel cfg) -> acct_of (w_bank w') q = acct_of (w_bank w) q.
Proof.
  intros Hs Hp g w F Hch He Hk Hv Ha Hal Hf Ht op w'.
  pose proof (run_fits cfg b p settings data evm u h Hs F) as Fit. fold g w in Fit.
  set (s := chan_bank (w_chan w) (w_bank w)) in *.
  destruct (claim_ok (wc_chan cfg) (wc_verify cfg) s (mctx cfg x w) client server k a sg ch Fit Hp Hch He Hk Hv Ha Hal Hf) as [m Em].
  destruct (Proofs_Micropayment3.claim_effect (wc_chan cfg) (wc_verify cfg) s (mctx cfg x w) client server k a sg ch m Fit Hp Hch (or_intror Hal) Em) as (A & _ & B & _).
  assert (E : wstep cfg w op = (set_w_bank (set_w_chan w m) (deposit_creating (m_ed (wc_chan cfg)) (m_bank m)
     (Model_Operation.oc_treasury (wc_rel cfg)) (m_slashed m)), WDone [VChannel (ClaimPayment client server a)])).
  { unfold op. cbn [wstep fst snd]. unfold wchannel. cbn [channel_call negb]. fold s. rewrite Em. reflexivity. }
  split; [|split].
  - exists a, sg, ch. rewrite E. auto.
  - unfold w'. rewrite E. unfold free_of at 1. cbn [fst w_bank set_w_bank set_w_chan]. rewrite deposit_other by exact Ht. exact A.
  - intros q Hq Hq'. unfold w'. rewrite E. cbn [fst w_bank set_w_bank set_w_chan]. rewrite deposit_other by exact Hq'. now apply B.
Qed.
Print Assumptions C167_paid.
Example C167_example :
  let w := wrun xwcfg xw0 xch in
  m_chan (w_chan w) !! (6, 5) = Some (Chan 6 5 (42 * D) 0 14 614) /\ m_chan (w_chan w) !! (5, 6) = None /\
  m_sess (w_chan w) !! (6, 5) = Some 2 /\ m_ed (wc_chan xwcfg) <= free_of (w_bank w) 6 /\
  Spec_World3.silent_eras xwcfg xch 30 5 = 1 /\ Model_Operation.oc_treasury (wc_rel xwcfg) = 99 /\
  (let w' := (wstep xwcfg w (at_ 30 (WChannel 6 (MClose 5)))).1 in
   free_of (w_bank w') 6 = free_of (w_bank w) 6 + 42 * D - 42 * D / 10 /\ free_of (w_bank w') 99 = free_of (w_bank w) 99 + 42 * D / 10) /\
  (wstep xwcfg w (at_ 20 (WChannel 6 (MClose 5)))).2 = WFail /\
  (let w' := (wstep xwcfg w (at_ 18 (WChannel 5 (MClaim 6 3 (42 * D) [7])))).1 in
   free_of (w_bank w') 5 = free_of (w_bank w) 5 + 42 * D - 42 * D / 10).
Proof. vm_compute. repeat split; discriminate. Qed.

(** * C168: a signature of the operator is good for one thing *)

(** False: one signature for an account lets it bind any number of EVM addresses, in any
    state in which the signature is valid, and stays valid; nothing of the address is
    signed. *)
Theorem C168_any cfg w x a nonce sg e : endorsed cfg w nonce sg a = true ->
  (forall c, ~ Spec_World3.bound w e c) -> Model_DeeperNode.d_d2e (w_node w) !! a <> Some e ->
  let r := wstep cfg w (x, WNode (Signed a) (Model_DeeperNode.DRewardMapping nonce sg e)) in
  (exists ev, r.2 = WDone ev) /\ Spec_World3.bound r.1 e a /\ endorsed cfg r.1 nonce sg a = true.
Proof.
  intros V N0 Hd r.
  assert (N : Model_DeeperNode.d_e2d (w_node w) !! e = None)
    by (destruct (Model_DeeperNode.d_e2d (w_node w) !! e) as [c|] eqn:Ee; [now destruct (N0 c)|reflexivity]).
  assert (E : exists ev, Model_DeeperNode.dstep (wc_node cfg) (Model_DeeperNode.with_bank (w_node w) (w_bank w)) (nctx cfg x w) (Signed a)
      (Model_DeeperNode.DRewardMapping nonce sg e) =
      (Model_DeeperNode.with_maps (Model_DeeperNode.with_bank (w_node w) (w_bank w))
         (<[e := a]> (Model_DeeperNode.d_e2d (w_node w))) (<[a := e]> (Model_DeeperNode.d_d2e (w_node w))), ROk ev)).
  { unfold Model_DeeperNode.dstep. cbn [Model_DeeperNode.dexec]. unfold Model_DeeperNode.reward_mapping.
    change (Model_DeeperNode.x_verify_new (nctx cfg x w) nonce sg a) with (endorsed cfg w nonce sg a). rewrite V. cbn [ensure rbind].
    cbn [Model_DeeperNode.d_e2d Model_DeeperNode.d_d2e Model_DeeperNode.with_bank]. rewrite bool_decide_true by exact N. cbn [ensure rbind].
    destruct (Model_DeeperNode.d_d2e (w_node w) !! a) as [old|]; [|eexists; reflexivity].
    destruct (N.eqb_spec e old) as [->|]; [now destruct Hd|eexists; reflexivity]. }
  destruct E as [ev E].
  assert (R : r = (set_w_node w (Model_DeeperNode.with_maps (Model_DeeperNode.with_bank (w_node w) (w_bank w))
         (<[e := a]> (Model_DeeperNode.d_e2d (w_node w))) (<[a := e]> (Model_DeeperNode.d_d2e (w_node w)))), WDone (map VNode ev))).
  { unfold r. cbn [wstep fst snd]. unfold wnode. cbn [node_call negb]. now rewrite E. }
  rewrite R. split; [eauto|]. split; [|exact V]. apply lookup_insert.
Qed.
Print Assumptions C168_any.
Theorem C168_refuted :
  exists cfg h who nonce sg,
    (forall w n s a, n < 2 ^ 64 -> a < 2 ^ 256 -> endorsed cfg w n s a = true -> (n, s, a) = (nonce, sg, who)) /\
    (1 < uses who nonce sg (wlog cfg xw0 h))%nat /\
    Spec_World3.bound (wrun cfg xw0 h) 601 who /\ Spec_World3.bound (wrun cfg xw0 h) 602 who.
Proof.
  exists xdwcfg, (xdev ++ [node_ 10 5 (Model_DeeperNode.DRewardMapping 0 osig 601); node_ 10 5 (Model_DeeperNode.DRewardMapping 0 osig 602)]), 5, 0, osig.
  split; [|vm_compute; repeat split; repeat constructor].
  intros w n s a Hn Ha. unfold endorsed, Model_CreditAccumulation.verify_atomos_new_signature, Model_CreditAccumulation.do_verify.
  cbn [wc_verify wc_hash xdwcfg]. intros H. apply andb_true_iff in H as [H M]. apply andb_true_iff in H as [K S0].
  apply N.eqb_eq in K. rewrite K in M. apply bool_decide_eq_true in M, S0.
  apply Proofs_CreditAccumulation.claim_bytes_inj in M as (_ & -> & ->); try (exact Hn || exact Ha || reflexivity).
  unfold Model_CreditAccumulation.sig_of in S0. destruct (length s =? 64)%nat; [now rewrite S0|discriminate S0].
Qed.
Print Assumptions C168_refuted.

(** Without a valid signature staking_delegate does nothing. *)
Lemma staking_unsigned cfg w x a level ev :
  Model_CreditAccumulation.verify_atomos_signature (wc_verify cfg) (wc_hash cfg) (w_proofs w) (wx_sig x).1 (wx_sig x).2 a = false ->
  (wstep cfg w (x, WStaking (Signed a) (JOf (Model_Staking.KStakeDelegate level)))).2 <> WDone ev.
Proof.
  intros V H.
  assert (B : forall c s r, jdispatch (wc_chain cfg) (wjctx cfg x w) c s (Signed a) (JOf (Model_Staking.KStakeDelegate level)) <> ROk r).
  { intros c s r. cbn [jdispatch]. unfold jstaking_delegate. cbn [Model_Staking.signed].
    match goal with |- rbind ?e _ <> _ => destruct e as [c1| |] end; cbn [rbind]; try discriminate.
    unfold Model_Staking.dispatch. cbn [Model_Staking.signed].
    replace (Model_Staking.kx_sig (sctx2 (wc_chain cfg) (wjctx cfg x w) c c1) a) with false by (symmetry; exact V).
    discriminate. }
  cbn [wstep fst snd] in H. unfold of_chain, wjstep, jstep in H. cbn [fst snd] in H. unfold jact_step in H.
  set (j := jsync (w_chain w) (w_bank w)) in H. specialize (B (j_c j) (j_s j)).
  destruct (jdispatch _ _ _ _ _ _) as [r| |]; [now apply (B r)|discriminate H..].
Qed.
(** What does hold: a signature serves only the account it was made for, under one of the
    operator's keys; and as traffic claims its nonces are taken in turn, each once. *)
Theorem C168_own cfg w op who nonce sg ev :
  presents op = Some (who, nonce, sg) -> (wstep cfg w op).2 = WDone ev ->
  exists key, (Model_CreditAccumulation.a_key (w_proofs w) = Some key \/ Model_CreditAccumulation.a_tmp (w_proofs w) = Some key \/ key = 0) /\
    Spec_CreditAccumulation.signed_claim (wc_verify cfg) (wc_hash cfg) key nonce who sg.
Proof.
  intros P W.
  assert (Old : Model_CreditAccumulation.verify_atomos_signature (wc_verify cfg) (wc_hash cfg) (w_proofs w) nonce sg who = true).
  { destruct op as [x a]. unfold presents in P. cbn [fst snd] in P. destruct a; try discriminate P.
    - destruct o as [|a|]; try discriminate P. destruct c as [n0 s0|k|k]; try discriminate P. injection P as <- <- <-.
      cbn [wstep fst snd] in W. unfold wproof in W.
      destruct (Model_CreditAccumulation.astep _ _ _ _ _) as [p [[]| |]] eqn:E; try discriminate W.
      assert (Hok : is_ok (Model_CreditAccumulation.astep (wc_verify cfg) (wc_hash cfg) (w_proofs w) (Signed a)
        (Model_CreditAccumulation.AAddCredit n0 s0)).2 = true) by (rewrite E; reflexivity).
      destruct (Proofs_CreditAccumulation.add_ok _ _ _ _ _ _ Hok) as (a' & Ea & _ & V & _). injection Ea as ->. exact V.
    - destruct o as [|a|]; try discriminate P.
      cbn [wstep fst snd] in W. unfold wnode in W. destruct (negb _) eqn:Nc; [discriminate W|].
      destruct (Model_DeeperNode.dstep _ _ _ _ _) as [q [r| |]] eqn:E; try discriminate W.
      destruct c; try discriminate P; injection P as <- <- <-; unfold Model_DeeperNode.dstep in E; cbn [Model_DeeperNode.dexec] in E.
      + unfold Model_DeeperNode.report_credit_proof in E.
        change (Model_DeeperNode.x_verify (nctx cfg x w)) with
          (Model_CreditAccumulation.verify_atomos_signature (wc_verify cfg) (wc_hash cfg) (w_proofs w)) in E.
        destruct (Model_CreditAccumulation.verify_atomos_signature _ _ _ _ _ _); [reflexivity|discriminate E].
      + unfold Model_DeeperNode.reward_mapping in E.
        change (Model_DeeperNode.x_verify_new (nctx cfg x w)) with
          (Model_CreditAccumulation.verify_atomos_new_signature (wc_verify cfg) (wc_hash cfg) (w_proofs w)) in E.
        unfold Model_CreditAccumulation.verify_atomos_signature.
        unfold Model_CreditAccumulation.verify_atomos_new_signature in E.
        destruct (Model_CreditAccumulation.do_verify _ _ _ _ _ _); [reflexivity|discriminate E].
    - destruct o as [|a|]; try discriminate P. destruct c as [k|l]; try discriminate P.
      destruct k; try discriminate P. injection P as <- <- <-.
      destruct (Model_CreditAccumulation.verify_atomos_signature _ _ _ _ _ _) eqn:V; [reflexivity|].
      cbn [wstep fst snd] in W. destruct (staking_unsigned cfg w x a level ev V W). }
  unfold Model_CreditAccumulation.verify_atomos_signature in Old.
  destruct (Model_CreditAccumulation.do_verify _ _ nonce sg who (default 0 (Model_CreditAccumulation.a_key (w_proofs w)))) eqn:V1.
  - exists (default 0 (Model_CreditAccumulation.a_key (w_proofs w))). split; [|exact V1].
    destruct (Model_CreditAccumulation.a_key (w_proofs w)); auto.
  - exists (default 0 (Model_CreditAccumulation.a_tmp (w_proofs w))). split; [|exact Old].
    destruct (Model_CreditAccumulation.a_tmp (w_proofs w)); auto.
Qed.
Print Assumptions C168_own.
Theorem C168_partial cfg b p settings data evm u h who :
  let g := wgenesis b p settings data evm u in let l := claimed who (wlog cfg g h) in
  l = Spec_CreditAccumulation.counter (length l) /\ (N.of_nat (length l) <= 2 ^ 64 -> NoDup l).
Proof.
  intros g l. assert (E : l = Spec_CreditAccumulation.counter (length l)).
  { unfold l at 1. rewrite (run_claimed cfg h g who 0); [reflexivity|]. cbn. now rewrite lookup_empty. }
  split; [exact E|]. intros F. rewrite E. now apply Proofs_CreditAccumulation.counter_nodup.
Qed.
Print Assumptions C168_partial.
Definition xuse : list wop := xdev ++
  [node_ 10 5 (Model_DeeperNode.DRewardMapping 0 osig 601); node_ 10 5 (Model_DeeperNode.DReportProof 0 osig 1 2 3);
   at_ 10 (WProof (Signed 5) (Model_CreditAccumulation.AAddCredit 0 osig)); at_ 11 (WProof (Signed 5) (Model_CreditAccumulation.AAddCredit 0 osig));
   at_ 11 (WProof (Signed 6) (Model_CreditAccumulation.AAddCredit 0 osig)); node_ 12 5 (Model_DeeperNode.DReportProof 0 osig 1 2 900)].
Example C168_example :
  endorsed xdwcfg (wrun xdwcfg xw0 xdev) 0 osig 5 = true /\ uses 5 0 osig (wlog xdwcfg xw0 xuse) = 5%nat /\
  claimed 5 (wlog xdwcfg xw0 xuse) = [0] /\ claimed 6 (wlog xdwcfg xw0 xuse) = [].
Proof. vm_compute. repeat split. Qed.
(** One signature buys two levels; it is no use to another account. *)
Definition xlevels : list wop := xwsetup ++
  [at_ 9 (WProof Root (Model_CreditAccumulation.ASetKey 77)); stk 14 5 (Model_Staking.KStakeDelegate 3);
   stk 14 5 (Model_Staking.KStakeDelegate 4); stk 14 6 (Model_Staking.KStakeDelegate 3)].
Example C168_levels :
  uses 5 0 osig (wlog xdwcfg xw0 xlevels) = 2%nat /\ uses 6 0 osig (wlog xdwcfg xw0 xlevels) = 0%nat /\
  presents (stk 14 6 (Model_Staking.KStakeDelegate 3)) = Some (6, 0, osig).
Proof. vm_compute. repeat split. Qed.
