(** Properties C62-C66 and C90-C92 (pallets/tips). *)
From Verif Require Import Base Balances Proofs_Balances Proofs_Arith Model_Tips Spec_Tips Proofs_Tips Proofs_Tips2 Proofs_Tips3 Proofs_Tips4 Proofs_Tips5.
From Verif Require Model_Credit Proofs_Credit Props_Credit.
From stdpp Require Import gmap sorting.
Open Scope N_scope.

(** An example: five tippers; account 9 pays; 1 reports work done by 7. *)
Definition zt : tcfg := TCfg 10 100 15 1 5 20 20 (fun l => Npos (encode l)) (fun a b => Npos (encode (a, b))).
Definition zm : list N := [21; 22; 23; 24; 25].
Definition zx (n : N) (m : list N) : tctx := TCtx n m false.
Definition zbank : bank := Bank (<[1 := Acct 1000 0 0]> (<[7 := Acct 500 0 0]> (<[9 := Acct 5000 0 0]> ∅))) 0.
Definition zh : N := tc_thash zt (tc_rhash zt [3; 4]) 7.
Definition zvote (w v n : N) : tiop := TCall (zx n zm) (Signed w) (TTip zh v).
Definition zhist : list tiop :=
  [TCall (zx 1 zm) Root (TSetOwner 9); TCall (zx 2 zm) (Signed 1) (TReport [3; 4] 7);
   zvote 23 300 3; zvote 21 100 3; zvote 25 900 4; zvote 21 200 5].
Definition zs : tstate := trun zt (tgenesis zbank) zhist.
Definition zlog : list (tiop * tout) := tlog zt (tgenesis zbank) zhist.

Lemma zt_inj : hash_inj (tc_thash zt).
Proof. intros a b c d H. injection H as H. apply (inj encode) in H. now injection H. Qed.
Lemma zt_dep : deposit_ok zt.
Proof. repeat split; vm_compute; congruence. Qed.
Lemma zm_sorted : StronglySorted N.lt zm.
Proof. repeat (constructor; [|repeat constructor]). constructor. Qed.
Lemma zhist_ok : hist_ok zhist.
Proof. repeat (constructor; [split; [apply zm_sorted|vm_compute; auto]|]). constructor. Qed.

(** C62. Closing a tip announces exactly the median of the values declared by the
    present tippers, less the finder's share of a public report, and the tip is gone
    afterwards, so it is closed once. *)
Theorem C62_median :
  forall cfg b hist x w h s' ev, hist_ok hist -> deposit_ok cfg -> tc_fee cfg <= 100 ->
  StronglySorted N.lt (tx_members x) ->
  let s := trun cfg (tgenesis b) hist in let L := tlog cfg (tgenesis b) hist in
  tstep cfg s (TCall x (Signed w) (TClose h)) = (s', TDone ev) ->
  exists op med fee, opened cfg L h = Some op /\
    is_median med (declared cfg Coin L h (tx_members x)) /\
    (forall m, is_median m (declared cfg Coin L h (tx_members x)) -> m = med) /\
    fee <= med /\
    (if by_report op && negb (by_whom op =? for_whom op) then percent_of (tc_fee cfg) med fee else fee = 0) /\
    ev = [TClosed h (for_whom op) (med - fee)] /\
    (forall x' o', (tstep cfg s' (TCall x' o' (TClose h))).2 <> TPanic /\
       forall ev', (tstep cfg s' (TCall x' o' (TClose h))).2 <> TDone ev').
Proof.
  intros cfg b hist x w h s' ev Hh Hd Hf Sm s L E. cbn [tstep] in E.
  destruct (texec cfg x s (Signed w) (TClose h)) as [[s1 ev1]| |] eqn:Ex; try discriminate. injection E as <- <-.
  destruct (close_facts cfg _ _ _ _ _ _ Ex) as (t & n & med & Ht & _ & _ & Hm & Hev & Hdel & _).
  destruct (reach_votes cfg b hist Hh) as [V _]. fold s in V. destruct (V _ _ Ht Coin) as [O F].
  cbn [votes] in *. pose proof (middle_median _ _ Sm O) as M. rewrite Hm in M.
  change (ot_tips t) with (votes Coin t) in M. rewrite (reach_declared cfg b hist Coin h t _ Hh Ht) in M. fold L in M.
  pose proof (middle_bound _ _ _ Sm O F Hm) as Hmed.
  set (fee := if ot_fee t && negb (ot_finder t =? ot_who t) then frac_mul (tc_fee cfg) PERCENT med else 0) in *.
  assert (Hfee : fee <= med) by (unfold fee; destruct (_ && _); [now apply percent_le|lia]).
  exists (Opening (ot_fee t) (ot_finder t) (ot_who t) (ot_deposit t)), med, fee. cbn [by_report by_whom for_whom].
  split; [unfold L; rewrite <- reach_opening by exact Hd; unfold opening_of; fold s; now rewrite Ht|].
  split; [exact M|]. split; [intros m Hm'; eapply median_unique; eassumption|]. split; [exact Hfee|]. split.
  { unfold fee. destruct (_ && _); [|reflexivity]. apply frac_mul_nearest. vm_compute. discriminate. }
  split; [rewrite Hev, sub128_exact by assumption; reflexivity|].
  intros x' o'. cbn [tstep texec]. destruct o'; cbn; try (split; [discriminate|intros ?; discriminate]).
  unfold close, find_tip. rewrite Hdel, lookup_delete. cbn. split; [discriminate|intros ?; discriminate].
Qed.
Print Assumptions C62_median.

Example C62_example :
  declared zt Coin zlog zh zm = [200; 300; 900] /\ opened zt zlog zh = Some (Opening true 1 7 22) /\
  (tstep zt zs (TCall (zx 9 zm) (Signed 4) (TClose zh))).2 = TDone [TClosed zh 7 240] /\
  (tstep zt zs (TCall (zx 9 [21; 22; 25]) (Signed 4) (TClose zh))).2 = TDone [TClosed zh 7 720].
Proof. vm_compute. auto. Qed.

(** C62, the payment: when the tip account can pay and the receivers can be paid,
    the account pays exactly the median, and beneficiary and finder get their shares;
    nobody else's money moves. Missing: the payment does not happen in all cases, see
    [C62_refuted]; a tip account that is itself beneficiary or finder is left out. *)
Theorem C62_paid_partial :
  forall cfg b hist x w h s' ev op med fee, hist_ok hist -> deposit_ok cfg -> tc_fee cfg <= 100 ->
  hash_inj (tc_thash cfg) -> respects cfg (tgenesis b) hist -> StronglySorted N.lt (tx_members x) ->
  let s := trun cfg (tgenesis b) hist in let L := tlog cfg (tgenesis b) hist in
  tstep cfg s (TCall x (Signed w) (TClose h)) = (s', TDone ev) ->
  opened cfg L h = Some op -> is_median med (declared cfg Coin L h (tx_members x)) ->
  ev = [TClosed h (for_whom op) (med - fee)] -> fee <= med ->
  tip_account s <> for_whom op -> tip_account s <> by_whom op -> can_pay cfg (t_bank s) (tip_account s) med ->
  can_receive cfg (t_bank s) (by_whom op) fee -> can_receive cfg (t_bank s) (for_whom op) (med - fee) ->
  forall a, worth (t_bank s') a + (if a =? tip_account s then med else 0) =
            worth (t_bank s) a + (if a =? for_whom op then med - fee else 0) + (if a =? by_whom op then fee else 0).
Proof.
  intros cfg b hist x w h s' ev op med fee Hh Hd Hf Hi Hr Sm s L E Hop Hmed Hev Hle N1 N2 Pay R1 R2.
  cbn [tstep] in E.
  destruct (texec cfg x s (Signed w) (TClose h)) as [[s1 ev1]| |] eqn:Ex; try discriminate. injection E as <- <-.
  destruct (close_facts cfg _ _ _ _ _ _ Ex) as (t & n & med0 & Ht & _ & _ & Hm & Hev0 & Hdel & _).
  destruct (reach_votes cfg b hist Hh) as [V _]. fold s in V. destruct (V _ _ Ht Coin) as [O F].
  cbn [votes] in *. pose proof (middle_median _ _ Sm O) as M. rewrite Hm in M.
  change (ot_tips t) with (votes Coin t) in M. rewrite (reach_declared cfg b hist Coin h t _ Hh Ht) in M. fold L in M.
  assert (med0 = med) as -> by (eapply median_unique; eassumption).
  pose proof (middle_bound _ _ _ Sm O F Hm) as Hb.
  unfold L in Hop. rewrite <- reach_opening in Hop by exact Hd. unfold opening_of in Hop. fold s in Hop. rewrite Ht in Hop.
  injection Hop as <-. cbn [by_whom for_whom] in *.
  set (fee0 := if ot_fee t && negb (ot_finder t =? ot_who t) then frac_mul (tc_fee cfg) PERCENT med else 0) in *.
  assert (Hfee : fee0 <= med) by (unfold fee0; destruct (_ && _); [now apply percent_le|lia]).
  rewrite Hev, sub128_exact in Hev0 by assumption. injection Hev0 as Hev0. assert (fee0 = fee) as Ef by lia.
  assert (Rr : rinv cfg s) by (apply run_rinv; [exact Hi|apply genesis_rinv]).
  intros a. pose proof (close_pays cfg x s h s1 ev1 w t med Sm V (run_dep cfg hist Hd _ (genesis_dep cfg b))
    (run_backed cfg Hi hist _ (genesis_rinv cfg b) (genesis_backed b) Hr) Hf Ex Ht Hm) as K.
  cbv zeta in K. fold fee0 in K. rewrite Ef in K. apply K; assumption.
Qed.
Print Assumptions C62_paid_partial.
Example C62_paid_example :
  let b := t_bank zs in let b' := t_bank (tstep zt zs (TCall (zx 9 zm) (Signed 4) (TClose zh))).1 in
  respects zt (tgenesis zbank) zhist /\ is_median 300 (declared zt Coin zlog zh zm) /\
  tip_account zs = 9 /\ can_pay zt b 9 300 /\ can_receive zt b 1 60 /\ can_receive zt b 7 240 /\
  (free_of b 1, rsv_of b 1, free_of b 7, free_of b 9) = (978, 22, 500, 5000) /\
  (free_of b' 1, rsv_of b' 1, free_of b' 7, free_of b' 9) = (1060, 0, 740, 4700).
Proof.
  cbv zeta. split; [vm_compute; auto 12|]. split.
  { replace (declared zt Coin zlog zh zm) with [200; 300; 900] by (vm_compute; reflexivity).
    split; [right; left|]. split; [apply Nat.leb_le|apply Nat.ltb_lt]; vm_compute; reflexivity. }
  split; [reflexivity|]. split; [apply N.leb_le; vm_compute; reflexivity|].
  split; [right; split; [apply N.leb_le|apply N.ltb_lt]; vm_compute; reflexivity|].
  split; [right; split; [apply N.leb_le|apply N.ltb_lt]; vm_compute; reflexivity|].
  vm_compute. auto.
Qed.

(** C62 in full is false: if the account that pays tips is not set, or holds too
    little, closing succeeds and announces the payout, but nothing is paid, and the
    tip is gone. *)
Definition zhist0 : list tiop := tail zhist.
Theorem C62_refuted :
  exists cfg b hist x w h who v, hist_ok hist /\
  let s := trun cfg (tgenesis b) hist in
  (tstep cfg s (TCall x (Signed w) (TClose h))).2 = TDone [TClosed h who v] /\ 0 < v /\
  worth (t_bank (tstep cfg s (TCall x (Signed w) (TClose h))).1) who = worth (t_bank s) who /\
  t_tips (tstep cfg s (TCall x (Signed w) (TClose h))).1 !! h = None.
Proof.
  exists zt, zbank, zhist0, (zx 9 zm), 4, zh, 7, 240. split; [exact (Forall_inv_tail zhist_ok)|].
  vm_compute. auto.
Qed.
Print Assumptions C62_refuted.

(** C63. Closing a tip needs a declaration that made at least half of the tippers of
    that moment, and the countdown since then. Missing: the half may have declared
    credit values instead of balance values, see [C63_refuted]. *)
Theorem C63_partial :
  forall cfg b hist x o h s' ev, hist_ok hist ->
  let L := tlog cfg (tgenesis b) hist in
  tstep cfg (trun cfg (tgenesis b) hist) (TCall x o (TClose h)) = (s', TDone ev) ->
  exists ch x0 w0 v0 L1 L2,
    let e := (TCall x0 (Signed w0) (declare ch h v0), TDone [TClosing h]) in
    L = L1 ++ e :: L2 /\ half_said cfg ch (L1 ++ [e]) h (tx_members x0) /\ Forall (quiet h) L2 /\
    (tx_block x0 + tc_countdown cfg < two32 -> tx_block x0 + tc_countdown cfg <= tx_block x).
Proof.
  intros cfg b hist x o h s' ev Hh L E. cbn [tstep] in E. set (s := trun _ _ _) in *.
  destruct (texec cfg x s o (TClose h)) as [[s1 ev1]| |] eqn:Ex; try discriminate.
  assert (Ho : exists w, o = Signed w) by (destruct o; try discriminate; eauto). destruct Ho as [w ->].
  destruct (close_facts cfg _ _ _ _ _ _ Ex) as (t & n & med & Ht & Hn & Hle & _).
  destruct (reach_marked cfg b hist Hh h t n Ht Hn) as (ch & x0 & w0 & v0 & L1 & L2 & EL & H1 & H2 & H3).
  exists ch, x0, w0, v0, L1, L2. split; [exact EL|]. split; [exact H1|]. split; [exact H3|].
  intros Hb. rewrite H2, add32_exact in Hle by exact Hb. exact Hle.
Qed.
Print Assumptions C63_partial.
(** Where nobody declares credit for the tip, the property holds in full. *)
Theorem C63_coin :
  forall cfg b hist x o h s' ev, hist_ok hist ->
  let L := tlog cfg (tgenesis b) hist in
  (forall x1 o1 v1 out, (TCall x1 o1 (TCreditTip h v1), out) ∉ L) ->
  tstep cfg (trun cfg (tgenesis b) hist) (TCall x o (TClose h)) = (s', TDone ev) ->
  exists x0 w0 v0 L1 L2,
    let e := (TCall x0 (Signed w0) (TTip h v0), TDone [TClosing h]) in
    L = L1 ++ e :: L2 /\ half_said cfg Coin (L1 ++ [e]) h (tx_members x0) /\ Forall (quiet h) L2 /\
    (tx_block x0 + tc_countdown cfg < two32 -> tx_block x0 + tc_countdown cfg <= tx_block x).
Proof.
  intros cfg b hist x o h s' ev Hh L Hno E.
  destruct (C63_partial cfg b hist x o h s' ev Hh E) as (ch & x0 & w0 & v0 & L1 & L2 & EL & K). fold L in EL.
  destruct ch; [exists x0, w0, v0, L1, L2; split; [exact EL|exact K]|].
  exfalso. eapply Hno. rewrite EL. apply elem_of_app. right. left.
Qed.
Print Assumptions C63_coin.
Example C63_example :
  nth 4 zlog (TBank zbank, TPanic) = (TCall (zx 4 zm) (Signed 25) (TTip zh 900), TDone [TClosing zh]) /\
  declared zt Coin (take 5 zlog) zh zm = [100; 300; 900] /\
  (tstep zt zs (TCall (zx 8 zm) (Signed 4) (TClose zh))).2 = TFail TPremature /\
  (tstep zt zs (TCall (zx 9 zm) (Signed 4) (TClose zh))).2 = TDone [TClosed zh 7 240].
Proof. vm_compute. auto. Qed.

(** C63 in full is false: credit declarations start the countdown, and then a single
    balance declaration decides the payout, although never more than one of the five
    tippers declared a balance value. *)
Definition zcvote (w v n : N) : tiop := TCall (zx n zm) (Signed w) (TCreditTip zh v).
Definition zhist3 : list tiop :=
  [TCall (zx 1 zm) Root (TSetOwner 9); TCall (zx 2 zm) (Signed 21) (TCreditNew [3; 4] 7 5);
   zcvote 22 5 3; zcvote 23 5 3; zvote 25 4000 9].
Theorem C63_refuted :
  exists cfg b hist x w h who v m, hist_ok hist /\
  (forall x' o' c', TCall x' o' c' ∈ hist -> tx_members x' = m) /\ tx_members x = m /\
  (tstep cfg (trun cfg (tgenesis b) hist) (TCall x (Signed w) (TClose h))).2 = TDone [TClosed h who v] /\ 0 < v /\
  forall k, ~ half_said cfg Coin (take k (tlog cfg (tgenesis b) hist)) h m.
Proof.
  exists zt, zbank, zhist3, (zx 9 zm), 25, zh, 7, 4000, zm. split.
  { repeat (constructor; [split; [apply zm_sorted|vm_compute; auto]|]). constructor. }
  split; [intros x' o' c' H; repeat (apply elem_of_cons in H as [[= -> -> ->]|H]; [reflexivity|]); now apply elem_of_nil in H|].
  split; [reflexivity|]. split; [vm_compute; reflexivity|]. split; [reflexivity|]. intros k.
  destruct (le_lt_dec 5 k) as [Hk|Hk].
  - rewrite take_ge by (vm_compute; lia). vm_compute. lia.
  - do 5 (destruct k as [|k]; [vm_compute; lia|]). lia.
Qed.
Print Assumptions C63_refuted.

(** C64. Exactly when a call panics: a ripe tip is closed in a channel in which no
    present tipper has declared a value. Missing: such tips exist, see [C64_refuted]. *)
Theorem C64_partial :
  forall cfg b hist x o c, hist_ok hist -> StronglySorted N.lt (tx_members x) ->
  let s := trun cfg (tgenesis b) hist in
  (tstep cfg s (TCall x o c)).2 = TPanic <->
  exists ch h t n w, c = (match ch with Coin => TClose h | Cred => TCreditClose h end) /\ o = Signed w /\
    t_tips s !! h = Some t /\ ot_closes t = Some n /\ n <= tx_block x /\
    declared cfg ch (tlog cfg (tgenesis b) hist) h (tx_members x) = [].
Proof.
  intros cfg b hist x o c Hh Sm s.
  assert (P : (tstep cfg s (TCall x o c)).2 = TPanic <-> texec cfg x s o c = RPanic).
  { cbn [tstep]. destruct (texec cfg x s o c) as [[? ?]| |]; cbn; split; congruence. }
  rewrite P, exec_panic. destruct (reach_votes cfg b hist Hh) as [V _]. fold s in V.
  assert (M : forall ch h t, t_tips s !! h = Some t ->
    middle (tx_members x) (votes ch t) = None <-> declared cfg ch (tlog cfg (tgenesis b) hist) h (tx_members x) = []).
  { intros ch h t Ht. destruct (V _ _ Ht ch) as [O _]. pose proof (middle_median _ _ Sm O) as M.
    rewrite (reach_declared cfg b hist ch h t _ Hh Ht) in M. destruct (middle _ _) as [v|]; [|tauto].
    split; [discriminate|]. intros E. rewrite E in M. destruct M as [M _]. now apply elem_of_nil in M. }
  split; intros (ch & h & t & n & w & H1 & H2 & H3 & H4 & H5 & H6); exists ch, h, t, n, w; repeat (split; [assumption|]);
    apply (M ch h t H3); exact H6.
Qed.
Print Assumptions C64_partial.
Example C64_example :
  declared zt Coin zlog zh [26; 27] = [] /\
  (tstep zt zs (TCall (zx 9 [26; 27]) (Signed 4) (TClose zh))).2 = TPanic /\
  (tstep zt zs (TCall (zx 9 [25; 26]) (Signed 4) (TClose zh))).2 = TDone [TClosed zh 7 720].
Proof. vm_compute. auto. Qed.
(** C64 in full is false: a tip valued in credit only, once ripe, panics when closed
    for balance. *)
Theorem C64_refuted :
  exists cfg b hist x w h t n, hist_ok hist /\ StronglySorted N.lt (tx_members x) /\
  let s := trun cfg (tgenesis b) hist in
  t_tips s !! h = Some t /\ ot_closes t = Some n /\ n <= tx_block x /\
  (tstep cfg s (TCall x (Signed w) (TClose h))).2 = TPanic.
Proof.
  exists zt, zbank, (take 4 zhist3), (zx 9 zm), 4, zh.
  assert (H : exists t n, t_tips (trun zt (tgenesis zbank) (take 4 zhist3)) !! zh = Some t /\ ot_closes t = Some n /\ n <= 9).
  { vm_compute. eexists _, _. split; [reflexivity|]. split; [reflexivity|]. discriminate. }
  destruct H as (t & n & H1 & H2 & H3). exists t, n. split.
  { repeat (constructor; [split; [apply zm_sorted|vm_compute; auto]|]). constructor. }
  split; [apply zm_sorted|]. split; [exact H1|]. split; [exact H2|]. split; [exact H3|]. vm_compute. reflexivity.
Qed.
Print Assumptions C64_refuted.

(** C65, reasons: an open tip is found under the hash of its reason and beneficiary,
    and its reason's text is stored; no two open tips share a reason; and no text is
    kept without an open tip. *)
Theorem C65_reasons :
  forall cfg b hist, hash_inj (tc_thash cfg) ->
  let s := trun cfg (tgenesis b) hist in
  (forall h t, t_tips s !! h = Some t -> h = tc_thash cfg (ot_reason t) (ot_who t) /\
     exists txt, t_reasons s !! ot_reason t = Some txt /\ tc_rhash cfg txt = ot_reason t) /\
  (forall h1 h2 t1 t2, t_tips s !! h1 = Some t1 -> t_tips s !! h2 = Some t2 -> ot_reason t1 = ot_reason t2 -> h1 = h2) /\
  (forall r, is_Some (t_reasons s !! r) -> exists h t, t_tips s !! h = Some t /\ ot_reason t = r).
Proof. intros cfg b hist Hi. apply (run_rinv cfg Hi hist _ (genesis_rinv cfg b)). Qed.
Print Assumptions C65_reasons.
(** C65, deposits: as long as other pallets leave them alone, the reserved balance of
    an account covers the deposits of its open tips; and each call changes the
    reserved balance of each account by exactly what its deposits change. *)
Theorem C65_deposits :
  forall cfg b hist x o c a, hash_inj (tc_thash cfg) -> respects cfg (tgenesis b) hist ->
  let s := trun cfg (tgenesis b) hist in let s' := (tstep cfg s (TCall x o c)).1 in
  held s a <= rsv_of (t_bank s) a /\
  rsv_of (t_bank s') a + held s a = rsv_of (t_bank s) a + held s' a.
Proof.
  intros cfg b hist x o c a Hi Hr s s'.
  pose proof (run_rinv cfg Hi hist _ (genesis_rinv cfg b)) as R.
  pose proof (run_backed cfg Hi hist _ (genesis_rinv cfg b) (genesis_backed b) Hr) as B.
  split; [apply B|]. apply (call_deposits cfg Hi s x o c a R B).
Qed.
Print Assumptions C65_deposits.
(** C65, release: retracting or closing gives the finder exactly the deposit made at
    the opening; slashing takes exactly that from the reserve. *)
Theorem C65_release :
  forall cfg b hist x o c h op s' ev, hash_inj (tc_thash cfg) -> deposit_ok cfg -> respects cfg (tgenesis b) hist ->
  let s := trun cfg (tgenesis b) hist in let L := tlog cfg (tgenesis b) hist in
  match c with TRetract k | TClose k | TSlash k | TCreditClose k => k = h | _ => False end ->
  opened cfg L h = Some op -> tstep cfg s (TCall x o c) = (s', TDone ev) ->
  with_deposit op <= rsv_of (t_bank s) (by_whom op) /\
  rsv_of (t_bank s') (by_whom op) + with_deposit op = rsv_of (t_bank s) (by_whom op) /\
  (forall a, a <> by_whom op -> rsv_of (t_bank s') a = rsv_of (t_bank s) a) /\
  match c with
  | TRetract _ | TCreditClose _ =>
      free_of (t_bank s') (by_whom op) = free_of (t_bank s) (by_whom op) + with_deposit op /\
      forall a, a <> by_whom op -> acct_of (t_bank s') a = acct_of (t_bank s) a
  | TSlash _ => lost (t_bank s) + with_deposit op <= lost (t_bank s') /\
      forall a, a <> by_whom op -> acct_of (t_bank s') a = acct_of (t_bank s) a
  | _ => True
  end.
Proof.
  intros cfg b hist x o c h op s' ev Hi Hd Hr s L Hc Hop E.
  pose proof (run_backed cfg Hi hist _ (genesis_rinv cfg b) (genesis_backed b) Hr) as B. fold s in B.
  pose proof (run_dep cfg hist Hd _ (genesis_dep cfg b)) as D. fold s in D.
  unfold L in Hop. rewrite <- reach_opening in Hop by exact Hd. unfold opening_of in Hop. fold s in Hop.
  destruct (t_tips s !! h) as [t|] eqn:Ht; [|discriminate]. injection Hop as <-. cbn [by_whom with_deposit].
  cbn [tstep] in E. destruct (texec cfg x s o c) as [[s1 ev1]| |] eqn:Ex; try discriminate. injection E as <- <-.
  assert (Hdep : ot_deposit t <= rsv_of (t_bank s) (ot_finder t)) by (etransitivity; [eapply held_le; exact Ht|apply B]).
  pose proof (fun a => drop_rsv cfg _ _ _ _ _ _ h t a Ex Ht Hc) as Q.
  split; [exact Hdep|]. split; [specialize (Q (ot_finder t)); rewrite N.eqb_refl in Q; lia|].
  split; [intros a Ha; specialize (Q a); apply N.eqb_neq in Ha; rewrite Ha in Q; lia|].
  destruct (give_back_exact cfg (drop_tip s h t) t (D _ _ Ht) Hdep) as [G1 G2].
  destruct c; try contradiction; subst h0; try exact I; cbn [texec] in Ex.
  - destruct (signed o) as [w| |]; cbn in Ex; try discriminate. unfold retract, find_tip, ensure in Ex. rewrite Ht in Ex. cbn in Ex.
    destruct (_ =? _); cbn in Ex; [|discriminate]. injection Ex as <- <-. split; [|exact G2].
    unfold free_of. rewrite G1. reflexivity.
  - unfold ensure in Ex. destruct (tx_reject x); cbn in Ex; [|discriminate]. unfold slash, find_tip in Ex. rewrite Ht in Ex. cbn in Ex.
    destruct (slash_reserved _ _ _ _) as [b1 got] eqn:Es. injection Ex as <- <-.
    destruct (N.eqb_spec (ot_deposit t) 0) as [E0|E0]; cbn; [rewrite E0; split; [lia|reflexivity]|].
    unfold slash_reserved in Es. apply N.eqb_neq in E0. rewrite E0 in Es. injection Es as <- <-. split.
    + unfold rsv_of in Hdep. rewrite N.min_r by exact Hdep.
      destruct (put_lost (tc_ed cfg) (t_bank s) (ot_finder t) (Acct (free (acct_of (t_bank s) (ot_finder t)))
        (rsv (acct_of (t_bank s) (ot_finder t)) - ot_deposit t) (frz (acct_of (t_bank s) (ot_finder t))))) as [K _]. lia.
    + intros a Ha. change (acct_of (Bank (accts ?b) ?n) a) with (acct_of b a). now apply put_acct_ne.
  - destruct (signed o) as [w| |]; cbn in Ex; try discriminate. unfold credit_close, find_tip in Ex. rewrite Ht in Ex. cbn in Ex.
    destruct (ripe x t); cbn in Ex; try discriminate. destruct (middle _ _); [|discriminate]. injection Ex as <- <-. split; [|exact G2].
    unfold free_of. rewrite G1. reflexivity.
Qed.
Print Assumptions C65_release.
Example C65_example :
  let s1 := (tstep zt zs (TCall (zx 6 zm) (Signed 1) (TRetract zh))).1 in
  let s2 := (tstep zt zs (TCall (TCtx 6 zm true) (Signed 8) (TSlash zh))).1 in
  t_reasons zs !! tc_rhash zt [3; 4] = Some [3; 4] /\ t_reasons s1 !! tc_rhash zt [3; 4] = None /\
  (held zs 1, held s1 1) = (22, 0) /\
  (free_of (t_bank s1) 1, rsv_of (t_bank s1) 1) = (1000, 0) /\
  (free_of (t_bank s2) 1, rsv_of (t_bank s2) 1, lost (t_bank s2)) = (978, 0, 22).
Proof. vm_compute. auto 10. Qed.

(** C66. Closing a tip for credit awards the median of the credit values declared by
    the present tippers, but never more than the maximum reward; and no other call
    awards credit. *)
Theorem C66_cap :
  forall cfg b hist x o c s' ev who v, hist_ok hist -> deposit_ok cfg -> StronglySorted N.lt (tx_members x) ->
  let s := trun cfg (tgenesis b) hist in let L := tlog cfg (tgenesis b) hist in
  tstep cfg s (TCall x o c) = (s', TDone ev) -> TCredit who v ∈ ev ->
  v <= tc_maxcredit cfg /\
  exists h op med, c = TCreditClose h /\ opened cfg L h = Some op /\ who = for_whom op /\
    is_median med (declared cfg Cred L h (tx_members x)) /\ v = N.min med (tc_maxcredit cfg) /\
    ev = [TCredit who v; TCreditClosed h who v].
Proof.
  intros cfg b hist x o c s' ev who v Hh Hd Sm s L E Hin. cbn [tstep] in E.
  destruct (texec cfg x s o c) as [[s1 ev1]| |] eqn:Ex; try discriminate. injection E as <- <-.
  destruct (exec_change cfg _ _ _ _ _ _ Ex) as [reason k t0 w Hk Hr Hnn Ho Hf Hc Ht0 Hrs Hw Hm Hev|k t0 t' w v' b0 Hk Ho Hw Hm Hs Hev|k t0 Hk Hm Ht0 Hr Hw Hev|w0 Hc Ho Hs Hev].
  - subst ev1. destruct c; try contradiction; apply elem_of_list_singleton in Hin; discriminate.
  - subst ev1. destruct b0; cbn in Hin; [apply elem_of_list_singleton in Hin; discriminate|now apply elem_of_nil in Hin].
  - destruct c; try contradiction; subst h; cbn [texec] in Ex.
    + destruct (signed o); cbn in Ex; try discriminate. unfold retract, find_tip, ensure in Ex. rewrite Hk in Ex. cbn in Ex.
      destruct (_ =? _); cbn in Ex; [|discriminate]. injection Ex as <- <-. apply elem_of_list_singleton in Hin. discriminate.
    + destruct (signed o); cbn in Ex; try discriminate. unfold close, find_tip in Ex. rewrite Hk in Ex. cbn in Ex.
      destruct (ripe x t0); cbn in Ex; try discriminate. unfold payout_tip in Ex. destruct (middle _ _); [|discriminate].
      injection Ex as <- <-. apply elem_of_list_singleton in Hin. discriminate.
    + unfold ensure in Ex. destruct (tx_reject x); cbn in Ex; [|discriminate]. unfold slash, find_tip in Ex. rewrite Hk in Ex.
      cbn in Ex. destruct (slash_reserved _ _ _ _). injection Ex as <- <-. apply elem_of_list_singleton in Hin. discriminate.
    + destruct (signed o); cbn in Ex; try discriminate. unfold credit_close, find_tip in Ex. rewrite Hk in Ex. cbn in Ex.
      destruct (ripe x t0); cbn in Ex; try discriminate. destruct (middle _ _) as [med|] eqn:Em; [|discriminate].
      injection Ex as <- <-. apply elem_of_cons in Hin as [[= -> ->]|Hin]; [|apply elem_of_list_singleton in Hin; discriminate].
      split; [lia|]. exists k, (Opening (ot_fee t0) (ot_finder t0) (ot_who t0) (ot_deposit t0)), med.
      destruct (reach_votes cfg b hist Hh) as [V _]. fold s in V. destruct (V _ _ Hk Cred) as [O _].
      pose proof (middle_median _ _ Sm O) as M. cbn [votes] in M. rewrite Em in M.
      change (ot_credits t0) with (votes Cred t0) in M. rewrite (reach_declared cfg b hist Cred k t0 _ Hh Hk) in M.
      split; [reflexivity|]. split; [unfold L; rewrite <- reach_opening by exact Hd; unfold opening_of; fold s; now rewrite Hk|].
      split; [reflexivity|]. split; [exact M|]. split; reflexivity.
  - subst. apply elem_of_list_singleton in Hin. discriminate.
Qed.
Print Assumptions C66_cap.
(** C66, in the credit pallet: an award of [v] raises the score of the beneficiary by
    at most [v], and no other account's. *)
Theorem C66_score :
  forall kc ks kx who v ks' a,
  Model_Credit.by_tip kc ks kx who v = ROk ks' ->
  (a <> who -> Model_Credit.k_uc ks' !! a = Model_Credit.k_uc ks !! a) /\
  default 0 (Model_Credit.credit_score ks' who) <= default 0 (Model_Credit.credit_score ks who) + v.
Proof.
  intros kc ks kx who v ks' a. unfold Model_Credit.by_tip. destruct (Model_Credit.kx_onboard kx who) as [n|]; [|intros [= <-]; split; [auto|lia]].
  unfold Model_Credit.update_credit. destruct (Model_Credit.k_uc ks !! who) as [d|] eqn:Ed.
  - intros H. erewrite Proofs_Credit.update_history_eq in H by apply lookup_insert.
    injection H as <-. unfold Model_Credit.credit_score. cbn. split; [intros Hn; now rewrite lookup_insert_ne by auto|].
    rewrite lookup_insert, Ed. cbn. unfold Model_Credit.sadd64. lia.
  - intros [= <-]. split; [auto|lia].
Qed.
Print Assumptions C66_score.

Definition zs6 : tstate := trun zt (tgenesis zbank)
  [TCall (zx 2 zm) (Signed 21) (TCreditNew [3; 4] 7 90); zcvote 22 5 3; zcvote 23 70 3].
Example C66_example :
  (tstep zt zs6 (TCall (zx 9 zm) (Signed 4) (TCreditClose zh))).2 = TDone [TCredit 7 15; TCreditClosed zh 7 15] /\
  (tstep zt zs6 (TCall (zx 9 [21; 22; 23; 24]) (Signed 4) (TCreditClose zh))).2 = TDone [TCredit 7 15; TCreditClosed zh 7 15] /\
  (tstep zt zs6 (TCall (zx 9 [22]) (Signed 4) (TCreditClose zh))).2 = TDone [TCredit 7 5; TCreditClosed zh 7 5].
Proof. vm_compute. auto. Qed.

Example C66_score_example :
  match Model_Credit.by_tip Props_Credit.xkcfg Props_Credit.xs0 (Props_Credit.xk 11) 1 15 with
  | ROk s => Model_Credit.credit_score Props_Credit.xs0 1 = Some 150 /\ Model_Credit.credit_score s 1 = Some 165 /\
             Model_Credit.credit_score s 2 = Some 205
  | _ => False
  end.
Proof. vm_compute. auto. Qed.

(** C90. Only tippers open tips or declare values, only the opener retracts, only the
    rejecting origin slashes and only Root names the paying account; a call that fails
    changes nothing. *)
Theorem C90_authority :
  forall cfg b hist x o c s' out, deposit_ok cfg ->
  let s := trun cfg (tgenesis b) hist in let L := tlog cfg (tgenesis b) hist in
  tstep cfg s (TCall x o c) = (s', out) ->
  match out with
  | TDone ev =>
      match c with
      | TReport _ _ | TClose _ | TCreditClose _ => exists w, o = Signed w
      | TRetract h => exists op, opened cfg L h = Some op /\ o = Signed (by_whom op)
      | TTipNew _ _ _ | TTip _ _ | TCreditNew _ _ _ | TCreditTip _ _ => exists w, o = Signed w /\ w ∈ tx_members x
      | TSlash _ => tx_reject x = true
      | TSetOwner _ => o = Root
      end /\
      tip_account s' = match c with TSetOwner a => a | _ => tip_account s end
  | _ => s' = s
  end.
Proof.
  intros cfg b hist x o c s' out Hd s L E. cbn [tstep] in E.
  destruct (texec cfg x s o c) as [[s1 ev1]| |] eqn:Ex; injection E as <- <-; try reflexivity.
  split.
  - destruct c; cbn [texec] in Ex.
    1,5,9: destruct o; try discriminate; eauto.
    2,3,5,6: destruct (tipper x o) as [w| |] eqn:Ew; cbn in Ex; try discriminate; apply tipper_ok in Ew as [? ?]; eauto.
    + destruct (signed o) as [w| |] eqn:Ew; cbn in Ex; try discriminate. apply signed_ok in Ew.
      unfold retract, find_tip, ensure in Ex. destruct (t_tips s !! h) as [t|] eqn:Ht; cbn in Ex; [|discriminate].
      destruct (N.eqb_spec (ot_finder t) w) as [Hf|]; cbn in Ex; [|discriminate].
      exists (Opening (ot_fee t) (ot_finder t) (ot_who t) (ot_deposit t)). cbn. split; [|now subst].
      unfold L. rewrite <- reach_opening by exact Hd. unfold opening_of. fold s. now rewrite Ht.
    + unfold ensure in Ex. now destruct (tx_reject x).
    + now destruct o.
  - destruct (exec_change cfg _ _ _ _ _ _ Ex) as [reason k t0 w Hk Hr Hnn Ho Hf Hc Ht0 Hrs Hw Hm Hev|k t0 t' w v' b0 Hk Ho Hw Hm Hs Hev|k t0 Hk Hm Ht0 Hr Hw Hev|w0 Hc Ho Hs Hev];
      unfold tip_account.
    + rewrite Hw. now destruct c.
    + subst s1. now destruct c.
    + rewrite Hw. now destruct c.
    + subst. reflexivity.
Qed.
Print Assumptions C90_authority.
Example C90_example :
  (tstep zt zs (TCall (zx 6 zm) (Signed 4) (TTip zh 5))).2 = TFail TBadOrigin /\
  (tstep zt zs (TCall (zx 6 zm) (Signed 7) (TRetract zh))).2 = TFail TNotFinder /\
  (tstep zt zs (TCall (zx 6 zm) (Signed 9) (TSlash zh))).2 = TFail TBadOrigin /\
  (tstep zt zs (TCall (zx 6 zm) (Signed 9) (TSetOwner 9))).2 = TFail TBadOrigin /\
  (tstep zt zs (TCall (zx 6 zm) (Signed 1) (TRetract zh))).2 = TDone [TRetracted zh].
Proof. vm_compute. auto 10. Qed.

(** C91. Only the opener retracts a tip, and gets the deposit back. Missing: the
    documentation says that only tips from a public report can be retracted, which is
    false, see [C91_refuted]. *)
Theorem C91_partial :
  forall cfg b hist x o h s' ev, hash_inj (tc_thash cfg) -> deposit_ok cfg -> respects cfg (tgenesis b) hist ->
  let s := trun cfg (tgenesis b) hist in let L := tlog cfg (tgenesis b) hist in
  tstep cfg s (TCall x o (TRetract h)) = (s', TDone ev) ->
  ev = [TRetracted h] /\ t_tips s' !! h = None /\
  exists op, opened cfg L h = Some op /\ o = Signed (by_whom op) /\
    free_of (t_bank s') (by_whom op) = free_of (t_bank s) (by_whom op) + with_deposit op /\
    forall a, a <> by_whom op -> acct_of (t_bank s') a = acct_of (t_bank s) a.
Proof.
  intros cfg b hist x o h s' ev Hi Hd Hr s L E.
  destruct (C90_authority cfg b hist x o (TRetract h) s' (TDone ev) Hd E) as [(op & Hop & Ho) _].
  destruct (C65_release cfg b hist x o (TRetract h) h op s' ev Hi Hd Hr eq_refl Hop E) as (_ & _ & _ & H).
  cbn [tstep] in E. destruct (texec cfg x _ o (TRetract h)) as [[s1 ev1]| |] eqn:Ex; try discriminate. injection E as <- <-.
  subst o. cbn in Ex. unfold retract, find_tip, ensure in Ex. destruct (t_tips _ !! h) as [t|] eqn:Ht; cbn in Ex; [|discriminate].
  destruct (_ =? _); cbn in Ex; [|discriminate]. injection Ex as <- <-. split; [reflexivity|].
  split; [rewrite give_back_tips; apply lookup_delete|]. exists op. auto.
Qed.
Print Assumptions C91_partial.
Theorem C91_refuted :
  exists cfg b hist x w h op, hist_ok hist /\
  opened cfg (tlog cfg (tgenesis b) hist) h = Some op /\ by_report op = false /\
  (tstep cfg (trun cfg (tgenesis b) hist) (TCall x (Signed w) (TRetract h))).2 = TDone [TRetracted h].
Proof.
  exists zt, zbank, [TCall (zx 2 zm) (Signed 21) (TTipNew [3; 4] 7 90)], (zx 9 zm), 21, zh, (Opening false 21 7 0). split.
  { repeat (constructor; [split; [apply zm_sorted|vm_compute; auto]|]). constructor. }
  vm_compute. auto.
Qed.
Print Assumptions C91_refuted.

(** C92. No call creates or destroys money, and nobody loses any, except: the tip
    account pays at most the median when a tip is closed, and the finder of a slashed
    tip loses the deposit (and what is left below the existential deposit). *)
Theorem C92_money :
  forall cfg s x o c, money (t_bank (tstep cfg s (TCall x o c)).1) = money (t_bank s).
Proof. intros cfg s x o c. now apply call_money. Qed.
Print Assumptions C92_money.
Theorem C92_loss :
  forall cfg b hist x o c a, hist_ok hist -> StronglySorted N.lt (tx_members x) ->
  hash_inj (tc_thash cfg) -> deposit_ok cfg -> tc_fee cfg <= 100 -> respects cfg (tgenesis b) hist ->
  let s := trun cfg (tgenesis b) hist in let L := tlog cfg (tgenesis b) hist in
  let s' := (tstep cfg s (TCall x o c)).1 in
  worth (t_bank s') a < worth (t_bank s) a ->
  (exists h med, c = TClose h /\ a = tip_account s /\ is_median med (declared cfg Coin L h (tx_members x)) /\
     worth (t_bank s) a <= worth (t_bank s') a + med) \/
  (exists h op, c = TSlash h /\ tx_reject x = true /\ opened cfg L h = Some op /\ a = by_whom op /\
     worth (t_bank s) a <= worth (t_bank s') a + with_deposit op + (if tc_ed cfg <=? free_of (t_bank s) a then 0 else tc_ed cfg)).
Proof.
  intros cfg b hist x o c a Hh Sm Hi Hd Hf Hr s L s' Hlt.
  pose proof (run_backed cfg Hi hist _ (genesis_rinv cfg b) (genesis_backed b) Hr) as B. fold s in B.
  pose proof (run_dep cfg hist Hd _ (genesis_dep cfg b)) as D. fold s in D.
  pose proof (call_loss cfg s x o c a D B) as K. cbv zeta in K. fold s' in K.
  destruct c; try lia.
  - left. destruct (t_tips s !! h) as [t|] eqn:Ht; [|lia]. destruct (N.eqb_spec a (payer s)) as [Ha|]; [|lia].
    destruct (middle _ _) as [med|] eqn:Em; [|lia].
    destruct (reach_votes cfg b hist Hh) as [V _]. fold s in V. destruct (V _ _ Ht Coin) as [O F].
    pose proof (middle_median _ _ Sm O) as M. cbn [votes] in M, O, F. rewrite Em in M.
    change (ot_tips t) with (votes Coin t) in M. rewrite (reach_declared cfg b hist Coin h t _ Hh Ht) in M.
    exists h, med. split; [reflexivity|]. split; [exact Ha|]. split; [exact M|].
    pose proof (middle_bound _ _ _ Sm O F Em) as Hb.
    set (fee := if ot_fee t && negb (ot_finder t =? ot_who t) then frac_mul (tc_fee cfg) PERCENT med else 0) in *.
    assert (Hfee : fee <= med) by (unfold fee; destruct (_ && _); [now apply percent_le|lia]).
    rewrite sub128_exact in K by assumption. lia.
  - right. destruct (t_tips s !! h) as [t|] eqn:Ht; [|lia]. destruct (N.eqb_spec a (ot_finder t)) as [Ha|]; [|lia].
    exists h, (Opening (ot_fee t) (ot_finder t) (ot_who t) (ot_deposit t)). split; [reflexivity|]. split.
    { unfold s' in Hlt. cbn [tstep texec] in Hlt. unfold ensure in Hlt. destruct (tx_reject x); [reflexivity|]. cbn in Hlt. lia. }
    split; [unfold L; rewrite <- reach_opening by exact Hd; unfold opening_of; fold s; now rewrite Ht|].
    split; [exact Ha|]. cbn [with_deposit]. destruct (N.leb_spec (tc_ed cfg) (free_of (t_bank s) a)); lia.
Qed.
Print Assumptions C92_loss.
Example C92_example :
  let b := t_bank zs in let b' := t_bank (tstep zt zs (TCall (zx 9 zm) (Signed 4) (TClose zh))).1 in
  let b2 := t_bank (tstep zt zs (TCall (TCtx 6 zm true) (Signed 8) (TSlash zh))).1 in
  (worth b 9, worth b' 9) = (5000, 4700) /\ (worth b 1, worth b2 1) = (1000, 978) /\
  (money b, money b', money b2) = (6500, 6500, 6500).
Proof. vm_compute. auto. Qed.
