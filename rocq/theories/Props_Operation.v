(** Operation pallet: properties C44-C47 and C81-C87. *)
From Verif Require Import Base Balances Proofs_Balances Model_Operation Spec_Operation Proofs_Operation Proofs_Operation2 Proofs_Operation3.
From stdpp Require Import gmap sorting.
Open Scope N_scope.

(** ** A concrete chain: setter 7, bridge admin 8, locker 9; accounts 1-3 hold
    money, account 50 is the bridge pool, 99 the treasury. *)
Definition ycfg : ocfg := OCfg (DPR / 5) (50 * DPR) 99 (fun a => a).
Definition DAYMS : N := 86400000.
Definition yx (t : N) : octx :=
  OCtx t (fun w => w =? 9) (fun w => w =? 7) (fun w => w =? 8) (fun _ => true) (fun _ => 0).
Definition ybank : bank :=
  Bank (<[1 := Acct (1000 * DPR) 0 0]> (<[2 := Acct (1000 * DPR) 0 0]> (<[50 := Acct (1000 * DPR) 0 0]> ∅))) 0.
Definition ys0 : ostate := oinit ybank.
Definition ycall (t o : N) (c : ocall) : oop := (yx t, inl (Signed o, c)).
Definition yblk (t : N) : oop := (yx t, inr OFinalize).
(** Two schedules from day 20 on; blocks on days 20, 21 and 23. *)
Definition yh : list oop :=
  [yblk (20 * DAYMS); ycall (20 * DAYMS) 7 (OUnstake 1 3 (20 * DAYMS) (300 * DPR));
   ycall (20 * DAYMS) 7 (OUnstake 2 10 (20 * DAYMS) (1000 * DPR)); yblk (20 * DAYMS + 5000);
   yblk (21 * DAYMS); yblk (21 * DAYMS + 5000); yblk (21 * DAYMS + 10000); yblk (21 * DAYMS + 15000);
   yblk (23 * DAYMS); yblk (23 * DAYMS + 5000); yblk (23 * DAYMS + 10000); yblk (23 * DAYMS + 15000)].
Lemma ykeys : keys_differ ycfg.
Proof. intros a b H. exact H. Qed.
Lemma ychrono : chrono 0 yh.
Proof. vm_compute. repeat split; discriminate. Qed.

(** What a successful [unstaking_release] stores. *)
Lemma unstake_stored cfg s x o who days moment total s' evs :
  ostep cfg s x o (OUnstake who days moment total) = (s', ROk evs) ->
  days <> 0 /\ total <> 0 /\ total / days <= o_smax s /\
  o_smax s' = o_smax s /\ o_dmax s' = o_dmax s /\ o_day s' = o_day s /\ o_daily s' = o_daily s /\
  o_info s' !! who = Some (Sched days moment total (day_of moment) (day_of moment) (total / days)).
Proof.
  unfold ostep. cbn [oexec]. unfold signed, do_unstake, ensure, rbind. intros H. break_match; try discriminate.
  repeat match goal with H : ROk _ = ROk _ |- _ => injection H as <- <- || injection H as <- end.
  injection H as <- _. cbn [o_smax o_dmax o_day o_daily o_info set_o_info].
  repeat match goal with
  | H : negb _ = true |- _ => apply negb_true_iff in H; apply N.eqb_neq in H
  | H : (_ <=? _) = true |- _ => apply N.leb_le in H
  end.
  repeat split; auto. apply lookup_insert.
Qed.

(** * C44: how much a schedule pays *)
(** The claim as stated: after a schedule is accepted, and while no new one is
    set, the account is never paid more than its total. *)
Definition C44_claim : Prop :=
  forall cfg s x o who days moment total s' evs t h,
    keys_differ cfg -> ostep cfg s x o (OUnstake who days moment total) = (s', ROk evs) ->
    chrono t h -> Forall (fun op => ~ schedules who op) h ->
    paid_to who (snd (orun cfg s' h)) <= total.
(** False: a schedule whose start lies back further than its length, or that is
    not visited until after its last day, pays every day since its start.
    Here 100 DPR over 10 days, starting on day 20, paid on day 45: 250 DPR. *)
Definition y44s : ostate := fst (orun ycfg ys0 [ycall (20 * DAYMS) 7 (OUnstake 1 10 (20 * DAYMS) (100 * DPR))]).
Theorem C44_total_refuted : ~ C44_claim.
Proof.
  intros H.
  specialize (H ycfg ys0 (yx (20 * DAYMS)) (Signed 7) 1 10 (20 * DAYMS) (100 * DPR) y44s [EScheduled 1] 0
                [yblk (45 * DAYMS); yblk (45 * DAYMS + 5000)] ykeys).
  assert (E : paid_to 1 (snd (orun ycfg y44s [yblk (45 * DAYMS); yblk (45 * DAYMS + 5000)])) = 250 * DPR) by (vm_compute; reflexivity).
  rewrite E in H. apply N.lt_nge with (n := 100 * DPR) (m := 250 * DPR); [reflexivity|]. apply H.
  - reflexivity.
  - vm_compute. repeat split; discriminate.
  - repeat constructor; intros [].
Qed.
Print Assumptions C44_total_refuted.
(** What holds: the excess is less than one single maximum; and nothing is paid
    in excess if no payment is later than the last day of the schedule. *)
Theorem C44_total_partial :
  forall cfg s x o who days moment total s' evs S D h,
    ostep cfg s x o (OUnstake who days moment total) = (s', ROk evs) ->
    o_smax s <= S -> Forall (limits_within S D) h -> Forall (fun op => ~ schedules who op) h ->
    paid_to who (snd (orun cfg s' h)) + total / days <= total + S.
Proof.
  intros cfg s x o who days moment total s' evs S D h E HS HL Hs.
  apply unstake_stored in E as (Hd & _ & _ & Hm & _ & _ & _ & Hi).
  pose proof (schedule_bound cfg who S D days moment total (day_of moment) (total / days)) as B.
  assert (P : total / days * days <= total) by (rewrite N.mul_comm; apply N.mul_div_le; exact Hd).
  specialize (B P h s' (day_of moment) Hi (N.le_refl _)).
  rewrite N.sub_diag, N.mul_0_r, N.add_0_r in B. apply B; [lia|rewrite Hm; exact HS|exact Hs|exact HL].
Qed.
Print Assumptions C44_total_partial.
Theorem C44_in_time_partial :
  forall cfg s x o who days moment total s' evs t h,
    ostep cfg s x o (OUnstake who days moment total) = (s', ROk evs) ->
    chrono t h -> Forall (fun op => ~ schedules who op) h ->
    day moment < 2 ^ 32 -> total / days * 2 ^ 32 <= two128 ->
    Forall (fun p => p.1 <= day moment + days) (payments who (snd (orun cfg s' h))) ->
    paid_to who (snd (orun cfg s' h)) <= total.
Proof.
  intros cfg s x o who days moment total s' evs t h E Hc Hs Hf Hper Hin.
  apply unstake_stored in E as (Hd & _ & _ & _ & _ & _ & _ & Hi).
  pose proof (schedule_covers cfg who days moment total (day_of moment) (total / days) Hper h s' t _ Hi Hc Hs) as C.
  rewrite day_day_of in C by exact Hf.
  pose proof (covers_sum _ _ _ _ C Hin (N.le_add_r _ _)) as B. unfold paid_to.
  replace (day moment + days - day moment) with days in B by lia.
  etransitivity; [exact B|]. rewrite N.mul_comm. apply N.mul_div_le. exact Hd.
Qed.
Print Assumptions C44_in_time_partial.
(** The first schedule is paid on days 21 and 23, exactly its total; it is then
    removed. *)
Example C44_example :
  payments 1 (snd (orun ycfg ys0 yh)) = [(21, 100 * DPR); (23, 200 * DPR)] /\
  paid_to 1 (snd (orun ycfg ys0 yh)) = 300 * DPR /\ o_info (fst (orun ycfg ys0 yh)) !! 1 = None /\
  payments 2 (snd (orun ycfg ys0 yh)) = [(21, 100 * DPR); (23, 200 * DPR)].
Proof. vm_compute. repeat split. Qed.
Example C44_example_limits : Forall (limits_within (10000 * DPR) (1000000 * DPR)) yh.
Proof. unfold yh. repeat constructor. Qed.

(** * C45: limits *)
(** One release never exceeds the single maximum in force. *)
Theorem C45_single :
  forall cfg s x who v, EReleased who v ∈ snd (odo cfg s (x, inr OFinalize)) -> v <= o_smax s.
Proof.
  intros cfg s x who v H. unfold odo in H. cbn [fst snd] in H.
  unfold on_finalize in H. destruct (_ <? _); [now apply elem_of_nil in H|].
  destruct (release cfg s _) as [s' evs] eqn:E. cbn [snd] in H. destruct (o_end s) eqn:He.
  { rewrite release_ended in E by done. injection E as <- <-. now apply elem_of_nil in H. }
  apply release_block in E as (paid & tail & B); [|done].
  destruct (br_bank _ _ _ _ _ _ _ B) as (pe & Ep & ->). apply elem_of_app in H as [H|H].
  - destruct (rels_single _ _ _ _ _ _ Ep _ _ H) as (r & Hr & [-> | ->]); [|apply N.le_0_l].
    now destruct (br_paid _ _ _ _ _ _ _ B _ _ Hr) as (_ & _ & _ & P).
  - exfalso. destruct (br_stop _ _ _ _ _ _ _ B) as [(_ & _ & _ & ->)|(l1 & w & r & l2 & _ & _ & _ & [(_ & _ & _ & -> & _)|(_ & -> & _)])];
    [now apply elem_of_nil in H| |now apply elem_of_nil in H].
    apply elem_of_list_singleton in H. discriminate.
Qed.
Print Assumptions C45_single.
(** The releases of a day stay below the daily maximum plus one single maximum,
    for any upper bounds [S], [D] on the limits. *)
Theorem C45_daily :
  forall cfg b S D h d,
    10000 * DPR <= S -> 1000000 * DPR <= D -> D + S < 2 ^ 128 ->
    chrono 0 h -> Forall (limits_within S D) h ->
    paid_on d (snd (orun cfg (oinit b) h)) < D + S.
Proof.
  intros cfg b S D h d HS HD Hlim Hc HL.
  assert (0 < D) by (eapply N.lt_le_trans; [|exact HD]; reflexivity).
  assert (W : within S D (oinit b)).
  { split; cbn [oinit o_smax o_dmax o_end o_day o_daily]; unfold daily_of; cbn [o_daily oinit]; try done;
    intros; rewrite lookup_empty; cbn; lia. }
  destruct (daily_run cfg S D ltac:(change two128 with (2 ^ 128); lia) h (oinit b) 0 W (N.le_0_l _) Hc HL) as [[_ _ W3 _ _] Hsum].
  specialize (Hsum d). specialize (W3 d). lia.
Qed.
Print Assumptions C45_daily.
(** [is_single_max_limit], which the staking pallet asks before a compensation:
    it admits only what both limits still allow today. *)
Theorem C45_check :
  forall s v, o_dmax s < 2 ^ 128 - 1 -> is_single_max_limit s v = true ->
    v <= o_smax s /\ default 0 (o_daily s !! o_day s) + v <= o_dmax s.
Proof.
  intros s v Hd H. unfold is_single_max_limit in H. destruct (N.leb_spec v (o_smax s)); [|discriminate]. split; [done|].
  apply N.leb_le in H. unfold sadd128 in H. change (2 ^ 128) with two128 in Hd. unfold two128 in *. lia.
Qed.
Print Assumptions C45_check.
Example C45_example :
  let lim := (yx (20 * DAYMS), inl (Root, OSetLimits (150 * DPR) (180 * DPR))) in
  paid_on 21 (snd (orun ycfg ys0 yh)) = 200 * DPR /\
  payments 1 (snd (orun ycfg ys0 (lim :: yh))) = [(21, 100 * DPR)] /\
  payments 2 (snd (orun ycfg ys0 (lim :: yh))) = [(21, 100 * DPR)] /\
  is_single_max_limit (fst (orun ycfg ys0 yh)) (9000 * DPR) = true /\
  is_single_max_limit (fst (orun ycfg ys0 yh)) (10001 * DPR) = false.
Proof. vm_compute. repeat split. Qed.

(** * C46: once per day, for disjoint sets of days *)
Theorem C46_once :
  forall cfg b h, keys_differ cfg -> chrono 0 h -> NoDup (releases (snd (orun cfg (oinit b) h))).
Proof.
  intros cfg b h Hk Hc. exact (proj1 (released_once cfg Hk h (oinit b) 0 (N.le_0_l _) Hc)).
Qed.
Print Assumptions C46_once.
(** The payments of a schedule cover consecutive, disjoint ranges of days from
    its start, at one day's share each. *)
Theorem C46_days :
  forall cfg s x o who days moment total s' evs t h,
    ostep cfg s x o (OUnstake who days moment total) = (s', ROk evs) ->
    chrono t h -> Forall (fun op => ~ schedules who op) h ->
    day moment < 2 ^ 32 -> total / days * 2 ^ 32 <= 2 ^ 128 ->
    covers (total / days) (day moment) (payments who (snd (orun cfg s' h))).
Proof.
  intros cfg s x o who days moment total s' evs t h E Hc Hs Hf Hper.
  apply unstake_stored in E as (_ & _ & _ & _ & _ & _ & _ & Hi).
  rewrite day_day_of in Hi by exact Hf. eapply schedule_covers; eauto.
Qed.
Print Assumptions C46_days.
Example C46_example : releases (snd (orun ycfg ys0 yh)) = [(21, 1); (21, 2); (23, 1); (23, 2)].
Proof. vm_compute. reflexivity. Qed.

(** * C47: the bridge *)
Theorem C47_moves_out :
  forall cfg s x o from v chain s' evs pool,
    ostep cfg s x o (OBridgeOut from v chain) = (s', ROk evs) -> o_fund s = Some pool -> from <> pool ->
    v <= free_of (o_bank s) from /\
    free_of (o_bank s') from = free_of (o_bank s) from - v /\
    free_of (o_bank s') pool = free_of (o_bank s) pool + v /\
    (forall w, w <> from -> w <> pool -> acct_of (o_bank s') w = acct_of (o_bank s) w) /\
    evs = [EBridgeOut from v chain].
Proof.
  intros cfg s x o from v chain s' evs pool E Hp Hne. unfold ostep in E. cbn [oexec] in E.
  unfold signed, do_bridge_out, ensure, rbind in E. rewrite Hp in E. break_match; try discriminate.
  repeat match goal with H : ROk _ = ROk _ |- _ => injection H as <- <- || injection H as <- end.
  injection E as <- <-. cbn [o_bank set_o_out set_o_bank].
  match goal with H : transfer_keep _ _ _ _ _ = _ |- _ => apply transfer_keep_spec in H as (H1 & H2 & H3 & H4 & _); [|exact Hne] end.
  repeat split; auto. lia.
Qed.
Print Assumptions C47_moves_out.
Theorem C47_moves_in :
  forall cfg s x o to v chain s' evs pool,
    ostep cfg s x o (OBridgeIn to v chain) = (s', ROk evs) -> o_fund s = Some pool -> to <> pool ->
    v <= free_of (o_bank s) pool /\
    free_of (o_bank s') pool = free_of (o_bank s) pool - v /\
    free_of (o_bank s') to = free_of (o_bank s) to + v /\
    (forall w, w <> to -> w <> pool -> acct_of (o_bank s') w = acct_of (o_bank s) w) /\
    evs = [EBridgeIn to v chain].
Proof.
  intros cfg s x o to v chain s' evs pool E Hp Hne. unfold ostep in E. cbn [oexec] in E.
  unfold signed, do_bridge_in, ensure, rbind in E. rewrite Hp in E. break_match; try discriminate.
  repeat match goal with H : ROk _ = ROk _ |- _ => injection H as <- <- || injection H as <- end.
  injection E as <- <-. cbn [o_bank set_o_in set_o_bank].
  match goal with H : transfer_keep _ _ _ _ _ = _ |- _ => apply transfer_keep_spec in H as (H1 & H2 & H3 & H4 & _); [|congruence] end.
  repeat split; auto. lia.
Qed.
Print Assumptions C47_moves_in.
(** The counters are the sums of what moved, per chain, capped at 2^128 - 1. *)
Theorem C47_counters :
  forall cfg b h chain,
    let r := orun cfg (oinit b) h in
    default 0 (o_out (fst r) !! chain) = N.min (2 ^ 128 - 1) (bridged_out chain (snd r)) /\
    default 0 (o_in (fst r) !! chain) = N.min (2 ^ 128 - 1) (bridged_in chain (snd r)).
Proof.
  intros cfg b h chain r. unfold r. destruct (run_bridge cfg h (oinit b) chain) as [H1 H2]; [reflexivity|reflexivity|].
  split; [exact H1|exact H2].
Qed.
Print Assumptions C47_counters.
(** The pool holds what it held, plus what went out, minus what came in. *)
Theorem C47_pool :
  forall cfg pool s h, pool_quiet cfg pool s h ->
    free_of (o_bank (fst (orun cfg s h))) pool + all_in (snd (orun cfg s h)) =
    free_of (o_bank s) pool + all_out (snd (orun cfg s h)).
Proof. intros cfg pool s h H. apply run_pool. exact H. Qed.
Print Assumptions C47_pool.
Definition y47 : list oop :=
  [ycall 0 8 (OBridgeOut 1 (30 * DPR) 5); ycall 0 8 (OBridgeOut 2 (20 * DPR) 5); ycall 0 8 (OBridgeIn 3 (7 * DPR) 6);
   ycall 0 1 (OBridgeIn 1 (7 * DPR) 6); ycall 0 2 (OBurn (60 * DPR)); ycall 0 8 (OBridgeOut 2 (5 * DPR) 6)].
Example C47_example :
  let s := fst (orun ycfg ys0 [ycall 0 8 (OSetPool 50)]) in
  let r := orun ycfg s y47 in
  pool_quiet ycfg 50 s y47 /\ all_out (snd r) = 55 * DPR /\ all_in (snd r) = 7 * DPR /\
  free_of (o_bank (fst r)) 50 = 1048 * DPR /\ o_out (fst r) !! 5 = Some (50 * DPR) /\ o_in (fst r) !! 6 = Some (7 * DPR) /\
  free_of (o_bank (fst r)) 3 = 7 * DPR.
Proof. vm_compute. repeat split; discriminate. Qed.

(** * C81: who can do what *)
(** A successful call changes the limits only for root, schedules only for a
    release setter, the pool and the counters only for a bridge admin, and takes
    free or reserved money of an account other than the caller's only for root,
    a locker (reserving) or a bridge admin. *)
Theorem C81_roles :
  forall cfg s x o c s' evs, oc_ed cfg <= oc_minburn cfg -> ostep cfg s x o c = (s', ROk evs) ->
    ((o_smax s' <> o_smax s \/ o_dmax s' <> o_dmax s) -> o = Root) /\
    (o_info s' <> o_info s -> exists me, o = Signed me /\ ox_setter x me = true) /\
    ((o_fund s' <> o_fund s \/ o_out s' <> o_out s \/ o_in s' <> o_in s) -> exists me, o = Signed me /\ ox_bridge x me = true) /\
    (forall w, free_of (o_bank s') w < free_of (o_bank s) w -> o <> Signed w ->
       o = Root \/ exists me, o = Signed me /\ (ox_locker x me = true \/ ox_bridge x me = true)) /\
    (o_total s' = o_total s /\ o_daily s' = o_daily s /\ o_cursor s' = o_cursor s /\ o_day s' = o_day s /\ o_end s' = o_end s).
Proof.
  intros cfg s x o c s' evs Hmin E. unfold ostep in E.
  destruct (oexec cfg s x o c) as [[s1 e1]|e|] eqn:H; [|discriminate|discriminate]. injection E as <- <-.
  destruct c; cbn [oexec] in H;
    unfold signed, root, do_unstake, do_burn, do_bridge_out, do_bridge_in, do_unlock, ensure, rbind in H;
    break_match; try discriminate;
    repeat match goal with
    | H : ROk _ = ROk _ |- _ => injection H as <- <- || injection H as <-
    end; cbn [o_smax o_dmax o_info o_fund o_out o_in o_bank o_total o_daily o_cursor o_day o_end
              set_o_bank set_o_info set_o_dmax set_o_smax set_o_fund set_o_out set_o_in];
    (split; [intros [?|?]; congruence || reflexivity|]);
    (split; [intros ?; congruence || (eexists; split; [reflexivity|assumption])|]);
    (split; [intros [?|[?|?]]; congruence || (eexists; split; [reflexivity|assumption])|]);
    (split; [|repeat split; reflexivity]); intros w Hw Ho; eauto 6; try (exfalso; lia).
  exfalso.
  match goal with H : withdraw _ _ _ ?me _ = Some ?b |- _ => assert (acct_of b w = acct_of (o_bank s) w) as A
    by (eapply withdraw_ne; [exact H|congruence]) end.
  revert Hw. unfold free_of. rewrite <- A.
  repeat match goal with H : (_ <=? _) = true |- _ => apply N.leb_le in H end.
  destruct (N.eq_dec w (oc_treasury cfg)) as [->|Hn]; [|rewrite deposit_ne by done; lia].
  unfold deposit_creating. destruct (_ =? 0); [lia|]. destruct (_ && _); [unfold acct_of; cbn [accts]; lia|].
  destruct (two128 <=? _); [unfold acct_of; cbn [accts]; lia|].
  rewrite put_acct_eq; cbn [free rsv]; [lia|left; lia].
Qed.
Print Assumptions C81_roles.
(** Accounts without privileges: the only calls that succeed are burning own
    money and announcing a bridge transfer. *)
Theorem C81_unprivileged :
  forall cfg s x me c s' evs,
    ox_locker x me = false -> ox_setter x me = false -> ox_bridge x me = false ->
    ostep cfg s x (Signed me) c = (s', ROk evs) ->
    (exists v, c = OBurn v) \/ (exists v chain, c = OApply v chain /\ s' = s).
Proof.
  intros cfg s x me c s' evs H1 H2 H3 E. unfold ostep in E.
  destruct (oexec cfg s x (Signed me) c) as [[s1 e1]|e|] eqn:H; [|discriminate|discriminate]. injection E as <- <-.
  destruct c; cbn [oexec] in H;
    unfold signed, root, do_unstake, do_bridge_out, do_bridge_in, ensure, rbind in H;
    rewrite ?H1, ?H2, ?H3 in H; try discriminate; eauto.
  injection H as <- <-. eauto.
Qed.
Print Assumptions C81_unprivileged.
Example C81_example :
  snd (ostep ycfg ys0 (yx 0) (Signed 1) (OBurn (60 * DPR))) = ROk [EBurnEzc 1 (60 * DPR)] /\
  snd (ostep ycfg ys0 (yx 0) (Signed 1) (OApply DPR 5)) = ROk [EApply 1 DPR 5] /\
  snd (ostep ycfg ys0 (yx 0) (Signed 1) (OReserve 2 DPR)) = RErr OUnauthorized /\
  snd (ostep ycfg ys0 (yx 0) (Signed 9) (OReserve 2 DPR)) = ROk [] /\
  snd (ostep ycfg ys0 (yx 0) (Signed 1) (OSetLimits 1 1)) = RErr OBadOrigin /\
  free_of (o_bank (fst (ostep ycfg ys0 (yx 0) Root (OUnlockDemocracy 1 2 (10 * DPR))))) 1 = 990 * DPR.
Proof. vm_compute. repeat split. Qed.

(** * C82: money *)
(** The pallet creates exactly what its events announce as released. *)
Theorem C82_money :
  forall cfg s h, Forall (fun op => is_bank op = false) h ->
    money (o_bank (fst (orun cfg s h))) = money (o_bank s) + paid_out (snd (orun cfg s h)).
Proof. intros cfg s h H. apply run_money. exact H. Qed.
Print Assumptions C82_money.
(** The grand total is the sum of the daily totals, modulo 2^128. *)
Theorem C82_totals :
  forall cfg b h,
    let s := fst (orun cfg (oinit b) h) in
    o_total s = msum (fun _ v => v) (o_daily s) mod 2 ^ 128.
Proof.
  intros cfg b h s. assert (C : counted (oinit b)).
  { split; cbn [oinit o_total o_daily]; [rewrite msum_empty; reflexivity|intros d v H; now rewrite lookup_empty in H]. }
  exact (proj1 (run_counted cfg h _ C)).
Qed.
Print Assumptions C82_totals.
Example C82_example :
  let r := orun ycfg ys0 yh in
  paid_out (snd r) = 600 * DPR /\ o_total (fst r) = 600 * DPR /\ o_daily (fst r) !! 21 = Some (200 * DPR) /\
  money (o_bank (fst r)) = 3600 * DPR /\ Forall (fun op => is_bank op = false) yh.
Proof. vm_compute. repeat split. repeat constructor. Qed.

(** * C83: burning for EZC *)
Theorem C83_burn :
  forall cfg s x me v s' evs,
    oc_ed cfg <= oc_minburn cfg -> oc_minburn cfg <> 0 -> me <> oc_treasury cfg ->
    money (o_bank s) < 2 ^ 128 ->
    ostep cfg s x (Signed me) (OBurn v) = (s', ROk evs) ->
    oc_minburn cfg <= v /\ v + oc_ed cfg <= free_of (o_bank s) me /\
    free_of (o_bank s') me = free_of (o_bank s) me - v /\
    free_of (o_bank s') (oc_treasury cfg) = free_of (o_bank s) (oc_treasury cfg) + v /\
    (forall w, w <> me -> w <> oc_treasury cfg -> acct_of (o_bank s') w = acct_of (o_bank s) w) /\
    money (o_bank s') = money (o_bank s) /\ evs = [EBurnEzc me v].
Proof.
  intros cfg s x me v s' evs Hed H0 Hne Hm E. pose proof (call_money _ _ _ _ _ _ _ E) as HM. revert E HM.
  unfold ostep. cbn [oexec]. unfold signed, do_burn, ensure, rbind. intros E HM.
  destruct (N.leb_spec (oc_minburn cfg) v) as [Hv|]; [|discriminate].
  destruct (withdraw (oc_ed cfg) true (o_bank s) me v) as [b|] eqn:Ew; [|discriminate].
  injection E as <- <-. cbn [o_bank set_o_bank] in *. split; [done|].
  pose proof (withdraw_money _ _ _ _ _ _ Ew) as Mw.
  assert (Wn : forall w, w <> me -> acct_of b w = acct_of (o_bank s) w) by (intros; eapply withdraw_ne; eauto).
  unfold withdraw in Ew. destruct (N.eqb_spec v 0); [lia|].
  destruct (N.ltb_spec (free (acct_of (o_bank s) me)) v) as [|Hf]; [discriminate|].
  destruct (true && (free (acct_of (o_bank s) me) - v <? oc_ed cfg) && (oc_ed cfg <=? free (acct_of (o_bank s) me))) eqn:Ek; [discriminate|].
  destruct (_ <? frz _) eqn:Ez; [discriminate|]. injection Ew as <-.
  assert (Hk : oc_ed cfg <= free (acct_of (o_bank s) me) - v).
  { destruct (N.ltb_spec (free (acct_of (o_bank s) me) - v) (oc_ed cfg)) as [L|L]; [|done]. exfalso.
    destruct (N.leb_spec (oc_ed cfg) (free (acct_of (o_bank s) me))); [discriminate|]. lia. }
  unfold free_of. split; [lia|]. rewrite deposit_ne by done. rewrite put_acct_eq by (left; exact Hk). cbn [free].
  split; [reflexivity|]. split; [|split; [|split; [exact HM|reflexivity]]].
  - set (b := put _ _ _ _) in *.
    assert (D : acct_of (deposit_creating (oc_ed cfg) b (oc_treasury cfg) v) (oc_treasury cfg) =
                Acct (free_of b (oc_treasury cfg) + v) (rsv (acct_of b (oc_treasury cfg))) (frz (acct_of b (oc_treasury cfg)))).
    { apply deposit_eq; [change two128 with (2 ^ 128); lia|lia|left; lia]. }
    rewrite D. cbn [free]. unfold free_of. rewrite Wn by congruence. reflexivity.
  - intros w W1 W2. rewrite deposit_ne by done. now apply Wn.
Qed.
Print Assumptions C83_burn.
Example C83_example :
  let s' := fst (ostep ycfg ys0 (yx 0) (Signed 1) (OBurn (60 * DPR))) in
  free_of (o_bank s') 1 = 940 * DPR /\ free_of (o_bank s') 99 = 60 * DPR /\
  snd (ostep ycfg ys0 (yx 0) (Signed 1) (OBurn (49 * DPR))) = RErr OBurnLow /\
  snd (ostep ycfg ys0 (yx 0) (Signed 1) (OBurn (1000 * DPR))) = RErr OBalance /\ money ybank < 2 ^ 128.
Proof. vm_compute. repeat split. Qed.

(** * C84: every due schedule is served *)
(** The first block of day [d] is followed, within the day, by more blocks than
    there are schedules; limits and schedules are left alone. Then every account
    whose due amount is positive and at most the single maximum is paid on this
    day, unless the daily maximum was reached. *)
Theorem C84_served :
  forall cfg s x d h w r,
    keys_differ cfg -> o_day s < d -> day (ox_time x) = d -> d < 2 ^ 32 ->
    Forall (plain_op d) h -> N.of_nat (size (o_info s)) < blocks h ->
    o_info s !! w = Some r -> r_per r * 2 ^ 32 <= 2 ^ 128 ->
    0 < due_amount d r -> due_amount d r <= o_smax s ->
    default 0 (o_daily (fst (orun cfg s ((x, inr OFinalize) :: h))) !! d) < o_dmax s ->
    (d, w) ∈ releases (snd (orun cfg s ((x, inr OFinalize) :: h))).
Proof.
  intros cfg s x d h w r Hk Hd Hx Hf Hp Hn Hi Hper H0 Hmax Hfin.
  assert (Hrel : rel d r = due_amount d r).
  { unfold rel, due_amount, mul128. apply w128_small. destruct (N.eq_dec (r_per r) 0) as [E|E]; [rewrite E; reflexivity|].
    change (2 ^ 128) with two128 in Hper.
    eapply N.lt_le_trans; [|exact Hper]. apply N.mul_lt_mono_pos_l; [lia|]. change (2 ^ 32) with 4294967296 in *. lia. }
  cbn [orun] in *. destruct (odo cfg s (x, inr OFinalize)) as [s1 evs] eqn:E.
  unfold odo in E. cbn [fst snd] in E. apply new_day_state in E as (-> & E); [|rewrite day_day_of; lia].
  rewrite day_day_of, Hx in E by lia.
  assert (G : (d, w) ∈ releases (snd (orun cfg s1 h))).
  { apply (served cfg d w r Hk Hf); subst s1; auto.
    - lia.
    - now rewrite Hrel.
    - destruct (orun cfg _ h) as [s2 out]. exact Hfin.
    - pose proof (iter_length_le cfg (set_o_cursor (set_o_end (set_o_day s d) false) OPrefix) OPrefix) as L.
      cbn [o_cursor set_o_cursor o_info set_o_end set_o_day] in *. lia. }
  destruct (orun cfg s1 h) as [s2 out]. cbn [snd map app] in *. exact G.
Qed.
Print Assumptions C84_served.
Example C84_example :
  let s := fst (orun ycfg ys0 (take 8 yh)) in
  let h := drop 9 yh in
  N.of_nat (size (o_info s)) < blocks h /\ o_day s < 23 /\
  option_map (due_amount 23) (o_info s !! 2) = Some (200 * DPR) /\
  default 0 (o_daily (fst (orun ycfg s (yblk (23 * DAYMS) :: h))) !! 23) = 400 * DPR /\
  releases (snd (orun ycfg s (yblk (23 * DAYMS) :: h))) = [(23, 1); (23, 2)].
Proof. vm_compute. repeat split. Qed.
Example C84_example_plain : Forall (plain_op 23) (drop 9 yh).
Proof. cbn [drop yh]. repeat constructor; intros _; reflexivity. Qed.

(** * C85: a schedule that fell too far behind *)
(** Once the due amount exceeds the single maximum, the schedule is never paid
    again, as long as nobody sets it anew or raises the limit. *)
Theorem C85_stuck :
  forall cfg s w r t h,
    o_info s !! w = Some r -> r_per r * 2 ^ 32 <= 2 ^ 128 -> o_smax s < due_amount (day t) r ->
    chrono t h -> Forall (fun op => ~ schedules w op) h -> Forall (fun op => sets_limits op = false) h ->
    payments w (snd (orun cfg s h)) = [].
Proof. intros cfg s w r t h Hi Hper Hl Hc Hs HL. exact (stuck cfg w r Hper h s t Hi Hl Hc Hs HL). Qed.
Print Assumptions C85_stuck.
(** So it is false that an accepted schedule is eventually paid: 60000 DPR over
    10 days passes the check of [unstaking_release]; if the chain makes no block
    on one day, 12000 DPR are due, and no number of later blocks pays them. *)
Definition y85s : ostate :=
  fst (orun ycfg ys0 [yblk (20 * DAYMS); ycall (20 * DAYMS) 7 (OUnstake 1 10 (20 * DAYMS) (60000 * DPR))]).
Theorem C85_recovery_refuted :
  exists cfg s w, snd (ostep cfg (fst (orun ycfg ys0 [yblk (20 * DAYMS)])) (yx (20 * DAYMS)) (Signed 7)
                        (OUnstake w 10 (20 * DAYMS) (60000 * DPR))) = ROk [EScheduled w] /\
    s = fst (ostep cfg (fst (orun ycfg ys0 [yblk (20 * DAYMS)])) (yx (20 * DAYMS)) (Signed 7)
                        (OUnstake w 10 (20 * DAYMS) (60000 * DPR))) /\
    forall h, chrono (22 * DAYMS) h -> Forall (fun op => ~ schedules w op) h ->
      Forall (fun op => sets_limits op = false) h -> paid_to w (snd (orun cfg s h)) = 0.
Proof.
  exists ycfg, y85s, 1. split; [vm_compute; reflexivity|]. split; [reflexivity|]. intros h Hc Hs HL. unfold paid_to.
  assert (Hi : o_info y85s !! 1 = Some (Sched 10 (20 * DAYMS) (60000 * DPR) 20 20 (6000 * DPR))) by (vm_compute; reflexivity).
  rewrite (C85_stuck ycfg y85s 1 _ (22 * DAYMS) h Hi); auto; vm_compute; congruence.
Qed.
Print Assumptions C85_recovery_refuted.
(** With the next block on day 21 the same schedule is paid. *)
Example C85_example :
  payments 1 (snd (orun ycfg y85s [yblk (21 * DAYMS); yblk (21 * DAYMS + 5000)])) = [(21, 6000 * DPR)] /\
  payments 1 (snd (orun ycfg y85s [yblk (22 * DAYMS); yblk (22 * DAYMS + 5000); yblk (23 * DAYMS); yblk (23 * DAYMS + 5000)])) = [] /\
  day (22 * DAYMS) = 22.
Proof. vm_compute. repeat split. Qed.

(** * C86: consent of the bridged account *)
(** The statement that money leaves an account by the bridge only after its owner
    asked for it is false: a bridge admin alone moves it. *)
Definition C86_consent_claim : Prop :=
  forall cfg s h from v chain t, (t, EBridgeOut from v chain) ∈ snd (orun cfg s h) ->
    exists t' v' chain', (t', EApply from v' chain') ∈ snd (orun cfg s h).
Theorem C86_consent_refuted : ~ C86_consent_claim.
Proof.
  intros H. specialize (H ycfg ys0 [ycall 0 8 (OSetPool 8); ycall 0 8 (OBridgeOut 1 (999 * DPR) 5)] 1 (999 * DPR) 5 0).
  replace (snd (orun ycfg ys0 [ycall 0 8 (OSetPool 8); ycall 0 8 (OBridgeOut 1 (999 * DPR) 5)]))
    with [(0, EBridgeOut 1 (999 * DPR) 5)] in H by (vm_compute; reflexivity).
  destruct H as (t' & v' & c' & H); [left|]. apply elem_of_list_singleton in H. discriminate.
Qed.
Print Assumptions C86_consent_refuted.
(** What holds: each such transfer is a call of a bridge admin naming the account,
    the amount and the chain. *)
Theorem C86_admin_partial :
  forall cfg s h from v chain t, (t, EBridgeOut from v chain) ∈ snd (orun cfg s h) ->
    exists x me, (x, inl (Signed me, OBridgeOut from v chain)) ∈ h /\ ox_time x = t /\ ox_bridge x me = true.
Proof.
  intros cfg s h from v chain t. revert s. induction h as [|op r IH]; intros s H; [now apply elem_of_nil in H|].
  cbn [orun] in H. destruct (odo cfg s op) as [s1 evs] eqn:E. specialize (IH s1).
  destruct (orun cfg s1 r) as [s2 out]. cbn [snd] in *. apply elem_of_app in H as [H|H].
  - apply elem_of_list_fmap in H as (e & He & Hin). injection He as -> <-. apply odo_bridge in E.
    destruct E as [op E1 E2 E3|x o f' v' ch pool _ _ _ _ -> (a & -> & Ha)|x o to v' ch pool _ _ _ _ -> _].
    + rewrite Forall_forall in E3. now specialize (E3 _ Hin).
    + apply elem_of_list_singleton in Hin. injection Hin as -> -> ->. exists x, a. split; [left|]. now split.
    + apply elem_of_list_singleton in Hin. discriminate.
  - destruct (IH H) as (x & me & H1 & H2). exists x, me. split; [now right|exact H2].
Qed.
Print Assumptions C86_admin_partial.
Example C86_example :
  let s := fst (orun ycfg ys0 [ycall 0 8 (OSetPool 50)]) in
  List.filter (fun p => match p.2 with EBridgeOut _ _ _ => true | _ => false end) (snd (orun ycfg s y47)) =
    [(0, EBridgeOut 1 (30 * DPR) 5); (0, EBridgeOut 2 (20 * DPR) 5); (0, EBridgeOut 2 (5 * DPR) 6)].
Proof. vm_compute. reflexivity. Qed.

(** * C87: the totals and the money paid *)
(** The totals and the event stream may disagree: a share below the existential
    deposit for an account that does not exist yet is counted, and its days are
    used up, but nothing is paid. *)
Definition C87_dust_claim : Prop :=
  forall cfg b h, chrono 0 h ->
    let r := orun cfg (oinit b) h in o_total (fst r) = paid_out (snd r) mod 2 ^ 128.
Definition y87 : list oop :=
  [yblk (20 * DAYMS); ycall (20 * DAYMS) 7 (OUnstake 40 10 (20 * DAYMS) DPR); yblk (21 * DAYMS); yblk (21 * DAYMS + 5000)].
Theorem C87_dust_refuted : ~ C87_dust_claim.
Proof.
  intros H. specialize (H ycfg ybank y87). cbv zeta in H.
  assert (E1 : o_total (fst (orun ycfg (oinit ybank) y87)) = DPR / 10) by (vm_compute; reflexivity).
  assert (E2 : paid_out (snd (orun ycfg (oinit ybank) y87)) = 0) by (vm_compute; reflexivity).
  rewrite E1, E2 in H. assert (C : chrono 0 y87) by (vm_compute; repeat split; discriminate).
  specialize (H C). vm_compute in H. discriminate.
Qed.
Print Assumptions C87_dust_refuted.
(** What holds: the money paid on a day is at most the day's total. *)
Theorem C87_covered_partial :
  forall cfg b S D h d,
    10000 * DPR <= S -> 1000000 * DPR <= D -> D + S < 2 ^ 128 ->
    chrono 0 h -> Forall (limits_within S D) h ->
    let r := orun cfg (oinit b) h in paid_on d (snd r) <= default 0 (o_daily (fst r) !! d).
Proof.
  intros cfg b S D h d HS HD Hlim Hc HL r.
  assert (0 < D) by (eapply N.lt_le_trans; [|exact HD]; reflexivity).
  assert (W : within S D (oinit b)).
  { split; cbn [oinit o_smax o_dmax o_end o_day o_daily]; unfold daily_of; cbn [o_daily oinit]; try done;
    intros; rewrite lookup_empty; cbn; lia. }
  destruct (daily_run cfg S D ltac:(change two128 with (2 ^ 128); lia) h (oinit b) 0 W (N.le_0_l _) Hc HL) as [_ Hsum].
  specialize (Hsum d). unfold daily_of in Hsum. unfold r. lia.
Qed.
Print Assumptions C87_covered_partial.
Example C87_example :
  let r := orun ycfg ys0 yh in paid_on 23 (snd r) = 400 * DPR /\ o_daily (fst r) !! 23 = Some (400 * DPR).
Proof. vm_compute. repeat split. Qed.
