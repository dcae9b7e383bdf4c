(** The operation pallet: money, bridge, service of all schedules. *)
From Verif Require Import Base Balances Proofs_Balances Model_Operation Spec_Operation Proofs_Operation Proofs_Operation2.
From stdpp Require Import gmap sorting.
Open Scope N_scope.

(** * Money *)
Lemma reserve_money ed b who v b' : reserve ed b who v = Some b' -> money b' = money b.
Proof.
  unfold reserve. destruct (N.eqb_spec v 0) as [->|Hv]; [now intros [= ->]|].
  destruct (N.ltb_spec (free (acct_of b who)) v); [discriminate|].
  destruct (_ <? _); [discriminate|]. destruct (_ <? _); [discriminate|]. intros [= <-].
  pose proof (put_money ed b who
    (Acct (free (acct_of b who) - v) (rsv (acct_of b who) + v) (frz (acct_of b who)))) as P.
  cbn in P. lia.
Qed.
Lemma remove_lock_money x b who : money (remove_lock x b who) = money b.
Proof.
  unfold remove_lock. destruct (accts b !! who) as [a|] eqn:E; [|reflexivity]. unfold money. cbn.
  rewrite (msum_delete _ (accts b) _ _ E). rewrite <- insert_delete_insert.
  rewrite msum_insert by apply lookup_delete. cbn. lia.
Qed.
Lemma transfer_keep_spec ed b src dst v b' :
  transfer_keep ed b src dst v = Some b' -> src <> dst ->
  (v = 0 \/ v + ed <= free_of b src) /\ free_of b' src = free_of b src - v /\ free_of b' dst = free_of b dst + v /\
  (forall w, w <> src -> w <> dst -> acct_of b' w = acct_of b w) /\ lost b' = lost b.
Proof.
  unfold transfer_keep, free_of. intros H Hne. destruct (N.eqb_spec v 0) as [->|Hv]; cbn [orb] in H.
  { injection H as <-. repeat split; auto; lia. }
  destruct (N.eqb_spec src dst); [contradiction|].
  destruct (N.ltb_spec (free (acct_of b src)) v); [discriminate|].
  destruct (N.ltb_spec (free (acct_of b src) - N.max (frz (acct_of b src) - rsv (acct_of b src)) ed) v) as [|Hk]; [discriminate|].
  destruct (N.ltb_spec (free (acct_of b dst) + rsv (acct_of b dst) + v) ed) as [|Hed]; [discriminate|].
  destruct (_ <=? _); [discriminate|]. injection H as <-.
  assert (Hs : ed <= free (acct_of b src) - v) by lia.
  assert (Hd : ed <= free (acct_of b dst) + v \/ rsv (acct_of b dst) <> 0)
    by (destruct (N.eq_dec (rsv (acct_of b dst)) 0) as [E|E]; [left; lia|auto]).
  split; [right; lia|]. split; [|split; [|split]].
  - rewrite put_acct_ne by congruence. rewrite put_acct_eq; [reflexivity|left; exact Hs].
  - rewrite put_acct_eq; [reflexivity|exact Hd].
  - intros w H1 H2. now rewrite !put_acct_ne by congruence.
  - destruct (put_lost ed (put ed b src (Acct (free (acct_of b src) - v) (rsv (acct_of b src)) (frz (acct_of b src)))) dst
      (Acct (free (acct_of b dst) + v) (rsv (acct_of b dst)) (frz (acct_of b dst)))) as [_ L1].
    destruct (put_lost ed b src (Acct (free (acct_of b src) - v) (rsv (acct_of b src)) (frz (acct_of b src)))) as [_ L2].
    cbn [free] in *. unfold put at 1. cbn [free rsv].
    destruct ((free (acct_of b dst) + v <? ed) && (rsv (acct_of b dst) =? 0)) eqn:E.
    + apply andb_true_iff in E as [E1 E2]. apply N.ltb_lt in E1. apply N.eqb_eq in E2. lia.
    + cbn [lost]. unfold put. cbn [free rsv].
      destruct ((free (acct_of b src) - v <? ed) && (rsv (acct_of b src) =? 0)) eqn:E'; [|reflexivity].
      apply andb_true_iff in E' as [E1 E2]. apply N.ltb_lt in E1. lia.
Qed.

Lemma call_money cfg s x o c s' r : ostep cfg s x o c = (s', r) -> money (o_bank s') = money (o_bank s).
Proof.
  unfold ostep. destruct (oexec cfg s x o c) as [[s1 e1]|e|] eqn:E; intros H; injection H as <- <-; try reflexivity.
  destruct c; cbn [oexec] in E;
    unfold signed, root, do_unstake, do_burn, do_bridge_out, do_bridge_in, do_unlock, ensure, rbind in E;
    break_match;
    repeat match goal with
    | H : ROk _ = ROk _ |- _ => injection H as <- <- || injection H as <-
    end; cbn [o_bank set_o_bank set_o_info set_o_dmax set_o_smax set_o_fund set_o_out set_o_in]; try reflexivity.
  - apply remove_lock_money.
  - eapply reserve_money; eassumption.
  - rewrite deposit_money. match goal with H : withdraw _ _ _ _ _ = _ |- _ => apply withdraw_money in H end. lia.
  - eapply transfer_keep_money; eassumption.
  - eapply transfer_keep_money; eassumption.
  - match goal with H : transfer_allow _ _ _ _ _ = _ |- _ => apply transfer_allow_money in H as -> end. apply remove_lock_money.
Qed.
Lemma run_money cfg : forall h s, Forall (fun op => is_bank op = false) h ->
  money (o_bank (fst (orun cfg s h))) = money (o_bank s) + paid_out (snd (orun cfg s h)).
Proof.
  induction h as [|op r IH]; intros s Hb; [cbn; unfold paid_out; cbn; lia|].
  apply Forall_cons in Hb as [Hb0 Hb]. cbn [orun]. destruct (odo cfg s op) as [s1 evs] eqn:E.
  specialize (IH s1 Hb). destruct (orun cfg s1 r) as [s2 out]. cbn [fst snd] in *. rewrite paid_out_app.
  enough (money (o_bank s1) = money (o_bank s) + paid_out (map (fun e => (ox_time op.1, e)) evs)) by lia.
  pose proof E as E0. apply odo_cases in E as [[_ E]|(Eb & _ & E2 & _)].
  - destruct (N.lt_ge_cases (o_day s) (day_of (ox_time op.1))) as [Hn|Hn].
    + symmetry in E. apply new_day_state in E as (-> & ->); [|done]. unfold paid_out. cbn. lia.
    + rewrite old_day_state in E by done. destruct (o_end s) eqn:He.
      * rewrite release_ended in E by done. injection E as -> ->. unfold paid_out. cbn. lia.
      * symmetry in E. apply release_block in E as (paid & tail & B); [|done].
        now destruct (block_events _ _ _ _ _ _ _ (ox_time op.1) B) as [_ H].
  - rewrite paid_out_none by done. rewrite N.add_0_r.
    destruct op as [x [[o c]|e]]; unfold odo in E0; cbn [fst snd] in E0.
    + destruct (ostep cfg s x o c) as [s' r'] eqn:Es. injection E0 as <- _. eapply call_money; eassumption.
    + destruct e; [discriminate Eb|discriminate Hb0].
Qed.

(** * Counters of the releases *)
Lemma sums_mod cur paid : forall z, z < two128 -> sums cur z paid = w128 (z + rels cur paid).
Proof.
  induction paid as [|q p IH] using rev_ind; intros z Hz.
  - cbn. unfold rels. cbn. rewrite N.add_0_r. symmetry. now apply w128_small.
  - rewrite sums_snoc, rels_snoc, IH by done. unfold add128, w128.
    rewrite N.add_assoc, N.add_mod_idemp_l by discriminate. reflexivity.
Qed.
Definition counted (s : ostate) : Prop :=
  o_total s = w128 (msum (fun _ v => v) (o_daily s)) /\ (forall d v, o_daily s !! d = Some v -> v < two128).
Lemma mod_swap a b c : (a + w128 (b + c)) mod two128 = w128 (a + b + c).
Proof. unfold w128. rewrite N.add_mod_idemp_r by discriminate. f_equal. lia. Qed.
Lemma block_counted cfg cur s s' evs paid tail : block_res cfg cur s s' evs paid tail -> counted s -> counted s'.
Proof.
  intros B [C1 C2]. unfold counted. rewrite (br_total _ _ _ _ _ _ _ B), (br_daily _ _ _ _ _ _ _ B).
  assert (Hz : default 0 (o_daily s !! cur) < two128).
  { destruct (o_daily s !! cur) eqn:E; [eauto|reflexivity]. }
  rewrite !sums_mod by (exact Hz || rewrite C1; apply w128_lt). split.
  - rewrite C1. destruct (o_daily s !! cur) as [z|] eqn:E; cbn [default] in *.
    + rewrite <- insert_delete_insert. rewrite msum_insert by apply lookup_delete.
      rewrite (msum_delete _ (o_daily s) _ _ E). unfold w128.
      rewrite N.add_mod_idemp_l, N.add_mod_idemp_l by discriminate. f_equal. change (id z) with z. lia.
    + rewrite msum_insert by exact E. unfold w128.
      rewrite !N.add_mod_idemp_l by discriminate. f_equal. lia.
  - intros d v H. destruct (decide (d = cur)) as [->|Hne].
    + rewrite lookup_insert in H. injection H as <-. apply w128_lt.
    + rewrite lookup_insert_ne in H by congruence. eauto.
Qed.
Lemma run_counted cfg : forall h s, counted s -> counted (fst (orun cfg s h)).
Proof.
  induction h as [|op r IH]; intros s C; [exact C|]. cbn [orun]. destruct (odo cfg s op) as [s1 evs] eqn:E.
  enough (C1 : counted s1) by (specialize (IH s1 C1); now destruct (orun cfg s1 r)).
  apply odo_cases in E as [[_ E]|(_ & [E1 E2 _ _ _] & _)].
  - destruct (N.lt_ge_cases (o_day s) (day_of (ox_time op.1))) as [Hn|Hn].
    + symmetry in E. apply new_day_state in E as (-> & ->); [|done]. exact C.
    + rewrite old_day_state in E by done. destruct (o_end s) eqn:He.
      * rewrite release_ended in E by done. injection E as -> ->. exact C.
      * symmetry in E. apply release_block in E as (paid & tail & B); [|done]. eapply block_counted; eassumption.
  - unfold counted. rewrite E1, E2. exact C.
Qed.

(** * Bridge *)
Definition not_bridge (e : oev) : Prop := match e with EBridgeOut _ _ _ | EBridgeIn _ _ _ => False | _ => True end.
Lemma bridge_none t c evs : Forall not_bridge evs ->
  bridged_out c (map (fun e => (t, e)) evs) = 0 /\ bridged_in c (map (fun e => (t, e)) evs) = 0.
Proof. induction 1 as [|e l H1 H2 IH]; [now split|]. destruct e; try contradiction; exact IH. Qed.
Lemma mint_all_bridge cfg cur paid : forall b b' pe, mint_all cfg cur b paid = (b', pe) -> Forall not_bridge pe.
Proof.
  induction paid as [|[a q] l IH]; intros b b' pe H; cbn [mint_all] in H; [injection H as <- <-; constructor|].
  destruct (mint _ _ _ _) as [b2 v], (mint_all _ _ b2 l) as [b3 vs] eqn:El. injection H as <- <-.
  constructor; [exact I|]. eapply IH; eassumption.
Qed.
Lemma release_bridge cfg s cur s' evs : release cfg s cur = (s', evs) ->
  o_out s' = o_out s /\ o_in s' = o_in s /\ o_fund s' = o_fund s /\ Forall not_bridge evs.
Proof.
  intros E. destruct (o_end s) eqn:He.
  { rewrite release_ended in E by done. injection E as <- <-. auto. }
  apply release_block in E as (paid & tail & B); [|done].
  rewrite (br_out _ _ _ _ _ _ _ B), (br_in _ _ _ _ _ _ _ B), (br_fund _ _ _ _ _ _ _ B). repeat split; auto.
  destruct (br_bank _ _ _ _ _ _ _ B) as (pe & Ep & ->). apply Forall_app. split; [eapply mint_all_bridge; eassumption|].
  destruct (br_stop _ _ _ _ _ _ _ B) as [(_ & _ & _ & ->)|(l1 & w & r & l2 & _ & _ & _ & [(_ & _ & _ & -> & _)|(_ & -> & _)])];
  repeat constructor.
Qed.

(** What an operation does to the bridge. *)
Inductive bridge_step (cfg : ocfg) (s : ostate) (s' : ostate) (evs : list oev) : oop -> Prop :=
| BS_none op : o_out s' = o_out s -> o_in s' = o_in s -> Forall not_bridge evs -> bridge_step cfg s s' evs op
| BS_out x o from v chain pool : o_fund s = Some pool ->
    transfer_keep (oc_ed cfg) (o_bank s) from pool v = Some (o_bank s') ->
    o_out s' = <[chain := sadd128 (default 0 (o_out s !! chain)) v]> (o_out s) -> o_in s' = o_in s ->
    evs = [EBridgeOut from v chain] -> (exists a, o = Signed a /\ ox_bridge x a = true) ->
    bridge_step cfg s s' evs (x, inl (o, OBridgeOut from v chain))
| BS_in x o to v chain pool : o_fund s = Some pool ->
    transfer_keep (oc_ed cfg) (o_bank s) pool to v = Some (o_bank s') ->
    o_in s' = <[chain := sadd128 (default 0 (o_in s !! chain)) v]> (o_in s) -> o_out s' = o_out s ->
    evs = [EBridgeIn to v chain] -> (exists a, o = Signed a /\ ox_bridge x a = true) ->
    bridge_step cfg s s' evs (x, inl (o, OBridgeIn to v chain)).
Lemma odo_bridge cfg s op s' evs : odo cfg s op = (s', evs) -> bridge_step cfg s s' evs op.
Proof.
  destruct op as [x [[o c]|e]]; unfold odo; cbn [fst snd]; intros H.
  - unfold ostep in H. destruct (oexec cfg s x o c) as [[s1 e1]|e|] eqn:E; injection H as <- <-.
    2-3: now apply BS_none.
    destruct c; cbn [oexec] in E;
      unfold signed, root, do_unstake, do_burn, do_bridge_out, do_bridge_in, do_unlock, ensure, rbind in E;
      break_match;
      repeat match goal with
      | H : ROk _ = ROk _ |- _ => injection H as <- <- || injection H as <-
      end; try (apply BS_none; [reflexivity|reflexivity|repeat constructor]).
    + eapply BS_out; eauto.
    + eapply BS_in; eauto.
  - destruct e; [|injection H as <- <-; apply BS_none; auto].
    unfold on_finalize in H. destruct (_ <? _); [injection H as <- <-; apply BS_none; auto|].
    apply release_bridge in H as (H1 & H2 & _ & H3). now apply BS_none.
Qed.
Lemma bridged_out_app c a b : bridged_out c (a ++ b) = bridged_out c a + bridged_out c b.
Proof. unfold bridged_out. rewrite omap_app, lsum_app. reflexivity. Qed.
Lemma bridged_in_app c a b : bridged_in c (a ++ b) = bridged_in c a + bridged_in c b.
Proof. unfold bridged_in. rewrite omap_app, lsum_app. reflexivity. Qed.
Definition out_of (s : ostate) (c : N) : N := default 0 (o_out s !! c).
Definition in_of (s : ostate) (c : N) : N := default 0 (o_in s !! c).
Lemma run_bridge cfg : forall h s c, out_of s c < two128 -> in_of s c < two128 ->
  out_of (fst (orun cfg s h)) c = N.min (two128 - 1) (out_of s c + bridged_out c (snd (orun cfg s h))) /\
  in_of (fst (orun cfg s h)) c = N.min (two128 - 1) (in_of s c + bridged_in c (snd (orun cfg s h))).
Proof.
  induction h as [|op r IH]; intros s c Ho Hi; [cbn [orun fst snd]; unfold bridged_out, bridged_in; cbn [omap list_omap lsum]; unfold two128 in *; lia|].
  cbn [orun]. destruct (odo cfg s op) as [s1 evs] eqn:E.
  enough (H : out_of s1 c = N.min (two128 - 1) (out_of s c + bridged_out c (map (fun e => (ox_time op.1, e)) evs)) /\
              in_of s1 c = N.min (two128 - 1) (in_of s c + bridged_in c (map (fun e => (ox_time op.1, e)) evs))).
  { destruct H as [H1 H2]. destruct (IH s1 c) as [I1 I2]; [rewrite H1; unfold two128; lia|rewrite H2; unfold two128; lia|].
    destruct (orun cfg s1 r) as [s2 out]. cbn [fst snd] in *. rewrite bridged_out_app, bridged_in_app, I1, I2, H1, H2.
    generalize (two128 - 1). intros M. split; lia. }
  apply odo_bridge in E. destruct E as [op E1 E2 E3|x o from v ch pool _ _ E1 E2 -> _|x o to v ch pool _ _ E1 E2 -> _].
  - destruct (bridge_none (ox_time op.1) c _ E3) as [-> ->]. unfold out_of, in_of in *. rewrite E1, E2.
    unfold two128 in *. lia.
  - unfold out_of, in_of in *. rewrite E1, E2. unfold bridged_out, bridged_in. cbn [map omap list_omap fst snd].
    destruct (N.eqb_spec ch c) as [->|Hne]; cbn [lsum].
    + rewrite lookup_insert. cbn [default]. unfold sadd128. change (id ?z) with z. unfold two128 in *. lia.
    + rewrite lookup_insert_ne by congruence. unfold two128 in *. lia.
  - unfold out_of, in_of in *. rewrite E1, E2. unfold bridged_out, bridged_in. cbn [map omap list_omap fst snd].
    destruct (N.eqb_spec ch c) as [->|Hne]; cbn [lsum].
    + rewrite lookup_insert. cbn [default]. unfold sadd128. change (id ?z) with z. unfold two128 in *. lia.
    + rewrite lookup_insert_ne by congruence. unfold two128 in *. lia.
Qed.

(** The pool holds what was bridged out minus what was bridged in, as long as
    nothing else touches it. *)
Lemma odo_bank_fail cfg s x o c : is_bridge (x, inl (o, c)) = true -> forall s' evs,
  odo cfg s (x, inl (o, c)) = (s', evs) -> evs = [] -> o_bank s' = o_bank s.
Proof.
  intros Hb s' evs E He. destruct c; try discriminate; unfold odo, ostep in E; cbn [fst snd oexec] in E;
    unfold signed, do_bridge_out, do_bridge_in, ensure, rbind in E; break_match;
    repeat match goal with H : ROk _ = ROk _ |- _ => injection H as <- <- || injection H as <- end;
    repeat match goal with H : (_, _) = (_, _) |- _ => injection H as ? ? end; subst; try discriminate; reflexivity.
Qed.
Lemma run_pool cfg pool : forall h s, pool_quiet cfg pool s h ->
  free_of (o_bank (fst (orun cfg s h))) pool + all_in (snd (orun cfg s h)) =
  free_of (o_bank s) pool + all_out (snd (orun cfg s h)).
Proof.
  induction h as [|op r IH]; intros s Hq; [reflexivity|]. cbn [pool_quiet] in Hq. destruct Hq as (Hf & Hop & Hq).
  cbn [orun]. destruct (odo cfg s op) as [s1 evs] eqn:E. cbn [fst] in *. specialize (IH s1 Hq).
  destruct (orun cfg s1 r) as [s2 out]. cbn [fst snd] in *.
  unfold all_in, all_out in *. rewrite !omap_app, !lsum_app.
  enough (free_of (o_bank s1) pool + lsum (omap (fun p => match p.2 with EBridgeIn _ v _ => Some v | _ => None end) (map (fun e => (ox_time op.1, e)) evs)) =
          free_of (o_bank s) pool + lsum (omap (fun p => match p.2 with EBridgeOut _ v _ => Some v | _ => None end) (map (fun e => (ox_time op.1, e)) evs))) by lia.
  pose proof E as E0. apply odo_bridge in E.
  destruct E as [op E1 E2 E3|x o from v ch pool' Hp Ht E1 E2 -> _|x o to v ch pool' Hp Ht E1 E2 -> _].
  - assert (Hz : forall t, lsum (omap (fun p => match p.2 with EBridgeIn _ v _ => Some v | _ => None end) (map (fun e : oev => (t : N, e)) evs)) = 0 /\
       lsum (omap (fun p => match p.2 with EBridgeOut _ v _ => Some v | _ => None end) (map (fun e : oev => (t : N, e)) evs)) = 0).
    { intros t. clear - E3. induction E3 as [|e l H1 H2 IH]; [now split|]. destruct e; try contradiction; exact IH. }
    destruct (Hz (ox_time op.1)) as [-> ->]. rewrite !N.add_0_r.
    destruct (is_bridge op) eqn:Eb.
    + destruct op as [x [[o c]|e]]; [|discriminate]. f_equal.
      assert (evs = []) as ->.
      { clear - E0 E3 Eb. destruct c; try discriminate; unfold odo, ostep in E0; cbn [fst snd oexec] in E0;
        unfold signed, do_bridge_out, do_bridge_in, ensure, rbind in E0; break_match;
        repeat match goal with H : ROk _ = ROk _ |- _ => injection H as <- <- || injection H as <- end;
        repeat match goal with H : (_, _) = (_, _) |- _ => injection H as ? ? end; subst; try reflexivity; inversion E3; contradiction. }
      unfold free_of. erewrite odo_bank_fail; eauto.
    + destruct op as [x [[o c]|e]]; [|exact Hop]. destruct c; try exact Hop; discriminate.
  - assert (pool' = pool) as -> by congruence. destruct (transfer_keep_spec _ _ _ _ _ _ Ht Hop) as (_ & _ & H & _).
    rewrite H. cbn. lia.
  - assert (pool' = pool) as -> by congruence. destruct (transfer_keep_spec _ _ _ _ _ _ Ht) as (H0 & H & _); [congruence|].
    rewrite H. cbn. lia.
Qed.

(** * Every due schedule is served *)
Lemma iter_shrinks cfg s s' c c' w0 r0 :
  (forall w, is_Some (o_info s' !! w) -> is_Some (o_info s !! w)) ->
  (forall w, obeyond c' (oc_key cfg w) = true -> obeyond c (oc_key cfg w) = true) ->
  (w0, r0) ∈ iter_from cfg s c -> obeyond c' (oc_key cfg w0) = false ->
  (length (iter_from cfg s' c') < length (iter_from cfg s c))%nat.
Proof.
  intros Hi Hb Hin H0.
  assert (Hsub : (w0 :: (iter_from cfg s' c').*1) ⊆+ (iter_from cfg s c).*1).
  { apply NoDup_submseteq.
    - constructor; [|apply iter_nodup]. intros Hx. apply elem_of_list_fmap in Hx as ([w r] & E & Hx). cbn in E. subst w.
      apply iter_elem in Hx as [_ Hx]. congruence.
    - intros w Hw. apply elem_of_cons in Hw as [->|Hw].
      + apply elem_of_list_fmap. now exists (w0, r0).
      + apply elem_of_list_fmap in Hw as ([w' r] & E & Hw). cbn in E. subst w'. apply iter_elem in Hw as [H1 H2].
        destruct (Hi w (ex_intro _ r H1)) as [r' Hr']. apply elem_of_list_fmap. exists (w, r'). split; [done|].
        apply iter_elem. auto. }
  apply submseteq_length in Hsub. cbn [length] in Hsub. rewrite !fmap_length in Hsub. lia.
Qed.
Lemma iter_length_le cfg s c : (length (iter_from cfg s c) <= size (o_info s))%nat.
Proof.
  unfold iter_from, size, map_size.
  rewrite <- (Permutation_length (merge_sort_Permutation (okey_le cfg) (map_to_list (o_info s)))).
  apply filter_length.
Qed.

Lemma plain_call cfg s op s1 evs : odo cfg s op = (s1, evs) -> is_block op = false ->
  sets_limits op = false -> edits_schedules op = false ->
  o_info s1 = o_info s /\ o_smax s1 = o_smax s /\ o_dmax s1 = o_dmax s /\ o_daily s1 = o_daily s /\
  o_cursor s1 = o_cursor s /\ o_day s1 = o_day s /\ o_end s1 = o_end s /\ Forall not_release evs.
Proof.
  intros E Hb Hl He. apply odo_cases in E as [[E _]|(_ & [C1 C2 C3 C4 C5] & E2 & E3 & E4)]; [congruence|].
  repeat split; auto.
  - destruct E3 as [E3|[(x & o & w & d & m & t & -> & _)|(x & o & l & -> & _)]]; [done|discriminate..].
  - destruct E4 as [[E4 _]|(x & o & a & b & -> & _)]; [done|discriminate].
  - destruct E4 as [[_ E4]|(x & o & a & b & -> & _)]; [done|discriminate].
Qed.
Lemma ended_day cfg d : d < 2 ^ 32 -> forall h s, o_end s = true -> o_day s = d -> Forall (plain_op d) h ->
  o_daily (fst (orun cfg s h)) = o_daily s /\ o_dmax (fst (orun cfg s h)) = o_dmax s.
Proof.
  intros Hfit. induction h as [|op r IH]; intros s He Hd Hp; [now split|]. apply Forall_cons in Hp as [(P1 & P2 & P3) Hp]. cbn [orun].
  destruct (odo cfg s op) as [s1 evs] eqn:E.
  enough (H : o_end s1 = true /\ o_day s1 = d /\ o_daily s1 = o_daily s /\ o_dmax s1 = o_dmax s).
  { destruct H as (H1 & H2 & H3 & H4). destruct (IH s1 H1 H2 Hp) as [I1 I2]. destruct (orun cfg s1 r). cbn [fst] in *. split; congruence. }
  destruct (is_block op) eqn:Eb.
  - apply odo_cases in E as [[_ E]|(E & _)]; [|congruence]. specialize (P3 eq_refl).
    rewrite old_day_state in E by (rewrite day_day_of; lia). rewrite release_ended in E by done. injection E as -> ->. auto.
  - destruct (plain_call _ _ _ _ _ E Eb P1 P2) as (H1 & H2 & H3 & H4 & H5 & H6 & H7 & _). repeat split; congruence.
Qed.

Lemma served cfg d w r : keys_differ cfg -> d < 2 ^ 32 -> rel d r <> 0 -> forall h s,
  o_day s = d -> o_info s !! w = Some r -> rel d r <= o_smax s -> pending cfg s w = true ->
  Forall (plain_op d) h ->
  default 0 (o_daily (fst (orun cfg s h)) !! d) < o_dmax s ->
  N.of_nat (length (iter_from cfg s (o_cursor s))) < blocks h ->
  (d, w) ∈ releases (snd (orun cfg s h)).
Proof.
  intros Hinj Hfit Hrel. induction h as [|op rest IH]; intros s Hd Hi Hsm Hpen Hp Hfin Hn.
  - unfold blocks in Hn. cbn in Hn. lia.
  - apply Forall_cons in Hp as [(P1 & P2 & P3) Hp]. cbn [orun] in *.
    destruct (odo cfg s op) as [s1 evs] eqn:E. destruct (orun cfg s1 rest) as [s2 out] eqn:Er. cbn [fst snd] in *.
    rewrite releases_app.
    pose proof Hpen as Hpen0. unfold pending in Hpen. apply andb_true_iff in Hpen as [He Hby]. apply negb_true_iff in He.
    destruct (is_block op) eqn:Eb.
    + apply odo_cases in E as [[_ E]|(E & _)]; [|congruence]. specialize (P3 eq_refl).
      rewrite old_day_state in E by (rewrite day_day_of; lia). rewrite day_day_of in E by lia. rewrite P3 in E.
      symmetry in E. apply release_block in E as (paid & tail & B); [|done].
      destruct (block_events _ _ _ _ _ _ _ (ox_time op.1) B) as [Hev _].
      destruct (decide (w ∈ paid.*1)) as [Hw|Hw].
      { apply elem_of_app. left. rewrite Hev, P3. apply elem_of_list_fmap. eauto. }
      apply elem_of_app. right.
      assert (Hin : (w, r) ∈ iter_from cfg s (o_cursor s)) by (apply iter_elem; auto).
      pose proof (iter_sorted cfg s (o_cursor s) Hinj) as Hsort.
      assert (Hinfo1 : o_info s1 !! w = Some r).
      { rewrite (br_info _ _ _ _ _ _ _ B), Hi, decide_False by done. reflexivity. }
      assert (Hday1 : o_day s1 = d) by (rewrite (br_day _ _ _ _ _ _ _ B); done).
      assert (Hpaidw : forall l0, (w, r) ∈ l0 -> (w, r) ∈ due d l0).
      { intros l0 H0. apply due_in. auto. }
      destruct (br_stop _ _ _ _ _ _ _ B) as [(Ep & _)|(l1 & w0 & r0 & l2 & El & Ec & Hr0 & Hc)].
      { exfalso. apply Hw. rewrite Ep. apply elem_of_list_fmap. exists (w, r). auto. }
      assert (Hin0 : (w0, r0) ∈ iter_from cfg s (o_cursor s)) by (rewrite El; apply elem_of_app; right; left).
      assert (Hnl1 : (w, r) ∉ l1).
      { intros H. apply Hw. apply elem_of_list_fmap. exists (w, r). split; [done|].
        destruct Hc as [(-> & _)|(-> & _)]; [auto|]. apply elem_of_app. left. auto. }
      assert (Hnw0 : w <> w0).
      { intros <-. assert (r0 = r) as -> by (apply iter_elem in Hin0 as [H _]; congruence).
        destruct Hc as [(_ & H & _)|(-> & _)]; [lia|]. apply Hw. apply elem_of_list_fmap. exists (w, r). split; [done|].
        apply elem_of_app. right. now apply elem_of_list_singleton. }
      assert (Hafter : oc_key cfg w0 < oc_key cfg w).
      { rewrite El in Hin, Hsort. apply elem_of_app in Hin as [H|H]; [contradiction|].
        apply elem_of_cons in H as [H|H]; [congruence|].
        clear - Hsort H. induction l1 as [|q l1 IH]; cbn in Hsort; inversion Hsort as [|? ? H1 H2]; subst; [|now apply IH].
        rewrite Forall_forall in H2. exact (H2 _ H). }
      assert (Hend1 : o_end s1 = false).
      { destruct (o_end s1) eqn:He1; [|reflexivity]. exfalso.
        destruct Hc as [(_ & _ & H & _)|(_ & _ & [[_ H]|[H _]])]; [congruence| |congruence].
        destruct (ended_day cfg d Hfit rest s1 He1 Hday1 Hp) as [F1 _]. rewrite Er in F1. cbn [fst] in F1.
        rewrite F1, (br_daily _ _ _ _ _ _ _ B), lookup_insert in Hfin. cbn [default] in Hfin. change (id ?z) with z in Hfin. lia. }
      specialize (IH s1 Hday1 Hinfo1). rewrite Er in IH. cbn [fst snd] in IH. apply IH; auto.
      * now rewrite (br_smax _ _ _ _ _ _ _ B).
      * unfold pending. rewrite Hend1, Ec. cbn. now apply N.ltb_lt.
      * now rewrite (br_dmax _ _ _ _ _ _ _ B).
      * unfold blocks in *. cbn [List.filter] in Hn. rewrite Eb in Hn. cbn [length] in Hn.
        enough (length (iter_from cfg s1 (o_cursor s1)) < length (iter_from cfg s (o_cursor s)))%nat by lia.
        apply iter_shrinks with w0 r0; auto.
        -- intros a Ha. rewrite (br_info _ _ _ _ _ _ _ B) in Ha. destruct (o_info s !! a); [eauto|]. now destruct Ha.
        -- intros a Ha. apply iter_elem in Hin0 as [_ Hb0]. rewrite Ec in Ha. cbn in Ha. apply N.ltb_lt in Ha.
           destruct (o_cursor s); cbn in *; [done| |done]. apply N.ltb_lt in Hb0. apply N.ltb_lt. lia.
        -- rewrite Ec. cbn. apply N.ltb_irrefl.
    + destruct (plain_call _ _ _ _ _ E Eb P1 P2) as (H1 & H2 & H3 & H4 & H5 & H6 & H7 & H8).
      apply elem_of_app. right. specialize (IH s1). rewrite Er in IH. cbn [fst snd] in IH. apply IH; auto; try congruence.
      * unfold pending in *. now rewrite H5, H7.
      * unfold blocks in *. cbn [List.filter] in Hn. rewrite Eb in Hn. unfold iter_from in *. now rewrite H1, H5.
Qed.

(** * A schedule that is too late *)
Lemma stuck cfg w r : r_per r * 2 ^ 32 <= two128 -> forall h s t,
  o_info s !! w = Some r -> o_smax s < r_per r * (day t - r_last r) -> chrono t h ->
  Forall (fun op => ~ schedules w op) h -> Forall (fun op => sets_limits op = false) h ->
  payments w (snd (orun cfg s h)) = [].
Proof.
  intros Hper. induction h as [|op rest IH]; intros s t Hi Hlate Hc Hs HL; [reflexivity|].
  cbn [chrono] in Hc. destruct Hc as (Ht & Hfit & Hc).
  apply Forall_cons in Hs as [Hs0 Hs]. apply Forall_cons in HL as [HL0 HL]. cbn [orun].
  destruct (odo cfg s op) as [s1 evs] eqn:E. pose proof (day_mono _ _ Ht) as Hdm.
  assert (Hlate1 : o_smax s < r_per r * (day (ox_time op.1) - r_last r)).
  { eapply N.lt_le_trans; [exact Hlate|]. apply N.mul_le_mono_l. lia. }
  assert (Hs1 : o_smax s1 = o_smax s).
  { pose proof E as E0. apply odo_cases in E0 as [[_ E0]|(_ & _ & _ & _ & [[H _]|(x & o & a & b & -> & _)])]; [|done|discriminate].
    destruct (N.lt_ge_cases (o_day s) (day_of (ox_time op.1))) as [Hn|Hn].
    - symmetry in E0. apply new_day_state in E0 as (_ & ->); done.
    - rewrite old_day_state in E0 by done. destruct (o_end s) eqn:He.
      + rewrite release_ended in E0 by done. injection E0 as -> _. done.
      + symmetry in E0. apply release_block in E0 as (paid & tail & B); [|done]. apply (br_smax _ _ _ _ _ _ _ B). }
  pose proof (one_step _ _ _ _ _ _ _ E Hi Hs0) as Hstep. unfold sched_step in Hstep. cbv zeta in Hstep.
  destruct (orun cfg s1 rest) as [s2 out] eqn:Er. cbn [snd]. rewrite payments_app.
  destruct Hstep as [(H1 & ->)|[(H1 & ->)|(v & _ & _ & _ & _ & H3 & _)]]; cbn [app].
  - pose proof (nothing_due cfg w rest s1 H1 Hs) as H. now rewrite Er in H.
  - specialize (IH s1 (ox_time op.1) H1). rewrite Er in IH. apply IH; auto. now rewrite Hs1.
  - exfalso. rewrite day_day_of in H3 by done. unfold rel, mul128 in H3. rewrite w128_small in H3; [lia|].
    destruct (N.eq_dec (r_per r) 0) as [E0|E0]; [rewrite E0; reflexivity|].
    eapply N.lt_le_trans; [|exact Hper]. apply N.mul_lt_mono_pos_l; [lia|]. change (2 ^ 32) with 4294967296 in *. lia.
Qed.
