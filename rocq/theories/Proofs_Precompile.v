(** Proofs about the credit precompile. *)
From Verif Require Import Base Balances Model_UserPrivileges Model_Credit Model_Precompile
  Spec_Credit Spec_Precompile Proofs_Credit Proofs_Credit4.
From stdpp Require Import gmap.
Open Scope N_scope.

Lemma be_app l b : be (l ++ [b]) = be l * 256 + b.
Proof. unfold be. now rewrite fold_left_app. Qed.
Lemma be_lt l : is_bytes l -> be l < 256 ^ N.of_nat (length l).
Proof.
  induction l as [|b l IH] using rev_ind; intros H; [cbn; lia|].
  apply Forall_app in H as [H1 H2]. apply Forall_inv in H2. specialize (IH H1).
  rewrite be_app, app_length. cbn [length]. replace (length l + 1)%nat with (S (length l)) by lia.
  rewrite Nat2N.inj_succ, N.pow_succ_r'. lia.
Qed.

Lemma bytes_of_S n v : bytes_of (S n) v = bytes_of n (v / 256) ++ [v mod 256].
Proof.
  unfold bytes_of. rewrite seq_S, map_app. cbn [map Nat.add]. f_equal.
  - apply map_ext_in. intros i Hi. apply in_seq in Hi. unfold byte_at.
    replace (S n - 1 - i)%nat with (S (n - 1 - i)) by lia.
    rewrite Nat2N.inj_succ, N.pow_succ_r'. f_equal.
    rewrite N.div_div; [reflexivity|discriminate|apply N.pow_nonzero; discriminate].
  - unfold byte_at. replace (S n - 1 - n)%nat with 0%nat by lia. cbn [N.of_nat]. rewrite N.pow_0_r, N.div_1_r. reflexivity.
Qed.
Lemma bytes_of_length n v : length (bytes_of n v) = n.
Proof. unfold bytes_of. now rewrite map_length, seq_length. Qed.
Lemma bytes_of_bytes n v : is_bytes (bytes_of n v).
Proof. unfold is_bytes, bytes_of. apply Forall_map, Forall_forall. intros i _. unfold byte_at. cbn. apply N.mod_lt. discriminate. Qed.
Lemma be_bytes_of n : forall v, v < 256 ^ N.of_nat n -> be (bytes_of n v) = v.
Proof.
  induction n as [|n IH]; intros v H; [cbn in *; lia|].
  rewrite bytes_of_S, be_app. rewrite Nat2N.inj_succ, N.pow_succ_r' in H.
  rewrite IH; [|apply N.div_lt_upper_bound; [discriminate|exact H]].
  pose proof (N.div_mod v 256 ltac:(discriminate)). lia.
Qed.
Lemma to_be_bytes_of n : forall v, to_be n v = bytes_of n v.
Proof. induction n as [|n IH]; intros v; [reflexivity|]. rewrite bytes_of_S. cbn [to_be]. now rewrite IH. Qed.
Lemma be_inj l : is_bytes l -> l = bytes_of (length l) (be l).
Proof.
  induction l as [|b l IH] using rev_ind; intros H; [reflexivity|].
  apply Forall_app in H as [H1 H2]. apply Forall_inv in H2. rewrite app_length. cbn [length].
  replace (length l + 1)%nat with (S (length l)) by lia.
  rewrite be_app, bytes_of_S. rewrite N.div_add_l, (N.div_small b), N.add_0_r by (try discriminate; exact H2).
  rewrite N.add_comm, N.mod_add, (N.mod_small b) by (try discriminate; exact H2). now rewrite <- IH.
Qed.

Lemma bytes_of_low n m v : (n <= m)%nat -> v < 256 ^ N.of_nat n -> drop (m - n) (bytes_of m v) = bytes_of n v.
Proof.
  intros Hle Hv. induction m as [|m IH] in n, Hle, v, Hv |- *.
  - replace n with 0%nat by lia. reflexivity.
  - destruct n as [|n].
    + rewrite drop_ge; [reflexivity|]. rewrite bytes_of_length. lia.
    + rewrite !bytes_of_S. cbn [Nat.sub]. rewrite drop_app_le by (rewrite bytes_of_length; lia).
      rewrite IH; [reflexivity|lia|]. rewrite Nat2N.inj_succ, N.pow_succ_r' in Hv.
      apply N.div_lt_upper_bound; [discriminate|exact Hv].
Qed.

(** Reading the pieces of calldata. *)
Lemma data_selector sel user rest : sel < 2 ^ 32 -> be (array_ref (bytes_of 4 sel ++ bytes_of 32 user ++ rest) 0 4) = sel.
Proof.
  intros H. unfold array_ref. rewrite drop_0, take_app_alt by now rewrite bytes_of_length.
  apply be_bytes_of. exact H.
Qed.
Lemma data_user sel user rest :
  user < 2 ^ 160 -> be (array_ref (bytes_of 4 sel ++ bytes_of 32 user ++ rest) 16 20) = user.
Proof.
  intros H. unfold array_ref.
  rewrite drop_app_ge by (rewrite bytes_of_length; lia). rewrite bytes_of_length. cbn [Nat.sub].
  rewrite drop_app_le by (rewrite bytes_of_length; lia).
  change 12%nat with (32 - 20)%nat. rewrite bytes_of_low; [|lia|exact H].
  rewrite take_app_alt by now rewrite bytes_of_length. apply be_bytes_of. exact H.
Qed.
Lemma data_amount sel user amount rest :
  amount < 2 ^ 256 ->
  be (array_ref (bytes_of 4 sel ++ bytes_of 32 user ++ bytes_of 32 amount ++ rest) 36 32) = amount.
Proof.
  intros H. unfold array_ref. rewrite app_assoc.
  rewrite drop_app_alt by (rewrite app_length, !bytes_of_length; reflexivity).
  rewrite take_app_alt by now rewrite bytes_of_length. apply be_bytes_of. exact H.
Qed.
Lemma data_len sel user amount rest :
  length (bytes_of 4 sel ++ bytes_of 32 user ++ bytes_of 32 amount ++ rest) = (68 + length rest)%nat.
Proof. rewrite !app_length, !bytes_of_length. lia. Qed.
Lemma data_len_get sel user rest : length (bytes_of 4 sel ++ bytes_of 32 user ++ rest) = (36 + length rest)%nat.
Proof. rewrite !app_length, !bytes_of_length. lia. Qed.

Lemma selector_bytes input sel :
  is_bytes input -> (4 <= length input)%nat -> be (array_ref input 0 4) = sel -> take 4 input = bytes_of 4 sel.
Proof.
  intros Hb Hl E. unfold array_ref in E. rewrite drop_0 in E.
  rewrite (be_inj (take 4 input)), E; [|unfold is_bytes; now apply Forall_take].
  now rewrite take_length, Nat.min_l by lia.
Qed.

(** An accepted update passed all the checks. *)
Lemma do_update_ok cfg s x h add s' :
  do_update cfg s x h add = ROk s' ->
  (68 <= length (h_input h))%nat /\ h_static h = false /\ h_value h = 0 /\
  (s' <> s -> kx_evm_priv x (h_caller h) EvmCreditOperation = true).
Proof.
  unfold do_update, check_len, check_modifier.
  destruct (Nat.ltb_spec (length (h_input h)) (BASIC_LEN + 32)) as [|Hl]; [discriminate|]. cbn [rbind].
  destruct (h_static h); cbn [andb]; [discriminate|].
  destruct (N.ltb_spec 0 (h_value h)) as [|Hv]; [discriminate|]. cbn [rbind].
  unfold BASIC_LEN in Hl. intros H. split; [lia|]. split; [done|]. split; [lia|]. intros Hne.
  unfold evm_update in H. destruct (kx_evm_priv x (h_caller h) EvmCreditOperation); [done|].
  cbn [negb] in H. injection H as <-. congruence.
Qed.

Lemma credit_execute_changes cfg pc s x h s' out :
  is_bytes (h_input h) -> credit_execute cfg pc s x h = ROk (s', out) -> s' <> s -> may_update x h.
Proof.
  intros Hb. unfold credit_execute.
  destruct (Nat.ltb_spec (length (h_input h)) BASIC_LEN) as [|Hl]; [discriminate|]. unfold BASIC_LEN in Hl.
  destruct (N.eqb_spec (be (array_ref (h_input h) 0 4)) SEL_GET) as [|Hg].
  - unfold get_score. destruct (check_len h BASIC_LEN); cbn; try discriminate.
    destruct (check_modifier h View); cbn; try discriminate.
    destruct (record_cost h _); cbn; try discriminate. intros H. injection H as <- _. congruence.
  - destruct (N.eqb_spec (be (array_ref (h_input h) 0 4)) SEL_ADD) as [Ha|Ha].
    + unfold add_score. destruct (do_update cfg s x h true) as [s1| |] eqn:E; cbn; try discriminate.
      destruct (record_cost h _); cbn; try discriminate. intros H Hne. injection H as <- _.
      apply do_update_ok in E as (H1 & H2 & H3 & H4). repeat split; auto.
      left. apply selector_bytes in Ha; [|done|lia]. rewrite Ha. reflexivity.
    + destruct (N.eqb_spec (be (array_ref (h_input h) 0 4)) SEL_SLASH) as [Hs|]; [|discriminate].
      unfold slash_score. destruct (do_update cfg s x h false) as [s1| |] eqn:E; cbn; try discriminate.
      destruct (record_cost h _); cbn; try discriminate. intros H Hne. injection H as <- _.
      apply do_update_ok in E as (H1 & H2 & H3 & H4). repeat split; auto.
      right. apply selector_bytes in Hs; [|done|lia]. rewrite Hs. reflexivity.
Qed.

(** An update through calldata is the pallet's update, if the context allows it
    and the gas suffices. *)
Lemma update_by_data cfg pc s x h user amount rest (add : bool) :
  h_input h = (if add then add_data user amount rest else slash_data user amount rest) ->
  user < 2 ^ 160 -> amount < 2 ^ 256 ->
  h_static h = false -> h_value h = 0 ->
  (if add then w64 (pc_read pc * 2 + pc_write pc) else w64 (pc_read pc * 4 + pc_write pc * 2)) <= h_gas h ->
  precompile_step cfg pc s x h =
    match evm_update cfg s x (h_caller h) user (amount mod 2 ^ 64) add with
    | ROk (s', _) => (s', ROk [])
    | RErr _ => (s, ROk [])
    | RPanic => (s, RPanic)
    end.
Proof.
  intros Hi Hu Ha Hs Hv Hg. unfold precompile_step, credit_execute.
  assert (Hd : do_update cfg s x h add =
    match evm_update cfg s x (h_caller h) user (amount mod 2 ^ 64) add with
    | ROk (s', _) => ROk s' | RErr _ => ROk s | RPanic => RPanic end).
  { unfold do_update, check_len, check_modifier, BASIC_LEN. rewrite Hs, Hv. cbn [andb].
    replace (length (h_input h) <? 36 + 32)%nat with false.
    2: { symmetry. apply Nat.ltb_ge. rewrite Hi. destruct add; unfold add_data, slash_data; rewrite data_len; lia. }
    change (0 <? 0) with false. cbn [rbind Nat.sub].
    replace (be (array_ref (h_input h) 16 20)) with user
      by (rewrite Hi; destruct add; symmetry; now apply data_user).
    replace (be (array_ref (h_input h) 36 32)) with amount
      by (rewrite Hi; destruct add; symmetry; now apply data_amount).
    reflexivity. }
  replace (length (h_input h) <? BASIC_LEN)%nat with false.
  2: { symmetry. apply Nat.ltb_ge. unfold BASIC_LEN. rewrite Hi. destruct add; unfold add_data, slash_data; rewrite data_len; lia. }
  replace (be (array_ref (h_input h) 0 4)) with (if add then SEL_ADD else SEL_SLASH)
    by (rewrite Hi; destruct add; symmetry; now apply data_selector).
  destruct add.
  - change (SEL_ADD =? SEL_GET) with false. change (SEL_ADD =? SEL_ADD) with true. cbv iota.
    unfold add_score. rewrite Hd. unfold record_cost.
    replace (h_gas h <? w64 (pc_read pc * 2 + pc_write pc)) with false by (symmetry; now apply N.ltb_ge).
    destruct (evm_update cfg s x (h_caller h) user (amount mod 2 ^ 64) true) as [[]| |]; reflexivity.
  - change (SEL_SLASH =? SEL_GET) with false. change (SEL_SLASH =? SEL_ADD) with false.
    change (SEL_SLASH =? SEL_SLASH) with true. cbv iota.
    unfold slash_score. rewrite Hd. unfold record_cost.
    replace (h_gas h <? w64 (pc_read pc * 4 + pc_write pc * 2)) with false by (symmetry; now apply N.ltb_ge).
    destruct (evm_update cfg s x (h_caller h) user (amount mod 2 ^ 64) false) as [[]| |]; reflexivity.
Qed.

(** Success of an update implies the same about the gas and the context. *)
Lemma update_success cfg pc s x h user amount rest (add : bool) s' out :
  h_input h = (if add then add_data user amount rest else slash_data user amount rest) ->
  precompile_step cfg pc s x h = (s', ROk out) ->
  h_static h = false /\ h_value h = 0 /\
  (if add then w64 (pc_read pc * 2 + pc_write pc) else w64 (pc_read pc * 4 + pc_write pc * 2)) <= h_gas h.
Proof.
  intros Hi. unfold precompile_step, credit_execute.
  replace (length (h_input h) <? BASIC_LEN)%nat with false.
  2: { symmetry. apply Nat.ltb_ge. unfold BASIC_LEN. rewrite Hi. destruct add; unfold add_data, slash_data; rewrite data_len; lia. }
  replace (be (array_ref (h_input h) 0 4)) with (if add then SEL_ADD else SEL_SLASH)
    by (rewrite Hi; destruct add; symmetry; now apply data_selector).
  destruct add.
  - change (SEL_ADD =? SEL_GET) with false. change (SEL_ADD =? SEL_ADD) with true. cbv iota.
    unfold add_score. destruct (do_update cfg s x h true) as [s1| |] eqn:E; cbn; try discriminate.
    unfold record_cost. destruct (N.ltb_spec (h_gas h) (w64 (pc_read pc * 2 + pc_write pc))); cbn; try discriminate.
    intros _. apply do_update_ok in E as (_ & H2 & H3 & _). repeat split; auto.
  - change (SEL_SLASH =? SEL_GET) with false. change (SEL_SLASH =? SEL_ADD) with false.
    change (SEL_SLASH =? SEL_SLASH) with true. cbv iota.
    unfold slash_score. destruct (do_update cfg s x h false) as [s1| |] eqn:E; cbn; try discriminate.
    unfold record_cost. destruct (N.ltb_spec (h_gas h) (w64 (pc_read pc * 4 + pc_write pc * 2))); cbn; try discriminate.
    intros _. apply do_update_ok in E as (_ & H2 & H3 & _). repeat split; auto.
Qed.

(** What the pallet's update does to a record. *)
Lemma do_add_score cfg s x who d d' s' :
  k_uc s !! who = Some d -> do_add_credit cfg s x who d' = ROk s' ->
  k_uc s' = <[who := d']> (k_uc s) /\ (forall w, w <> who -> k_hist s' !! w = k_hist s !! w) /\ k_bank s' = k_bank s.
Proof.
  intros E. unfold do_add_credit. rewrite E. unfold hist_of at 1. cbn [k_hist set_k_uc].
  destruct (default [] (k_hist s !! who)) as [|p l] eqn:Eh.
  - intros H. injection H as <-. cbn. auto.
  - unfold update_history. cbn [k_uc set_k_uc]. rewrite lookup_insert.
    destruct (last (hist_of _ who)) as [[e dl]|].
    + intros H. injection H as <-. cbn. split; [done|]. split; [|done]. intros w Hw.
      rewrite lookup_insert_ne by congruence. reflexivity.
    + intros H. injection H as <-. cbn. auto.
Qed.
Lemma do_add_some cfg s x who d d' : k_uc s !! who = Some d -> exists s', do_add_credit cfg s x who d' = ROk s'.
Proof.
  intros E. unfold do_add_credit. rewrite E. destruct (hist_of (set_k_uc s (<[who:=d']> (k_uc s))) who); [eauto|].
  unfold update_history. cbn [k_uc set_k_uc]. rewrite lookup_insert.
  destruct (last (hist_of _ who)) as [[? ?]|]; eauto.
Qed.
