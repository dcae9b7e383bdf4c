(** Effects of buying credit, claiming while offline, unprivileged calls,
    unstaking, and the genesis campaign schedule. *)
From Verif Require Import Base Balances Proofs_Balances Proofs_Arith Model_UserPrivileges Model_Credit
  Spec_Credit Proofs_Credit Proofs_Credit2 Proofs_Credit3 Proofs_Credit4.
From stdpp Require Import gmap.
Open Scope N_scope.

(** * Balances *)
Lemma withdraw_exact ed k b who v b' :
  withdraw ed k b who v = Some b' -> (ed <= free_of b who \/ rsv (acct_of b who) <> 0) -> k = true ->
  v <= free_of b who /\
  acct_of b' who = Acct (free_of b who - v) (rsv (acct_of b who)) (frz (acct_of b who)).
Proof.
  unfold withdraw, free_of. intros H Hl ->. destruct (N.eqb_spec v 0) as [->|Hv].
  { injection H as <-. split; [lia|]. destruct (acct_of b who). cbn. f_equal. lia. }
  cbv zeta in H. destruct (N.ltb_spec (free (acct_of b who)) v); [discriminate|]. split; [done|].
  destruct (N.ltb_spec (free (acct_of b who) - v) ed) as [H1|H1], (N.leb_spec ed (free (acct_of b who))) as [H2|H2];
    cbn [andb] in H; try discriminate;
    destruct (_ <? _); try discriminate; injection H as <-; apply put_acct_eq; cbn; lia.
Qed.

(** * Cap of bought credit *)
Lemma fold_max_le l acc v : v <= fold_left N.max l acc -> v <= acc \/ exists y, y ∈ l /\ v <= y.
Proof.
  revert acc. induction l as [|a l IH]; intros acc; cbn [fold_left]; [auto|].
  intros [H|(y & Hy & H)]%IH.
  - destruct (N.le_gt_cases v acc); [auto|]. right. exists a. split; [left|lia].
  - right. exists y. split; [now right|done].
Qed.
Lemma max_credit_le cfg s who v :
  v <= max_credit cfg s who ->
  v <= kc_min cfg \/ exists e d, (e, d) ∈ default [] (k_hist s !! who) /\ v <= cd_credit d.
Proof.
  unfold max_credit, hist_of. intros [H|(y & Hy & H)]%fold_max_le; [auto|].
  apply elem_of_list_In, in_map_iff in Hy as ([e d] & <- & Hy). apply elem_of_list_In in Hy.
  right. eauto.
Qed.

Lemma burn_for_credit_eq cfg s x a score :
  accepted cfg s (x, inl (Signed a, KBurnForCredit score)) = true ->
  exists d b, k_uc s !! a = Some d /\ sadd64 (cd_credit d) score <= max_credit cfg s a /\
    let amount := smul128 (k_dpr_per_credit s) (w32 score) in
    let d' := cd_update d (sadd64 (cd_credit d) score) in
    withdraw (kc_ed cfg) true (k_bank s) a amount = Some b /\
    kdo cfg s (x, inl (Signed a, KBurnForCredit score)) =
      burn_record cfg
        (set_k_hist (set_k_uc (set_k_bank s (deposit_creating (kc_ed cfg) b (kc_treasury cfg) amount))
           (<[a := d']> (k_uc s))) (recorded (k_hist s) a (era_of cfg (kx_now x)) d')) x amount.
Proof.
  intros Ha. pose proof (kdo_call _ _ _ _ _ Ha) as E. generalize dependent (kdo cfg s (x, inl (Signed a, KBurnForCredit score))).
  intros s' E. cbn [kexec] in E. unfold burn_for_credit in E. cbn [ensure_signed_k rbind] in E.
  destruct (k_uc s !! a) as [d|] eqn:Ed; [|discriminate]. cbv zeta in E.
  destruct (N.ltb_spec (max_credit cfg s a) (sadd64 (cd_credit d) score)) as [|Hm]; [discriminate|].
  destruct (withdraw _ _ _ _ _) as [b|] eqn:Ew; [|discriminate].
  unfold update_credit in E. cbn [k_uc set_k_bank] in E. rewrite Ed in E.
  erewrite update_history_eq in E by (cbn; apply lookup_insert). cbn [rbind] in E. injection E as <-.
  exists d, b. auto.
Qed.

(** * Reward computations of offline users *)
Lemma slash_offline_eq cfg s x who d :
  k_uc s !! who = Some d -> kc_step cfg <> U64MAX ->
  let d' := cd_update d (cd_credit d - kc_step cfg) in
  slash_offline cfg s x who =
    ROk (if offline_slash_due s x who
         then set_k_hist (set_k_uc s (<[who := d']> (k_uc s))) (recorded (k_hist s) who (era_of cfg (kx_now x)) d')
         else s).
Proof.
  intros Hd Hs. unfold slash_offline. destruct (offline_slash_due s x who); [|done].
  now rewrite (slash_eq _ _ _ _ _ d) by done.
Qed.
Lemma do_switch_uc s who old era s' b d :
  k_uc s !! who = Some d ->
  do_switch s who old era = ROk (s', b) ->
  (b = false /\ s' = s /\ (is_Some (k_noswitch s !! who) \/ k_switch s !! cd_camp old = None)) \/
  (b = true /\ k_noswitch s !! who = None /\ is_Some (k_switch s !! cd_camp old) /\
   exists d', k_uc s' !! who = Some d' /\ cd_credit d' = cd_credit old /\ cd_level d' = cd_level old).
Proof.
  intros Hd. unfold do_switch. destruct (k_noswitch s !! who); [intros [= <- <-]; left; eauto|].
  destruct (k_switch s !! cd_camp old); [|intros [= <- <-]; left; eauto].
  erewrite update_history_eq by (cbn; apply lookup_insert). cbn [rbind]. intros [= <- <-].
  right. split; [done|]. split; [done|]. split; [eauto|]. eexists. cbn. rewrite lookup_insert. split; [reflexivity|].
  destruct (cd_camp old =? n); done.
Qed.

(** When does a claim move the user to another campaign? *)
Definition may_switch (cfg : kcfg) (s : kstate) (x : kctx) (who : N) (d : cdata) (from : N) : Prop :=
  k_noswitch s !! who = None /\ is_Some (k_switch s !! cd_camp d) /\
  (cd_camp d <= 6 \/
   let e0 := match default [] (k_hist s !! who) with (e, _) :: _ => e | [] => era_of cfg (kx_now x) end in
   from + 1 = e0 + cd_eras d).

Lemma get_reward_score cfg s x who from to s' r d :
  kc_step cfg <> U64MAX -> k_uc s !! who = Some d -> cd_eras d <> 0 -> from <= to -> to < era_of cfg (kx_now x) ->
  (let e0 := match default [] (k_hist s !! who) with (e, _) :: _ => e | [] => era_of cfg (kx_now x) end in
   e0 + cd_eras d < two32) ->
  get_reward cfg s x who from to = ROk (s', r) ->
  (offline_slash_due s x who = false -> score_of s' who = Some (cd_credit d)) /\
  (offline_slash_due s x who = true -> ~ may_switch cfg s x who d from ->
     score_of s' who = Some (cd_credit d - kc_step cfg)).
Proof.
  intros Hstep Hd He Hft Hto. set (cur := era_of cfg (kx_now x)). cbv zeta. intros H32.
  unfold get_reward. fold cur.
  destruct (N.ltb_spec to from); [lia|]. destruct (N.leb_spec cur to) as [Hc|_]; [subst cur; lia|]. cbn [orb].
  rewrite Hd. destruct (N.eqb_spec (cd_eras d) 0); [contradiction|]. cbv zeta.
  set (s1 := match hist_of s who with [] => init_history s who d cur | _ => s end).
  assert (U1 : k_uc s1 !! who = Some d) by (subst s1; destruct (hist_of s who); exact Hd).
  assert (R1 : same_rest s s1) by (subst s1; destruct (hist_of s who); [reflexivity|apply same_rest_refl]).
  assert (Eh1 : exists d1 r1, default [] (k_hist s1 !! who) =
     (match default [] (k_hist s !! who) with (e, _) :: _ => e | [] => cur end, d1) :: r1).
  { subst s1. unfold hist_of. destruct (default [] (k_hist s !! who)) as [|[e1 d1] r1] eqn:E1.
    - cbn. rewrite lookup_insert. cbn. eauto.
    - rewrite E1. eauto. }
  destruct Eh1 as (d1 & r1 & Eh1).
  set (e0 := match default [] (k_hist s !! who) with (e, _) :: _ => e | [] => cur end) in *.
  rewrite (slash_offline_eq cfg s1 x who d U1 Hstep). cbn [rbind]. fold cur.
  assert (Edue : offline_slash_due s1 x who = offline_slash_due s x who).
  { unfold offline_slash_due. now rewrite R1. }
  rewrite Edue. set (due := offline_slash_due s x who).
  match goal with |- context [hist_of ?t who] => set (s2 := t) end.
  assert (U2 : k_uc s2 !! who = Some (if due then cd_update d (cd_credit d - kc_step cfg) else d)).
  { subst s2. destruct due; [|exact U1]. cbn. now rewrite lookup_insert. }
  assert (R2 : same_rest s s2).
  { eapply same_rest_trans; [exact R1|]. subst s2. destruct due; [reflexivity|apply same_rest_refl]. }
  assert (Eh2 : exists d2 r2, hist_of s2 who = (e0, d2) :: r2).
  { subst s2. destruct due; [|eauto]. unfold hist_of. cbn [k_hist set_k_hist].
    eapply recorded_head. exact Eh1. }
  destruct Eh2 as (d2 & r2 & Eh2). rewrite Eh2.
  assert (Eexp : sub32 (add32 e0 (cd_eras d)) 1 = e0 + cd_eras d - 1).
  { unfold add32. rewrite w32_small by lia. apply sub32_exact; unfold two32 in *; lia. }
  rewrite Eexp.
  assert (Hkeep : (due = false -> score_of s2 who = Some (cd_credit d)) /\
     (due = true -> score_of s2 who = Some (cd_credit d - kc_step cfg))).
  { unfold score_of. rewrite U2. destruct due; split; intros; try discriminate; reflexivity. }
  destruct (negb _ && _).
  { intros [= <- <-]. destruct Hkeep. auto. }
  intros HR. inv_bind HR. rename a into s3.
  assert (H3 : (due = false -> score_of s3 who = Some (cd_credit d)) /\
     (due = true -> ~ may_switch cfg s x who d from -> score_of s3 who = Some (cd_credit d - kc_step cfg))).
  { destruct ((from =? _) || (cd_camp d <=? 6)) eqn:Esw.
    - inv_bind Ha. destruct a as [s4 b]. injection Ha as <-. cbn [fst].
      destruct (do_switch_uc _ _ _ _ _ _ _ U2 Ha0) as [(-> & -> & _)|(-> & Hn & Hs & d' & U' & Hc & _)].
      + destruct Hkeep. auto.
      + split; [intros _; unfold score_of; rewrite U'; cbn; now rewrite Hc|].
        intros _ []. unfold may_switch. rewrite R2 in Hn, Hs. split; [exact Hn|]. split; [exact Hs|].
        fold cur. fold e0. apply orb_true_iff in Esw as [Esw|Esw].
        * right. apply N.eqb_eq in Esw. lia.
        * left. now apply N.leb_le.
    - injection Ha as <-. destruct Hkeep. auto. }
  destruct (get_credit_map _ _ _ _) as [[|p m]|]; [|inv_bind HR|discriminate]; injection HR as <- _; exact H3.
Qed.

(** * Unprivileged calls *)
Lemma unprivileged_call cfg s x a c :
  (forall p, kx_priv x a p = false) -> accepted cfg s (x, inl (Signed a, c)) = true ->
  (exists score, c = KBurnForCredit score) \/ (exists class item, c = KBurnNft class item).
Proof.
  intros Hp Ha. apply kdo_call, kexec_rest in Ha.
  destruct c; cbv beta iota in Ha; open_all; try discriminate; eauto;
    repeat match goal with E : Signed _ = Signed _ |- _ => injection E as <- end;
    match goal with E : kx_priv x a _ = true |- _ => rewrite Hp in E; discriminate end.
Qed.
Lemma burn_nft_eq cfg s x a class item :
  accepted cfg s (x, inl (Signed a, KBurnNft class item)) = true ->
  exists d v, k_uc s !! a = Some d /\ k_nft_credit s !! class = Some v /\
    let d' := cd_update d (sadd64 (cd_credit d) v) in
    kdo cfg s (x, inl (Signed a, KBurnNft class item)) =
      set_k_from_nft
       (set_k_hist (set_k_uc (set_k_nft_owner s (delete (class, item) (k_nft_owner s)))
           (<[a := d']> (k_uc s))) (recorded (k_hist s) a (era_of cfg (kx_now x)) d'))
       (<[a := add64 (default 0 (k_from_nft s !! a)) v]> (k_from_nft s)).
Proof.
  intros Ha. pose proof (kdo_call _ _ _ _ _ Ha) as E. generalize dependent (kdo cfg s (x, inl (Signed a, KBurnNft class item))).
  intros s' E. cbn [kexec] in E. unfold burn_nft in E. cbn [ensure_signed_k rbind] in E.
  destruct (k_nft_credit s !! class) as [v|] eqn:Ev; [|discriminate]. cbv zeta in E. inv_bind E.
  destruct (k_nft_owner s !! _); [|discriminate]. inv_bind E. inv_bind E. injection E as <-.
  unfold by_burn_nft, update_credit, credit_score in Ha2. cbn [k_uc set_k_nft_owner] in Ha2.
  destruct (k_uc s !! a) as [d|] eqn:Ed; [|discriminate].
  erewrite update_history_eq in Ha2 by (cbn; apply lookup_insert). injection Ha2 as <-.
  exists d, v. auto.
Qed.

(** * Unstaking *)
Lemma unstaking_eq cfg s x who d st :
  k_uc s !! who = Some d -> k_ustake s !! who = Some st ->
  unstaking_slash cfg s x who =
    let d' := cd_new (k_default_id s) (cd_credit d - st) in
    ROk (set_k_hist (set_k_ustake (set_k_uc s (<[who := d']> (k_uc s))) (delete who (k_ustake s)))
           (recorded (k_hist s) who (era_of cfg (kx_now x)) d')).
Proof.
  intros Hd Hs. unfold unstaking_slash. rewrite Hs, Hd. cbv zeta.
  erewrite update_history_eq by (cbn; apply lookup_insert). reflexivity.
Qed.

(** * Settings *)
Definition skey (st : setting) : N * N := (st_camp st, st_level st).
Lemma fold_setting_other l s k :
  k ∉ map skey l -> k_settings (fold_left update_setting l s) !! k = k_settings s !! k.
Proof.
  revert s. induction l as [|st l IH]; intros s Hk; [done|]. cbn [fold_left].
  cbn [map] in Hk. apply not_elem_of_cons in Hk as [H1 H2].
  rewrite (IH (update_setting s st) H2). cbn. now rewrite lookup_insert_ne by (unfold skey in *; congruence).
Qed.
Lemma fold_setting_in l s st :
  NoDup (map skey l) -> st ∈ l -> k_settings (fold_left update_setting l s) !! skey st = Some st.
Proof.
  revert s. induction l as [|a l IH]; intros s Hn Hin; [now apply elem_of_nil in Hin|].
  cbn [fold_left map] in *. apply NoDup_cons in Hn as [Hn1 Hn2].
  apply elem_of_cons in Hin as [->|Hin]; [|now apply (IH (update_setting s a))].
  rewrite (fold_setting_other l (update_setting s a)) by done. cbn. apply lookup_insert.
Qed.

Lemma campaign7_keys t : map skey (sub_genesis_apy t) = map (fun l => (7, l)) [0; 1; 2; 3; 4; 5; 6; 7; 8].
Proof.
  unfold sub_genesis_apy. rewrite map_map.
  erewrite (map_ext _ skey).
  { vm_compute. reflexivity. }
  intros st. destruct (_ <=? _); reflexivity.
Qed.
Lemma campaign7_nodup t : NoDup (map skey (sub_genesis_apy t)).
Proof. rewrite campaign7_keys. apply (bool_decide_unpack _). vm_compute. exact Logic.I. Qed.
Lemma campaign7_rate t lvl :
  1 <= t <= 5 -> 1 <= lvl <= 8 ->
  exists st, st ∈ sub_genesis_apy t /\ skey st = (7, lvl) /\ st_apy st = rate8 lvl + 10 - t.
Proof.
  intros Ht Hl.
  assert (E : t = 1 \/ t = 2 \/ t = 3 \/ t = 4 \/ t = 5) by lia.
  assert (F : lvl = 1 \/ lvl = 2 \/ lvl = 3 \/ lvl = 4 \/ lvl = 5 \/ lvl = 6 \/ lvl = 7 \/ lvl = 8) by lia.
  clear Ht Hl. cut (exists st, sub_genesis_apy t !! N.to_nat lvl = Some st /\ skey st = (7, lvl) /\ st_apy st = rate8 lvl + 10 - t).
  { intros (st & H & ? & ?). exists st. split; [|done]. eapply elem_of_list_lookup_2. exact H. }
  repeat destruct E as [->|E]; subst; repeat destruct F as [->|F]; subst;
    (eexists; split; [vm_compute; reflexivity|vm_compute; split; reflexivity]).
Qed.
Lemma fold7_rates l s (Hk : map skey l = map (fun l => (7, l)) [0; 1; 2; 3; 4; 5; 6; 7; 8])
    (Hn : NoDup (map skey l)) :
  (forall st, st ∈ l -> k_settings (fold_left update_setting l s) !! skey st = Some st) /\
  (forall camp lvl, camp <> 7 -> k_settings (fold_left update_setting l s) !! (camp, lvl) = k_settings s !! (camp, lvl)).
Proof.
  split; [intros st Hst; now apply fold_setting_in|].
  intros camp lvl Hc. apply fold_setting_other. rewrite Hk.
  intros Hin. apply elem_of_list_In, in_map_iff in Hin as (y & Hy & _). congruence.
Qed.
Lemma on_initialize_due cfg s x t :
  kc_bpe cfg <> 0 -> kx_now x mod kc_bpe cfg = 0 -> k_change_era s <> 0 ->
  era_of cfg (kx_now x) = k_change_era s + 180 * t -> 1 <= t <= 5 ->
  on_initialize cfg s x = fold_left update_setting (sub_genesis_apy t) s.
Proof.
  intros Hb Hm Hc He Ht. unfold on_initialize. rewrite Hm, N.eqb_refl.
  destruct (N.eqb_spec (k_change_era s) 0); [contradiction|]. cbv zeta. rewrite He.
  replace (k_change_era s + 180 * t - k_change_era s) with (t * 180) by lia.
  rewrite N.div_mul, N.mod_mul by done. rewrite N.eqb_refl. cbn [andb].
  destruct (N.ltb_spec 0 t); [|lia]. destruct (N.leb_spec t 5); [|lia]. reflexivity.
Qed.
Lemma on_initialize_not_due cfg s x :
  kc_bpe cfg <> 0 ->
  ~ (kx_now x mod kc_bpe cfg = 0 /\ k_change_era s <> 0 /\
     exists t, 1 <= t <= 5 /\ era_of cfg (kx_now x) = k_change_era s + 180 * t) ->
  on_initialize cfg s x = s.
Proof.
  intros Hb Hn. unfold on_initialize. destruct (N.eqb_spec (kx_now x mod kc_bpe cfg) 0) as [Hm|]; [|done].
  destruct (N.eqb_spec (k_change_era s) 0) as [|Hc]; [done|]. cbv zeta.
  set (n := era_of cfg (kx_now x) - k_change_era s).
  destruct (N.eqb_spec (n mod 180) 0) as [Hz|]; [|done]. cbn [andb].
  destruct (N.ltb_spec 0 (n / 180)) as [H1|]; [|done]. destruct (N.leb_spec (n / 180) 5); [|done].
  exfalso. apply Hn. split; [done|]. split; [done|]. exists (n / 180). split; [lia|].
  pose proof (N.div_mod n 180 ltac:(lia)) as E. rewrite Hz in E. subst n. lia.
Qed.

(** * Claims split *)
Lemma eras_app a m b : a <= m + 1 -> m <= b -> eras a b = eras a m ++ eras (m + 1) b.
Proof.
  intros H1 H2. unfold eras.
  replace (N.to_nat (b + 1 - a)) with (N.to_nat (m + 1 - a) + N.to_nat (b + 1 - (m + 1)))%nat by lia.
  rewrite seq_app, map_app. f_equal.
  cut (forall n k, map (fun i => a + N.of_nat i) (seq k n) = map (fun i => a + N.of_nat k + N.of_nat i) (seq 0 n)).
  { intros H. rewrite H. apply map_ext. intros i. lia. }
  induction n as [|n IH]; intros k; [done|]. cbn [seq map]. f_equal; [lia|].
  rewrite IH, <- (seq_shift n 0), map_map. apply map_ext. intros i. lia.
Qed.
Lemma eras_none a b : b < a -> eras a b = [].
Proof. intros H. unfold eras. replace (N.to_nat (b + 1 - a)) with 0%nat by lia. reflexivity. Qed.
Lemma paid_eras_split cfg s who from m to :
  from <= m + 1 -> m <= to ->
  paid_eras cfg s who from to = paid_eras cfg s who from m ++ paid_eras cfg s who (m + 1) to.
Proof.
  intros H1 H2. unfold paid_eras. destruct (k_uc s !! who) as [d|]; [|done].
  destruct (default [] (k_hist s !! who)) as [|[e0 d0] r]; [done|]. destruct (cd_eras d =? 0); [done|].
  set (ex := e0 + cd_eras d - 1). rewrite <- omap_app. f_equal.
  destruct (N.le_gt_cases ex m).
  - rewrite (eras_none (m + 1)) by lia. rewrite app_nil_r. f_equal. lia.
  - rewrite (eras_app from m (N.min to ex)) by lia. f_equal. f_equal. lia.
Qed.
