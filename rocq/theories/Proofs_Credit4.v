(** Effects of single credit operations, and invariants of prices, NFT totals,
    traffic times, burn totals and staked points. *)
From Verif Require Import Base Balances Proofs_Balances Proofs_Arith Model_UserPrivileges Model_Credit
  Spec_Credit Proofs_Credit Proofs_Credit2 Proofs_Credit3.
From stdpp Require Import gmap.
Open Scope N_scope.

(** * Slashing *)
Lemma slash_eq cfg s x who sc d :
  k_uc s !! who = Some d -> default (kc_step cfg) sc <> U64MAX ->
  slash_credit cfg s x who sc =
    let d' := cd_update d (cd_credit d - default (kc_step cfg) sc) in
    ROk (set_k_hist (set_k_uc s (<[who := d']> (k_uc s)))
           (recorded (k_hist s) who (era_of cfg (kx_now x)) d')).
Proof.
  intros Hd Hp. unfold slash_credit. destruct (N.eqb_spec (default (kc_step cfg) sc) U64MAX); [contradiction|].
  rewrite Hd. erewrite update_history_eq by (cbn; apply lookup_insert). reflexivity.
Qed.
Lemma slash_none cfg s x who sc :
  k_uc s !! who = None -> default (kc_step cfg) sc <> U64MAX -> slash_credit cfg s x who sc = RPanic.
Proof.
  intros Hd Hp. unfold slash_credit. destruct (N.eqb_spec (default (kc_step cfg) sc) U64MAX); [contradiction|].
  rewrite Hd. now apply update_history_none.
Qed.
Lemma slash_all cfg s x who :
  slash_credit cfg s x who (Some U64MAX) =
    ROk (set_k_hist (set_k_uc s (delete who (k_uc s))) (delete who (k_hist s))).
Proof. unfold slash_credit. cbn [default]. now rewrite N.eqb_refl. Qed.

(** * Touches of one user leave others alone *)
Lemma touch_other P era who b b' w :
  touch P era who b b' -> w <> who -> b'.1 !! w = b.1 !! w /\ b'.2 !! w = b.2 !! w.
Proof.
  intros T Hw. destruct T as [u h d d' Hd Hl|u h d Hd Hl|u h|u h d Hd]; cbn.
  - rewrite lookup_insert_ne by congruence. split; [done|now apply recorded_other].
  - now rewrite lookup_insert_ne by congruence.
  - now rewrite !lookup_delete_ne by congruence.
  - now rewrite lookup_insert_ne by congruence.
Qed.
Lemma touches_other P era who b b' w :
  rtc (touch P era who) b b' -> w <> who -> b'.1 !! w = b.1 !! w /\ b'.2 !! w = b.2 !! w.
Proof.
  intros T Hw. induction T as [|b1 b2 b3 T1 _ IH]; [done|].
  destruct (touch_other _ _ _ _ _ _ T1 Hw) as [E1 E2]. destruct IH as [-> ->]. done.
Qed.

(** * Accepted steps *)
Lemma kdo_call cfg s x o c :
  accepted cfg s (x, inl (o, c)) = true ->
  kexec cfg s x o c = ROk (kdo cfg s (x, inl (o, c))).
Proof.
  unfold accepted, kdo, kstep. cbn. destruct (kexec cfg s x o c); [done|discriminate..].
Qed.
Lemma kdo_call_not cfg s x o c :
  accepted cfg s (x, inl (o, c)) = false -> kdo cfg s (x, inl (o, c)) = s.
Proof.
  unfold accepted, kdo, kstep. cbn. destruct (kexec cfg s x o c); [discriminate|done..].
Qed.
Lemma kdo_entry cfg s x e :
  accepted cfg s (x, inr e) = true ->
  exists r, kentry_exec cfg s x e = ROk (kdo cfg s (x, inr e), r).
Proof.
  unfold accepted, kdo, kentry_step. cbn. destruct (kentry_exec cfg s x e) as [[s' r]| |]; [|discriminate..].
  intros _. exists r. reflexivity.
Qed.
Lemma kdo_entry_not cfg s x e :
  accepted cfg s (x, inr e) = false -> kdo cfg s (x, inr e) = s.
Proof.
  unfold accepted, kdo, kentry_step. cbn. destruct (kentry_exec cfg s x e) as [[s' r]| |]; [discriminate|done..].
Qed.

(** Fields that hooks leave alone. *)
Lemma fold_setting_frame {A} (f : kstate -> A) l s :
  (forall s st, f (update_setting s st) = f s) -> f (fold_left update_setting l s) = f s.
Proof.
  intros H. revert s. induction l as [|st l IH]; intros s; [done|]. cbn [fold_left].
  rewrite (IH (update_setting s st)). apply H.
Qed.
Lemma on_initialize_frame {A} (f : kstate -> A) cfg s x :
  (forall s st, f (update_setting s st) = f s) -> f (on_initialize cfg s x) = f s.
Proof.
  intros H. unfold on_initialize. destruct (_ =? 0); [|done]. destruct (_ =? 0); [done|]. cbv zeta.
  destruct (_ && _ && _); [|done]. now apply fold_setting_frame.
Qed.
Lemma on_upgrade_frame {A} (f : kstate -> A) cfg s x :
  (forall s st, f (update_setting s st) = f s) -> (forall s v, f (set_k_version s v) = f s) ->
  f (on_upgrade cfg s x) = f s.
Proof.
  intros H Hv. unfold on_upgrade. destruct (_ =? 4); [|done]. cbv zeta. rewrite Hv.
  rewrite (fold_setting_frame f) by done. now rewrite (fold_setting_frame f) by done.
Qed.

Ltac rest_all s' :=
  first [ reflexivity | subst s'; reflexivity
        | match goal with R : same_rest _ s' |- _ => rewrite R; reflexivity end ].

(** Settles a field that an operation leaves alone. *)
Ltac frame_step s' :=
  first
    [ match goal with E : s' = on_initialize _ _ _ |- _ => rewrite E; apply (on_initialize_frame _); reflexivity end
    | match goal with E : s' = on_upgrade _ _ _ |- _ => rewrite E; apply (on_upgrade_frame _); reflexivity end
    | match goal with E : s' = set_price ?s |- _ => rewrite E; unfold set_price; destruct (k_prices s); reflexivity end
    | match goal with
      | E : s' = _ \/ _ |- _ => destruct E as [E|[E|[E|E]]]; rewrite E; reflexivity
      end
    | rest_all s' ].

(** * Prices *)
Lemma kdo_prices cfg s op :
  kc_step cfg <> U64MAX ->
  k_prices (kdo cfg s op) =
    match snd op with
    | inl (_, KSetPrice p) => if accepted cfg s op then k_prices s ++ [p] else k_prices s
    | inr KFinalize => []
    | _ => k_prices s
    end.
Proof.
  intros Hstep. destruct op as [x [[o c]|e]]; cbn [snd].
  - destruct (accepted cfg s (x, inl (o, c))) eqn:Ea.
    + pose proof (kdo_call _ _ _ _ _ Ea) as E. generalize dependent (kdo cfg s (x, inl (o, c))). intros s' E.
      apply kexec_rest in E. destruct c; cbv beta iota in E; open_all; frame_step s'.
    + rewrite (kdo_call_not _ _ _ _ _ Ea). now destruct c.
  - destruct (accepted cfg s (x, inr e)) eqn:Ea.
    + destruct (kdo_entry _ _ _ _ Ea) as [r E]. generalize dependent (kdo cfg s (x, inr e)). intros s' E.
      apply kentry_rest in E; [|done]. destruct e; cbv beta iota in E; open_all; try frame_step s'.
      rewrite E. unfold set_price. destruct (k_prices s) eqn:Ep; [exact Ep|reflexivity].
    + rewrite (kdo_entry_not _ _ _ _ Ea). destruct e; try done; discriminate.
Qed.
Lemma krun_prices cfg s h :
  kc_step cfg <> U64MAX -> k_prices (krun cfg s h) = block_prices cfg s h (k_prices s).
Proof.
  intros Hstep. revert s. induction h as [|op h IH]; intros s; [done|].
  cbn [krun fold_left block_prices]. change (fold_left (kdo cfg) h (kdo cfg s op)) with (krun cfg (kdo cfg s op) h).
  rewrite (IH (kdo cfg s op)), (kdo_prices cfg s op Hstep).
  destruct op as [x [[o c]|e]]; [destruct c|destruct e]; reflexivity.
Qed.

Lemma fold_add128 l acc : acc + lsum l < two128 -> fold_left add128 l acc = acc + lsum l.
Proof.
  revert acc. induction l as [|v l IH]; intros acc H; cbn [fold_left lsum] in *; [lia|].
  assert (E : add128 acc v = acc + v) by (unfold add128, w128; apply N.mod_small; lia).
  rewrite E, IH by lia. lia.
Qed.
Lemma lsum_ge l lo : Forall (fun p => lo <= p) l -> lo * N.of_nat (length l) <= lsum l.
Proof. induction 1 as [|v l Hv _ IH]; cbn [length lsum]; [lia|]. rewrite Nat2N.inj_succ. nia. Qed.
Lemma lsum_le l hi : Forall (fun p => p <= hi) l -> lsum l <= hi * N.of_nat (length l).
Proof. induction 1 as [|v l Hv _ IH]; cbn [length lsum]; [lia|]. rewrite Nat2N.inj_succ. nia. Qed.
Lemma set_price_avg s :
  k_prices s <> [] -> lsum (k_prices s) < two128 ->
  k_price (set_price s) = Some (lsum (k_prices s) / N.of_nat (length (k_prices s))) /\
  (forall lo, Forall (fun p => lo <= p) (k_prices s) ->
     lo <= lsum (k_prices s) / N.of_nat (length (k_prices s))) /\
  (forall hi, Forall (fun p => p <= hi) (k_prices s) ->
     lsum (k_prices s) / N.of_nat (length (k_prices s)) <= hi).
Proof.
  intros Hne Hs. assert (Hl : N.of_nat (length (k_prices s)) <> 0).
  { destruct (k_prices s); [contradiction|]. cbn [length]. lia. }
  split; [|split].
  - unfold set_price. rewrite <- (N.add_0_l (lsum _)) at 1. rewrite <- fold_add128 by lia.
    destruct (k_prices s); [contradiction|]. reflexivity.
  - intros lo H%lsum_ge. apply N.div_le_lower_bound; [done|]. lia.
  - intros hi H%lsum_le. apply N.div_le_upper_bound; [done|]. lia.
Qed.

(** * NFT totals *)
Lemma kdo_nft_credit cfg s op class v :
  kc_step cfg <> U64MAX -> nft_value_small op ->
  k_nft_credit (kdo cfg s op) !! class = Some v ->
  v < 2 ^ 63 \/ k_nft_credit s !! class = Some v.
Proof.
  intros Hstep Hs. destruct op as [x [[o c]|e]].
  - destruct (accepted cfg s (x, inl (o, c))) eqn:Ea; [|rewrite (kdo_call_not _ _ _ _ _ Ea); auto].
    pose proof (kdo_call _ _ _ _ _ Ea) as E. generalize dependent (kdo cfg s (x, inl (o, c))). intros s' E.
    apply kexec_rest in E. intros H.
    destruct c; cbv beta iota in E; open_all;
      try (right; rewrite <- H; symmetry; rest_all s').
    subst s'. cbn in H. apply lookup_insert_Some in H as [[-> <-]|[_ H]]; [left; exact Hs|now right].
  - destruct (accepted cfg s (x, inr e)) eqn:Ea; [|rewrite (kdo_entry_not _ _ _ _ Ea); auto].
    destruct (kdo_entry _ _ _ _ Ea) as [r E]. generalize dependent (kdo cfg s (x, inr e)). intros s' E.
    apply kentry_rest in E; [|done]. intros H. right. rewrite <- H. f_equal. symmetry.
    destruct e; cbv beta iota in E; open_all; frame_step s'.
Qed.
Lemma kdo_from_nft cfg s op who :
  kc_step cfg <> U64MAX -> no_nft_reset op ->
  default 0 (k_from_nft (kdo cfg s op) !! who) = default 0 (k_from_nft s !! who) \/
  exists class item v, snd op = inl (Signed who, KBurnNft class item) /\ accepted cfg s op = true /\
    k_nft_credit s !! class = Some v /\
    default 0 (k_from_nft (kdo cfg s op) !! who) = add64 (default 0 (k_from_nft s !! who)) v /\
    add64 (default 0 (k_from_nft s !! who)) v <= kc_maxburn cfg.
Proof.
  intros Hstep Hs. destruct op as [x [[o c]|e]]; cbn [snd].
  - destruct (accepted cfg s (x, inl (o, c))) eqn:Ea; [|rewrite (kdo_call_not _ _ _ _ _ Ea); auto].
    pose proof (kdo_call _ _ _ _ _ Ea) as E. generalize dependent (kdo cfg s (x, inl (o, c))). intros s' E.
    apply kexec_rest in E.
    destruct c; cbv beta iota in E; open_all; try (left; rest_all s'); [destruct Hs|].
    match goal with R : same_rest _ s' |- _ => rewrite R end. subst o. cbn.
    destruct (decide (x0 = who)) as [->|Hne].
    + right. eexists _, _, _. rewrite lookup_insert. eauto 10.
    + left. now rewrite lookup_insert_ne by done.
  - left. destruct (accepted cfg s (x, inr e)) eqn:Ea; [|rewrite (kdo_entry_not _ _ _ _ Ea); auto].
    destruct (kdo_entry _ _ _ _ Ea) as [r E]. generalize dependent (kdo cfg s (x, inr e)). intros s' E.
    apply kentry_rest in E; [|done]. f_equal. f_equal.
    destruct e; cbv beta iota in E; open_all; frame_step s'.
Qed.
Definition nft_ok (s : kstate) : Prop := forall class v, k_nft_credit s !! class = Some v -> v < 2 ^ 63.
Lemma krun_nft cfg s h who :
  kc_step cfg <> U64MAX -> kc_maxburn cfg < 2 ^ 63 ->
  Forall no_nft_reset h -> Forall nft_value_small h -> nft_ok s ->
  default 0 (k_from_nft s !! who) <= kc_maxburn cfg ->
  default 0 (k_from_nft s !! who) + nft_points cfg s h who <= kc_maxburn cfg.
Proof.
  intros Hstep Hm Hr. revert s. induction Hr as [|op h Ho Hr IH]; intros s Hv Hok Hle; cbn [nft_points]; [lia|].
  apply Forall_cons in Hv as [Hv1 Hv].
  assert (Hok' : nft_ok (kdo cfg s op)).
  { intros class v H. destruct (kdo_nft_credit _ _ _ _ _ Hstep Hv1 H) as [?|H']; [done|]. exact (Hok class v H'). }
  assert (Hadd : forall a v, a <= kc_maxburn cfg -> v < 2 ^ 63 -> add64 a v = a + v).
  { intros a v Ha Hv'. unfold add64, w64. apply N.mod_small. unfold two64. lia. }
  destruct (kdo_from_nft cfg s op who Hstep Ho) as [E|(class & item & v & Eop & Eacc & Ec & E & Hle')].
  - assert (Hz : match snd op with
            | inl (Signed a, KBurnNft class _) =>
                if (a =? who) && accepted cfg s op then default 0 (k_nft_credit s !! class) else 0
            | _ => 0 end = 0).
    { destruct op as [x [[o c]|e]]; [|done]. cbn [snd]. destruct o as [|a|]; try done. destruct c; try done.
      destruct (N.eqb_spec a who) as [->|]; [|done]. destruct (accepted _ _ _) eqn:Ea; [|done]. cbn [andb].
      pose proof (kdo_call _ _ _ _ _ Ea) as Ex. apply kexec_rest in Ex as (a & owner & v & Eo & Ec & _ & _ & _ & R).
      injection Eo as <-. rewrite R in E. cbn in E. rewrite lookup_insert, Hadd in E; [|done|exact (Hok _ _ Ec)].
      rewrite Ec. cbn in *. lia. }
    rewrite Hz, N.add_0_l, <- E. apply IH; [done|done|lia].
  - rewrite Eop, N.eqb_refl, Eacc, Ec. cbn [andb default].
    rewrite Hadd in * by (try done; exact (Hok _ _ Ec)).
    specialize (IH (kdo cfg s op) Hv Hok'). cbn [default from_option] in *. rewrite E in IH. specialize (IH Hle').
    cbn. lia.
Qed.

(** * Traffic *)
Lemma by_traffic_score cfg s x who :
  let s' := kdo cfg s (x, inr (KTraffic who)) in
  (k_uc s' = k_uc s /\ k_last_ts s' = k_last_ts s) \/
  exists d, k_uc s !! who = Some d /\
    k_uc s' = <[who := cd_update d (sadd64 (cd_credit d) 1)]> (k_uc s) /\
    k_last_ts s' = <[who := kx_secs x]> (k_last_ts s) /\
    (forall t, k_last_ts s !! who = Some t -> t + smul64 (kc_bpe cfg) (kc_secs cfg) <= kx_secs x) /\
    (k_last_ts s !! who = None -> exists b, kx_onboard x who = Some b /\
       default (b / kc_bpe cfg) (k_last_era s !! who) + 1 <= era_of cfg (kx_now x)).
Proof.
  cbv zeta. unfold kdo. cbn [fst snd]. unfold kentry_step. cbn [kentry_exec]. unfold by_traffic.
  destruct (kx_onboard x who) as [b|]; [|now left].
  destruct (update_interval cfg s x who (era_of cfg b)) as [n used] eqn:Ei.
  destruct (N.leb_spec CREDIT_CAP_ONE_ERAS n) as [Hn|]; [|now left].
  unfold update_credit, credit_score. destruct (k_uc s !! who) as [d|] eqn:Ed.
  - right. exists d. cbn [fmap option_fmap option_map default from_option].
    erewrite update_history_eq by (cbn; apply lookup_insert).
    split; [done|]. cbn [rbind fst]. unfold update_interval in Ei. unfold CREDIT_CAP_ONE_ERAS in Hn.
    split; [destruct used; reflexivity|]. split; [destruct used; reflexivity|]. split.
    + intros t Ht. rewrite Ht in Ei. injection Ei as <- <-.
      set (g := smul64 _ _) in *. destruct (N.eq_dec g 0) as [->|Hg]; [exfalso; clear -Hn; destruct (kx_secs x - t); cbn in Hn; lia|].
      pose proof (N.mul_div_le (kx_secs x - t) g Hg). nia.
    + intros Ht. rewrite Ht in Ei. exists b. split; [done|]. unfold era_of in *.
      destruct (k_last_era s !! who) as [e|]; injection Ei as <- <-; cbn; lia.
  - left. cbn [rbind fst]. destruct used; split; reflexivity.
Qed.
Lemma kdo_last_ts cfg s op :
  kc_step cfg <> U64MAX -> match snd op with inr (KTraffic _) => False | _ => True end ->
  k_last_ts (kdo cfg s op) = k_last_ts s.
Proof.
  intros Hstep Ht. destruct op as [x [[o c]|e]].
  - destruct (accepted cfg s (x, inl (o, c))) eqn:Ea; [|now rewrite (kdo_call_not _ _ _ _ _ Ea)].
    pose proof (kdo_call _ _ _ _ _ Ea) as E. generalize dependent (kdo cfg s (x, inl (o, c))). intros s' E.
    apply kexec_rest in E. destruct c; cbv beta iota in E; open_all; frame_step s'.
  - destruct (accepted cfg s (x, inr e)) eqn:Ea; [|now rewrite (kdo_entry_not _ _ _ _ Ea)].
    destruct (kdo_entry _ _ _ _ Ea) as [r E]. generalize dependent (kdo cfg s (x, inr e)). intros s' E.
    apply kentry_rest in E; [|done]. destruct e; cbv beta iota in E; open_all; try frame_step s'. destruct Ht.
Qed.
Lemma raise_times_from cfg s h who t0 :
  kc_step cfg <> U64MAX ->
  (forall t, k_last_ts s !! who = Some t -> t0 <= t) -> is_Some (k_last_ts s !! who) ->
  match raise_times cfg s h who with
  | [] => True
  | t :: _ => t0 + smul64 (kc_bpe cfg) (kc_secs cfg) <= t
  end /\ spaced (smul64 (kc_bpe cfg) (kc_secs cfg)) (raise_times cfg s h who).
Proof.
  intros Hstep. revert s t0. induction h as [|op h IH]; intros s t0 Hlast Hsome; cbn [raise_times]; [done|].
  assert (Hskip : k_last_ts (kdo cfg s op) = k_last_ts s ->
    match raise_times cfg (kdo cfg s op) h who with
    | [] => True | t :: _ => t0 + smul64 (kc_bpe cfg) (kc_secs cfg) <= t end /\
    spaced (smul64 (kc_bpe cfg) (kc_secs cfg)) (raise_times cfg (kdo cfg s op) h who)).
  { intros E. apply IH; rewrite E; done. }
  destruct op as [x [[o c]|e]]; cbn [snd].
  { apply Hskip. now apply kdo_last_ts. }
  destruct e; try (apply Hskip; now apply kdo_last_ts).
  rename who0 into w. destruct (N.eqb_spec w who) as [->|Hw]; cbn [andb app].
  2: { destruct (by_traffic_score cfg s x w) as [[_ E]|(d & _ & _ & E & _)]; [now apply Hskip|].
       apply IH; rewrite E, lookup_insert_ne by done; done. }
  destruct (by_traffic_score cfg s x who) as [[E1 E2]|(d & Ed & E1 & E2 & Hgap & _)].
  - rewrite bool_decide_eq_true_2 by (unfold score_of; now rewrite E1). cbn [negb app]. now apply Hskip.
  - destruct Hsome as [t Ht]. specialize (Hgap t Ht). specialize (Hlast t Ht).
    set (g := smul64 _ _) in *.
    destruct (IH (kdo cfg s (x, inr (KTraffic who))) (kx_secs x)) as [H1 H2].
    { rewrite E2, lookup_insert. intros t' [= <-]. lia. }
    { rewrite E2, lookup_insert. eauto. }
    fold g in H1, H2. cbn [fst]. destruct (negb _); cbn [app].
    + split; [lia|]. cbn [spaced]. split; [|exact H2].
      destruct (raise_times _ _ h who); [done|]. exact H1.
    + split; [|exact H2]. destruct (raise_times _ _ h who); [done|]. lia.
Qed.
Lemma raise_times_spaced cfg s h who :
  kc_step cfg <> U64MAX -> spaced (smul64 (kc_bpe cfg) (kc_secs cfg)) (raise_times cfg s h who).
Proof.
  intros Hstep. revert s. induction h as [|op h IH]; intros s; cbn [raise_times]; [done|].
  destruct op as [x [[o c]|e]]; cbn [snd app]; [apply IH|]. destruct e; cbn [app]; try apply IH.
  destruct ((who0 =? who) && _) eqn:E; cbn [app]; [|apply IH].
  apply andb_true_iff in E as [Ew En]. apply N.eqb_eq in Ew as ->.
  apply negb_true_iff, bool_decide_eq_false_1 in En. cbn [spaced fst].
  destruct (by_traffic_score cfg s x who) as [[E1 _]|(d & _ & _ & E2 & _)].
  { destruct En. unfold score_of. now rewrite E1. }
  pose proof (raise_times_from cfg (kdo cfg s (x, inr (KTraffic who))) h who (kx_secs x) Hstep) as H.
  rewrite E2, lookup_insert in H. apply H; [|eauto]. intros t [= <-]. lia.
Qed.

(** * Burn totals *)
Definition burn_ok (s : kstate) : Prop :=
  k_total_burn s < two128 - 1 -> k_total_burn s = msum (fun _ v => v) (k_daily_burn s).
Lemma burn_record_ok cfg s x v : burn_ok s -> burn_ok (burn_record cfg s x v).
Proof.
  unfold burn_ok, burn_record. cbn [k_total_burn k_daily_burn set_k_daily_burn set_k_total_burn].
  unfold sadd128. intros H Hlt.
  assert (Hs : k_total_burn s + v < two128 - 1) by lia. specialize (H ltac:(lia)).
  set (e := era_of cfg (kx_now x)). destruct (k_daily_burn s !! e) as [d|] eqn:Ed.
  - change (default 0 (Some d)) with d.
    pose proof (msum_le (fun _ v => v) (k_daily_burn s) e d Ed) as Hle. cbv beta in Hle.
    pose proof (msum_insert_over (fun _ v => v) (k_daily_burn s) e d (N.min (d + v) (two128 - 1)) Ed) as E.
    cbv beta in E. lia.
  - change (default 0 (@None N)) with 0. rewrite msum_insert by done. lia.
Qed.
Lemma kdo_burn cfg s op :
  kc_step cfg <> U64MAX ->
  (k_total_burn (kdo cfg s op) = k_total_burn s /\ k_daily_burn (kdo cfg s op) = k_daily_burn s) \/
  exists s0 v, k_total_burn s0 = k_total_burn s /\ k_daily_burn s0 = k_daily_burn s /\
    k_total_burn (kdo cfg s op) = k_total_burn (burn_record cfg s0 (fst op) v) /\
    k_daily_burn (kdo cfg s op) = k_daily_burn (burn_record cfg s0 (fst op) v).
Proof.
  intros Hstep. destruct op as [x [[o c]|e]]; cbn [fst].
  - destruct (accepted cfg s (x, inl (o, c))) eqn:Ea; [|rewrite (kdo_call_not _ _ _ _ _ Ea); auto].
    pose proof (kdo_call _ _ _ _ _ Ea) as E. generalize dependent (kdo cfg s (x, inl (o, c))). intros s' E.
    apply kexec_rest in E. destruct c; cbv beta iota in E; open_all; try (left; split; frame_step s').
    right. match goal with R : same_rest (burn_record _ ?s0 _ ?v) s' |- _ => exists s0, v; rewrite R end. auto.
  - destruct (accepted cfg s (x, inr e)) eqn:Ea; [|rewrite (kdo_entry_not _ _ _ _ Ea); auto].
    destruct (kdo_entry _ _ _ _ Ea) as [r E]. generalize dependent (kdo cfg s (x, inr e)). intros s' E.
    apply kentry_rest in E; [|done]. destruct e; cbv beta iota in E; open_all; try (left; split; frame_step s').
    right. subst s'. exists s, amount. auto.
Qed.
Lemma krun_burn cfg s h : kc_step cfg <> U64MAX -> burn_ok s -> burn_ok (krun cfg s h).
Proof.
  intros Hstep. revert s. induction h as [|op h IH]; intros s H; [done|]. cbn [krun fold_left].
  apply (IH (kdo cfg s op)). destruct (kdo_burn cfg s op Hstep) as [[E1 E2]|(s0 & v & E1 & E2 & E3 & E4)].
  - unfold burn_ok. now rewrite E1, E2.
  - unfold burn_ok. rewrite E3, E4. apply burn_record_ok. unfold burn_ok. now rewrite E1, E2.
Qed.
Lemma krun_total_mono cfg s h :
  kc_step cfg <> U64MAX -> k_total_burn s < two128 -> k_total_burn s <= k_total_burn (krun cfg s h) < two128.
Proof.
  intros Hstep. revert s. induction h as [|op h IH]; intros s H; [split; [done|exact H]|]. cbn [krun fold_left].
  assert (H1 : k_total_burn s <= k_total_burn (kdo cfg s op) < two128).
  { destruct (kdo_burn cfg s op Hstep) as [[E1 E2]|(s0 & v & E1 & E2 & E3 & E4)]; [rewrite E1; lia|].
    rewrite E3. cbn. unfold sadd128. rewrite E1. unfold two128 in *. lia. }
  destruct (IH (kdo cfg s op)) as [? ?]; [lia|]. change (fold_left (kdo cfg) h (kdo cfg s op)) with (krun cfg (kdo cfg s op) h). lia.
Qed.

(** * Staked points *)
Lemma kdo_ustake cfg s op who :
  kc_step cfg <> U64MAX -> no_staking_set op ->
  default 0 (k_ustake (kdo cfg s op) !! who) =
  match snd op with
  | inr (KAddOrUpdate w gap _) =>
      if (w =? who) && accepted cfg s op then add64 (default 0 (k_ustake s !! who)) gap
      else default 0 (k_ustake s !! who)
  | inr (KUnstaking w) | inl (_, KUnstakingSlash w) =>
      if (w =? who) && accepted cfg s op then 0 else default 0 (k_ustake s !! who)
  | _ => default 0 (k_ustake s !! who)
  end.
Proof.
  intros Hstep Hns. destruct op as [x [[o c]|e]]; cbn [snd].
  - destruct (accepted cfg s (x, inl (o, c))) eqn:Ea.
    2: { rewrite (kdo_call_not _ _ _ _ _ Ea). destruct c; try done. now rewrite andb_false_r. }
    pose proof (kdo_call _ _ _ _ _ Ea) as E. generalize dependent (kdo cfg s (x, inl (o, c))). intros s' E.
    apply kexec_rest in E. destruct c; cbv beta iota in E; open_all; try (f_equal; frame_step s'); [destruct Hns|].
    match goal with R : same_rest _ s' |- _ => rewrite R end. cbn. rewrite andb_true_r.
    destruct (N.eqb_spec who0 who) as [->|]; [now rewrite lookup_delete|now rewrite lookup_delete_ne].
  - destruct (accepted cfg s (x, inr e)) eqn:Ea.
    2: { rewrite (kdo_entry_not _ _ _ _ Ea). destruct e; try done; now rewrite andb_false_r. }
    destruct (kdo_entry _ _ _ _ Ea) as [r E]. generalize dependent (kdo cfg s (x, inr e)). intros s' E.
    apply kentry_rest in E; [|done]. destruct e; cbv beta iota in E; open_all;
      try (f_equal; f_equal; frame_step s'); rewrite E; cbn; rewrite andb_true_r;
      (destruct (N.eqb_spec who0 who) as [->|];
       [first [now rewrite lookup_insert|now rewrite lookup_delete]
       |first [now rewrite lookup_insert_ne|now rewrite lookup_delete_ne]]).
Qed.
Lemma krun_ustake cfg s h who acc :
  kc_step cfg <> U64MAX -> Forall no_staking_set h ->
  default 0 (k_ustake s !! who) = w64 acc ->
  default 0 (k_ustake (krun cfg s h) !! who) = w64 (staked_points cfg s h who acc).
Proof.
  intros Hstep Hf. revert s acc. induction Hf as [|op h Ho Hf IH]; intros s acc H; [exact H|].
  cbn [krun fold_left staked_points]. apply (IH (kdo cfg s op)). rewrite (kdo_ustake cfg s op who Hstep Ho).
  assert (Hadd : forall g, add64 (default 0 (k_ustake s !! who)) g = w64 (acc + g)).
  { intros g. rewrite H. unfold add64, w64. now rewrite N.add_mod_idemp_l by done. }
  destruct op as [x [[o c]|e]]; cbn [snd]; [destruct c; try exact H|destruct e; try exact H];
    destruct (_ && _); try exact H; [reflexivity|apply Hadd|reflexivity].
Qed.
