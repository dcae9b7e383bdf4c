(** The reward of a claim equals its specification; daily reward tables. *)
From Verif Require Import Base Balances Proofs_Arith Model_UserPrivileges Model_Credit Spec_Credit Proofs_Credit Proofs_Credit2.
From stdpp Require Import gmap.
Open Scope N_scope.

(** Ties round down, so the upper bound is strict; hence rounding is monotone. *)
Lemma frac_mul_strict p d x : d <> 0 -> d * (2 * frac_mul p d x) < 2 * p * x + d.
Proof.
  intros Hd. unfold frac_mul.
  pose proof (N.div_mod x d Hd) as Hx.
  generalize dependent (x / d). generalize (x mod d). intros r q Hx.
  pose proof (N.div_mod (r * p) d Hd) as Hr.
  pose proof (N.mod_lt (r * p) d Hd) as Hm2.
  generalize dependent (r * p / d). generalize dependent ((r * p) mod d).
  intros r2 Hm2 q2 Hr.
  assert (H2 : 2 <> 0) by lia.
  pose proof (N.div_mod d 2 H2) as Hh. pose proof (N.mod_lt d 2 H2) as Hhm.
  generalize dependent (d / 2). generalize dependent (d mod 2). intros e He h Hh.
  assert (E : 2 * p * x = 2 * (d * q * p) + 2 * (d * q2 + r2)).
  { rewrite <- Hr, Hx. ring. }
  rewrite E. clear E Hx Hr.
  destruct (N.ltb_spec h r2).
  - replace (d * (2 * (q * p + (q2 + 1)))) with (2 * (d * q * p) + 2 * (d * q2) + 2 * d) by ring. lia.
  - replace (d * (2 * (q * p + (q2 + 0)))) with (2 * (d * q * p) + 2 * (d * q2)) by ring. lia.
Qed.
Lemma frac_mul_mono p p' d x x' : d <> 0 -> p <= p' -> x <= x' -> frac_mul p d x <= frac_mul p' d x'.
Proof.
  intros Hd Hp Hx.
  pose proof (frac_mul_strict p d x Hd) as H1.
  pose proof (frac_mul_nearest p' d x' Hd) as [H2 _].
  assert (Hm : p * x <= p' * x') by now apply N.mul_le_mono.
  generalize dependent (frac_mul p d x). generalize dependent (frac_mul p' d x'). intros f' H2 f H1.
  destruct (N.le_gt_cases f f') as [|Hc]; [assumption|exfalso].
  assert (Hf : f' + 1 <= f) by lia.
  pose proof (N.mul_le_mono_l _ _ (2 * d) Hf) as Hk.
  replace (d * (2 * f)) with (2 * d * f) in H1 by ring.
  replace (d * (2 * f' + 1)) with (2 * d * f' + d) in H2 by ring.
  replace (2 * d * (f' + 1)) with (2 * d * f' + 2 * d) in Hk by ring.
  replace (2 * p * x) with (2 * (p * x)) in H1 by ring.
  replace (2 * p' * x') with (2 * (p' * x')) in H2 by ring.
  lia.
Qed.

(** * Daily reward tables *)
Definition poc_ok (s : kstate) : Prop :=
  forall k b c, k_poc s !! k = Some (b, c) -> b <= c /\ c < 2 ^ 127.

Lemma daily_base_le_bonus st : st_apy st <= 100 -> daily_base st <= daily_bonus st.
Proof.
  intros Ha. unfold daily_base, daily_bonus. apply N.sub_le_mono_r.
  apply frac_mul_mono; [done|lia|]. apply frac_mul_mono; [done|lia|]. apply frac_mul_mono; [done|lia|lia].
Qed.
Lemma daily_bonus_small st : st_bal st < two128 -> daily_bonus st < 2 ^ 127.
Proof.
  intros Hb. unfold daily_bonus.
  set (y := frac_mul PB_270_365 PERBILL _).
  assert (Hy : y <= st_bal st).
  { subst y. etransitivity; [apply frac_mul_le; [done|unfold PB_270_365, PERBILL; lia]|].
    apply frac_mul_le; [done|lia]. }
  pose proof (frac_mul_strict PB_1_270 PERBILL y ltac:(done)) as H.
  assert (frac_mul PB_1_270 PERBILL y < 2 ^ 127); [|lia].
  revert H. generalize (frac_mul PB_1_270 PERBILL y). intros f H.
  unfold PB_1_270, PERBILL, two128 in *. change (2 ^ 127) with 170141183460469231731687303715884105728. lia.
Qed.

Lemma update_setting_poc s st : setting_typed st -> poc_ok s -> poc_ok (update_setting s st).
Proof.
  intros (Hb & Ha & _) H k b c. cbn [k_poc update_setting set_k_settings set_k_poc].
  intros [[_ E]|[_ Hk]]%lookup_insert_Some; [|eauto].
  injection E as <- <-. split; [now apply daily_base_le_bonus|now apply daily_bonus_small].
Qed.
Lemma fold_setting_poc l s : Forall setting_typed l -> poc_ok s -> poc_ok (fold_left update_setting l s).
Proof.
  intros Hl. revert s. induction Hl as [|st l Hst Hl IH]; intros s H; [done|].
  cbn [fold_left]. apply IH. now apply update_setting_poc.
Qed.

Definition setting_small (st : setting) : bool :=
  (st_bal st <? two128) && (st_apy st <=? 90) && (st_bonus st <=? 100).
Lemma campaign8_small : forallb setting_small half_campaign8 = true.
Proof. vm_compute. reflexivity. Qed.
Lemma campaign8_typed : Forall setting_typed half_campaign8.
Proof.
  apply Forall_forall. intros st Hin. pose proof (proj1 (forallb_forall _ _) campaign8_small st) as H.
  apply elem_of_list_In in Hin. specialize (H Hin). unfold setting_small in H.
  apply andb_true_iff in H as [[H1%N.ltb_lt H2%N.leb_le]%andb_true_iff H3%N.leb_le]. repeat split; lia.
Qed.
Lemma campaign7_typed add : Forall setting_typed (half_campaign7 add).
Proof.
  unfold half_campaign7. apply Forall_map. eapply Forall_impl; [apply campaign8_typed|].
  intros st (H1 & H2 & H3). unfold setting_typed. cbn. destruct (_ =? 0); repeat split; lia.
Qed.
Lemma sub_genesis_typed n : Forall setting_typed (sub_genesis_apy n).
Proof.
  unfold sub_genesis_apy. apply Forall_map. eapply Forall_impl; [apply campaign7_typed|].
  intros st (H1 & H2 & H3). unfold setting_typed. destruct (_ <=? _); cbn; repeat split; lia.
Qed.

Lemma set_price_frame s : set_price s = set_k_price (set_k_prices s (k_prices (set_price s))) (k_price (set_price s)).
Proof. unfold set_price. destruct (k_prices s) eqn:E; [|reflexivity]. rewrite E. now destruct s; cbn in *; subst. Qed.

Lemma on_initialize_poc cfg s x : poc_ok s -> poc_ok (on_initialize cfg s x).
Proof.
  intros H. unfold on_initialize. destruct (_ =? 0); [|done]. destruct (_ =? 0); [done|]. cbv zeta.
  destruct (_ && _ && _); [|done]. apply fold_setting_poc; [apply sub_genesis_typed|done].
Qed.
Lemma poc_ok_version s v : poc_ok s -> poc_ok (set_k_version s v).
Proof. intros H. exact H. Qed.
Lemma on_upgrade_poc cfg s x : poc_ok s -> poc_ok (on_upgrade cfg s x).
Proof.
  intros H. unfold on_upgrade. destruct (_ =? 4); [|done]. apply poc_ok_version.
  apply fold_setting_poc; [apply campaign7_typed|]. apply fold_setting_poc; [apply campaign8_typed|done].
Qed.

Ltac open_all :=
  repeat match goal with
         | H : _ /\ _ |- _ => destruct H
         | H : exists _, _ |- _ => destruct H
         end.

Lemma kdo_poc cfg s op :
  kc_step cfg <> U64MAX -> typed_op op -> poc_ok s -> poc_ok (kdo cfg s op).
Proof.
  intros Hstep Ht H. destruct op as [x [[o c]|e]]; unfold kdo; cbn [fst snd].
  - unfold kstep. destruct (kexec cfg s x o c) as [s'|er|] eqn:E; cbn [fst]; [|done..].
    apply kexec_rest in E. destruct c; cbv beta iota in E; open_all;
      try (subst s'; exact H);
      try match goal with R : same_rest _ s' |- _ => unfold poc_ok; rewrite R; exact H end.
    subst s'. apply update_setting_poc; [exact Ht|done].
  - unfold kentry_step. destruct (kentry_exec cfg s x e) as [[s' r]|er|] eqn:E; cbn [fst]; [|done..].
    apply kentry_rest in E; [|done]. destruct e; cbv beta iota in E; open_all;
      try (subst s'; exact H);
      try match goal with R : same_rest _ s' |- _ => unfold poc_ok; rewrite R; exact H end.
    + destruct E as [->|[R|[R|R]]]; [exact H|unfold poc_ok; rewrite R; exact H..].
    + subst s'. now apply on_initialize_poc.
    + subst s'. unfold poc_ok. rewrite set_price_frame. exact H.
    + subst s'. now apply on_upgrade_poc.
Qed.
Lemma krun_poc cfg s h :
  kc_step cfg <> U64MAX -> Forall typed_op h -> poc_ok s -> poc_ok (krun cfg s h).
Proof.
  intros Hstep Hf. revert s. induction Hf as [|op h Ht Hf IH]; intros s H; [done|].
  cbn [krun fold_left]. apply (IH (kdo cfg s op)). now apply kdo_poc.
Qed.

(** * Daily reward *)
Lemma normal_reward_spec s who d : poc_ok s -> cd_camp d <> 5 -> normal_reward s d = daily s who d.
Proof.
  intros H Hc. unfold normal_reward, daily, base_reward, bonus_reward, the_setting, setting_of, poc_of.
  destruct (N.eqb_spec (cd_camp d) 5); [contradiction|].
  assert (P : forall l, fst (default (0, 0) (k_poc s !! (cd_camp d, l))) <= snd (default (0, 0) (k_poc s !! (cd_camp d, l)))
                 /\ snd (default (0, 0) (k_poc s !! (cd_camp d, l))) < 2 ^ 127).
  { intros l. destruct (k_poc s !! (cd_camp d, l)) as [[b c]|] eqn:E; cbn; [|done].
    eapply H. exact E. }
  pose proof (P (cd_level d)) as [P1 P2]. pose proof (P (cd_init d)) as [P3 P4]. clear P.
  change (2 ^ 127) with 170141183460469231731687303715884105728 in *.
  destruct (default (0, 0) (k_poc s !! (cd_camp d, cd_level d))) as [b c] eqn:E1. cbn [fst snd] in *.
  destruct (N.eqb_spec (cd_level d) (cd_init d)) as [El|].
  - rewrite <- El in *. rewrite E1. cbn [fst snd]. destruct (cd_rank d <=? _); lia.
  - destruct (default (0, 0) (k_poc s !! (cd_camp d, cd_init d))) as [ib ic]. cbn [fst snd] in *.
    destruct (cd_rank d <=? _); [|lia].
    rewrite sub128_exact, add128_small by (unfold two128; lia). reflexivity.
Qed.

Lemma usdt_reward_spec s who d :
  k_price s <> Some 0 ->
  (forall p, k_price s = Some p -> staked_dollars s who * DPR / p < two128) ->
  cd_camp d = 5 -> usdt_reward s who d = ROk (daily s who d).
Proof.
  intros H0 Hfit Hc. unfold usdt_reward, daily, the_setting, setting_of. rewrite Hc. cbn [N.eqb].
  change (5 =? 5) with true. cbv iota.
  assert (Ed : fst (default (25 * DPR, 0) (k_stakebal s !! who)) = staked_dollars s who).
  { unfold staked_dollars. destruct (k_stakebal s !! who) as [[]|]; reflexivity. }
  rewrite Ed. destruct (k_price s) as [p|]; [|done].
  unfold calc_price_dpr. destruct (N.eqb_spec p 0); [congruence|]. cbn [rbind].
  now rewrite w128_small by now apply Hfit.
Qed.

Lemma daily_reward_spec s who d :
  poc_ok s -> k_price s <> Some 0 ->
  (forall p, k_price s = Some p -> staked_dollars s who * DPR / p < two128) ->
  daily_reward s who d = ROk (daily s who d).
Proof.
  intros H1 H2 H3. unfold daily_reward. destruct (N.eqb_spec (cd_camp d) USDT_CAMPAIGN_ID) as [E|E].
  - now apply usdt_reward_spec.
  - f_equal. now apply normal_reward_spec.
Qed.
Lemma daily_reward_rest s s' who d : same_rest s s' -> daily_reward s' who d = daily_reward s who d.
Proof. intros R. rewrite R. reflexivity. Qed.

(** * Claims *)
Lemma last_cons_some {A} (y : A) l : exists z, last (y :: l) = Some z.
Proof. revert y. induction l as [|w l IH]; intros y; [now exists y|]. destruct (IH w) as [z Hz]. exists z. exact Hz. Qed.

Lemma last_in_force h e cur d :
  e < cur -> in_force (h ++ [(cur, d)]) e = in_force h e.
Proof.
  intros He. unfold in_force. rewrite filter_app, filter_cons_False, filter_nil, app_nil_r; [done|]. cbn. lia.
Qed.

(** Recording in the current era does not change what was in force before it. *)
Lemma recorded_in_force m who cur d e :
  e < cur -> in_force (default [] (recorded m who cur d !! who)) e = in_force (default [] (m !! who)) e.
Proof.
  intros He. rewrite recorded_self. destruct (last (default [] (m !! who))) as [[e' dl]|] eqn:El.
  - destruct (N.eqb_spec e' cur) as [->|].
    + apply snoc_inv in El as [h0 ->]. rewrite take_snoc. now rewrite !last_in_force.
    + now apply last_in_force.
  - apply last_None in El. now rewrite El.
Qed.
Lemma recorded_head m who cur d e0 d0 r :
  default [] (m !! who) = (e0, d0) :: r ->
  exists d1 r1, default [] (recorded m who cur d !! who) = (e0, d1) :: r1.
Proof.
  intros E. rewrite recorded_self, E. destruct (last_cons_some (e0, d0) r) as [[e' dl] El]. rewrite El.
  destruct (N.eqb_spec e' cur) as [->|]; [|eauto].
  apply snoc_inv in El as [h0 E0]. rewrite E0, take_snoc. destruct h0 as [|p h0]; cbn in *.
  - injection E0 as -> -> ->. eauto.
  - injection E0 as <- ->. eauto.
Qed.

Lemma payer_ext cfg h h' (l : list N) :
  (forall e, e ∈ l -> in_force h' e = in_force h e) ->
  omap (payer cfg h') l = omap (payer cfg h) l.
Proof.
  induction l as [|e l IH]; intros H; [done|]. cbn [omap list_omap].
  assert (E : payer cfg h' e = payer cfg h e) by (unfold payer; now rewrite (H e ltac:(left))).
  rewrite E, IH by (intros e' He'; apply H; now right). reflexivity.
Qed.

Lemma era_pay_payer cfg s who (l : list N) :
  omap (era_pay cfg s who) l = map (daily s who) (omap (payer cfg (default [] (k_hist s !! who))) l).
Proof.
  induction l as [|e l IH]; [done|]. cbn [omap list_omap]. unfold era_pay at 1, payer at 1.
  destruct (in_force _ e) as [d|]; [|exact IH]. destruct (kc_min cfg <=? cd_credit d); [|exact IH].
  cbn [map]. now f_equal.
Qed.

Lemma run_of_bound n a e : e ∈ run_of n a -> a <= e < a + N.of_nat n.
Proof.
  unfold run_of. intros (i & -> & Hi)%elem_of_list_fmap.
  apply elem_of_seq in Hi. lia.
Qed.

Lemma get_credit_map_spec cfg f h e0 d0 r from to :
  h = (e0, d0) :: r -> increasing h -> to + 1 - from < 65536 ->
  exists m, get_credit_map cfg h from to = Some m /\
    weigh f m = lsum (map f (omap (payer cfg h) (eras from to))) /\
    (m = [] <-> omap (payer cfg h) (eras from to) = []).
Proof.
  intros Eh Hi Hr. unfold get_credit_map.
  destruct (credit_map_loop_spec cfg f (N.to_nat (to + 1 - from)) h e0 d0 r from 0 [] 0) as (m & E & W & N0 & _);
    [done|done|lia|lia|constructor|lia|].
  exists m. split; [exact E|]. split; [exact W|]. rewrite N0. unfold eras, run_of. tauto.
Qed.

Section claim.
  Context (cfg : kcfg) (s : kstate) (x : kctx) (who from to : N).
  Let cur := era_of cfg (kx_now x).
  Context (Hstep : kc_step cfg <> U64MAX)
    (Hord : book_ordered (cr s) cur)
    (Hpoc : poc_ok s)
    (Hft : from <= to)
    (Hto : to < cur)
    (Hrange : to + 1 - from < 65536)
    (Hprice : k_price s <> Some 0)
    (Hfit : forall p, k_price s = Some p -> staked_dollars s who * DPR / p < two128)
    (Hperiod : forall d e0 d0 r,
    k_uc s !! who = Some d -> default [] (k_hist s !! who) = (e0, d0) :: r -> e0 + cd_eras d < two32).

  (** The offline slash goes through and leaves the past alone. *)
  Lemma slash_offline_past s1 d :
    k_uc s1 !! who = Some d ->
    exists s2, slash_offline cfg s1 x who = ROk s2 /\ same_rest s1 s2 /\ is_Some (k_uc s2 !! who) /\
      (k_hist s2 = k_hist s1 \/ exists d', k_hist s2 = recorded (k_hist s1) who cur d').
  Proof.
    intros Hd. unfold slash_offline. destruct (offline_slash_due s1 x who).
    - unfold slash_credit. change (default (kc_step cfg) None) with (kc_step cfg).
      destruct (N.eqb_spec (kc_step cfg) U64MAX); [contradiction|].
      rewrite Hd. erewrite update_history_eq by (cbn; apply lookup_insert).
      eexists. split; [reflexivity|]. split; [reflexivity|]. split.
      { cbn [k_uc set_k_uc set_k_hist]. rewrite lookup_insert. eauto. }
      right. eexists. reflexivity.
    - exists s1. split; [done|]. split; [apply same_rest_refl|]. split; [eauto|]. now left.
  Qed.

  Lemma do_switch_total s2 old :
    is_Some (k_uc s2 !! who) -> exists p, do_switch s2 who old cur = ROk p /\ same_rest s2 p.1.
  Proof.
    intros Hs. unfold do_switch. destruct (k_noswitch s2 !! who); [eexists; split; [reflexivity|apply same_rest_refl]|].
    destruct (k_switch s2 !! cd_camp old); [|eexists; split; [reflexivity|apply same_rest_refl]].
    erewrite update_history_eq by (cbn; apply lookup_insert). cbn [rbind].
    eexists. split; [reflexivity|]. reflexivity.
  Qed.

  Lemma eras_empty a b : b < a -> eras a b = [].
  Proof. intros H. unfold eras. replace (N.to_nat (b + 1 - a)) with 0%nat by lia. reflexivity. Qed.
  Lemma eras_bound a b e : e ∈ eras a b -> a <= e <= b.
  Proof. intros H%run_of_bound. lia. Qed.

  Theorem get_reward_spec :
    exists s', get_reward cfg s x who from to = ROk (s', claim_reward cfg s who from to).
  Proof using All.
    unfold get_reward. fold cur.
    destruct (N.ltb_spec to from); [lia|]. destruct (N.leb_spec cur to); [lia|]. cbn [orb].
    unfold claim_reward, paid_eras.
    destruct (k_uc s !! who) as [d|] eqn:Hd; [|eauto].
    destruct (N.eqb_spec (cd_eras d) 0) as [Hz|Hz].
    { exists s. destruct (default [] (k_hist s !! who)) as [|[]]; reflexivity. }
    set (s1 := match hist_of s who with [] => init_history s who d cur | _ => s end).
    assert (U1 : k_uc s1 !! who = Some d) by (subst s1; destruct (hist_of s who); exact Hd).
    assert (R1 : same_rest s s1) by (subst s1; destruct (hist_of s who); [reflexivity|apply same_rest_refl]).
    destruct (slash_offline_past s1 d U1) as (s2 & -> & R2 & U2 & Hh2). cbn [rbind].
    pose proof (same_rest_trans _ _ _ R1 R2) as R12.
    (* the history read by the claim *)
    assert (Hord1 : book_ordered (cr s1) cur).
    { subst s1. unfold hist_of. destruct (default [] (k_hist s !! who)) as [|]; [|exact Hord].
      eapply (touch_ordered True); [exact Hord|]. apply touch_init. exact Hd. }
    assert (Hinc2 : increasing (hist_of s2 who)).
    { unfold hist_of. destruct Hh2 as [->|[d' ->]]; [exact (proj1 (Hord1 who))|].
      pose proof (touch_set False cur who (k_uc s1) (k_hist s1) d d' U1 ltac:(tauto)) as T.
      exact (proj1 (touch_ordered False cur who _ _ Hord1 T who)). }
    assert (Hsame : forall e, e < cur -> in_force (hist_of s2 who) e = in_force (hist_of s1 who) e).
    { intros e He. unfold hist_of. destruct Hh2 as [->|[d' ->]]; [done|]. now apply recorded_in_force. }
    destruct (default [] (k_hist s !! who)) as [|[e0 d0] r0] eqn:Eh.
    { (* no history yet: it starts in the current era, and no era of the claim pays *)
      assert (E1 : hist_of s1 who = [(cur, d)]).
      { subst s1. unfold hist_of. rewrite Eh. cbn. now rewrite lookup_insert. }
      assert (Hp : forall a b, b < cur -> omap (payer cfg (hist_of s2 who)) (eras a b) = []).
      { intros a b Hb. rewrite (payer_ext cfg (hist_of s1 who)).
        - assert (G : forall l : list N, (forall e, e ∈ l -> e < cur) -> omap (payer cfg (hist_of s1 who)) l = []).
          { induction l as [|e l IH]; intros Hl; [done|]. cbn [omap list_omap]. unfold payer at 1.
            rewrite E1. rewrite (in_force_before _ e cur d []); [|done|done|apply Hl; left].
            rewrite <- E1. apply IH. intros e' He'. apply Hl. now right. }
          apply G. intros e He%eras_bound. lia.
        - intros e He%eras_bound. apply Hsame. lia. }
      destruct (hist_of s2 who) as [|[e2 d2] r2] eqn:Eh2; [eauto|].
      cbv zeta. set (expiry := sub32 _ 1).
      destruct (negb _ && _); [eauto|].
      match goal with |- context [rbind ?m _] => assert (H3 : exists s3, m = ROk s3) end.
      { destruct (_ || _); [|eauto]. destruct (do_switch_total s2 d U2) as ([s3 b] & -> & _). cbn. eauto. }
      destruct H3 as [s3 ->]. cbn [rbind].
      destruct (get_credit_map_spec cfg (daily s who) _ e2 d2 r2 from (N.min to expiry) eq_refl Hinc2) as (m & -> & _ & Hm); [lia|].
      rewrite (proj2 Hm) by (apply Hp; lia). eauto. }
    (* a history exists *)
    assert (E1 : s1 = s). { subst s1. unfold hist_of. now rewrite Eh. }
    rewrite E1 in *. clear E1 s1.
    assert (Ehead : exists d1 r1, hist_of s2 who = (e0, d1) :: r1).
    { unfold hist_of. destruct Hh2 as [->|[d' ->]]; [rewrite Eh; eauto|]. eapply recorded_head. exact Eh. }
    destruct Ehead as (d1 & r1 & Eh2). rewrite Eh2 in *. cbv zeta.
    pose proof (Hperiod d e0 d0 r0 eq_refl eq_refl) as Hper.
    assert (Eexp : sub32 (add32 e0 (cd_eras d)) 1 = e0 + cd_eras d - 1).
    { unfold add32. rewrite w32_small by lia. apply sub32_exact; unfold two32 in *; lia. }
    rewrite Eexp. set (expiry := e0 + cd_eras d - 1) in *.
    assert (Epay : forall b, b < cur -> omap (payer cfg ((e0, d1) :: r1)) (eras from b)
                    = omap (payer cfg (default [] (k_hist s !! who))) (eras from b)).
    { intros b Hb. apply payer_ext. intros e He%eras_bound. rewrite Hsame by lia. reflexivity. }
    rewrite era_pay_payer.
    destruct (negb _ && (expiry <? from)) eqn:Hexp.
    { apply andb_true_iff in Hexp as [_ Hexp%N.ltb_lt].
      rewrite eras_empty by lia. eauto. }
    match goal with |- context [rbind ?m _] => assert (H3 : exists s3, m = ROk s3 /\ same_rest s2 s3) end.
    { destruct (_ || _); [|exists s2; split; [done|apply same_rest_refl]].
      destruct (do_switch_total s2 d U2) as ([s3 b] & -> & R3). cbn. eauto. }
    destruct H3 as (s3 & -> & R3). cbn [rbind].
    pose proof (same_rest_trans _ _ _ R12 R3) as R13.
    destruct (get_credit_map_spec cfg (daily s who) ((e0, d1) :: r1) e0 d1 r1 from (N.min to expiry) eq_refl Hinc2) as (m & -> & W & Hm); [lia|].
    rewrite (Epay (N.min to expiry)) in * by lia.
    set (l := omap (payer cfg _) _) in *.
    destruct m as [|p m].
    { rewrite (proj1 Hm eq_refl). eauto. }
    assert (Hl : l <> []) by (intros E; apply Hm in E; discriminate).
    pose proof (sum_rewards_spec s3 who (daily s who) (p :: m) 0) as Hsum.
    change (N.min 0 (two128 - 1)) with 0 in Hsum. rewrite Hsum.
    - cbn [rbind]. exists s3. rewrite W, N.add_0_l. destruct l; [contradiction|]. reflexivity.
    - intros dd n _. rewrite (daily_reward_rest s s3) by done. now apply daily_reward_spec.
  Qed.
End claim.
