(** Reward computations as the staking pallet uses them: they concern one account,
    always come to an end, and keep the record. *)
From Verif Require Import Base Balances Proofs_Arith Model_UserPrivileges Model_Credit Spec_Credit
  Proofs_Credit Proofs_Credit2 Proofs_Credit3 Proofs_Credit4 Proofs_Credit5.
From stdpp Require Import gmap.
Open Scope N_scope.

(** * One account *)

(** Two states that tell the same about account [w]. *)
Definition agree (w : N) (c c' : kstate) : Prop :=
  k_uc c' !! w = k_uc c !! w /\ k_hist c' !! w = k_hist c !! w /\ same_rest c c'.
Lemma agree_refl w c : agree w c c.
Proof. split; [done|]. split; [done|apply same_rest_refl]. Qed.
Lemma agree_trans w a b c : agree w a b -> agree w b c -> agree w a c.
Proof.
  intros (H1 & H2 & H3) (K1 & K2 & K3). split; [congruence|]. split; [congruence|]. eapply same_rest_trans; eassumption.
Qed.

(** The same outcome for [w]. *)
Definition alike {A} (R : A -> A -> Prop) (r r' : res kerr A) : Prop :=
  match r, r' with
  | ROk a, ROk a' => R a a'
  | RErr e, RErr e' => e = e'
  | RPanic, RPanic => True
  | _, _ => False
  end.
Lemma alike_bind {A B} (R : A -> A -> Prop) (Q : B -> B -> Prop) r r' k k' :
  alike R r r' -> (forall a a', R a a' -> alike Q (k a) (k' a')) -> alike Q (rbind r k) (rbind r' k').
Proof.
  intros H F. destruct r as [a|e|], r' as [a'|e'|]; cbn in H |- *; try contradiction; [now apply F|exact H|exact H].
Qed.

Section agree.
  Context (cfg : kcfg) (x : kctx) (w : N).

  Lemma same_rest_set c c' u h :
    same_rest c c' -> forall u' h', same_rest (set_k_hist (set_k_uc c u) h) (set_k_hist (set_k_uc c' u') h').
  Proof. intros R u' h'. unfold same_rest in *. rewrite R. reflexivity. Qed.
  Lemma recorded_agree m m' era d : m' !! w = m !! w -> recorded m' w era d !! w = recorded m w era d !! w.
  Proof. intros E. unfold recorded. rewrite E. destruct (last _) as [[e ?]|]; [|exact E]. now rewrite !lookup_insert. Qed.

  Lemma store_agree c c' d era :
    agree w c c' ->
    alike (agree w) (update_history (set_k_uc c (<[w := d]> (k_uc c))) w era)
      (update_history (set_k_uc c' (<[w := d]> (k_uc c'))) w era).
  Proof.
    intros (H1 & H2 & H3). erewrite !update_history_eq by (cbn; apply lookup_insert). cbn [alike].
    split; [cbn; now rewrite !lookup_insert|]. split; [cbn; now apply recorded_agree|].
    unfold same_rest in *. rewrite H3. reflexivity.
  Qed.
  Lemma slash_agree c c' score :
    agree w c c' -> alike (agree w) (slash_credit cfg c x w score) (slash_credit cfg c' x w score).
  Proof.
    intros A. unfold slash_credit. destruct (_ =? U64MAX).
    { cbn [alike]. destruct A as (H1 & H2 & H3). split; [cbn; now rewrite !lookup_delete|].
      split; [cbn; now rewrite !lookup_delete|]. unfold same_rest in *. rewrite H3. reflexivity. }
    rewrite (proj1 A). destruct (k_uc c !! w) as [d|] eqn:E; [now apply store_agree|].
    rewrite !update_history_none by (rewrite ?(proj1 A); exact E). exact Logic.I.
  Qed.
  Lemma offline_agree c c' :
    agree w c c' -> alike (agree w) (slash_offline cfg c x w) (slash_offline cfg c' x w).
  Proof.
    intros A. unfold slash_offline. assert (E : offline_slash_due c' x w = offline_slash_due c x w).
    { unfold offline_slash_due. now rewrite (proj2 (proj2 A)). }
    rewrite E. destruct (offline_slash_due c x w); [now apply slash_agree|exact A].
  Qed.
  Lemma switch_agree c c' old era :
    agree w c c' ->
    alike (fun p p' => agree w p.1 p'.1) (do_switch c w old era) (do_switch c' w old era).
  Proof.
    intros A. unfold do_switch. rewrite (proj2 (proj2 A)). cbn [k_noswitch k_switch set_k_hist set_k_uc].
    rewrite <- (proj2 (proj2 A)). destruct (k_noswitch c !! w); [exact A|].
    destruct (k_switch c !! cd_camp old); [|exact A].
    eapply alike_bind; [now apply store_agree|]. intros a a' H. exact H.
  Qed.
  Lemma sum_agree c c' m : forall acc, same_rest c c' -> sum_rewards c' w m acc = sum_rewards c w m acc.
  Proof.
    induction m as [|[d n] m IH]; intros acc R; [done|]. cbn [sum_rewards].
    rewrite (daily_reward_rest c c' w d R). destruct (daily_reward c w d); cbn [rbind]; [|done..]. now apply IH.
  Qed.

  (** What a claim returns depends on the account's own credit only. *)
  Lemma get_reward_agree c c' from to :
    agree w c c' ->
    alike (fun p p' => agree w p.1 p'.1 /\ p'.2 = p.2) (get_reward cfg c x w from to) (get_reward cfg c' x w from to).
  Proof.
    intros A. unfold get_reward. destruct (_ || _); [cbn; auto|].
    rewrite (proj1 A). destruct (k_uc c !! w) as [d|] eqn:Ed; [|cbn; auto].
    destruct (cd_eras d =? 0); [cbn; auto|]. cbv zeta.
    set (cur := era_of cfg (kx_now x)).
    assert (A1 : agree w (match hist_of c w with [] => init_history c w d cur | _ => c end)
                         (match hist_of c' w with [] => init_history c' w d cur | _ => c' end)).
    { unfold hist_of. rewrite (proj1 (proj2 A)). destruct (default [] (k_hist c !! w)); [|exact A].
      unfold init_history. destruct A as (H1 & H2 & H3).
      split; [cbn; congruence|]. split; [cbn; now rewrite !lookup_insert|].
      unfold same_rest in *. rewrite H3. reflexivity. }
    eapply alike_bind; [apply offline_agree, A1|]. intros c2 c2' A2. unfold hist_of. rewrite (proj1 (proj2 A2)).
    destruct (default [] (k_hist c2 !! w)) as [|[e0 d0] r]; [cbn; auto|].
    destruct (negb _ && _); [cbn; auto|].
    eapply (alike_bind (agree w)).
    { destruct (_ || _); [|exact A2]. eapply alike_bind; [now apply switch_agree|]. intros p p' H. exact H. }
    intros c3 c3' A3. destruct (get_credit_map _ _ _ _) as [[|p m]|]; [cbn; auto| |exact Logic.I].
    rewrite (sum_agree c3 c3') by apply A3. destruct (sum_rewards c3 w (p :: m) 0); cbn [rbind alike]; auto.
  Qed.
End agree.

(** A claim of one account tells the same about all others as before. *)
Lemma get_reward_other cfg c x w from to c' r v :
  kc_step cfg <> U64MAX -> get_reward cfg c x w from to = ROk (c', r) -> v <> w -> agree v c c'.
Proof.
  intros Hs H Hv. destruct (get_reward_moves cfg c x w from to c' r Hs H) as [T R].
  destruct (touches_other _ _ _ _ _ v T Hv) as [E1 E2]. split; [exact E1|]. split; [exact E2|exact R].
Qed.
Lemma slash_other cfg c x w score c' v :
  slash_credit cfg c x w score = ROk c' -> v <> w -> agree v c c'.
Proof.
  intros H Hv. destruct (slash_moves cfg True c x w score c' H) as [T R].
  destruct (touches_other _ _ _ _ _ v T Hv) as [E1 E2]. split; [exact E1|]. split; [exact E2|exact R].
Qed.

(** * A claim comes to an end *)
Lemma daily_reward_total c w d : k_price c <> Some 0 -> exists v, daily_reward c w d = ROk v.
Proof.
  intros Hp. unfold daily_reward. destruct (_ =? _); [|eauto]. unfold usdt_reward.
  destruct (k_price c) as [p|]; [|eauto]. unfold calc_price_dpr. destruct (N.eqb_spec p 0) as [->|]; [congruence|].
  cbn [rbind]. eauto.
Qed.
Lemma sum_rewards_total c w m : forall acc, k_price c <> Some 0 -> exists v, sum_rewards c w m acc = ROk v.
Proof.
  induction m as [|[d n] m IH]; intros acc Hp; cbn [sum_rewards]; [eauto|].
  destruct (daily_reward_total c w d Hp) as [v ->]. cbn [rbind]. now apply IH.
Qed.
Lemma get_reward_total cfg c x w from to :
  kc_step cfg <> U64MAX -> book_ordered (cr c) (era_of cfg (kx_now x)) -> to + 1 - from < 65536 ->
  k_price c <> Some 0 -> exists c' r, get_reward cfg c x w from to = ROk (c', r).
Proof.
  intros Hs Ho Hr Hp. unfold get_reward. set (cur := era_of cfg (kx_now x)) in *.
  destruct (_ || _); [eauto|]. destruct (k_uc c !! w) as [d|] eqn:Ed; [|eauto].
  destruct (cd_eras d =? 0); [eauto|]. cbv zeta.
  set (c1 := match hist_of c w with [] => init_history c w d cur | _ => c end).
  assert (U1 : k_uc c1 !! w = Some d) by (subst c1; destruct (hist_of c w); exact Ed).
  assert (R1 : same_rest c c1) by (subst c1; destruct (hist_of c w); [reflexivity|apply same_rest_refl]).
  assert (O1 : book_ordered (cr c1) cur).
  { subst c1. unfold hist_of. destruct (default [] (k_hist c !! w)) as [|]; [|exact Ho].
    eapply (touch_ordered True); [exact Ho|]. apply touch_init. exact Ed. }
  destruct (slash_offline cfg c1 x w) as [c2| |] eqn:E2.
  2-3: rewrite (slash_offline_eq cfg c1 x w d U1 Hs) in E2; discriminate.
  pose proof (slash_offline_moves cfg True _ _ _ _ E2) as [T2 R2].
  destruct (slash_offline_uc cfg _ _ _ _ _ U1 Hs E2) as (d2 & U2 & _).
  pose proof (touches_ordered _ _ _ _ _ O1 T2) as O2. cbn [rbind].
  pose proof (proj1 (O2 w)) as I2. cbn [cr snd] in I2. fold (hist_of c2 w) in I2.
  destruct (hist_of c2 w) as [|[e0 d0] r] eqn:Eh; [eauto|].
  destruct (negb _ && _); [eauto|].
  assert (S3 : exists c3, (if (from =? sub32 (add32 e0 (cd_eras d)) 1) || (cd_camp d <=? 6)
      then p <-? do_switch c2 w d cur ; ROk p.1 else ROk c2) = ROk c3 /\ same_rest c2 c3).
  { destruct (_ || _); [|exists c2; split; [done|apply same_rest_refl]].
    destruct (do_switch_total cfg x w c2 d) as (p & Ep & Rp); [eauto|]. fold cur in Ep.
    rewrite Ep. cbn [rbind]. eauto. }
  destruct S3 as (c3 & -> & R3). cbn [rbind].
  destruct (get_credit_map_spec cfg (fun _ => 0) ((e0, d0) :: r) e0 d0 r from
    (N.min to (sub32 (add32 e0 (cd_eras d)) 1)) eq_refl I2) as (m & -> & _); [lia|].
  destruct m as [|p m]; [eauto|].
  destruct (sum_rewards_total c3 w (p :: m) 0) as [v ->]; [|cbn [rbind]; eauto].
  rewrite R3, R2, R1. exact Hp.
Qed.

(** * Records that stay *)
Lemma get_reward_keeps cfg c x w from to c' r v :
  kc_step cfg <> U64MAX -> get_reward cfg c x w from to = ROk (c', r) ->
  is_Some (k_uc c' !! v) <-> is_Some (k_uc c !! v).
Proof.
  intros Hs H. destruct (decide (v = w)) as [->|Hv].
  2: { now rewrite (proj1 (get_reward_other _ _ _ _ _ _ _ _ _ Hs H Hv)). }
  revert H. unfold get_reward. destruct (_ || _); [now intros [= <- _]|].
  destruct (k_uc c !! w) as [d|] eqn:Ed; [|intros [= <- _]; now rewrite Ed].
  destruct (cd_eras d =? 0); [intros [= <- _]; now rewrite Ed|]. cbv zeta.
  set (c1 := match hist_of c w with [] => init_history c w d (era_of cfg (kx_now x)) | _ => c end).
  assert (U1 : k_uc c1 !! w = Some d) by (subst c1; destruct (hist_of c w); exact Ed).
  intros H. inv_bind H. destruct (slash_offline_uc cfg _ _ _ _ _ U1 Hs Ha) as (d2 & U2 & _).
  assert (G : forall c3, is_Some (k_uc c3 !! w) -> is_Some (k_uc c3 !! w) <-> is_Some (Some d)) by (split; eauto).
  destruct (hist_of a w) as [|[e0 d0] l]; [injection H as <- _; apply G; eauto|].
  destruct (negb _ && _); [injection H as <- _; apply G; eauto|]. inv_bind H.
  assert (U3 : is_Some (k_uc a0 !! w)).
  { destruct (_ || _); [|injection Ha0 as <-; eauto]. inv_bind Ha0. injection Ha0 as <-. destruct a1 as [c4 b].
    destruct (do_switch_uc _ _ _ _ _ _ _ U2 Ha1) as [(_ & -> & _)|(_ & _ & _ & d' & U' & _)]; cbn; eauto. }
  destruct (get_credit_map _ _ _ _) as [[|p m]|]; [injection H as <- _; now apply G| |discriminate].
  inv_bind H. injection H as <- _. now apply G.
Qed.
Lemma slash_keeps cfg c x w score c' v :
  default (kc_step cfg) score <> U64MAX -> slash_credit cfg c x w score = ROk c' ->
  is_Some (k_uc c' !! v) <-> is_Some (k_uc c !! v).
Proof.
  intros Hs H. destruct (decide (v = w)) as [->|Hv].
  2: { now rewrite (proj1 (slash_other _ _ _ _ _ _ _ H Hv)). }
  destruct (k_uc c !! w) as [d|] eqn:Ed; [|rewrite slash_none in H by done; discriminate].
  rewrite (slash_eq _ _ _ _ _ d Ed Hs) in H. injection H as <-. cbn. rewrite lookup_insert. split; eauto.
Qed.
Lemma slash_goes cfg c x w score :
  default (kc_step cfg) score <> U64MAX ->
  (exists c', slash_credit cfg c x w score = ROk c') <-> is_Some (k_uc c !! w).
Proof.
  intros Hs. destruct (k_uc c !! w) as [d|] eqn:Ed.
  - rewrite (slash_eq _ _ _ _ _ d Ed Hs). split; [eauto|]. intros _. eexists. reflexivity.
  - rewrite slash_none by done. split; [intros [? ?]; discriminate|intros [? ?]; discriminate].
Qed.
Lemma slash_result cfg c x w score : (exists c', slash_credit cfg c x w score = ROk c') \/ slash_credit cfg c x w score = RPanic.
Proof.
  unfold slash_credit. destruct (_ =? _); [eauto|]. destruct (k_uc c !! w) as [d|] eqn:E.
  - erewrite update_history_eq by (cbn; apply lookup_insert). eauto.
  - rewrite update_history_none by exact E. auto.
Qed.
