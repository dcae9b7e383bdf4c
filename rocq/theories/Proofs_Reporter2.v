(** All the reports about one slashing span: the invariant behind property C197. *)
From Verif Require Import Base Balances Model_StakingLedger Model_Staking Spec_Staking Spec_Staking2 Spec_Reporter Spec_Reporter2
  Proofs_Arith Proofs_StakingLedger Proofs_Staking Proofs_Staking2 Proofs_Staking3 Proofs_Staking5 Proofs_Staking6
  Proofs_Staking12 Proofs_Staking14 Proofs_Staking15 Proofs_Staking16 Proofs_Staking17 Proofs_Staking18 Proofs_Staking19 Proofs_Reporter.
From Verif Require Proofs_Credit3.
From stdpp Require Import gmap.
Open Scope N_scope.

Lemma part_mono fr a b : a <= b -> part fr a <= part fr b.
Proof. intros. apply Proofs_Credit3.frac_mul_mono; [discriminate|lia|auto]. Qed.
Lemma taken_app i a b : taken i (a ++ b) = taken i a + taken i b.
Proof. unfold taken. now rewrite map_app, lsum_app. Qed.
Lemma vows_app i a b : vows i (a ++ b) = vows i a + vows i b.
Proof. unfold vows. now rewrite map_app, lsum_app. Qed.

(** ** What the records say was promised *)
Section spans.
  Context (now st : N) (Hnow : now + 1 < two32).
  Definition paid_from (sp : spans) (k : stk) (P : N -> N) : Prop :=
    forall i, earliest sp <= i -> (record k st i).2 = P i.
  Definition pinv (k : stk) (P : N -> N) : Prop :=
    match s_spans k !! st with
    | Some sp => paid_from sp k P
    | None => forall i, (record k st i).2 = 0 /\ P i = 0
    end.
  Lemma pinv_same k k' P : same_books k k' st -> pinv k P -> pinv k' P.
  Proof.
    intros [A B]. unfold pinv, paid_from. rewrite A. destruct (s_spans k !! st); intros H i; rewrite B; apply H.
  Qed.
  Lemma pinv_ext k P Q : (forall i, P i = Q i) -> pinv k P -> pinv k Q.
  Proof.
    intros E. unfold pinv, paid_from. destruct (s_spans k !! st); intros H i; rewrite <- E; apply H.
  Qed.

  Lemma fetch_pinv k w k0 sp P : fetch_spans k st w = (k0, sp) -> pinv k P -> paid_from sp k0 P.
  Proof.
    unfold fetch_spans, pinv. destruct (s_spans k !! st) as [sp0|]; intros H I; injection H as <- <-; [exact I|].
    intros i _. destruct (I i) as [A B]. rewrite B. exact A.
  Qed.
  Lemma kick_pinv x k e sp d k' e' sp' d' P :
    kick x k e st now sp d = (k', e', sp', d') -> spans_ok now sp -> paid_from sp k P -> paid_from sp' k' P.
  Proof.
    unfold kick. destruct (end_span now sp) as [sp1 b] eqn:E. intros H Ok I. injection H as <- <- <- <-.
    assert (Ee : earliest sp1 = earliest sp).
    { destruct Ok as [? ? ? ? ?]. unfold end_span in E. rewrite add32_exact in E by lia.
      destruct (N.leb_spec (now + 1) (sp_start sp)); injection E as <- <-; [auto|].
      unfold earliest. cbn [sp_index sp_prior length]. rewrite add32_exact by lia. lia. }
    intros i Hi. rewrite Ee in Hi. exact (I i Hi).
  Qed.
  Lemma close_pinv k w d sp P :
    w <= now -> spans_ok now sp -> paid_from sp k P -> (d = false -> s_spans k !! st = Some sp) ->
    pinv (close_spans k st w d sp) P.
  Proof.
    intros Hw Ok I Hd. unfold close_spans. destruct d.
    2: { unfold pinv. now rewrite (Hd eq_refl). }
    destruct (prune w sp) as [sp' pr] eqn:Ep. unfold pinv. cbn. rewrite lookup_insert. intros i Hi.
    unfold prune in Ep. destruct (old_position w _) as [o|].
    - injection Ep as <- <-. unfold earliest in Hi. cbn [sp_index sp_prior] in Hi.
      destruct Ok as [A1 A2 A3 A4 A5].
      rewrite <- (I i).
      + unfold record. cbn. rewrite (delete_range now st Hnow); [auto|]. rewrite take_length in *.
        assert (Hm : N.of_nat (o `min` length (sp_prior sp)) <= sp_index sp) by lia.
        rewrite (sub32_exact (sp_index sp) (N.of_nat (length (sp_prior sp)))) by lia.
        rewrite (sub32_exact (sp_index sp) (N.of_nat (o `min` length (sp_prior sp)))) by lia. lia.
      + unfold earliest. rewrite take_length in Hi. lia.
    - injection Ep as <- <-. unfold earliest in Hi. cbn [sp_index sp_prior] in Hi.
      rewrite <- (I i); [|exact Hi]. reflexivity.
  Qed.

  Lemma update_pinv k sp fr era own ev k1 sp1 d df rw t P :
    update_span k st sp fr era own = (k1, sp1, d, df, rw, t) -> books now st sp k ev -> paid_from sp k P ->
    (forall i, P i <= part fr (charged st i ev)) -> fr <= PERBILL -> own < two128 ->
    t = idx sp era /\
    match t with
    | None => rw = 0 /\ df = 0 /\ k1 = k /\ sp1 = sp
    | Some j => paid_from sp1 k1 (fun i => P i + if i =? j then rw else 0) /\ P j + rw <= part fr (charged st j ev + df)
    end.
  Proof.
    unfold update_span, idx. intros H B I L Hf Ho. destruct (era_span sp era) as [t0|] eqn:Et.
    2: { injection H as <- <- <- <- <- <-. auto. }
    pose proof (era_span_index now Hnow _ _ _ (bk_ok _ _ _ _ _ B) Et) as [Hi _].
    pose proof (bk_rec _ _ _ _ _ B _ Hi) as Hr. rewrite <- (bk_sum _ _ _ _ _ B) in Hr. pose proof (I _ Hi) as Hp.
    unfold slashed, record in Hr, Hp. cbn [fmap option_fmap option_map].
    set (j := sn_index t0) in *. specialize (L j).
    destruct (default (0, 0) (s_rec k !! (st, j))) as [sl pd] eqn:Er. cbn [fst snd] in Hr, Hp. cbn zeta in H.
    change (frac_mul fr PERBILL own) with (part fr own) in H. set (pay := frac_mul REWARD_F1 PERBILL _) in H.
    assert (Po : part fr own <= own) by (apply frac_mul_le; [discriminate|auto]).
    assert (Pay : sl <= own -> pd + pay <= part fr own).
    { intros Hle. pose proof (part_mono fr _ _ Hle). subst pay. rewrite Proofs_Reporter.half.
      pose proof (N.mul_div_le (ssub (part fr own) pd) 2 ltac:(discriminate)). unfold ssub in *.
      rewrite <- Hr in L. lia. }
    assert (Gen : forall sl' sp' rw' ch, earliest sp' = earliest sp -> (ch = true -> pd + rw' < two128) -> (ch = false -> rw' = 0) ->
      paid_from sp' (if ch : bool then set_s_rec k (<[(st, j) := (sl', add128 pd rw')]> (s_rec k)) else k) (fun i => P i + if i =? j then rw' else 0)).
    { intros sl' sp' rw' ch Ee Lt Ec i Hge. rewrite Ee in Hge. pose proof (I i Hge) as Ii. destruct ch.
      - unfold record. cbn. destruct (N.eqb_spec i j) as [->|Hn].
        + rewrite lookup_insert. cbn. specialize (Lt eq_refl). rewrite add128_exact by lia. lia.
        + rewrite lookup_insert_ne by congruence. fold (record k st i). lia.
      - rewrite (Ec eq_refl). destruct (i =? j); lia. }
    destruct (N.ltb_spec sl own) as [Lt|Lt].
    - injection H as <- <- <- <- <- <-. split; [auto|]. split.
      + apply (Gen own _ pay true); [reflexivity|intros _; specialize (Pay ltac:(lia)); lia|discriminate].
      + rewrite <- Hr, <- Hp. replace (sl + (own - sl)) with own by lia. apply Pay. lia.
    - destruct (N.eqb_spec sl own) as [E|E].
      + cbn [orb] in H. specialize (Pay ltac:(lia)).
        destruct (N.eqb_spec pay 0) as [Ez|Ez]; cbn [negb] in H; injection H as <- <- <- <- <- <-; (split; [auto|]); split.
        * apply (Gen sl _ pay false); auto; discriminate.
        * rewrite <- Hr, <- Hp, N.add_0_r, E. exact Pay.
        * apply (Gen sl _ pay true); auto; [lia|discriminate].
        * rewrite <- Hr, <- Hp, N.add_0_r, E. exact Pay.
      + cbn [orb N.eqb negb] in H. injection H as <- <- <- <- <- <-. split; [auto|]. split.
        * apply (Gen sl _ 0 false); auto; discriminate.
        * rewrite !N.add_0_r. lia.
  Qed.
End spans.

Lemma charged_one st i st0 era j o d : charged st i [KCharge st0 era j o d] = if (st0 =? st) && (j =? i) then d else 0.
Proof. unfold charged. cbn. lia. Qed.

Section compute.
  Context (now st : N) (Hnow : now + 1 < two32).

  Lemma kick_out_pinv x s st0 era w P ev : w <= now -> st_inv now st (k_stk s) ev -> pinv st (k_stk s) P ->
    pinv st (k_stk (kick_out x s st0 era w now)) P.
  Proof.
    intros Hw I V. unfold kick_out. destruct (fetch_spans (k_stk s) st0 w) as [k0 sp] eqn:E0.
    destruct (decide (st = st0)) as [<-|Hne].
    - destruct (fetch_books now st _ _ _ _ _ Hw E0 I) as [B S0]. pose proof (fetch_pinv _ _ _ _ _ _ E0 V) as V0.
      assert (I0 : pinv st k0 P) by (unfold pinv; now rewrite S0).
      destruct (era_span sp era); [|exact I0]. destruct (_ =? _); [|exact I0].
      destruct (kick x k0 (k_era s) st now sp false) as [[[k1 e1] sp1] d] eqn:E1.
      destruct (kick_books now st Hnow _ _ _ _ _ _ _ _ _ _ E1 B) as (B1 & S1 & D1).
      pose proof (kick_pinv now st Hnow _ _ _ _ _ _ _ _ _ _ E1 (bk_ok _ _ _ _ _ B) V0) as V1.
      cbn. apply (close_pinv now st Hnow); [auto|apply B1|auto|]. intros Ed. destruct (D1 Ed) as [_ ->]. congruence.
    - pose proof (fetch_other _ _ _ _ _ st Hne E0) as F0.
      destruct (era_span sp era); [|exact (pinv_same _ _ _ _ F0 V)].
      destruct (_ =? _); [|exact (pinv_same _ _ _ _ F0 V)].
      destruct (kick x k0 (k_era s) st0 now sp false) as [[[k1 e1] sp1] d] eqn:E1. apply (kick_other _ _ _ _ _ _ _ _ _ _ _ st) in E1.
      apply (pinv_same _ (k_stk s)); [|exact V].
      eapply same_trans; [exact F0|]. eapply same_trans; [exact E1|]. now apply close_other.
  Qed.

  Definition mine (st0 : N) (u : option uslash) (f : uslash -> N) : N :=
    match u with Some u => if st0 =? st then f u else 0 | None => 0 end.
  Lemma compute_vows x s st0 f ex era w s' u e1 ev P fr :
    compute_slash x s st0 f ex era w now = (s', u, e1) -> w <= now ->
    st_inv now st (k_stk s) ev -> pinv st (k_stk s) P -> (forall i, P i <= part fr (charged st i ev)) ->
    p_frac (k_par s) = fr -> fr <= PERBILL -> f <= PERBILL -> x_own ex < two128 ->
    let j := default 0 (kidx w (k_stk s) st era) in
    (forall i, charged st i e1 = if i =? j then mine st0 u u_own else 0) /\
    pinv st (k_stk s') (fun i => P i + if i =? j then mine st0 u u_pay else 0) /\
    (forall i, P i + (if i =? j then mine st0 u u_pay else 0) <= part fr (charged st i (ev ++ e1))).
  Proof.
    intros H Hw I V L Ep Hfr Hf Hx j. unfold compute_slash in H.
    assert (Z : forall i n, (if i =? n then 0 else 0) = 0) by (intros i n; now destruct (i =? n)).
    destruct (_ =? 0).
    { injection H as <- <- <-. cbn [mine]. split; [intros; now rewrite Z|]. split.
      - apply (pinv_ext st _ P); [intros; rewrite Z; lia|]. eapply kick_out_pinv; eauto.
      - intros i. rewrite Z, app_nil_r, N.add_0_r. auto. }
    destruct (_ <=? _).
    { injection H as <- <- <-. cbn [mine]. split; [intros; now rewrite Z|]. split.
      - apply (pinv_ext st _ P); [intros; rewrite Z; lia|]. exact V.
      - intros i. rewrite Z, app_nil_r, N.add_0_r. auto. }
    set (k := set_s_in_era (k_stk s) _) in H.
    assert (Sk : same_books (k_stk s) k st) by (split; reflexivity).
    assert (Ik : st_inv now st k ev) by (eapply same_inv; eauto).
    assert (Vk : pinv st k P) by (eapply pinv_same; eauto).
    destruct (fetch_spans k st0 w) as [k0 sp] eqn:E0.
    set (own := frac_mul f PERBILL (x_own ex)) in *.
    assert (Ho : own < two128) by (unfold own; pose proof (frac_mul_le f PERBILL (x_own ex) ltac:(discriminate) Hf); lia).
    destruct (update_span _ _ _ _ _ _) as [[[[[k1 sp1] d] df] rw] t] eqn:E1.
    destruct (if bool_decide _ then _ else _) as [[[k2 e2] sp2] d2] eqn:E2.
    injection H as <- <- <-. cbn [k_stk set_k_era set_k_stk mine u_own u_pay]. rewrite Ep in E1.
    destruct (N.eqb_spec st0 st) as [->|Hne].
    - destruct (fetch_books now st _ _ _ _ _ Hw E0 Ik) as [B0 S0].
      pose proof (fetch_pinv _ _ _ _ _ _ E0 Vk) as V0.
      destruct (fetch_idx _ _ _ _ _ st era E0) as (_ & _ & Fi).
      change (kidx w k st era) with (kidx w (k_stk s) st era) in Fi.
      destruct (update_books now st Hnow _ _ _ _ _ _ _ _ _ _ _ _ E1 B0) as (B1 & S1 & D1).
      destruct (update_pinv now st Hnow _ _ _ _ _ _ _ _ _ _ _ _ _ E1 B0 V0 L Hfr Ho) as (Et & U).
      assert (V1 : paid_from st sp1 k1 (fun i => P i + if i =? j then rw else 0) /\
        (forall i, charged st i (match t with Some i => [KCharge st era i own df] | None => [] end) = if i =? j then df else 0) /\
        P j + rw <= part fr (charged st j ev + df)).
      { subst j. rewrite <- Fi, <- Et. destruct t as [j|]; cbn [default from_option].
        - destruct U as [U1 U2]. split; [exact U1|]. split; [|exact U2].
          intros i. rewrite charged_one, N.eqb_refl, (N.eqb_sym j i). reflexivity.
        - destruct U as (-> & -> & -> & ->). split; [|split].
          + intros i Hi. rewrite Z, N.add_0_r. now apply V0.
          + intros i. now rewrite Z.
          + rewrite !N.add_0_r. apply L. }
      destruct V1 as (V1 & C1 & L1). split; [exact C1|]. split.
      + destruct (bool_decide _).
        * destruct (kick_books now st Hnow _ _ _ _ _ _ _ _ _ _ E2 B1) as (B2 & S2 & D2).
          pose proof (kick_pinv now st Hnow _ _ _ _ _ _ _ _ _ _ E2 (bk_ok _ _ _ _ _ B1) V1) as V2.
          apply (close_pinv now st Hnow); [auto|apply B2|auto|]. intros Ed. destruct (D2 Ed) as [Ed' ->].
          rewrite S2, S1. now rewrite (D1 Ed').
        * injection E2 as <- <- <- <-.
          apply (close_pinv now st Hnow); [auto|apply B1|auto|]. intros Ed. rewrite S1. now rewrite (D1 Ed).
      + intros i. rewrite charged_app, C1. destruct (N.eqb_spec i j) as [->|Hn]; [exact L1|]. rewrite !N.add_0_r. apply L.
    - assert (Sb : same_books k (close_spans k2 st0 w d2 sp2) st).
      { eapply same_trans; [exact (fetch_other _ _ _ _ _ _ (not_eq_sym Hne) E0)|].
        eapply same_trans; [exact (update_other _ _ _ _ _ _ _ _ _ _ _ _ _ (not_eq_sym Hne) E1)|].
        eapply same_trans; [|apply close_other; auto].
        destruct (bool_decide _); [now apply (kick_other _ _ _ _ _ _ _ _ _ _ _ st) in E2|].
        injection E2 as <- _ _ _. apply same_refl. }
      assert (C1 : forall i, charged st i (match t with Some i => [KCharge st0 era i own df] | None => [] end) = 0).
      { intros i. destruct t; [|auto]. rewrite charged_one. destruct (N.eqb_spec st0 st); [congruence|auto]. }
      split; [intros i; rewrite C1; now rewrite Z|]. split.
      + apply (pinv_ext st _ P); [intros; rewrite Z; lia|]. eapply pinv_same; eauto.
      + intros i. rewrite charged_app, C1, Z, !N.add_0_r. apply L.
  Qed.
End compute.
