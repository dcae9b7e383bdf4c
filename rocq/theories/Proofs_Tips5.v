(** Money: what each call moves. *)
From Verif Require Import Base Balances Proofs_Balances Proofs_Arith Model_Tips Spec_Tips Proofs_Tips Proofs_Tips2 Proofs_Tips4.
From Verif Require Proofs_DeeperNode2 Proofs_Operation3 Proofs_Credit3.
From stdpp Require Import gmap sorting.
Open Scope N_scope.

Lemma percent_le p x : p <= 100 -> frac_mul p PERCENT x <= x.
Proof.
  intros H. pose proof (Proofs_Credit3.frac_mul_strict p 100 x ltac:(lia)) as K. unfold PERCENT.
  assert (p * x <= 100 * x) by (apply N.mul_le_mono_r; exact H). lia.
Qed.

Section money.
  Context (cfg : tcfg).
  Local Notation ed := (tc_ed cfg).

  Lemma keep_ok b src dst v : src <> dst -> can_pay cfg b src v -> can_receive cfg b dst v ->
    exists b', transfer_keep ed b src dst v = Some b'.
  Proof.
    unfold can_pay, can_receive, worth, free_of, rsv_of, transfer_keep. intros Hn Hp Hr.
    destruct (N.eqb_spec v 0) as [->|Hv]; cbn [orb]; [eauto|]. destruct (N.eqb_spec src dst); [contradiction|].
    destruct Hr as [->|[R1 R2]]; [contradiction|].
    destruct (N.ltb_spec (free (acct_of b src)) v); [lia|].
    destruct (N.ltb_spec (free (acct_of b src) - N.max (frz (acct_of b src) - rsv (acct_of b src)) ed) v); [lia|].
    destruct (N.ltb_spec (free (acct_of b dst) + rsv (acct_of b dst) + v) ed); [lia|].
    destruct (N.leb_spec two128 (free (acct_of b dst) + rsv (acct_of b dst) + v)); [lia|]. eauto.
  Qed.
  Lemma keep_frz b src dst v b' : transfer_keep ed b src dst v = Some b' ->
    src <> dst -> frz (acct_of b' src) = frz (acct_of b src) \/ free_of b' src < ed.
  Proof.
    unfold transfer_keep, free_of. intros H Hn. destruct (_ || _); [injection H as <-; auto|].
    destruct (_ <? v); [discriminate|].
    destruct (N.ltb_spec (free (acct_of b src) - N.max (frz (acct_of b src) - rsv (acct_of b src)) ed) v) as [|Hk]; [discriminate|].
    destruct (N.ltb_spec (free (acct_of b dst) + rsv (acct_of b dst) + v) ed) as [|Hed]; [discriminate|].
    destruct (_ <=? _); [discriminate|]. injection H as <-. rewrite put_acct_ne by congruence.
    destruct (N.ltb_spec (free (acct_of b src) - v) ed).
    - right. apply N.le_lt_trans with (free (acct_of b src) - v); [|assumption].
      pose proof (put_free_le ed b src (Acct (free (acct_of b src) - v) (rsv (acct_of b src)) (frz (acct_of b src))) src) as K.
      rewrite N.eqb_refl in K. exact K.
    - left. rewrite put_acct_eq; [reflexivity|]. cbn. lia.
  Qed.

  Lemma try_pay_money b src dst v : money (try_pay cfg b src dst v) = money b.
  Proof. unfold try_pay. destruct (transfer_keep _ _ _ _ _) eqn:E; [|reflexivity]. cbn. eapply transfer_keep_money; exact E. Qed.
  Lemma try_pay_loss b src dst v a :
    worth b a <= worth (try_pay cfg b src dst v) a + (if a =? src then v else 0).
  Proof.
    unfold worth. rewrite try_pay_rsv. unfold try_pay. destruct (transfer_keep _ _ _ _ _) as [b'|] eqn:E; cbn; [|lia].
    destruct (decide (src = dst)) as [->|Hn].
    { unfold transfer_keep in E. rewrite N.eqb_refl, orb_true_r in E. injection E as <-. lia. }
    destruct (Proofs_Operation3.transfer_keep_spec _ _ _ _ _ _ E Hn) as (_ & H1 & H2 & H3 & _).
    destruct (N.eqb_spec a src) as [->|]; [lia|]. destruct (decide (a = dst)) as [->|]; [lia|].
    unfold free_of. rewrite H3 by auto. lia.
  Qed.

  Lemma unreserve_money b who v : money (unreserve ed b who v) = money b.
  Proof.
    unfold unreserve. destruct (v =? 0); [reflexivity|].
    pose proof (put_money ed b who (Acct (free (acct_of b who) + N.min (rsv (acct_of b who)) v)
      (rsv (acct_of b who) - N.min (rsv (acct_of b who)) v) (frz (acct_of b who)))) as P. cbn in P. lia.
  Qed.
  Lemma give_back_money s t : money (t_bank (give_back cfg s t)) = money (t_bank s).
  Proof. unfold give_back. destruct (_ =? _); [reflexivity|]. apply unreserve_money. Qed.
  (** Returning a backed deposit. *)
  Lemma give_back_exact s t :
    ot_deposit t = 0 \/ ed <= ot_deposit t -> ot_deposit t <= rsv_of (t_bank s) (ot_finder t) ->
    acct_of (t_bank (give_back cfg s t)) (ot_finder t) =
      Acct (free_of (t_bank s) (ot_finder t) + ot_deposit t) (rsv_of (t_bank s) (ot_finder t) - ot_deposit t)
           (frz (acct_of (t_bank s) (ot_finder t))) /\
    forall a, a <> ot_finder t -> acct_of (t_bank (give_back cfg s t)) a = acct_of (t_bank s) a.
  Proof.
    intros Hd Hr. unfold give_back. destruct (N.eqb_spec (ot_deposit t) 0) as [E|E].
    - rewrite E, N.add_0_r, N.sub_0_r. split; [|auto]. unfold free_of, rsv_of. now destruct (acct_of _ _).
    - apply Proofs_DeeperNode2.unreserve_exact; [exact Hr|]. left. destruct Hd; [contradiction|lia].
  Qed.
  Lemma give_back_worth s t a :
    ot_deposit t = 0 \/ ed <= ot_deposit t -> ot_deposit t <= rsv_of (t_bank s) (ot_finder t) ->
    worth (t_bank (give_back cfg s t)) a = worth (t_bank s) a.
  Proof.
    intros Hd Hr. destruct (give_back_exact s t Hd Hr) as [H1 H2]. unfold worth, free_of, rsv_of in *.
    destruct (decide (a = ot_finder t)) as [->|Hn]; [rewrite H1; cbn; lia|]. now rewrite H2.
  Qed.

  (** Deposits are nothing, or at least the existential deposit. *)
  Definition dep (s : tstate) : Prop := forall h t, t_tips s !! h = Some t -> ot_deposit t = 0 \/ ed <= ot_deposit t.
  Lemma step_dep s op : deposit_ok cfg -> dep s -> dep (tstep cfg s op).1.
  Proof.
    intros (D1 & D2 & D3) D. destruct op as [x o c|b]; [|exact D].
    cbn [tstep]. destruct (texec cfg x s o c) as [[s' ev]| |] eqn:E; cbn [fst]; try exact D.
    destruct (exec_change cfg _ _ _ _ _ _ E) as [reason k t0 w Hk Hr Hnn Ho Hf Hc Ht0 Hrs Hw Hm Hev|k t0 t' w v b0 Hk Ho Hw Hm Hs Hev|k t0 Hk Hm Ht0 Hr Hw Hev|who Hc Ho Hs Hev].
    - intros h t. rewrite Ht0. destruct (decide (h = k)) as [->|]; [rewrite lookup_insert|rewrite lookup_insert_ne by auto; apply D].
      intros [= <-]. destruct c; try contradiction; [|left; tauto..].
      right. destruct Hm as (-> & _ & _ & _ & _ & Hl & -> & _).
      assert (Hm : tc_perbyte cfg * N.of_nat (length reason) <= tc_perbyte cfg * tc_maxlen cfg) by (apply N.mul_le_mono_l; exact Hl).
      unfold add128, w128, w32. fold two32 two128. rewrite (N.mod_small (N.of_nat _)) by lia.
      rewrite (N.mod_small (_ * _)) by lia. rewrite N.mod_small by lia. lia.
    - subst s'. apply vote_same in Hm as (_ & _ & _ & E2 & _). intros h t. cbn.
      destruct (decide (h = k)) as [->|]; [rewrite lookup_insert|rewrite lookup_insert_ne by auto; apply D].
      intros [= <-]. rewrite E2. eapply D; exact Hk.
    - intros h t. rewrite Ht0. intros H. apply lookup_delete_Some in H as [_ H]. eapply D; exact H.
    - subst. exact D.
  Qed.
  Lemma run_dep hist : deposit_ok cfg -> forall s, dep s -> dep (trun cfg s hist).
  Proof. intros Hd. induction hist as [|op r IH]; intros s D; [exact D|]. cbn. apply IH. now apply step_dep. Qed.
  Lemma genesis_dep b : dep (tgenesis b).
  Proof. intros h t H. discriminate H. Qed.

  Lemma held_le s h t : t_tips s !! h = Some t -> ot_deposit t <= held s (ot_finder t).
  Proof.
    intros H. unfold held.
    pose proof (msum_le (fun _ t0 => if ot_finder t0 =? ot_finder t then ot_deposit t0 else 0) _ _ _ H) as K.
    cbn in K. now rewrite N.eqb_refl in K.
  Qed.

  (** No call creates or destroys money. *)
  Lemma call_money s op : match op with TCall _ _ _ => True | _ => False end ->
    money (t_bank (tstep cfg s op).1) = money (t_bank s).
  Proof.
    destruct op as [x o c|b]; [intros _|contradiction].
    cbn [tstep]. destruct (texec cfg x s o c) as [[s' ev]| |] eqn:E; cbn [fst]; try reflexivity.
    destruct c; cbn [texec] in E.
    - destruct (signed o) as [w| |]; cbn in E; try discriminate. unfold report, ensure in E.
      destruct (_ <=? _); cbn in E; [|discriminate]. destruct (negb _); cbn in E; [|discriminate].
      destruct (negb _); cbn in E; [|discriminate]. destruct (reserve _ _ _ _) eqn:Er; [|discriminate].
      injection E as <- <-. cbn. eapply Proofs_Operation3.reserve_money; exact Er.
    - destruct (signed o) as [w| |]; cbn in E; try discriminate. unfold retract, find_tip, ensure in E.
      destruct (t_tips s !! h); cbn in E; [|discriminate]. destruct (_ =? _); cbn in E; [|discriminate].
      injection E as <- <-. rewrite give_back_money. reflexivity.
    - destruct (tipper x o) as [w| |]; cbn in E; try discriminate. unfold tip_new, ensure in E.
      destruct (negb _); cbn in E; [|discriminate]. now injection E as <- <-.
    - destruct (tipper x o) as [w| |]; cbn in E; try discriminate. unfold do_tip, find_tip in E.
      destruct (t_tips s !! h); cbn in E; [|discriminate]. destruct (check_closing _ _ _ _). now injection E as <- <-.
    - destruct (signed o) as [w| |]; cbn in E; try discriminate. unfold close, find_tip in E.
      destruct (t_tips s !! h) as [t|]; cbn in E; [|discriminate]. destruct (ripe x t); cbn in E; try discriminate.
      unfold payout_tip in E. destruct (middle _ _); [|discriminate]. injection E as <- <-. cbn.
      rewrite try_pay_money. destruct (_ && _); rewrite ?try_pay_money, give_back_money; reflexivity.
    - unfold ensure in E. destruct (tx_reject x); cbn in E; [|discriminate]. unfold slash, find_tip in E.
      destruct (t_tips s !! h) as [t|]; cbn in E; [|discriminate].
      destruct (slash_reserved _ _ _ _) as [b got] eqn:Es. injection E as <- <-.
      destruct (N.eqb_spec (ot_deposit t) 0) as [E0|E0]; cbn; [reflexivity|].
      unfold slash_reserved in Es. apply N.eqb_neq in E0. rewrite E0 in Es. injection Es as <- <-.
      pose proof (put_money ed (t_bank s) (ot_finder t) (Acct (free (acct_of (t_bank s) (ot_finder t)))
        (rsv (acct_of (t_bank s) (ot_finder t)) - N.min (rsv (acct_of (t_bank s) (ot_finder t))) (ot_deposit t))
        (frz (acct_of (t_bank s) (ot_finder t))))) as P. unfold money in *. cbn in *. lia.
    - destruct (tipper x o) as [w| |]; cbn in E; try discriminate. unfold credit_new, ensure in E.
      destruct (negb _); cbn in E; [|discriminate]. now injection E as <- <-.
    - destruct (tipper x o) as [w| |]; cbn in E; try discriminate. unfold do_credit_tip, find_tip in E.
      destruct (t_tips s !! h); cbn in E; [|discriminate]. destruct (check_closing _ _ _ _). now injection E as <- <-.
    - destruct (signed o) as [w| |]; cbn in E; try discriminate. unfold credit_close, find_tip in E.
      destruct (t_tips s !! h) as [t|]; cbn in E; [|discriminate]. destruct (ripe x t); cbn in E; try discriminate.
      destruct (middle _ _); [|discriminate]. injection E as <- <-. rewrite give_back_money. reflexivity.
    - destruct o; try discriminate. now injection E as <- <-.
  Qed.

  (** What a successful closing does. *)
  Lemma close_facts x s h s' ev w : texec cfg x s (Signed w) (TClose h) = ROk (s', ev) ->
    exists t n med, t_tips s !! h = Some t /\ ot_closes t = Some n /\ n <= tx_block x /\ middle (tx_members x) (ot_tips t) = Some med /\
      let fee := if ot_fee t && negb (ot_finder t =? ot_who t) then frac_mul (tc_fee cfg) PERCENT med else 0 in
      ev = [TClosed h (ot_who t) (sub128 med fee)] /\
      t_tips s' = delete h (t_tips s) /\
      t_bank s' = try_pay cfg (if ot_fee t && negb (ot_finder t =? ot_who t)
                               then try_pay cfg (t_bank (give_back cfg (drop_tip s h t) t)) (payer s) (ot_finder t) fee
                               else t_bank (give_back cfg (drop_tip s h t) t)) (payer s) (ot_who t) (sub128 med fee).
  Proof.
    cbn. unfold close, find_tip. destruct (t_tips s !! h) as [t|] eqn:Et; cbn; [|discriminate].
    unfold ripe. destruct (ot_closes t) as [n|] eqn:En; [|discriminate]. unfold ensure.
    destruct (N.leb_spec n (tx_block x)); cbn; [|discriminate]. unfold payout_tip.
    destruct (middle _ _) as [med|] eqn:Em; [|discriminate]. intros [= <- <-].
    exists t, n, med. cbn. rewrite give_back_tips. auto 10.
  Qed.

  Lemma middle_bound m l med : StronglySorted N.lt m -> ordered l -> Forall (fun p => p.2 < two128) l ->
    middle m l = Some med -> med < two128.
  Proof.
    intros Sm O F H. pose proof (middle_median m l Sm O) as M. rewrite H in M. destruct M as [M _].
    apply elem_of_list_omap in M as (a & _ & M). clear -F M. induction F as [|[b v] r Hv _ IH]; [discriminate|].
    cbn in M. destruct (a =? b); [injection M as <-; exact Hv|auto].
  Qed.

  Lemma close_pays x s h s' ev w t med :
    StronglySorted N.lt (tx_members x) -> vinv s -> dep s -> backed s -> tc_fee cfg <= 100 ->
    texec cfg x s (Signed w) (TClose h) = ROk (s', ev) ->
    t_tips s !! h = Some t -> middle (tx_members x) (ot_tips t) = Some med ->
    let p := payer s in
    let fee := if ot_fee t && negb (ot_finder t =? ot_who t) then frac_mul (tc_fee cfg) PERCENT med else 0 in
    p <> ot_who t -> p <> ot_finder t -> can_pay cfg (t_bank s) p med ->
    can_receive cfg (t_bank s) (ot_finder t) fee -> can_receive cfg (t_bank s) (ot_who t) (med - fee) ->
    forall a, worth (t_bank s') a + (if a =? p then med else 0) =
              worth (t_bank s) a + (if a =? ot_who t then med - fee else 0) + (if a =? ot_finder t then fee else 0).
  Proof.
    intros Sm V D B Hf E Ht Hm p fee Hw1 Hf1 Hp Rf Rw a.
    destruct (close_facts _ _ _ _ _ _ E) as (t0 & n & med0 & Ht0 & _ & _ & Hm0 & _ & _ & Hb).
    rewrite Ht in Ht0. injection Ht0 as <-. rewrite Hm in Hm0. injection Hm0 as <-. fold fee p in Hb. rewrite Hb. clear Hb E.
    destruct (V _ _ Ht Coin) as [O F]. pose proof (middle_bound _ _ _ Sm O F Hm) as Hmed.
    assert (Hfee : fee <= med) by (unfold fee; destruct (_ && _); [now apply percent_le|lia]).
    rewrite sub128_exact by (assumption || lia).
    set (b0 := t_bank (give_back cfg (drop_tip s h t) t)).
    assert (Hdep : ot_deposit t <= rsv_of (t_bank s) (ot_finder t)) by (etransitivity; [eapply held_le; exact Ht|apply B]).
    assert (W0 : forall a, worth b0 a = worth (t_bank s) a) by (intros c; apply (give_back_worth (drop_tip s h t) t c (D _ _ Ht) Hdep)).
    destruct (give_back_exact (drop_tip s h t) t (D _ _ Ht) Hdep) as [_ G]. fold b0 in G.
    assert (Ep : acct_of b0 p = acct_of (t_bank s) p) by (apply G; exact Hf1).
    assert (step : forall b dst v rest, p <> dst -> can_pay cfg b p (v + rest) -> can_receive cfg b dst v ->
      let b' := try_pay cfg b p dst v in
      can_pay cfg b' p rest /\ forall c, worth b' c + (if c =? p then v else 0) = worth b c + (if c =? dst then v else 0)).
    { intros b dst v rest Hn Hpay Hrec b'.
      destruct (keep_ok b p dst v Hn) as [b1 E1]; [unfold can_pay in *; lia|exact Hrec|].
      assert (Eb : b' = b1) by (unfold b', try_pay; now rewrite E1). rewrite Eb. clear b' Eb.
      destruct (Proofs_Operation3.transfer_keep_spec _ _ _ _ _ _ E1 Hn) as (_ & H1 & H2 & H3 & _). split.
      - unfold can_pay in *. rewrite H1. destruct (keep_frz _ _ _ _ _ E1 Hn) as [->|K]; [lia|].
        rewrite H1 in K. lia.
      - intros c. unfold worth. rewrite (transfer_keep_rsv _ _ _ _ _ _ c E1).
        destruct (N.eqb_spec c p) as [->|]; [|destruct (N.eqb_spec c dst) as [->|]; [lia|unfold free_of; rewrite H3 by auto; lia]].
        destruct (N.eqb_spec p dst); [contradiction|]. unfold can_pay in Hpay. lia. }
    assert (Pay0 : can_pay cfg b0 p (fee + (med - fee))).
    { replace (fee + (med - fee)) with med by lia. unfold can_pay, free_of in *. now rewrite Ep. }
    destruct (ot_fee t && negb (ot_finder t =? ot_who t)) eqn:Ef.
    - apply andb_prop in Ef as [_ Ef]. apply negb_true_iff, N.eqb_neq in Ef.
      destruct (step b0 (ot_finder t) fee (med - fee) Hf1 Pay0) as [P1 W1].
      { unfold can_receive in *. now rewrite W0. }
      set (b1 := try_pay cfg b0 p (ot_finder t) fee) in *.
      destruct (step b1 (ot_who t) (med - fee) 0 Hw1) as [_ W2].
      { now rewrite N.add_0_r. }
      { unfold can_receive in *. specialize (W1 (ot_who t)).
        destruct (N.eqb_spec (ot_who t) p); [congruence|]. destruct (N.eqb_spec (ot_who t) (ot_finder t)); [congruence|].
        rewrite W0 in W1. rewrite !N.add_0_r in W1. now rewrite W1. }
      specialize (W1 a). specialize (W2 a). rewrite W0 in W1.
      destruct (a =? p), (a =? ot_who t), (a =? ot_finder t); lia.
    - assert (F0 : fee = 0) by reflexivity. rewrite F0 in *. rewrite N.sub_0_r in *.
      destruct (step b0 (ot_who t) med 0 Hw1) as [_ W2].
      { now rewrite N.add_0_r. }
      { unfold can_receive in *. now rewrite W0. }
      specialize (W2 a). rewrite W0 in W2. destruct (a =? p), (a =? ot_who t), (a =? ot_finder t); lia.
  Qed.

  (** Who can lose by a call, and how much. *)
  Lemma call_loss s x o c a : dep s -> backed s ->
    let s' := (tstep cfg s (TCall x o c)).1 in
    worth (t_bank s) a <= worth (t_bank s') a +
      match c with
      | TClose h => match t_tips s !! h with
                    | Some t => if a =? payer s then
                        match middle (tx_members x) (ot_tips t) with
                        | Some med =>
                           let fee := if ot_fee t && negb (ot_finder t =? ot_who t) then frac_mul (tc_fee cfg) PERCENT med else 0 in
                           fee + sub128 med fee
                        | None => 0 end
                      else 0
                    | None => 0 end
      | TSlash h => match t_tips s !! h with
                    | Some t => if a =? ot_finder t then ot_deposit t + (if ed <=? free_of (t_bank s) a then 0 else free_of (t_bank s) a) else 0
                    | None => 0 end
      | _ => 0
      end.
  Proof.
    intros D B. cbn [tstep]. destruct (texec cfg x s o c) as [[s' ev]| |] eqn:E; cbn [fst]; try lia.
    destruct (exec_change cfg _ _ _ _ _ _ E) as [reason k t0 w Hk Hr Hnn Ho Hf Hc Ht0 Hrs Hw Hm Hev|k t0 t' w v b0 Hk Ho Hw Hm Hs Hev|k t0 Hk Hm Ht0 Hr Hw Hev|who Hc Ho Hs Hev].
    - destruct c; try contradiction.
      + destruct Hm as (_ & _ & _ & _ & _ & _ & _ & Hm).
        destruct (Proofs_DeeperNode2.reserve_exact _ _ _ _ _ Hm) as (H1 & H2 & H3). unfold worth, free_of, rsv_of in *.
        destruct (decide (a = w)) as [->|Hn]; [rewrite H2; cbn; lia|]. rewrite H3 by exact Hn. lia.
      + destruct Hm as (_ & _ & _ & _ & _ & _ & -> & _). lia.
      + destruct Hm as (_ & _ & _ & _ & _ & _ & -> & _). lia.
    - subst s'. cbn. lia.
    - assert (Hdep : ot_deposit t0 <= rsv_of (t_bank s) (ot_finder t0)) by (etransitivity; [eapply held_le; exact Hk|apply B]).
      pose proof (give_back_worth (drop_tip s k t0) t0 a (D _ _ Hk) Hdep) as G. cbn [drop_tip t_bank] in G.
      destruct c; try contradiction; subst h; cbn [texec] in E.
      + destruct (signed o) as [w| |]; cbn in E; try discriminate. unfold retract, find_tip, ensure in E. rewrite Hk in E. cbn in E.
        destruct (_ =? _); cbn in E; [|discriminate]. injection E as <- <-. rewrite G. lia.
      + destruct (signed o) as [w| |] eqn:Ew; cbn in E; try discriminate. apply signed_ok in Ew.
        assert (E' : texec cfg x s (Signed w) (TClose k) = ROk (s', ev)) by exact E. clear E.
        destruct (close_facts _ _ _ _ _ _ E') as (t & n & med & Ht & _ & _ & Hmm & _ & _ & Hb).
        rewrite Hk in Ht. injection Ht as <-. rewrite Hk, Hmm, Hb. cbv zeta. rewrite <- G.
        set (b0 := t_bank (give_back cfg (drop_tip s k t0) t0)).
        destruct (ot_fee t0 && _).
        * set (fee := frac_mul _ _ _). pose proof (try_pay_loss b0 (payer s) (ot_finder t0) fee a) as L1.
          pose proof (try_pay_loss (try_pay cfg b0 (payer s) (ot_finder t0) fee) (payer s) (ot_who t0) (sub128 med fee) a) as L2.
          destruct (a =? payer s); lia.
        * pose proof (try_pay_loss b0 (payer s) (ot_who t0) (sub128 med 0) a) as L2. destruct (a =? payer s); lia.
      + unfold ensure in E. destruct (tx_reject x); cbn in E; [|discriminate]. unfold slash, find_tip in E. rewrite Hk in E. cbn in E.
        destruct (slash_reserved _ _ _ _) as [b got] eqn:Es. injection E as <- <-. rewrite Hk.
        destruct (N.eqb_spec (ot_deposit t0) 0) as [E0|E0]; cbn; [lia|].
        unfold slash_reserved in Es. apply N.eqb_neq in E0. rewrite E0 in Es. injection Es as <- <-. cbn.
        unfold worth, free_of, rsv_of in *. cbn.
        change (acct_of (Bank (accts ?b) ?n) a) with (acct_of b a).
        destruct (N.eqb_spec a (ot_finder t0)) as [->|Hn]; [|rewrite put_acct_ne by exact Hn; lia].
        set (ac := acct_of (t_bank s) (ot_finder t0)) in *.
        assert (Em : N.min (rsv ac) (ot_deposit t0) = ot_deposit t0) by lia. rewrite Em.
        destruct (N.leb_spec ed (free ac)).
        * rewrite put_acct_eq; cbn; lia.
        * destruct (N.eq_dec (rsv ac - ot_deposit t0) 0); [|rewrite put_acct_eq; cbn; lia]. lia.
      + destruct (signed o) as [w| |]; cbn in E; try discriminate. unfold credit_close, find_tip in E. rewrite Hk in E. cbn in E.
        destruct (ripe x t0); cbn in E; try discriminate. destruct (middle _ _); [|discriminate]. injection E as <- <-. rewrite G. lia.
    - subst. cbn. lia.
  Qed.

  (** How open tips were opened. *)
  Definition opening_of (s : tstate) (h : N) : option opening :=
    match t_tips s !! h with
    | Some t => Some (Opening (ot_fee t) (ot_finder t) (ot_who t) (ot_deposit t))
    | None => None
    end.
  Lemma step_opening s op h : deposit_ok cfg ->
    opening_of (tstep cfg s op).1 h = opened1 cfg h (opening_of s h) (op, (tstep cfg s op).2).
  Proof.
    intros (D1 & D2 & D3). destruct op as [x o c|b]; [|reflexivity]. cbn [tstep].
    destruct (texec cfg x s o c) as [[s' ev]| |] eqn:E; cbn [fst snd]; try reflexivity.
    destruct (exec_change cfg _ _ _ _ _ _ E) as [reason k t0 w Hk Hr Hnn Ho Hf Hc Ht0 Hrs Hw Hm Hev|k t0 t' w v b0 Hk Ho Hw Hm Hs Hev|k t0 Hk Hm Ht0 Hr Hw Hev|who Hc Ho Hs Hev].
    - unfold opening_of. rewrite Ht0. subst o.
      assert (Hdep : match c with TReport _ _ => ot_deposit t0 = tc_base cfg + tc_perbyte cfg * N.of_nat (length reason) | _ => True end).
      { destruct c; try exact I. destruct Hm as (_ & _ & _ & _ & _ & Hl & -> & _).
        assert (Hm : tc_perbyte cfg * N.of_nat (length reason) <= tc_perbyte cfg * tc_maxlen cfg) by (apply N.mul_le_mono_l; exact Hl).
        unfold add128, w128, w32. fold two32 two128. rewrite (N.mod_small (N.of_nat _)) by lia.
        rewrite (N.mod_small (_ * _)) by lia. rewrite N.mod_small by lia. reflexivity. }
      destruct (N.eqb_spec k h) as [->|Hne].
      + rewrite lookup_insert. destruct c; try contradiction; cbn [opened1].
        * destruct Hm as (-> & -> & _ & _ & Hfee & _). rewrite <- Hr, <- Hk, N.eqb_refl, Hdep, Hfee, Hf. reflexivity.
        * destruct Hm as (-> & -> & _ & _ & Hd & Hfee & _). rewrite <- Hr, <- Hk, N.eqb_refl, Hd, Hfee, Hf. reflexivity.
        * destruct Hm as (-> & -> & _ & _ & Hd & Hfee & _). rewrite <- Hr, <- Hk, N.eqb_refl, Hd, Hfee, Hf. reflexivity.
      + rewrite lookup_insert_ne by exact Hne. apply N.eqb_neq in Hne.
        destruct c; try contradiction; cbn [opened1]; destruct Hm as (-> & -> & _); rewrite <- Hr, <- Hk, Hne; reflexivity.
    - subst s'. unfold opening_of. cbn [put_tip t_tips].
      assert (Ec : opened1 cfg h (opening_of s h) (TCall x o c, TDone ev) = opening_of s h) by (destruct c; try contradiction; reflexivity).
      fold (opening_of s h). rewrite Ec. unfold opening_of. apply vote_same in Hm as (_ & E1 & E2 & E3 & E4).
      destruct (decide (k = h)) as [->|Hne]; [rewrite lookup_insert, Hk, E1, E2, E3, E4|rewrite lookup_insert_ne by exact Hne]; reflexivity.
    - unfold opening_of. rewrite Ht0. destruct (N.eqb_spec k h) as [->|Hne].
      + rewrite lookup_delete. destruct c; try contradiction; subst; cbn [opened1]; rewrite N.eqb_refl; reflexivity.
      + rewrite lookup_delete_ne by exact Hne. apply N.eqb_neq in Hne.
        destruct c; try contradiction; subst; cbn [opened1]; rewrite Hne; reflexivity.
    - subst. reflexivity.
  Qed.
  Lemma reach_opening b hist h : deposit_ok cfg ->
    opening_of (trun cfg (tgenesis b) hist) h = opened cfg (tlog cfg (tgenesis b) hist) h.
  Proof.
    intros Hd. unfold opened. change None with (opening_of (tgenesis b) h). generalize (tgenesis b).
    induction hist as [|op r IH]; intros s; [reflexivity|]. rewrite tlog_cons. cbn [trun fold_left]. rewrite IH.
    now rewrite step_opening.
  Qed.
End money.
