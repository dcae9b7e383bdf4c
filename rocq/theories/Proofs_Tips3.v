(** Closing needs half of the tippers; reasons and deposits. *)
From Verif Require Import Base Balances Proofs_Balances Proofs_DeeperNode2 Model_Tips Spec_Tips Proofs_Tips Proofs_Tips2.
From stdpp Require Import gmap sorting.
Open Scope N_scope.

Section closing.
  Context (cfg : tcfg).

  Definition marked (b : bank) (hist : list tiop) : Prop :=
    forall h t n, t_tips (trun cfg (tgenesis b) hist) !! h = Some t -> ot_closes t = Some n ->
    exists ch x w v L1 L2, tlog cfg (tgenesis b) hist = L1 ++ (TCall x (Signed w) (declare ch h v), TDone [TClosing h]) :: L2 /\
      half_said cfg ch (L1 ++ [(TCall x (Signed w) (declare ch h v), TDone [TClosing h])]) h (tx_members x) /\
      n = add32 (tx_block x) (tc_countdown cfg) /\ Forall (quiet h) L2.

  Lemma half_le n k : ((n + 1) / 2 <= k)%nat -> (n <= 2 * k)%nat.
  Proof. intros H. pose proof (Nat.div_mod (n + 1) 2 ltac:(lia)). pose proof (Nat.mod_upper_bound (n + 1) 2). lia. Qed.

  Lemma reach_marked b hist : hist_ok hist -> marked b hist.
  Proof.
    induction hist as [|op hist IH] using rev_ind; intros Hh h t n Ht Hn; [discriminate Ht|].
    apply Forall_app in Hh as [Hh Hop]. inversion Hop as [|? ? Hop1 _]; subst. specialize (IH Hh).
    pose proof (reach_votes cfg b (hist ++ [op]) ltac:(apply Forall_app; auto)) as [V1 W1].
    rewrite trun_app in *. rewrite tlog_app in *. rewrite tlog_cons in *. cbn [trun] in *.
    set (s := trun cfg (tgenesis b) hist) in *. set (L := tlog cfg (tgenesis b) hist) in *.
    pose proof (reach_votes cfg b hist Hh) as [V W]. fold s L in V, W.
    assert (keep : forall e, t_tips s !! h = Some t -> quiet h e ->
      exists ch x w v L1 L2, L ++ e :: tlog cfg s [] = L1 ++ (TCall x (Signed w) (declare ch h v), TDone [TClosing h]) :: L2 /\
      half_said cfg ch (L1 ++ [(TCall x (Signed w) (declare ch h v), TDone [TClosing h])]) h (tx_members x) /\
      n = add32 (tx_block x) (tc_countdown cfg) /\ Forall (quiet h) L2).
    { intros e He Hq. destruct (IH h t n He Hn) as (ch & x & w & v & L1 & L2 & E & H1 & H2 & H3).
      exists ch, x, w, v, L1, (L2 ++ [e]). unfold L. rewrite E. split; [now rewrite <- app_assoc|]. split; [exact H1|].
      split; [exact H2|]. apply Forall_app. auto. }
    destruct op as [x o c|bk]; [|apply keep; [exact Ht|constructor]].
    cbn [tstep] in *. destruct (texec cfg x s o c) as [[s' ev]| |] eqn:E; cbn [fst snd] in *; [|apply keep; [exact Ht|exact I]..].
    destruct Hop1 as [Sm Ha].
    destruct (exec_change cfg _ _ _ _ _ _ E) as [reason k t0 w Hk Hr Hnn Ho Hf Hc Ht0 Hrs Hw Hm Hev|k t0 t' w v b0 Hk Ho Hw Hm Hs Hev|k t0 Hk Hm Ht0 Hr Hw Hev|who Hc Ho Hs Hev].
    - destruct (decide (k = h)) as [->|Hne]; rewrite Ht0 in Ht.
      { rewrite lookup_insert in Ht. injection Ht as <-. congruence. }
      rewrite lookup_insert_ne in Ht by exact Hne. apply keep; [exact Ht|]. subst ev. cbn.
      destruct c; repeat constructor; congruence.
    - subst s' o. cbn in Ht. destruct (decide (k = h)) as [->|Hne].
      2:{ rewrite lookup_insert_ne in Ht by exact Hne. apply keep; [exact Ht|]. subst ev. destruct b0; repeat constructor. congruence. }
      rewrite lookup_insert in Ht. injection Ht as ->.
      destruct (ot_closes t0) as [n0|] eqn:Ec.
      + (* already closing *)
        assert (Hs : ot_closes t = Some n0 /\ b0 = false).
        { destruct c; try contradiction; destruct Hm as (-> & -> & Hm); unfold check_closing in Hm;
            cbn in Hm; rewrite Ec in Hm; rewrite bool_decide_false in Hm by discriminate; rewrite andb_false_r in Hm;
            injection Hm as -> ->; cbn; auto. }
        destruct Hs as [Hs ->]. rewrite Hs in Hn. injection Hn as ->.
        destruct (IH h t0 n Hk Ec) as (ch & x1 & w1 & v1 & L1 & L2 & EL & H1 & H2 & H3).
        exists ch, x1, w1, v1, L1, (L2 ++ [(TCall x (Signed w) c, TDone ev)]). unfold L. rewrite EL.
        split; [now rewrite <- app_assoc|]. split; [exact H1|]. split; [exact H2|]. apply Forall_app. split; [exact H3|].
        subst ev. repeat constructor.
      + assert (Hch : exists ch, c = declare ch h v) by (destruct c; try contradiction; destruct Hm as (-> & -> & _);
          [exists Coin|exists Cred]; reflexivity).
        destruct Hch as [ch ->].
        assert (Hcl : (t, b0) = check_closing cfg x (length (votes ch t))
           (match ch with Coin => set_tips t0 (retain (tx_members x) (vote w v (ot_tips t0)))
            | Cred => set_credits t0 (retain (tx_members x) (vote w v (ot_credits t0))) end) /\
            votes ch t = retain (tx_members x) (vote w v (votes ch t0))).
        { destruct ch; cbn in Hm; destruct Hm as (_ & _ & Hm);
            (assert (Ev : forall ch', votes ch' t = votes ch' (t, b0).1) by reflexivity);
            [specialize (Ev Coin)|specialize (Ev Cred)]; rewrite Hm, check_votes in Ev; cbn [votes] in *; cbn in Ev; rewrite Ev; auto. }
        destruct Hcl as [Hcl Hvo].
        assert (Hb : b0 = true /\ n = add32 (tx_block x) (tc_countdown cfg) /\
                     ((length (tx_members x) + 1) / 2 <= length (votes ch t))%nat).
        { unfold check_closing in Hcl. destruct (_ <=? _)%nat eqn:El; cbn [andb] in Hcl.
          - apply Nat.leb_le in El. rewrite bool_decide_true in Hcl by (destruct ch; exact Ec).
            injection Hcl as Hcl ->. rewrite Hcl in Hn. cbn in Hn. injection Hn as <-. auto.
          - injection Hcl as Hcl ->. exfalso. destruct ch; rewrite Hcl in Hn; cbn in Hn; congruence. }
        destruct Hb as (-> & -> & Hlen). subst ev. cbn [closing].
        exists ch, x, w, v, L, []. split; [reflexivity|]. split; [|auto].
        unfold half_said, declared. apply half_le. etransitivity; [exact Hlen|].
        destruct (V h t0 Hk ch) as [O F].
        assert (Hv : v < two128) by (destruct ch; exact Ha).
        destruct (declare_spec (tx_members x) w v (votes ch t0) Sm Hw Hv O F) as (_ & _ & _ & D).
        rewrite Hvo, D. apply Nat.eq_le_incl. f_equal. apply omap_ext'. intros a. rewrite <- Hvo.
        specialize (W1 ch h a). unfold stands in W1. cbn [put_tip t_tips] in W1. rewrite lookup_insert in W1.
        exact W1.
    - rewrite Ht0 in Ht. apply lookup_delete_Some in Ht as [_ Ht]. apply keep; [exact Ht|]. cbn.
      eapply Forall_impl; [exact Hev|]. intros e. destruct e; tauto.
    - subst. apply keep; [exact Ht|]. repeat constructor.
  Qed.
End closing.
