(** Every delegator is reached. *)
From Verif Require Import Base Balances Model_StakingLedger Model_Staking Spec_Staking
  Proofs_Arith Proofs_StakingLedger Proofs_Staking Proofs_Staking8 Proofs_Staking9 Proofs_Staking10.
From stdpp Require Import gmap sorting.
Open Scope N_scope.


Section model.
  Context (cfg : kcfg) (inj : dkeys_differ cfg).
  Local Notation key := (kc_dkey cfg).

  (** ** The list behind the cursor *)
  Definition dkey_lt (p q : N * drec) : Prop := key p.1 < key q.1.
  Lemma filter_ssorted {A} (R : relation A) (P : A -> Prop) `{forall x, Decision (P x)} l :
    StronglySorted R l -> StronglySorted R (filter P l).
  Proof.
    induction 1 as [|a l Hl IH Hf]; [constructor|].
    rewrite filter_cons. destruct (decide (P a)); [|exact IH]. constructor; [exact IH|].
    apply Forall_forall. intros y Hy. apply elem_of_list_filter in Hy as [_ Hy].
    rewrite Forall_forall in Hf. now apply Hf.
  Qed.
  Lemma delegators_sorted k c : StronglySorted dkey_lt (delegators_from cfg k c).
  Proof.
    assert (H : StronglySorted (dkey_le cfg) (delegators_from cfg k c)).
    { unfold delegators_from. apply filter_ssorted. apply StronglySorted_merge_sort.
      - intros p q r. unfold dkey_le. lia.
      - intros p q. unfold dkey_le. lia. }
    pose proof (delegators_nodup cfg k c) as Hn. revert H Hn. generalize (delegators_from cfg k c).
    induction l as [|[a p] l IH]; intros H Hn; [constructor|].
    inversion H as [|? ? H1 H2]; subst. cbn in Hn. inversion Hn as [|? ? H3 H4]; subst.
    constructor; [now apply IH|]. apply Forall_forall. intros [b q] Hb. unfold dkey_lt. cbn.
    rewrite Forall_forall in H2. specialize (H2 _ Hb). unfold dkey_le in H2. cbn in H2.
    assert (key a <> key b); [|lia]. intros E. apply inj in E as ->. apply H3.
    apply elem_of_list_fmap. now exists (b, q).
  Qed.
  (** The accounts still to visit. *)
  Definition ahead (k : dels) (c : kcursor) : gset N := dom (filter (fun p : N * drec => beyond c (key p.1) = true) (d_recs k)).
  Lemma ahead_elem k c d : d ∈ ahead k c <-> beyond c (key d) = true /\ is_Some (d_recs k !! d).
  Proof.
    unfold ahead. rewrite elem_of_dom. split.
    - intros [r H]. apply map_filter_lookup_Some in H as [H1 H2]. split; [auto|]. eauto.
    - intros [H [r Hr]]. exists r. now apply map_filter_lookup_Some.
  Qed.
  Lemma ahead_list k c : list_to_set (delegators_from cfg k c).*1 = ahead k c.
  Proof.
    apply set_eq. intros d. rewrite elem_of_list_to_set, ahead_elem, elem_of_list_fmap. split.
    - intros ([d' r] & -> & H). apply delegators_elem in H as [H1 H2]. cbn. eauto.
    - intros [H [r Hr]]. exists (d, r). split; [auto|]. now apply delegators_elem.
  Qed.
  Lemma ahead_length k c : length (delegators_from cfg k c) = size (ahead k c).
  Proof. rewrite <- ahead_list, size_list_to_set by apply delegators_nodup. now rewrite fmap_length. Qed.
  Lemma ahead_le k c : sz (ahead k c) <= N.of_nat (size (d_recs k)).
  Proof.
    unfold sz. rewrite <- size_dom. assert (size (ahead k c) <= size (dom (d_recs k)))%nat; [|lia].
    apply subseteq_size. intros d H. apply ahead_elem in H as [_ H]. now apply elem_of_dom.
  Qed.

  (** ** What other steps do to the list *)
  Lemma ahead_move k l k' c :
    dmove k l k' -> sz (ahead k' c) <= sz (ahead k c) + match l with DDeleg _ _ _ => 1 | _ => 0 end.
  Proof.
    assert (sub : forall k k', (forall d, is_Some (d_recs k' !! d) -> is_Some (d_recs k !! d)) -> sz (ahead k' c) <= sz (ahead k c)).
    { intros k0 k1 H. unfold sz. assert (size (ahead k1 c) <= size (ahead k0 c))%nat; [|lia].
      apply subseteq_size. intros d. rewrite !ahead_elem. intros [H1 H2]. auto. }
    intros H. destruct H as [k k' R|k k' R|k k' R|k x d vs k' E|k era d|k x d r o R S|k who ref k' E|k who]; rewrite ?N.add_0_r.
    - apply sub. now rewrite R.
    - apply sub. now rewrite R.
    - apply sub. now rewrite R.
    - unfold do_delegate in E. inv_bind E. injection E as <-.
      match goal with |- sz (ahead ?k1 c) <= _ => assert (Q : ahead k1 c ⊆ {[d]} ∪ ahead k c) end.
      { intros d'. rewrite elem_of_union, elem_of_singleton, !ahead_elem. intros [H1 H2].
        destruct (decide (d' = d)) as [->|Hn]; [auto|]. right. split; [auto|].
        destruct (d_recs k !! d) as [r|]; [destruct (dr_on r)|]; cbn in H2; rewrite lookup_insert_ne in H2 by congruence; auto. }
      apply subseteq_size in Q. unfold sz. etransitivity; [|instantiate (1 := N.of_nat (size ({[d]} ∪ ahead k c)))]; [lia|].
      destruct (decide (d ∈ ahead k c)); [rewrite sz_same by auto; lia|].
      rewrite size_union by set_solver. rewrite size_singleton. lia.
    - apply sub. intros d'. unfold undelegate. destruct (d_recs k !! d) as [r|] eqn:Er; [|auto].
      destruct (dr_on r); [|auto]. cbn zeta.
      destruct (dr_since r) as [e0|]; [destruct (_ =? _)|]; cbn;
        (destruct (decide (d' = d)) as [->|Hn]; [rewrite ?lookup_delete, ?lookup_insert; rewrite Er; eauto|
          rewrite ?lookup_delete_ne, ?lookup_insert_ne by congruence; auto]).
    - apply sub. intros d'. unfold paid_rec. destruct (dr_on r); cbn;
        (destruct (decide (d' = d)) as [->|Hn]; [rewrite ?lookup_delete, ?lookup_insert; rewrite R; eauto|
          rewrite ?lookup_delete_ne, ?lookup_insert_ne by congruence; auto]).
    - unfold set_referer in E. inv_bind E. injection E as <-. apply sub. auto.
    - apply sub. unfold unset_referer. destruct (d_ref k !! who); auto.
  Qed.
  Lemma ahead_path k ls k' c x : dpath k ls k' -> Forall (dlab_ok x) ls ->
    sz (ahead k' c) <= sz (ahead k c) + (match x.2 with KdJoin => N.of_nat (growth ls) | _ => 0 end).
  Proof.
    induction 1 as [|k l k1 ls k' H P IH]; intros F; [destruct x.2; lia|].
    apply Forall_cons in F as [F1 F2]. specialize (IH F2). pose proof (ahead_move _ _ _ c H) as M.
    unfold growth in *. destruct x as [xo j]. cbn [snd map list_sum fold_right] in *.
    destruct j, l; cbn in F1; try discriminate; cbn [grows] in *; unfold list_sum in *; lia.
  Qed.

  (** A record keeps its first era to pay until it is paid or deleted. *)
  Definition rec_of (k : dels) (d f : N) : Prop := exists r, d_recs k !! d = Some r /\ dr_since r = Some f.
  Lemma since_move k l k' d f : dmove k l k' -> rec_of k d f ->
    rec_of k' d f \/ (exists era, l = DUndel era d /\ d_recs k' !! d = None) \/ (exists x r o, l = DPaid x d r o /\ dr_since r = Some f).
  Proof.
    intros H (r0 & R0 & S0). destruct H as [k k' R|k k' R|k k' R|k x d' vs k' E|k era d'|k x d' r o R S|k who ref k' E|k who].
    - left. exists r0. now rewrite R.
    - left. exists r0. now rewrite R.
    - left. exists r0. now rewrite R.
    - left. unfold do_delegate in E. inv_bind E. injection E as <-.
      destruct (decide (d = d')) as [<-|Hn].
      + rewrite R0, S0. eexists. destruct (dr_on r0); cbn; now rewrite lookup_insert.
      + exists r0. destruct (d_recs k !! d') as [r|]; [destruct (dr_on r)|]; cbn; now rewrite lookup_insert_ne by congruence.
    - unfold undelegate. destruct (decide (d = d')) as [<-|Hn].
      + rewrite R0, S0. destruct (dr_on r0); [|left; now exists r0]. cbn zeta. destruct (f =? era).
        * right. left. exists era. split; [auto|]. cbn. now rewrite lookup_delete.
        * left. eexists. cbn. now rewrite lookup_insert.
      + left. exists r0. destruct (d_recs k !! d') as [r|]; [|auto]. destruct (dr_on r); [|auto]. cbn zeta.
        destruct (dr_since r) as [e0|]; [destruct (_ =? _)|]; cbn; rewrite ?lookup_delete_ne, ?lookup_insert_ne by congruence; auto.
    - destruct (decide (d = d')) as [<-|Hn].
      + right. right. exists x, r, o. split; [auto|]. congruence.
      + left. exists r0. unfold paid_rec. destruct (dr_on r); cbn; rewrite ?lookup_delete_ne, ?lookup_insert_ne by congruence; auto.
    - left. unfold set_referer in E. inv_bind E. injection E as <-. now exists r0.
    - left. unfold unset_referer. exists r0. destruct (d_ref k !! who); auto.
  Qed.
  Lemma gone_path k ls k' d x : dpath k ls k' -> Forall (dlab_ok x) ls -> x.2 <> KdJoin -> d_recs k !! d = None -> d_recs k' !! d = None.
  Proof.
    induction 1 as [|k l k1 ls k' H P IH]; intros F X G; [auto|]. apply Forall_cons in F as [F1 F2]. apply IH; [auto|auto|].
    destruct H as [k k0 R|k k0 R|k k0 R|k y d' vs k0 E|k era d'|k y d' r o R S|k who ref k0 E|k who].
    - now rewrite R.
    - now rewrite R.
    - now rewrite R.
    - cbn in F1. subst x. cbn in X. congruence.
    - unfold undelegate. destruct (d_recs k !! d') as [r|] eqn:Er; [|auto]. destruct (dr_on r); [|auto]. cbn zeta.
      assert (d <> d') by congruence.
      destruct (dr_since r) as [e0|]; [destruct (_ =? _)|]; cbn; rewrite ?lookup_delete_ne, ?lookup_insert_ne by congruence; auto.
    - assert (d <> d') by congruence.
      unfold paid_rec. destruct (dr_on r); cbn; rewrite ?lookup_delete_ne, ?lookup_insert_ne by congruence; auto.
    - unfold set_referer in E. inv_bind E. now injection E as <-.
    - unfold unset_referer. destruct (d_ref k !! who); auto.
  Qed.
  Lemma since_path k ls k' d f x : dpath k ls k' -> Forall (dlab_ok x) ls -> rec_of k d f -> is_Some (d_recs k' !! d) ->
    rec_of k' d f \/ exists y, x.1 = Some y /\ (f, sub32 (kx_era y) 1) ∈ asks d (concat (map lab_asks ls)).
  Proof.
    induction 1 as [|k l k1 ls k' H P IH]; intros F R L; [auto|]. apply Forall_cons in F as [F1 F2]. cbn [map concat].
    destruct (since_move _ _ _ _ _ H R) as [R1|[(era & -> & G)|(y & r & o & -> & S)]].
    - destruct (IH F2 R1 L) as [Q|(y & Y & Q)]; [auto|]. right. exists y. split; [auto|]. rewrite asks_app. apply elem_of_app. auto.
    - exfalso. cbn in F1. rewrite (gone_path _ _ _ d x P F2) in L by (auto; rewrite F1; discriminate). now destruct L.
    - right. cbn in F1. subst x. exists y. split; [auto|]. rewrite asks_app. apply elem_of_app. left.
      cbn [lab_asks]. rewrite S. unfold asks. cbn. rewrite N.eqb_refl. left.
  Qed.

  (** ** The loop *)
  Lemma pay_delegator_other x s d r pool s' p ev :
    pay_delegator cfg x s d r pool = (s', p, ev) ->
    d_cursor (k_del s') = d_cursor (k_del s) /\ d_per (k_del s') = d_per (k_del s) /\
    (forall d', d' <> d -> d_recs (k_del s') !! d' = d_recs (k_del s) !! d') /\
    (forall f, dr_since r = Some f -> f <> kx_era x -> (f, sub32 (kx_era x) 1) ∈ asks d ev).
  Proof.
    unfold pay_delegator. destruct (N.eqb_spec (default (kx_era x) (dr_since r)) (kx_era x)) as [E|E].
    { intros H. injection H as <- _ <-. repeat split; auto. intros f S Hn. rewrite S in E. cbn in E. congruence. }
    assert (K : forall d' k, d' <> d -> d_recs (if dr_on r then set_d_recs k (<[d := DRec (dr_vals r) (Some (kx_era x)) (dr_on r)]> (d_recs k))
              else set_d_count (set_d_recs k (delete d (d_recs k))) (ssub (d_count k) 1)) !! d' = d_recs k !! d').
    { intros d' k Hn. destruct (dr_on r); cbn; rewrite ?lookup_delete_ne, ?lookup_insert_ne by congruence; auto. }
    destruct (kx_reward x d _ _); [destruct (Model_Operation.mint _ _ _ _)|]; intros H; injection H as <- _ <-;
      (split; [now destruct (dr_on r)|]); (split; [now destruct (dr_on r)|]); (split; [intros; now apply K|]);
      intros f S _; rewrite S; unfold asks; cbn; rewrite N.eqb_refl; left.
  Qed.
  Lemma pay_loop_run x : forall n l s pool last ct s' p' la' c' ev,
    NoDup l.*1 -> p' <> 0 -> pool <> 0 ->
    pay_loop cfg x n l s pool last ct = (s', p', la', c', ev) ->
    c' = ct + N.of_nat (Nat.min n (length l)) /\
    d_cursor (k_del s') = d_cursor (k_del s) /\ d_per (k_del s') = d_per (k_del s) /\
    la' = match List.rev (take n l) with [] => last | (d, _) :: _ => CKey (key d) end /\
    (forall d, d ∉ (take n l).*1 -> d_recs (k_del s') !! d = d_recs (k_del s) !! d) /\
    (forall d r f, (d, r) ∈ take n l -> dr_since r = Some f -> f <> kx_era x -> (f, sub32 (kx_era x) 1) ∈ asks d ev).
  Proof.
    induction n as [|n IH]; intros [|[d r] l] s pool last ct s' p' la' c' ev Nd Hp Hq H; cbn [pay_loop] in H;
      try (injection H as <- <- <- <- <-; cbn; repeat split; auto; try lia; intros ? ? ? Hin; now apply elem_of_nil in Hin).
    destruct (pay_delegator cfg x s d r pool) as [[s1 q] e1] eqn:E1.
    apply pay_delegator_other in E1 as (A1 & A2 & A3 & A4).
    destruct (N.eqb_spec (ssub pool q) 0) as [Z|Z]; [injection H as <- <- _ _ _; congruence|].
    destruct (pay_referer cfg s1 d q _) as [[s2 q2] e2] eqn:E2. apply pay_referer_del in E2 as [B1 _].
    destruct (N.eqb_spec (ssub (ssub pool q) q2) 0) as [Z2|Z2]; [injection H as <- <- _ _ _; congruence|].
    destruct (pay_loop _ _ _ _ _ _ _) as [[[[s3 p3] l3] c3] e3] eqn:E3 in H.
    injection H as <- <- <- <- <-. cbn in Nd. apply NoDup_cons in Nd as [Nd1 Nd2].
    specialize (IH _ _ _ _ _ _ _ _ _ _ Nd2 Hp Z2 E3) as (I1 & I2 & I3 & I4 & I5 & I6).
    rewrite B1 in I2, I3, I5. cbn [length take]. split; [lia|]. split; [congruence|]. split; [congruence|]. split; [|split].
    - rewrite I4. cbn [List.rev]. destruct (List.rev (take n l)) as [|[d' r'] ?]; auto.
    - intros d' Hd. cbn in Hd. apply not_elem_of_cons in Hd as [Hn Hd]. rewrite I5 by auto. now apply A3.
    - intros d' r' f Hin S Hn. rewrite !asks_app. apply elem_of_cons in Hin as [[= -> ->]|Hin].
      + apply elem_of_app. left. eauto.
      + apply elem_of_app. right. apply elem_of_app. right. eauto.
  Qed.

  (** One paying block: reached, or fewer left. *)
  Lemma paying_block x s s' ev d f e :
    on_initialize cfg x s = ROk (s', ev) -> 0 < cur_era s -> kx_block x mod kc_bpe cfg <> 0 ->
    kx_era x = e -> f <> e -> pool_of cfg (k_del s') <> 0 -> pool_of cfg (k_del s) <> 0 ->
    rec_of (k_del s) d f -> d ∈ ahead (k_del s) (d_cursor (k_del s)) ->
    (f, sub32 e 1) ∈ asks d ev \/
    (d_per (k_del s') = d_per (k_del s) /\ rec_of (k_del s') d f /\ d ∈ ahead (k_del s') (d_cursor (k_del s')) /\
     sz (ahead (k_del s') (d_cursor (k_del s'))) + d_per (k_del s) <= sz (ahead (k_del s) (d_cursor (k_del s)))).
  Proof.
    intros H He Hb X Hf Hp' Hp (r & R & Si) Hd. unfold on_initialize in H.
    destruct (N.ltb_spec 0 (cur_era s)) as [_|?]; [|lia].
    destruct (N.eqb_spec (kx_block x mod kc_bpe cfg) 0) as [?|_]; [congruence|].
    unfold pay_delegators in H. destruct (N.eqb_spec (pool_of cfg (k_del s)) 0) as [?|_]; [congruence|].
    destruct (pay_loop _ _ _ _ _ _ _) as [[[[s1 p1] l1] c1] e1] eqn:E. injection H as <- <-.
    set (l := delegators_from cfg (k_del s) (d_cursor (k_del s))) in *.
    apply pay_loop_run in E as (I1 & I2 & I3 & I4 & I5 & I6); [|apply delegators_nodup| |auto].
    2: { cbn in Hp'. exact Hp'. }
    assert (Hin : (d, r) ∈ l). { apply delegators_elem. apply ahead_elem in Hd as [Hd _]. auto. }
    set (n := N.to_nat (d_per (k_del s))) in *.
    pose proof Hin as Hin'. rewrite <- (take_drop n l) in Hin'. apply elem_of_app in Hin' as [Hin'|Hin'].
    { left. rewrite <- X in *. eapply I6; eauto. }
    right. assert (Hl : (n < length l)%nat).
    { destruct (Nat.lt_ge_cases n (length l)); [auto|]. rewrite drop_ge in Hin' by lia. now apply elem_of_nil in Hin'. }
    assert (Hc : c1 = d_per (k_del s)) by (rewrite I1; unfold n in *; lia).
    pose proof (delegators_sorted (k_del s) (d_cursor (k_del s))) as So. fold l in So.
    pose proof (delegators_nodup cfg (k_del s) (d_cursor (k_del s))) as Nd. fold l in Nd.
    rewrite (proj2 (N.eqb_eq _ _) Hc). cbn [k_del set_k_del d_cursor d_recs set_d_pool set_d_cursor d_per].
    (* the visited ones are behind the new cursor *)
    assert (V : forall d', d' ∈ (drop n l).*1 -> d' ∉ (take n l).*1).
    { intros d' H1 H2. rewrite <- (take_drop n l), fmap_app in Nd. apply NoDup_app in Nd as (_ & Nd & _). now apply (Nd d'). }
    assert (Q : forall d', d' ∈ ahead (set_d_pool (set_d_cursor (k_del s1) l1) (Some p1)) l1 <-> d' ∈ (drop n l).*1).
    { intros d'. rewrite ahead_elem. cbn [d_recs set_d_pool set_d_cursor].
      destruct n as [|n'] eqn:En.
      - rewrite I4. cbn. rewrite drop_0. rewrite I5 by (cbn; apply not_elem_of_nil).
        rewrite <- ahead_elem, <- ahead_list, elem_of_list_to_set. now fold l.
      - destruct (List.rev (take (S n') l)) as [|[d0 r0] t] eqn:Et.
        { assert (length (List.rev (take (S n') l)) = 0%nat) by now rewrite Et. rewrite rev_length, take_length in *. lia. }
        assert (T : take (S n') l = List.rev t ++ [(d0, r0)]).
        { rewrite <- (rev_involutive (take (S n') l)), Et. reflexivity. }
        rewrite I4. unfold beyond. rewrite N.ltb_lt.
        assert (SS : forall p q, p ∈ take (S n') l -> q ∈ drop (S n') l -> dkey_lt p q).
        { intros p q Hp1 Hq1. rewrite <- (take_drop (S n') l) in So. clear - So Hp1 Hq1.
          revert So Hp1. generalize (take (S n') l). induction l0 as [|a l0 IH]; intros So Hp1; [now apply elem_of_nil in Hp1|].
          cbn in So. inversion So as [|? ? S1 S2]; subst. apply elem_of_cons in Hp1 as [->|Hp1]; [|now apply IH].
          rewrite Forall_forall in S2. apply S2. apply elem_of_app. auto. }
        assert (LL : forall p, p ∈ take (S n') l -> key p.1 <= key d0).
        { intros p Hp1. rewrite <- (take_drop (S n') l) in So.
          assert (So2 : StronglySorted dkey_lt (List.rev t ++ [(d0, r0)])).
          { rewrite <- T. clear - So. revert So. generalize (take (S n') l).
            induction l0 as [|a l0 IH]; intros So; [constructor|]. cbn in So. inversion So as [|? ? S1 S2]; subst.
            constructor; [auto|]. apply Forall_app in S2 as [S2 _]. auto. }
          rewrite T in Hp1. clear - So2 Hp1. revert So2 Hp1. generalize (List.rev t).
          induction l as [|a l IH]; intros So Hp1.
          - apply elem_of_cons in Hp1 as [->|Hp1]; [cbn; lia|now apply elem_of_nil in Hp1].
          - cbn in So. inversion So as [|? ? S1 S2]; subst. apply elem_of_cons in Hp1 as [->|Hp1]; [|auto].
            rewrite Forall_forall in S2. specialize (S2 (d0, r0)). unfold dkey_lt in S2. cbn in S2.
            assert (key a.1 < key d0); [apply S2; apply elem_of_app; right; left|lia]. }
        split.
        + intros [K1 K2]. assert (Hnt : d' ∉ (take (S n') l).*1).
          { intros Ht. apply elem_of_list_fmap in Ht as (p & -> & Ht). specialize (LL _ Ht). lia. }
          rewrite I5 in K2 by auto.
          assert (Hl' : d' ∈ l.*1).
          { unfold l. apply (elem_of_list_to_set (C := gset N)). rewrite ahead_list. apply ahead_elem. split; [|auto].
            assert (H0 : (d0, r0) ∈ l). { rewrite <- (take_drop (S n') l), T. apply elem_of_app. left. apply elem_of_app. right. left. }
            apply delegators_elem in H0 as [H0 _]. unfold beyond in *. destruct (d_cursor (k_del s)); [auto|auto|].
            apply N.ltb_lt in H0. apply N.ltb_lt. lia. }
          rewrite <- (take_drop (S n') l), fmap_app in Hl'. apply elem_of_app in Hl' as [?|?]; [contradiction|auto].
        + intros Hd'. split.
          * apply elem_of_list_fmap in Hd' as (q & -> & Hq). apply (SS (d0, r0) q); [|auto].
            rewrite T. apply elem_of_app. right. left.
          * rewrite I5 by (apply V; auto). apply elem_of_list_fmap in Hd' as (q & -> & Hq).
            assert (Hq2 : q ∈ l) by (rewrite <- (take_drop (S n') l); apply elem_of_app; auto).
            destruct q as [d1 r1]. apply delegators_elem in Hq2 as [_ Hq2]. cbn. eauto. }
    split; [auto|]. assert (Dd : d ∈ (drop n l).*1) by (apply elem_of_list_fmap; now exists (d, r)).
    split.
    { exists r. split; [|auto]. cbn [d_recs set_d_pool set_d_cursor]. rewrite I5 by auto. auto. }
    split; [now apply Q|].
    assert (Z : ahead (set_d_pool (set_d_cursor (k_del s1) l1) (Some p1)) l1 = list_to_set (drop n l).*1).
    { apply set_eq. intros d'. rewrite Q. symmetry. apply elem_of_list_to_set. }
    rewrite Z. unfold sz. rewrite size_list_to_set.
    2: { rewrite <- (take_drop n l), fmap_app in Nd. now apply NoDup_app in Nd as (_ & _ & Nd). }
    rewrite fmap_length, drop_length. rewrite <- ahead_length. fold l. unfold n in *. lia.
  Qed.

  Lemma cursor_path k ls k' x : dpath k ls k' -> Forall (dlab_ok x) ls -> x.2 <> KdInit ->
    d_cursor k' = d_cursor k /\ d_per k' = d_per k.
  Proof.
    induction 1 as [|k l k1 ls k' H P IH]; intros F X; [auto|]. apply Forall_cons in F as [F1 F2].
    destruct (IH F2 X) as [-> ->]. clear IH.
    destruct H as [| | |k y d' vs k0 E|k era d'|k y d' r o R S|k who ref k0 E|k who]; auto.
    - cbn in F1. contradiction.
    - unfold do_delegate in E. inv_bind E. injection E as <-.
      destruct (d_recs k !! d') as [r|]; [destruct (dr_on r)|]; auto.
    - unfold undelegate. destruct (d_recs k !! d') as [r|]; [|auto]. destruct (dr_on r); [|auto]. cbn zeta.
      destruct (dr_since r) as [e0|]; [destruct (_ =? _)|]; auto.
    - unfold paid_rec. destruct (dr_on r); auto.
    - unfold set_referer in E. inv_bind E. now injection E as <-.
    - unfold unset_referer. destruct (d_ref k !! who); auto.
  Qed.

  (** ** The era *)
  Lemma reached e d f (Hf : f <> e) : forall h s,
    Forall (fun op => resets cfg op = false) h -> within e h -> throughout cfg (present cfg d) s h ->
    rec_of (k_del s) d f -> d ∈ ahead (k_del s) (d_cursor (k_del s)) ->
    sz (ahead (k_del s) (d_cursor (k_del s))) + how_many joins h <= d_per (k_del s) * how_many (pays cfg) h ->
    (f, sub32 e 1) ∈ asks d (events (kouts cfg s h)).
  Proof.
    induction h as [|op h IH]; intros s Q W [T1 T2] R A L.
    { exfalso. cbn in L. destruct (sz_sub d _ A) as [_ ?]. lia. }
    apply Forall_cons in Q as [Q1 Q2]. apply Forall_cons in W as [W1 W2].
    destruct T1 as [T0 T1]. cbn [krun kouts] in *. rewrite events_cons, asks_app. apply elem_of_app.
    assert (T : throughout cfg (present cfg d) (kstep cfg s op).1 h) by now split.
    assert (P1 : present cfg d (kstep cfg s op).1).
    { destruct h; [exact T2|]. exact (proj1 T1). }
    specialize (IH (kstep cfg s op).1 Q2 W2 T).
    destruct (pays cfg op) eqn:Ep.
    - assert (exists x, op = KInit x) as [x ->] by (destruct op; try discriminate; eauto).
      cbn [kstep] in *. unfold pays in Ep. apply negb_true_iff, N.eqb_neq in Ep.
      assert (exists s1 ev, on_initialize cfg x s = ROk (s1, ev)) as (s1 & ev & E).
      { unfold on_initialize. destruct (0 <? _); [|eauto]. destruct (_ =? 0) eqn:E; [apply N.eqb_eq in E; contradiction|].
        destruct (pay_delegators cfg x s); eauto. }
      rewrite E in *. cbn [settle fst snd] in *.
      destruct T0 as (E0 & P0 & _). cbn in W1. destruct P1 as (_ & P1 & _).
      destruct (paying_block x s s1 ev d f e E E0 Ep W1 Hf P1 P0 R A) as [Hd|(B1 & B2 & B3 & B4)].
      + left. unfold events. cbn. now rewrite app_nil_r.
      + right. apply IH; [auto|auto|]. rewrite B1.
        unfold how_many in *. cbn [List.filter joins] in L |- *. unfold pays at 1 in L.
        rewrite (proj2 (N.eqb_neq _ _) Ep) in L. cbn [negb length] in L.
        rewrite Nat2N.inj_succ in L. nia.
    - destruct (kstep cfg s op) as [s1 out] eqn:E. cbn [fst snd] in *.
      pose proof (step_del cfg _ _ _ _ E) as (ls & P & F & K & G).
      assert (NI : kind_of op <> KdInit).
      { destruct op; try (cbn; repeat match goal with |- context[if ?b then _ else _] => destruct b end; discriminate).
        exfalso. cbn in Q1, Ep. rewrite Q1 in Ep. discriminate. }
      destruct (cursor_path _ _ _ _ P F NI) as [C1 C2].
      pose proof (ahead_path _ _ _ (d_cursor (k_del s)) _ P F) as Lp. cbn [snd] in Lp.
      destruct (since_path _ _ _ d f _ P F R) as [R1|(y & Y & Z)]; [exact (proj2 (proj2 P1))| |].
      + right. apply IH; [auto| |].
        * rewrite C1. apply ahead_elem. apply ahead_elem in A as [A _]. split; [auto|exact (proj2 (proj2 P1))].
        * rewrite C1, C2. unfold how_many in *. cbn [List.filter] in L. rewrite Ep in L.
          assert (J : match kind_of op with KdJoin => N.of_nat (growth ls) | _ => 0 end <= if joins op then 1 else 0).
          { destruct op; cbn; try lia. destruct (is_join c); cbn; lia. }
          destruct (joins op); cbn [length] in L; rewrite ?Nat2N.inj_succ in L; lia.
      + left. rewrite <- asks_part, K. cbn in Y. rewrite Y in W1. now rewrite <- W1.
  Qed.

  (** From the first block of a span. *)
  Lemma reset_state x s :
    0 < cur_era s -> kx_block x mod kc_bpe cfg = 0 -> 2 < kc_bpe cfg -> kc_bpe cfg < two32 ->
    d_count (k_del s) + kc_bpe cfg < two32 ->
    exists k', k_del (kstep cfg s (KInit x)).1 = k' /\ d_recs k' = d_recs (k_del s) /\ d_cursor k' = CPrefix /\
      d_count (k_del s) + (kc_bpe cfg - 2) <= d_per k' * (kc_bpe cfg - 2).
  Proof.
    intros He Hb B1 B2 B3. cbn [kstep]. unfold on_initialize.
    rewrite (proj2 (N.ltb_lt _ _) He), (proj2 (N.eqb_eq _ _) Hb).
    assert (W : w32 (kc_bpe cfg) = kc_bpe cfg) by (apply w32_small; auto). rewrite W.
    assert (S1 : sub32 (kc_bpe cfg) 2 = kc_bpe cfg - 2) by (apply sub32_exact; lia). rewrite S1.
    destruct (N.eqb_spec (kc_bpe cfg - 2) 0) as [?|_]; [lia|]. cbn [settle fst k_del set_k_del].
    eexists. split; [reflexivity|]. cbn [d_recs d_cursor d_per set_d_cursor set_d_per]. split; [auto|]. split; [auto|].
    set (n := kc_bpe cfg - 2) in *. set (c := d_count (k_del s)) in *.
    assert (Hn : 0 < n) by (unfold n; lia). assert (Hcn : c + n < two32) by (unfold n; lia).
    rewrite (add32_exact c n) by lia. rewrite (sub32_exact (c + n) 1) by lia.
    assert (D : (c + n - 1) / n <= c + n - 1) by (apply N.div_le_upper_bound; nia).
    rewrite add32_exact by lia.
    pose proof (N.div_mod (c + n - 1) n ltac:(lia)). pose proof (N.mod_lt (c + n - 1) n ltac:(lia)). nia.
  Qed.
End model.
