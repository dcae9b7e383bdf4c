(** Proofs about the collectives. *)
From Verif Require Import Base Model_Council Spec_Council.
From stdpp Require Import gmap.
From Coq Require Import Lia.
Open Scope N_scope.

Section proofs.
  Context (cfg : ccfg).

  (** With what right a call was executed, seen from the log before it. *)
  Definition lawful (h n m : N) (log : list cevent) : Prop :=
    m = count (sitting log) /\ count (for_it h log) + count (against_it h log) <= m /\
    ((2 <= n /\ n = count (for_it h log)) \/
     (2 <= n /\ q_duration cfg <= age h log /\ n + count (against_it h log) = m /\
      exists p, prime log = Some p /\ p ∈ sitting log /\ stance h p log = Some true) \/
     (n = 1 /\ exists who r, log = EProposed h who :: r /\ who ∈ sitting r)).
  Fixpoint all_lawful (log : list cevent) : Prop :=
    match log with
    | [] => True
    | EExecuted h n m :: r => lawful h n m r /\ all_lawful r
    | _ :: r => all_lawful r
    end.
  Lemma all_lawful_in log l1 h n m l2 : all_lawful log -> log = l1 ++ EExecuted h n m :: l2 -> lawful h n m l2.
  Proof.
    revert log. induction l1 as [|e l1 IH]; intros log H ->; cbn in H; [tauto|].
    eapply IH; [|reflexivity]. destruct e; tauto.
  Qed.

  Record inv (s : cstate) (log : list cevent) : Prop := Inv {
    i_members : c_members s = sitting log;
    i_nodup : NoDup (sitting log);
    i_prime : c_prime s = prime log;
    i_seat : forall h w b, stance h w log = Some b -> w ∈ sitting log;
    i_ayes : forall h m, c_motions s !! h = Some m -> NoDup (m_ayes m) /\ forall w, w ∈ m_ayes m <-> stance h w log = Some true;
    i_nays : forall h m, c_motions s !! h = Some m -> NoDup (m_nays m) /\ forall w, w ∈ m_nays m <-> stance h w log = Some false;
    i_end : forall h m, c_motions s !! h = Some m -> m_end m + age h log = c_now s + q_duration cfg;
    i_two : forall h m, c_motions s !! h = Some m -> 2 <= m_threshold m;
    i_law : all_lawful log }.

  Lemma votes_count h b log v : NoDup (sitting log) -> (forall w, stance h w log = Some b -> w ∈ sitting log) ->
    NoDup v -> (forall w, w ∈ v <-> stance h w log = Some b) ->
    N.of_nat (length v) = count (filter (fun w => stance h w log = Some b) (sitting log)).
  Proof.
    intros Hs Hin Hv He. unfold count. f_equal. apply Permutation_length, NoDup_Permutation.
    - exact Hv.
    - by apply NoDup_filter.
    - intros w. rewrite elem_of_list_filter, He. intuition.
  Qed.
  Lemma disjoint_count h log : NoDup (sitting log) ->
    count (for_it h log) + count (against_it h log) <= count (sitting log).
  Proof.
    intros Hs. unfold count. rewrite <- Nat2N.inj_add.
    assert (H : (length (for_it h log ++ against_it h log) <= length (sitting log))%nat).
    { apply NoDup_incl_length.
      - apply NoDup_ListNoDup, NoDup_app. split; [by apply NoDup_filter|]. split; [|by apply NoDup_filter].
        intros w H1 H2. apply elem_of_list_filter in H1 as [H1 _]. apply elem_of_list_filter in H2 as [H2 _]. congruence.
      - intros w. rewrite <- !elem_of_list_In, elem_of_app. unfold for_it, against_it. rewrite !elem_of_list_filter. tauto. }
    rewrite app_length in H. lia.
  Qed.

  (** Removing a motion loses nothing. *)
  Lemma inv_delete s h log : inv s log ->
    inv (CState (c_members s) (c_prime s) (delete h (c_motions s)) (c_count s) (c_now s)) log.
  Proof.
    intros []. constructor; cbn [c_members c_prime c_motions c_now]; auto;
      intros h' m; rewrite lookup_delete_Some; intros [_ E]; eauto.
  Qed.
  (** Events that say nothing about seats and votes. *)
  Lemma inv_executed s log h n m : inv s log -> lawful h n m log -> inv s (EExecuted h n m :: log).
  Proof. intros [] Hl. constructor; cbn; auto. Qed.
  Lemma inv_disapproved s log h : inv s log -> inv s (EDisapproved h :: log).
  Proof. intros []. constructor; cbn; auto. Qed.

  Lemma close_inv s h m s' e log : inv s log -> c_motions s !! h = Some m -> close s h m = Some (s', e) ->
    inv s' (rev e ++ log).
  Proof.
    intros HI Em. unfold close.
    pose proof (inv_delete s h log HI) as HD. set (s1 := CState _ _ (delete _ _) _ _) in *. clearbody s1.
    destruct HI as [Hmem Hnd Hpr Hseat Hay Hny Hend Htwo _].
    destruct (Hay h m Em) as [Na Ha]. destruct (Hny h m Em) as [Nn Hn]. specialize (Hend h m Em). specialize (Htwo h m Em).
    assert (Ca : N.of_nat (length (m_ayes m)) = count (for_it h log)) by (apply votes_count; eauto).
    assert (Cn : N.of_nat (length (m_nays m)) = count (against_it h log)) by (apply votes_count; eauto).
    pose proof (disjoint_count h log Hnd) as Hd.
    rewrite Hmem. fold (count (sitting log)). rewrite Ca, Cn.
    destruct (N.leb_spec (m_threshold m) (count (for_it h log))) as [H1|H1].
    { intros [= <- <-]. cbn [rev app]. apply inv_executed; [exact HD|]. split; [reflexivity|]. split; [exact Hd|]. left. lia. }
    destruct (N.ltb_spec (count (sitting log) - count (against_it h log)) (m_threshold m)) as [H2|H2].
    { intros [= <- <-]. cbn [rev app]. by apply inv_disapproved. }
    destruct (N.ltb_spec (c_now s) (m_end m)) as [H3|H3]; [discriminate|].
    unfold default_vote. rewrite Hpr. destruct (prime log) as [p|] eqn:Ep.
    2:{ destruct (N.leb_spec (m_threshold m) (count (for_it h log))); [lia|]. intros [= <- <-]. by apply inv_disapproved. }
    destruct (bool_decide (p ∈ m_ayes m)) eqn:Eb.
    - apply bool_decide_eq_true in Eb. apply Ha in Eb.
      destruct (N.leb_spec (m_threshold m) (count (for_it h log) + (count (sitting log) - (count (for_it h log) + count (against_it h log))))) as [H4|H4];
        intros [= <- <-]; cbn [rev app]; [|by apply inv_disapproved].
      apply inv_executed; [exact HD|]. split; [reflexivity|]. split; [exact Hd|]. right; left.
      split; [lia|]. split; [lia|]. split; [lia|]. exists p. eauto.
    - destruct (N.leb_spec (m_threshold m) (count (for_it h log))); [lia|]. intros [= <- <-]. by apply inv_disapproved.
  Qed.

  Lemma step_inv s o s' e log : inv s log -> (forall l, o = OMembers l -> NoDup l) -> cstep cfg s o = Some (s', e) ->
    inv s' (rev e ++ log).
  Proof.
    intros HI Hnd. destruct o as [|l|p|who h t|who h i b|h i|h]; cbn [cstep].
    - intros [= <- <-]. cbn [rev app]. destruct HI.
      constructor; cbn [sitting prime stance age all_lawful c_members c_prime c_motions c_now]; auto.
      intros h m E. specialize (i_end0 h m E). lia.
    - intros [= <- <-]. cbn [rev app]. specialize (Hnd l eq_refl). destruct HI.
      constructor; cbn [sitting prime stance age all_lawful c_members c_prime c_motions c_now]; auto.
      + intros h w b. destruct (bool_decide (w ∈ l)) eqn:E; [|discriminate]. intros _. by apply bool_decide_eq_true in E.
      + intros h m. rewrite lookup_fmap_Some. intros (m0 & <- & E). destruct (i_ayes0 h m0 E) as [H1 H2]. cbn [keep_votes m_ayes].
        split; [by apply NoDup_filter|]. intros w. rewrite elem_of_list_filter, H2. case_bool_decide; intuition discriminate.
      + intros h m. rewrite lookup_fmap_Some. intros (m0 & <- & E). destruct (i_nays0 h m0 E) as [H1 H2]. cbn [keep_votes m_nays].
        split; [by apply NoDup_filter|]. intros w. rewrite elem_of_list_filter, H2. case_bool_decide; intuition discriminate.
      + intros h m. rewrite lookup_fmap_Some. intros (m0 & <- & E). cbn [keep_votes m_end]. eauto.
      + intros h m. rewrite lookup_fmap_Some. intros (m0 & <- & E). cbn [keep_votes m_threshold]. eauto.
    - intros [= <- <-]. cbn [rev app]. destruct HI.
      constructor; cbn [sitting prime stance age all_lawful c_members c_prime c_motions c_now]; auto.
    - destruct (bool_decide (who ∈ c_members s)) eqn:Ew; [|discriminate]. apply bool_decide_eq_true in Ew.
      destruct (bool_decide (is_Some (c_motions s !! h))) eqn:Eh; [discriminate|]. apply bool_decide_eq_false in Eh.
      assert (HN : forall h' m, c_motions s !! h' = Some m -> h <> h') by (intros h' m E ->; apply Eh; eauto).
      destruct (N.ltb_spec t 2) as [Ht|Ht].
      + intros [= <- <-]. cbn [rev app].
        assert (HP : inv s (EProposed h who :: log)).
        { destruct HI. constructor; cbn [sitting prime stance age all_lawful]; auto.
          - intros h' w b. destruct (h =? h'); [discriminate|eauto].
          - intros h' m E. rewrite (proj2 (N.eqb_neq _ _) (HN h' m E)). eauto.
          - intros h' m E. rewrite (proj2 (N.eqb_neq _ _) (HN h' m E)). eauto.
          - intros h' m E. rewrite (proj2 (N.eqb_neq _ _) (HN h' m E)). eauto. }
        apply inv_executed; [exact HP|].
        assert (Hmem := i_members _ _ HI). assert (Hn := i_nodup _ _ HI).
        split; [cbn [sitting]; by rewrite Hmem|]. split.
        { rewrite Hmem. apply (disjoint_count h (EProposed h who :: log)). exact Hn. }
        right; right. split; [reflexivity|]. exists who, log. split; [reflexivity|]. by rewrite <- Hmem.
      + destruct (_ <=? _); [discriminate|]. intros [= <- <-]. cbn [rev app]. destruct HI.
        constructor; cbn [sitting prime stance age all_lawful c_members c_prime c_motions c_now]; auto.
        * intros h' w b. destruct (h =? h'); [discriminate|eauto].
        * intros h' m. rewrite lookup_insert_Some. intros [[<- <-]|[Hne E]]; cbn [m_ayes].
          -- rewrite N.eqb_refl. split; [constructor|]. intros w. split; [intros X; by apply elem_of_nil in X|discriminate].
          -- rewrite (proj2 (N.eqb_neq _ _) Hne). eauto.
        * intros h' m. rewrite lookup_insert_Some. intros [[<- <-]|[Hne E]]; cbn [m_nays].
          -- rewrite N.eqb_refl. split; [constructor|]. intros w. split; [intros X; by apply elem_of_nil in X|discriminate].
          -- rewrite (proj2 (N.eqb_neq _ _) Hne). eauto.
        * intros h' m. rewrite lookup_insert_Some. intros [[<- <-]|[Hne E]]; cbn [m_end].
          -- rewrite N.eqb_refl. lia.
          -- rewrite (proj2 (N.eqb_neq _ _) Hne). eauto.
        * intros h' m. rewrite lookup_insert_Some. intros [[<- <-]|[Hne E]]; cbn [m_threshold]; [lia|eauto].
    - destruct (bool_decide (who ∈ c_members s)) eqn:Ew; [|discriminate]. apply bool_decide_eq_true in Ew.
      destruct (c_motions s !! h) as [m|] eqn:Em; [|discriminate].
      destruct (m_index m =? i); [|discriminate].
      destruct (bool_decide (who ∈ (if b then m_ayes m else m_nays m))) eqn:Ed; [discriminate|]. apply bool_decide_eq_false in Ed.
      intros [= <- <-]. cbn [rev app]. destruct HI.
      destruct (i_ayes0 h m Em) as [Na Ha]. destruct (i_nays0 h m Em) as [Nn Hn].
      constructor; cbn [sitting prime stance age all_lawful c_members c_prime c_motions c_now]; auto.
      + intros h' w b'. destruct (N.eqb_spec who w) as [->|]; [by rewrite <- i_members0|rewrite andb_false_r; eauto].
      + intros h' m'. rewrite lookup_insert_Some. intros [[<- <-]|[Hne E]].
        * rewrite N.eqb_refl. cbn [andb]. destruct b; cbn [m_ayes].
          -- split; [by constructor|]. intros w. rewrite elem_of_cons, Ha. destruct (N.eqb_spec who w) as [->|Hw]; [tauto|]. intuition congruence.
          -- split; [by apply NoDup_filter|]. intros w. rewrite elem_of_list_filter, Ha. destruct (N.eqb_spec who w) as [->|Hw]; intuition congruence.
        * rewrite (proj2 (N.eqb_neq _ _) Hne). cbn [andb]. eauto.
      + intros h' m'. rewrite lookup_insert_Some. intros [[<- <-]|[Hne E]].
        * rewrite N.eqb_refl. cbn [andb]. destruct b; cbn [m_nays].
          -- split; [by apply NoDup_filter|]. intros w. rewrite elem_of_list_filter, Hn. destruct (N.eqb_spec who w) as [->|Hw]; intuition congruence.
          -- split; [by constructor|]. intros w. rewrite elem_of_cons, Hn. destruct (N.eqb_spec who w) as [->|Hw]; [tauto|]. intuition congruence.
        * rewrite (proj2 (N.eqb_neq _ _) Hne). cbn [andb]. eauto.
      + intros h' m'. rewrite lookup_insert_Some. intros [[<- <-]|[Hne E]]; [destruct b; cbn [m_end]; eauto|eauto].
      + intros h' m'. rewrite lookup_insert_Some. intros [[<- <-]|[Hne E]]; [destruct b; cbn [m_threshold]; eauto|eauto].
    - destruct (c_motions s !! h) as [m|] eqn:Em; [|discriminate]. destruct (_ =? _); [|discriminate].
      by apply close_inv.
    - destruct (bool_decide _); [|discriminate]. intros [= <- <-]. cbn [rev app]. by apply inv_disapproved, inv_delete.
  Qed.
  Lemma run_inv l : forall s log s' log', inv s log -> distinct_seats l -> crun cfg s log l = (s', log') -> inv s' log'.
  Proof.
    induction l as [|o l IH]; intros s log s' log' HI Hd; cbn [crun]; [by intros [= <- <-]|].
    assert (Hd' : distinct_seats l) by (intros m Hm; apply Hd; by right).
    destruct (cstep cfg s o) as [[s1 e]|] eqn:E; [|by apply IH].
    apply IH; [|exact Hd']. eapply step_inv; [exact HI| |exact E]. intros m ->. apply Hd. by left.
  Qed.
  Lemma init_inv : inv cinit [].
  Proof.
    constructor; cbn; auto; try (intros h m X; by rewrite lookup_empty in X).
    - constructor.
    - discriminate.
  Qed.
End proofs.
