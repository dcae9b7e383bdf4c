(** Proofs about the ADSC pallet: the daily pass over the stakers. *)
From Verif Require Import Base Balances Model_Adsc Spec_Adsc.
From stdpp Require Import gmap sorting.
Open Scope N_scope.

(** * The iteration *)
Section iter.
  Context (cfg : acfg).
  Notation key := (ac_key cfg).
  Definition key_lt (p q : N * N) : Prop := key p.1 < key q.1.

  Lemma iter_elem s c a p :
    (a, p) ∈ iter_from cfg s c <-> a_stakers s !! a = Some p /\ beyond c (key a) = true.
  Proof.
    unfold iter_from. rewrite elem_of_list_filter, merge_sort_Permutation, elem_of_map_to_list. cbn. tauto.
  Qed.
  Lemma key_le_total : Total (key_le cfg).
  Proof. intros p q. unfold key_le. lia. Qed.
  Lemma key_le_trans : Transitive (key_le cfg).
  Proof. intros p q r. unfold key_le. lia. Qed.
  Lemma filter_ssorted {A} (R : relation A) (P : A -> Prop) `{forall x, Decision (P x)} l :
    StronglySorted R l -> StronglySorted R (filter P l).
  Proof.
    induction 1 as [|a l Hl IH Hf]; [constructor|].
    rewrite filter_cons. destruct (decide (P a)); [|exact IH]. constructor; [exact IH|].
    apply Forall_forall. intros y Hy. apply elem_of_list_filter in Hy as [_ Hy].
    rewrite Forall_forall in Hf. now apply Hf.
  Qed.
  Lemma iter_nodup s c : NoDup (iter_from cfg s c).*1.
  Proof.
    unfold iter_from.
    assert (H : NoDup (merge_sort (key_le cfg) (map_to_list (a_stakers s))).*1).
    { rewrite merge_sort_Permutation. apply NoDup_fst_map_to_list. }
    revert H. generalize (merge_sort (key_le cfg) (map_to_list (a_stakers s))).
    induction l as [|[a p] l IH]; [auto|]. rewrite fmap_cons. intros H. inversion H as [|? ? H1 H2]; subst.
    rewrite filter_cons. destruct (decide _); [|now apply IH]. rewrite fmap_cons. constructor; [|now apply IH].
    intros Hin. apply H1. apply elem_of_list_fmap in Hin as (q & E & Hq).
    apply elem_of_list_filter in Hq as [_ Hq]. apply elem_of_list_fmap. eauto.
  Qed.
  Lemma iter_sorted s c : keys_differ cfg -> StronglySorted key_lt (iter_from cfg s c).
  Proof.
    intros Hinj.
    assert (H : StronglySorted (key_le cfg) (iter_from cfg s c)).
    { unfold iter_from. apply filter_ssorted. apply StronglySorted_merge_sort; [apply key_le_trans|apply key_le_total]. }
    pose proof (iter_nodup s c) as Hn. revert H Hn. generalize (iter_from cfg s c). clear c s.
    induction l as [|[a p] l IH]; intros H Hn; [constructor|].
    inversion H as [|? ? H1 H2]; subst. cbn in Hn. inversion Hn as [|? ? H3 H4]; subst.
    constructor; [now apply IH|]. apply Forall_forall. intros [b q] Hb. unfold key_lt. cbn.
    rewrite Forall_forall in H2. specialize (H2 _ Hb). unfold key_le in H2. cbn in H2.
    assert (key a <> key b); [|lia]. intros E. apply Hinj in E as ->. apply H3.
    apply elem_of_list_fmap. now exists (b, q).
  Qed.

  (** The accounts served by one block. *)
  Definition on_l (x : actx) (l : list (N * N)) : list (N * N) := filter (fun p => ax_offline x p.1 = 0) l.
  Definition visited (x : actx) (n : N) (l : list (N * N)) : list (N * N) := take (N.to_nat n) (on_l x l).
  Definition rem_of (v : list (N * N)) : list N := (filter (fun p => p.2 = 0) v).*1.
  Definition sub_of (v : list (N * N)) : list N := (filter (fun p => p.2 <> 0) v).*1.
  Definition cursor_of (d : cursor) (v : list (N * N)) : cursor :=
    match last v with Some (a, _) => CKey (key a) | None => d end.

  (** A payment touches neither the stakers nor the NFTs nor the cursor. *)
  Definition same_rest (s s' : astate) : Prop :=
    a_bank s' = a_bank s /\ a_uniq s' = a_uniq s /\ a_stakers s' = a_stakers s /\ a_nfts s' = a_nfts s /\
    a_cursor s' = a_cursor s /\ a_period s' = a_period s /\ a_bnum s' = a_bnum s /\ a_day s' = a_day s /\
    a_rate s' = a_rate s /\ a_pool s' = a_pool s /\ a_version s' = a_version s.
  Lemma same_rest_refl s : same_rest s s.
  Proof. repeat split. Qed.
  Lemma same_rest_trans s1 s2 s3 : same_rest s1 s2 -> same_rest s2 s3 -> same_rest s1 s3.
  Proof. unfold same_rest. intros H1 H2. decompose [and] H1. decompose [and] H2. repeat split; congruence. Qed.
  Lemma pay_reward_rest s w d s' v : pay_reward s w d = Some (s', v) -> same_rest s s'.
  Proof.
    unfold pay_reward. destruct (a_ass s) as [l|]; [|discriminate].
    destruct (amint l w _) as [l'|]; [|discriminate]. intros H. injection H as <- _.
    destruct (_ <=? _); repeat split.
  Qed.

  Lemma cursor_of_cons d a p v : cursor_of d ((a, p) :: v) = cursor_of (CKey (key a)) v.
  Proof. unfold cursor_of. destruct v as [|q v]; [reflexivity|]. rewrite last_cons. destruct (last (q :: v)) as [[? ?]|] eqn:E; [reflexivity|]. now apply last_None in E. Qed.

  (** The loop serves the first [bnum] online accounts. *)
  Lemma reward_loop_spec x bnum l : forall counter s d s' last rem sub evs,
    counter < bnum -> bnum < two32 ->
    reward_loop cfg x bnum l counter s d = (s', last, rem, sub, evs) ->
    let v := visited x (bnum - counter) l in
    rem = rem_of v /\ sub = sub_of v /\ last = cursor_of d v /\ same_rest s s' /\
    (forall t, sublist (rewards (map (fun e => (t, e)) evs)) (map (fun a => (day t, a)) (sub_of v))).
  Proof.
    induction l as [|[a p] l IH]; intros counter s d s' last rem sub evs Hc Hb H; cbn [reward_loop] in H.
    - injection H as <- <- <- <- <-. unfold visited. cbn. rewrite take_nil. cbn.
      repeat split. intros dd. constructor.
    - unfold visited, on_l in *. rewrite filter_cons. cbn [fst] in *.
      destruct (N.eqb_spec (ax_offline x a) 0) as [E|E]; cbn [negb] in H.
      + rewrite decide_True by exact E.
        replace (N.to_nat (bnum - counter)) with (S (N.to_nat (bnum - (counter + 1)))) by lia. cbn [take].
        destruct (if p =? 0 then (s, []) else _) as [s1 ev1] eqn:Ep.
        assert (Hp : same_rest s s1 /\ (ev1 = [] \/ (p <> 0 /\ exists v, ev1 = [EReward a v]))).
        { destruct (N.eqb_spec p 0).
          - injection Ep as <- <-. split; [apply same_rest_refl|auto].
          - destruct (pay_reward s a p) as [[s2 v]|] eqn:Er; injection Ep as <- <-.
            + split; [eapply pay_reward_rest; eauto|]. right. eauto.
            + split; [apply same_rest_refl|auto]. }
        destruct Hp as [Hs1 He].
        replace (add32 counter 1) with (counter + 1) in H by (unfold add32; rewrite w32_small; lia).
        set (v' := take (N.to_nat (bnum - (counter + 1))) (filter (fun p => ax_offline x p.1 = 0) l)).
        assert (Hcons : rem_of ((a, p) :: v') = (if p =? 0 then [a] else []) ++ rem_of v' /\
                        sub_of ((a, p) :: v') = (if p =? 0 then [] else [a]) ++ sub_of v').
        { unfold rem_of, sub_of. rewrite !filter_cons. cbn [snd].
          destruct (N.eqb_spec p 0) as [->|Hp0].
          - rewrite decide_True, decide_False by auto. auto.
          - rewrite decide_False, decide_True by auto. auto. }
        destruct Hcons as [Hr Hsb].
        assert (Hev : forall dd, sublist (rewards (map (fun e => (dd, e)) ev1)) (map (fun w => (day dd, w)) (if p =? 0 then [] else [a]))).
        { intros dd. destruct He as [->|(Hp0 & v & ->)]; [apply sublist_nil_l|].
          destruct (N.eqb_spec p 0); [contradiction|]. cbn. reflexivity. }
        destruct (N.eqb_spec (counter + 1) bnum) as [Eb|Eb].
        * injection H as <- <- <- <- <-.
          assert (v' = []) as Ev by (unfold v'; replace (N.to_nat (bnum - (counter + 1))) with 0%nat by lia; reflexivity).
          cbv zeta. rewrite Hr, Hsb, Ev, cursor_of_cons. cbn [rem_of sub_of filter list_filter fmap list_fmap]. rewrite !app_nil_r.
          repeat split; auto; apply Hs1.
        * destruct (reward_loop cfg x bnum l (counter + 1) s1 (CKey (key a))) as [[[[s2 l2] r2] b2] e2] eqn:El.
          injection H as <- <- <- <- <-.
          destruct (IH (counter + 1) s1 (CKey (key a)) s2 l2 r2 b2 e2 ltac:(lia) Hb El) as (Q1 & Q2 & Q3 & Q4 & Q5).
          cbv zeta. rewrite Hr, Hsb, cursor_of_cons. fold v' in Q1, Q2, Q3, Q5. subst r2 b2 l2.
          split; [done|]. split; [done|]. split; [done|]. split; [eapply same_rest_trans; eauto|].
          intros dd. rewrite !map_app. unfold rewards. rewrite omap_app. apply sublist_app; [apply Hev|apply Q5].
      + rewrite decide_False by exact E.
        exact (IH counter s d s' last rem sub evs Hc Hb H).
  Qed.
End iter.

(** * Removing and counting down *)
Lemma remove_staker_stakers s a : a_stakers (remove_staker s a) = delete a (a_stakers s).
Proof.
  unfold remove_staker. cbn [a_nfts set_a_stakers]. destruct (a_nfts s !! a) as [[c i]|]; [|reflexivity].
  destruct (remove_nft _ c i); reflexivity.
Qed.
Lemma fold_remove_stakers l : forall s w,
  a_stakers (fold_left remove_staker l s) !! w = if decide (w ∈ l) then None else a_stakers s !! w.
Proof.
  induction l as [|a l IH]; intros s w; cbn [fold_left].
  - rewrite decide_False; [reflexivity|]. apply not_elem_of_nil.
  - rewrite IH, remove_staker_stakers. destruct (decide (w ∈ l)) as [H|H].
    + rewrite decide_True; [reflexivity|]. now right.
    + destruct (decide (w = a)) as [->|Hn].
      * rewrite lookup_delete, decide_True; [reflexivity|]. left.
      * rewrite lookup_delete_ne, decide_False; auto. rewrite not_elem_of_cons. auto.
Qed.
Lemma fold_count_down l : forall s w, NoDup l ->
  a_stakers (fold_left count_down l s) !! w =
    if decide (w ∈ l) then (fun p => p - 1) <$> a_stakers s !! w else a_stakers s !! w.
Proof.
  induction l as [|a l IH]; intros s w Hn; cbn [fold_left].
  - rewrite decide_False; [reflexivity|]. apply not_elem_of_nil.
  - inversion Hn as [|? ? H1 H2]; subst. rewrite (IH _ _ H2). cbn [count_down a_stakers set_a_stakers].
    destruct (decide (w = a)) as [->|Hne].
    + rewrite decide_False by exact H1. rewrite decide_True by left. apply lookup_alter.
    + rewrite lookup_alter_ne by congruence. destruct (decide (w ∈ l)) as [H|H].
      * rewrite decide_True; [reflexivity|]. now right.
      * rewrite decide_False; [reflexivity|]. rewrite not_elem_of_cons. auto.
Qed.
(** Both leave the fields that matter for the pass alone. *)
Definition pass_same (s s' : astate) : Prop :=
  a_cursor s' = a_cursor s /\ a_bnum s' = a_bnum s /\ a_day s' = a_day s /\ a_period s' = a_period s /\
  a_ass s' = a_ass s /\ a_minted s' = a_minted s /\ a_base s' = a_base s /\ a_target s' = a_target s /\
  a_bank s' = a_bank s /\ a_rate s' = a_rate s /\ a_pool s' = a_pool s /\ a_version s' = a_version s.
Lemma remove_staker_same s a : pass_same s (remove_staker s a).
Proof.
  unfold remove_staker. cbn [a_nfts set_a_stakers]. destruct (a_nfts s !! a) as [[c i]|]; [|repeat split].
  destruct (remove_nft _ c i); repeat split.
Qed.
Lemma pass_same_trans s1 s2 s3 : pass_same s1 s2 -> pass_same s2 s3 -> pass_same s1 s3.
Proof. unfold pass_same. intros H1 H2. decompose [and] H1. decompose [and] H2. repeat split; congruence. Qed.
Lemma fold_remove_same l : forall s, pass_same s (fold_left remove_staker l s).
Proof.
  induction l as [|a l IH]; intros s; [repeat split|]. cbn [fold_left].
  eapply pass_same_trans; [apply (remove_staker_same s a)|apply IH].
Qed.
Lemma fold_count_same l : forall s, pass_same s (fold_left count_down l s).
Proof.
  induction l as [|a l IH]; intros s; [repeat split|]. cbn [fold_left].
  eapply pass_same_trans; [|apply IH]. repeat split.
Qed.
Lemma fold_count_nfts l : forall s, a_nfts (fold_left count_down l s) = a_nfts s /\ a_uniq (fold_left count_down l s) = a_uniq s.
Proof. induction l as [|a l IH]; intros s; [auto|]. cbn [fold_left]. rewrite !(proj1 (IH _)), !(proj2 (IH _)). auto. Qed.

(** * One block of the pass *)
Definition after_visit (v : bool) (p : option N) : option N :=
  match p with
  | None => None
  | Some p => if v then (if p =? 0 then None else Some (p - 1)) else Some p
  end.
Definition pending (c : cursor) (k : N) : bool :=
  match c with CEmpty => false | CPrefix => true | CKey k0 => k0 <? k end.
Lemma pending_beyond c k : c <> CEmpty -> beyond c k = pending c k.
Proof. destruct c; [congruence|reflexivity..]. Qed.

Section block.
  Context (cfg : acfg).
  Notation key := (ac_key cfg).

  Lemma sub_filter_fst (P : N * N -> Prop) `{forall x, Decision (P x)} (l : list (N * N)) a :
    a ∈ (filter P l).*1 <-> exists p, (a, p) ∈ l /\ P (a, p).
  Proof.
    rewrite elem_of_list_fmap. split.
    - intros ([b p] & E & Hp). cbn in E. subst b. apply elem_of_list_filter in Hp as [H1 H2]. eauto.
    - intros (p & H1 & H2). exists (a, p). split; [done|]. apply elem_of_list_filter. auto.
  Qed.
  Lemma nodup_fst_filter (P : N * N -> Prop) `{forall x, Decision (P x)} (l : list (N * N)) :
    NoDup l.*1 -> NoDup (filter P l).*1.
  Proof.
    induction l as [|[a p] l IH]; [auto|]. rewrite fmap_cons. intros H1. inversion H1 as [|? ? H2 H3]; subst.
    rewrite filter_cons. case_decide; [|now apply IH]. rewrite fmap_cons. constructor; [|now apply IH].
    intros Hin. apply H2. apply elem_of_list_fmap in Hin as (q & E & Hq).
    apply elem_of_list_filter in Hq as [_ Hq]. apply elem_of_list_fmap. eauto.
  Qed.
  Lemma nodup_fst_take n (l : list (N * N)) : NoDup l.*1 -> NoDup (take n l).*1.
  Proof. intros H. rewrite <- (take_drop n l), fmap_app in H. now apply NoDup_app in H as [H _]. Qed.

  Definition served (s : astate) (x : actx) : list (N * N) := visited x (a_bnum s) (iter_from cfg s (a_cursor s)).

  Lemma served_nodup s x : NoDup (served s x).*1.
  Proof. apply nodup_fst_take, nodup_fst_filter, iter_nodup. Qed.
  Lemma served_in s x a p : (a, p) ∈ served s x ->
    a_stakers s !! a = Some p /\ beyond (a_cursor s) (key a) = true /\ ax_offline x a = 0.
  Proof.
    intros H. unfold served, visited, on_l in H. apply elem_of_take in H as (i & H & _).
    apply elem_of_list_lookup_2 in H. apply elem_of_list_filter in H as [H1 H2].
    apply iter_elem in H2. tauto.
  Qed.
  Lemma served_sorted s x : keys_differ cfg -> StronglySorted (key_lt cfg) (served s x).
  Proof.
    intros Hinj. unfold served, visited, on_l.
    assert (H : StronglySorted (key_lt cfg) (filter (fun p => ax_offline x p.1 = 0) (iter_from cfg s (a_cursor s)))).
    { apply filter_ssorted, iter_sorted, Hinj. }
    revert H. generalize (filter (fun p : N * N => ax_offline x p.1 = 0) (iter_from cfg s (a_cursor s))).
    generalize (N.to_nat (a_bnum s)). intros n l. revert n.
    induction l as [|p l IH]; intros n H; [rewrite take_nil; constructor|].
    destruct n; [constructor|]. cbn [take]. inversion H as [|? ? H1 H2]; subst. constructor; [now apply IH|].
    now apply Forall_take.
  Qed.
  (** Nothing served lies beyond the new cursor. *)
  Lemma sorted_last (l : list (N * N)) q a p :
    StronglySorted (key_lt cfg) l -> last l = Some q -> (a, p) ∈ l -> key a <= key q.1.
  Proof.
    intros Hs Hl Hin. apply last_Some in Hl as [l0 ->]. apply elem_of_app in Hin as [Hin|Hin].
    - enough (key a < key q.1) by lia. clear - Hs Hin.
      induction l0 as [|b l0 IH]; [now apply elem_of_nil in Hin|]. cbn in Hs. inversion Hs as [|? ? H1 H2]; subst.
      apply elem_of_cons in Hin as [<-|Hin]; [|now apply IH].
      rewrite Forall_forall in H2. specialize (H2 q). unfold key_lt in H2. cbn in H2. apply H2.
      apply elem_of_app. right. left.
    - apply elem_of_list_singleton in Hin as <-. cbn. lia.
  Qed.

  Definition bnum_ok (s : astate) : Prop := 0 < a_bnum s /\ a_bnum s < two32.

  Lemma reward_block s x s' evs :
    bnum_ok s -> a_cursor s <> CEmpty -> adsc_reward cfg s x = (s', evs) ->
    let v := served s x in
    (forall w, a_stakers s' !! w = after_visit (bool_decide (w ∈ v.*1)) (a_stakers s !! w)) /\
    a_cursor s' = cursor_of cfg CEmpty v /\ a_day s' = a_day s /\ a_bnum s' = a_bnum s /\
    (forall t, sublist (rewards (map (fun e => (t, e)) evs)) (map (fun a => (day t, a)) (sub_of v))).
  Proof.
    intros [B1 B2] Hc H. cbv zeta. unfold adsc_reward in H.
    destruct (reward_loop cfg x (a_bnum s) (iter_from cfg s (a_cursor s)) 0 s CEmpty) as [[[[s1 l1] r1] b1] e1] eqn:El.
    destruct (reward_loop_spec cfg x (a_bnum s) _ 0 s CEmpty s1 l1 r1 b1 e1 B1 B2 El) as (Q1 & Q2 & Q3 & Q4 & Q5).
    rewrite N.sub_0_r in *. fold (served s x) in *.
    assert (H' : (fold_left count_down b1 (fold_left remove_staker r1 (set_a_cursor s1 l1)), e1) = (s', evs))
      by (destruct (a_cursor s); [congruence|rewrite El in H; exact H..]).
    injection H' as <- <-. clear H.
    destruct Q4 as (_ & _ & Hst & _ & _ & _ & Hb & Hd & _).
    pose proof (fold_count_same b1 (fold_left remove_staker r1 (set_a_cursor s1 l1))) as F1.
    pose proof (fold_remove_same r1 (set_a_cursor s1 l1)) as F2.
    pose proof (pass_same_trans _ _ _ F2 F1) as (F3 & F4 & F5 & _).
    split; [|split; [|split; [|split]]].
    - intros w. rewrite fold_count_down by (rewrite Q2; apply nodup_fst_filter, served_nodup).
      rewrite fold_remove_stakers. cbn [a_stakers set_a_cursor]. rewrite Hst, Q1, Q2.
      unfold rem_of, sub_of.
      destruct (decide (w ∈ (served s x).*1)) as [Hv|Hv].
      + rewrite bool_decide_eq_true_2 by exact Hv.
        apply elem_of_list_fmap in Hv as ([w' p] & E & Hin). cbn in E. subst w'.
        pose proof (served_in s x w p Hin) as (Hp & _ & _). rewrite Hp. cbn [after_visit].
        destruct (N.eqb_spec p 0) as [->|Hp0].
        * rewrite decide_False; [rewrite decide_True; [reflexivity|]|].
          -- apply sub_filter_fst. exists 0. auto.
          -- intros Hx. apply sub_filter_fst in Hx as (p' & Hin' & Hp'). cbn in Hp'.
             apply served_in in Hin' as (Hp2 & _). congruence.
        * rewrite decide_True; [rewrite decide_False; [reflexivity|]|].
          -- intros Hx. apply sub_filter_fst in Hx as (p' & Hin' & Hp'). cbn in Hp'.
             apply served_in in Hin' as (Hp2 & _). congruence.
          -- apply sub_filter_fst. exists p. auto.
      + rewrite bool_decide_eq_false_2 by exact Hv.
        rewrite decide_False; [rewrite decide_False|].
        * destruct (a_stakers s !! w); reflexivity.
        * intros Hx. apply Hv. apply sub_filter_fst in Hx as (p' & Hin' & _). apply elem_of_list_fmap. now exists (w, p').
        * intros Hx. apply Hv. apply sub_filter_fst in Hx as (p' & Hin' & _). apply elem_of_list_fmap. now exists (w, p').
    - rewrite F3. cbn. exact Q3.
    - rewrite F5. cbn. exact Hd.
    - rewrite F4. cbn. exact Hb.
    - exact Q5.
  Qed.

  (** What one served block means for an account. *)
  Lemma cursor_after s x a : keys_differ cfg -> pending (cursor_of cfg CEmpty (served s x)) (key a) = true ->
    a ∉ (served s x).*1 /\ (a_cursor s <> CEmpty -> pending (a_cursor s) (key a) = true).
  Proof.
    intros Hinj. unfold cursor_of. destruct (last (served s x)) as [[b q]|] eqn:El; [|discriminate]. cbn [pending].
    intros Hlt. apply N.ltb_lt in Hlt. split.
    - intros Hin. apply elem_of_list_fmap in Hin as ([a' p] & E & Hin). cbn in E. subst a'.
      pose proof (sorted_last _ _ a p (served_sorted s x Hinj) El Hin) as H. cbn in H. lia.
    - intros Hc. apply last_Some_elem_of in El. apply served_in in El as (_ & Hb & _).
      rewrite pending_beyond in Hb by exact Hc. destruct (a_cursor s); [congruence|reflexivity|].
      cbn in *. apply N.ltb_lt in Hb. apply N.ltb_lt. lia.
  Qed.
End block.

(** * Operations other than the start of a block *)
Definition not_reward (e : aev) : Prop := match e with EReward _ _ => False | _ => True end.
Lemma rewards_none t evs : Forall not_reward evs -> rewards (map (fun e => (t, e)) evs) = [].
Proof. induction 1 as [|e l H1 H2 IH]; [reflexivity|]. destruct e; try contradiction; exact IH. Qed.
Lemma amounts_none t evs : Forall not_reward evs -> reward_amounts (map (fun e => (t, e)) evs) = [].
Proof. induction 1 as [|e l H1 H2 IH]; [reflexivity|]. destruct e; try contradiction; exact IH. Qed.

Ltac break_match :=
  repeat match goal with
  | H : context [match ?x with _ => _ end] |- _ => destruct x eqn:?; try discriminate
  end.

(** Calls leave the pass alone, apart from the stakers they add. *)
Lemma call_pass cfg s x o c s' r :
  astep cfg s x o c = (s', r) ->
  a_cursor s' = a_cursor s /\ a_day s' = a_day s /\ a_bnum s' = a_bnum s /\
  Forall not_reward (match r with ROk evs => evs | _ => [] end) /\
  (a_stakers s' = a_stakers s \/
   exists who, match c with AAdd w | AAddNft w _ _ => w = who | _ => False end /\
     a_stakers s' = <[who := a_period s]> (a_stakers s)).
Proof.
  unfold astep. destruct (aexec cfg s x o c) as [[s1 evs]|e|] eqn:E; intros H; injection H as <- <-.
  2-3: repeat split; auto; constructor.
  destruct c; cbn [aexec] in E; unfold ensure_admin, do_add_nft, do_bridge_burn, do_bridge_mint, do_swap, add_pool, rbind in E;
    break_match;
    repeat match goal with
    | H : ROk _ = ROk _ |- _ => injection H as <- <- || injection H as <-
    end; cbn; repeat split; auto; try (now repeat constructor); try (right; eexists; split; [reflexivity|]; reflexivity).
Qed.
Lemma entry_pass cfg s x e s' evs :
  e <> AInitialize -> aentry cfg s x e = (s', evs) ->
  a_cursor s' = a_cursor s /\ a_day s' = a_day s /\ a_bnum s' = a_bnum s /\ evs = [] /\ a_stakers s' = a_stakers s.
Proof.
  intros Hne H. destruct e; try congruence; cbn [aentry] in H; unfold on_upgrade, add_pool in H;
    injection H as <- <-; repeat (match goal with |- context [match ?x with _ => _ end] => destruct x end); repeat split.
Qed.
