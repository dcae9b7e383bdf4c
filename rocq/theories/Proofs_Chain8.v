(** How long an account is paid: the start of its credit history, from which the
    reward period counts, is the era in which it became a delegator. *)
From Verif Require Import Base Balances Model_UserPrivileges.
From Verif Require Model_Credit Spec_Credit.
From Verif Require Import Model_StakingLedger Model_Staking Model_Chain Spec_Staking Spec_Staking2 Spec_Chain Proofs_Arith
  Proofs_Credit Proofs_Credit2 Proofs_Credit3 Proofs_Credit6 Proofs_Credit7 Proofs_Credit9 Proofs_Staking Proofs_Staking8 Proofs_Staking10 Proofs_Staking13
  Proofs_Staking15 Proofs_Chain1 Proofs_Chain2 Proofs_Chain3 Proofs_Chain4 Proofs_Chain5 Proofs_Chain6 Proofs_Chain7.
From stdpp Require Import gmap sorting.
Open Scope N_scope.

Local Ltac split_bind H :=
  let a := fresh "a" in let Ha := fresh "Ha" in apply rbind_ok in H as (a & Ha & H).

Lemma path_recs k ls k' x kd d :
  dpath k ls k' -> Forall (dlab_ok (x, kd)) ls -> kd <> KdJoin -> d_recs k !! d = None -> d_recs k' !! d = None.
Proof.
  intros P F Hk. induction P as [|k l k1 ls k' M P IH]; intros H; [done|].
  apply Forall_cons in F as [F1 F2]. apply IH; [done|]. clear IH P F2.
  destruct M as [k k1 E1 E2|k k1 E1 E2|k k1 E1 E2|k y d0 vs k1 E|k era d0|k y d0 r o E1 E2|k who ref k1 E|k who]; try (rewrite E1; exact H).
  - cbn in F1. injection F1 as -> ->. contradiction.
  - destruct (decide (d0 = d)) as [->|Hn]; [|rewrite undelegate_other by congruence; exact H].
    rewrite undelegate_eq, H. exact H.
  - unfold paid_rec. destruct (decide (d0 = d)) as [->|Hn]; [congruence|].
    destruct (dr_on r); cbn; [now rewrite lookup_insert_ne|now rewrite lookup_delete_ne].
  - unfold set_referer in E. inv_bind E. now injection E as <-.
  - unfold unset_referer. now destruct (d_ref k !! who).
Qed.
Lemma do_delegate_recs x k w vs k' : do_delegate x k w vs = ROk k' ->
  kx_pass x w = true /\ is_Some (d_recs k' !! w) /\ forall d, d <> w -> d_recs k' !! d = d_recs k !! d.
Proof.
  unfold do_delegate. intros E. inv_bind E. injection E as <-. split; [done|]. cbn [d_recs set_d_cand].
  destruct (d_recs k !! w) as [r|] eqn:Er.
  - replace (d_recs _) with (<[w:=DRec vs (Some (default (kx_era x) (dr_since r))) true]> (d_recs k)) by now destruct (dr_on r).
    split; [rewrite lookup_insert; eauto|]. intros d Hd. apply lookup_insert_ne. congruence.
  - cbn. split; [rewrite lookup_insert; eauto|]. intros d Hd. apply lookup_insert_ne. congruence.
Qed.
Lemma delegate_any_recs cfg x s w k' : delegate_any cfg x s w = ROk k' ->
  kx_pass x w = true /\ is_Some (d_recs k' !! w) /\ forall d, d <> w -> d_recs k' !! d = d_recs (k_del s) !! d.
Proof.
  unfold delegate_any. intros E. inv_bind E. destruct (_ !! _); [|discriminate]. now apply do_delegate_recs in E.
Qed.

(** A call that takes [w] in. *)
Definition took_in (x : kctx) (s s' : kstate) (w : N) : Prop :=
  (kx_pass x w = true /\ is_Some (d_recs (k_del s') !! w) \/ d_recs (k_del s') !! w = d_recs (k_del s) !! w) /\
  forall d, d <> w -> d_recs (k_del s') !! d = d_recs (k_del s) !! d.
Lemma delegate_in cfg x s w l s' ev : dispatch cfg x s (Signed w) (KDelegate l) = ROk (s', ev) -> took_in x s s' w.
Proof.
  cbn [dispatch signed]. unfold with_del, delegate. intros E. inv_bind E. injection E as <- _. inv_bind E0. inv_bind E0. inv_bind E0. inv_bind E0.
  apply do_delegate_recs in E0 as (A & B & C). split; [left; auto|exact C].
Qed.
Lemma staking_delegate_in cfg x s w l s' ev : dispatch cfg x s (Signed w) (KStakeDelegate l) = ROk (s', ev) -> took_in x s s' w.
Proof.
  cbn [dispatch signed]. unfold staking_delegate. intros E. inv_bind E. cbv zeta in E. inv_bind E. inv_bind E. destruct (kx_level x w); [|discriminate]. inv_bind E.
  destruct (_ !! _); [|discriminate]. destruct (_ !! _); [|discriminate]. destruct (transfer_keep _ _ _ _ _); [|discriminate].
  inv_bind E. injection E as <- _. apply delegate_any_recs in E4 as (A & B & C). split; [left; auto|exact C].
Qed.
Lemma usdt_delegate_in cfg x s o w u p s' ev : dispatch cfg x s o (KUsdtDelegate w u p) = ROk (s', ev) -> took_in x s s' w.
Proof.
  cbn [dispatch]. unfold admin, usdt_delegate. destruct o; try discriminate. cbn [signed]. intros E.
  match type of E with (if ?b then _ else _) = _ => destruct b; [|discriminate] | _ => idtac end.
  cbv zeta in E.
  repeat match type of E with
  | rbind _ _ = _ => inv_bind E
  | (let '(_, _) := ?v in _) = _ => destruct v
  | (if ?b then _ else _) = _ => destruct b
  end.
  - injection E as <- _.
    match goal with H : delegate_any _ _ _ _ = _ |- _ => apply delegate_any_recs in H as (A & B & C) end. split; [left; auto|exact C].
  - injection E as <- _. split; [now right|done].
Qed.

Section chain.
  Context (cfg : jcfg).
  Local Notation cc := (jc_c cfg).
  Local Notation sc := (jc_s cfg).
  Context (Hstep : Model_Credit.kc_step cc <> Model_Credit.U64MAX) (d : N).

  Section step.
    Context (x : jctx).
    Lemma joined_start c y s s' w :
      took_in y s s' w -> (forall e, kx_pass y e = passing cfg c e) -> d_recs (k_del s) !! d = None ->
      d_recs (k_del s') !! d = None /\ start (joined cfg x c s s' w) d = start c d \/
      is_Some (d_recs (k_del s') !! d) /\ start (joined cfg x c s s' w) d = Some (Model_Credit.era_of cc (Model_Credit.kx_now (jx_c x))).
    Proof.
      intros [A B] Hp Hd. destruct (decide (d = w)) as [<-|Hn].
      - unfold joined. rewrite Hd. destruct (d_recs (k_del s') !! d) as [r|] eqn:E; [|left; auto].
        right. split; [eauto|]. destruct A as [[Ha _]|A]; [|congruence]. rewrite Hp in Ha. unfold passing in Ha.
        unfold Model_Credit.init_delegator_history. destruct (Model_Credit.k_uc c !! d) as [u|]; [|discriminate].
        unfold start, Model_Credit.hist_of. cbn. now rewrite lookup_insert.
      - left. split; [rewrite B; auto|]. unfold joined. destruct (d_recs (k_del s) !! w); [done|]. destruct (d_recs (k_del s') !! w); [|done].
        unfold Model_Credit.init_delegator_history. destruct (Model_Credit.k_uc c !! w); [|done]. cbn [fst]. apply start_hist. cbn. apply lookup_insert_ne; congruence.
    Qed.
  End step.
  Definition entered (j j' : jstate) (e : N) : Prop :=
    d_recs (k_del (j_s j')) !! d = None /\ start (j_c j') d = start (j_c j) d \/
    is_Some (d_recs (k_del (j_s j')) !! d) /\ start (j_c j') d = Some e.
  Lemma settle_entered j r e : d_recs (k_del (j_s j)) !! d = None ->
    (forall c s ev, r = ROk (c, s, ev) -> entered j (J c s) e) -> entered j (jsettle j r).1 e.
  Proof.
    intros Hd H. destruct r as [[[c s] ev]|er|]; cbn [jsettle fst]; [|left; auto|left; auto].
    destruct (H c s ev eq_refl) as [[A B]|[A B]]; [left|right]; auto.
  Qed.
  (** Somebody joins. *)
  Lemma join_start j op w : joining op.2 w -> d_recs (k_del (j_s j)) !! d = None ->
    entered j (jstep cfg j op).1 (era_in cfg op).
  Proof.
    intros Hj Hd. destruct op as [x a]. unfold jstep. cbn [fst snd] in *.
    assert (G : forall c y k o c1, (forall s' ev, dispatch sc y (j_s j) o k = ROk (s', ev) -> took_in y (j_s j) s' w) ->
      (forall e, kx_pass y e = passing cfg c e) -> start c d = start (j_c j) d ->
      (r <-? dispatch sc y (j_s j) o k ; ROk (joined cfg x c (j_s j) r.1 w, r.1, r.2)) = ROk c1 ->
      entered j (J c1.1.1 c1.1.2) (era_in cfg (x, a))).
    { intros c y k o c1 H1 H2 H3 H. split_bind H. destruct a0 as [s1 e1]. injection H as <-. cbn [fst snd] in *.
      destruct (joined_start x c y (j_s j) s1 w (H1 _ _ Ha) H2 Hd) as [[A B]|[A B]]; [left; split; [exact A|etransitivity; [exact B|exact H3]]|right; split; [exact A|exact B]]. }
    destruct a as [| |o [k|]| | | | | | | |]; try contradiction; try (now destruct o). cbn [jact_step]. apply settle_entered; [exact Hd|].
    intros c s ev H. assert (E : k = k) by done. destruct k; try (now destruct o); clear E; cbn [jdispatch] in H.
    - destruct o as [|w'|]; try contradiction. cbn in Hj. subst w'. unfold jstaking_delegate in H. cbn [signed] in H. split_bind H. apply lift_ok in Ha.
      refine (G a _ _ _ (c, s, ev) _ _ _ H); [intros ? ?; apply staking_delegate_in|done|].
      unfold Model_Credit.add_or_update in Ha. cbv zeta in Ha. split_bind Ha. injection Ha as <-. exact (add_start cc _ _ _ _ _ d Ha0).
    - assert (E : w = who) by now destruct o. subst w. unfold jusdt_delegate in H. cbv zeta in H.
      destruct (match kx_level (sctx cfg x (j_c j)) who with Some _ => _ | None => _ end) as [cur rest]. split_bind H. apply lift_ok in Ha.
      refine (G (Model_Credit.set_staking_balance a who usdt dpr) _ _ _ (c, s, ev) _ _ _ H); [intros ? ?; apply usdt_delegate_in|done|].
      unfold Model_Credit.add_or_update in Ha. cbv zeta in Ha. split_bind Ha. injection Ha as <-. exact (add_start cc _ _ _ _ _ d Ha0).
    - destruct o as [|w'|]; try contradiction. cbn in Hj. subst w'. unfold jdelegate in H. cbn [signed] in H.
      refine (G (j_c j) _ _ _ (c, s, ev) _ _ _ H); [intros ? ?; apply delegate_in|done|done].
  Qed.

  (** Payments ask for the rewards of accounts on the books only. *)
  Lemma loop_start x n : forall l c s pool last counter c' s' pool' last' counter' ev, d ∉ l.*1 ->
    jpay_loop cfg x n l c s pool last counter = ROk (c', s', pool', last', counter', ev) -> start c' d = start c d.
  Proof.
    induction n as [|n IH]; intros l c s pool last counter c' s' pool' last' counter' ev Hl H.
    - cbn in H. now injection H as <- _ _ _ _ _.
    - destruct l as [|[w r] l]; [cbn in H; now injection H as <- _ _ _ _ _|]. cbn [fmap list_fmap fst] in Hl. apply not_elem_of_cons in Hl as [Hw Hl].
      cbn [jpay_loop] in H. split_bind H. destruct a as [[[c2 s2] paid] e1].
      assert (E : start c2 d = start c d).
      { revert Ha. unfold jpay_delegator. destruct (pay_delegator _ _ _ _ _ _) as [[s1 p] e]. intros Ha.
        match type of Ha with (if ?b then _ else _) = _ => destruct b end; [now injection Ha as <- _ _ _|]. split_bind Ha. apply lift_ok in Ha0. destruct a as [c3 rw]. injection Ha as <- _ _ _.
        eapply get_reward_start; [exact Hstep|exact Ha0|]. intros ->. contradiction. }
      destruct (_ =? 0); [injection H as <- _ _ _ _ _; exact E|].
      destruct (pay_referer sc s2 w paid _) as [[s3 paid2] e2].
      destruct (_ =? 0); [injection H as <- _ _ _ _ _; exact E|].
      split_bind H. destruct a as [[[[[c4 s4] p4] l4] ct4] e4]. injection H as <- _ _ _ _ _.
      rewrite <- E. eapply IH; [exact Hl|exact Ha0].
  Qed.
  Lemma init_start x c s c' s' ev : d_recs (k_del s) !! d = None -> jon_initialize cfg x c s = ROk (c', s', ev) -> start c' d = start c d.
  Proof.
    intros Hd. unfold jon_initialize. destruct (_ && _).
    - unfold jpay_delegators. destruct (_ =? 0); [now intros [= <- _ _]|].
      intros H. split_bind H. destruct a as [[[[[c4 s4] p4] l4] ct4] e4]. injection H as <- _ _.
      eapply loop_start; [|exact Ha]. intros Hin. apply elem_of_list_fmap in Hin as ([w r] & Hw & Hin). cbn in Hw. subst w.
      apply delegators_elem in Hin as [_ Hin]. congruence.
    - intros H. split_bind H. now injection H as <- _ _.
  Qed.

  Lemma keeps_start j op : synced j -> ~ rewrites op d ->
    (joining op.2 d -> is_Some (d_recs (k_del (j_s j)) !! d)) -> (op.2 = JInit -> start (j_c j) d <> None) ->
    start (j_c (jstep cfg j op).1) d = start (j_c j) d.
  Proof.
    intros Hy Hr Hj Hi. apply (jstep_keeps cfg (fun c => start c d = start (j_c j) d)); [exact Hy|now intros c b <-| | |done].
    - intros c e He Ec. rewrite <- Ec. apply (kdo_start cc Hstep).
      + unfold restarts. cbn [fst snd]. destruct e as [|w [n|]| | | | | | | | | | | | |]; cbn in He; try tauto.
        * intros [-> ->]. apply Hr. unfold rewrites. destruct (op.2) as [| |o [[]|l]| | | | | | | |]; try contradiction.
          -- destruct He as [_ He]. discriminate.
          -- now destruct He.
          -- exact He.
        * intros ->. destruct He as [H1 H2]. destruct (Hj H1). congruence.
      + intros f t [= ->]. cbn in He. rewrite Ec. now apply Hi.
    - intros c o Ho Ec. rewrite <- Ec. apply (kdo_start cc Hstep).
      + intros Hd. apply Hr. unfold own_step in Ho. unfold rewrites. destruct op as [x a]. cbn [fst snd] in *.
        destruct a as [ori call|e|? ?| | | | | | | |]; try (now apply elem_of_nil in Ho).
        * apply elem_of_list_singleton in Ho as ->. unfold restarts in Hd. cbn [fst snd] in Hd. now destruct call.
        * destruct (staking_only e) eqn:Es; [now apply elem_of_nil in Ho|]. apply elem_of_list_singleton in Ho as ->.
          unfold restarts in Hd. cbn [fst snd] in Hd. destruct e; try discriminate; try contradiction; exact Hd.
      + intros f t E. exfalso. unfold own_step in Ho. destruct (op.2) as [ori call|e|? ?| | | | | | | |]; try (now apply elem_of_nil in Ho).
        * apply elem_of_list_singleton in Ho as ->. discriminate.
        * destruct (staking_only e) eqn:Es; [now apply elem_of_nil in Ho|]. apply elem_of_list_singleton in Ho as ->. cbn in E. injection E as ->. discriminate.
  Qed.
  Lemma jstep_start j op : synced j -> ~ rewrites op d ->
    (is_Some (d_recs (k_del (j_s j)) !! d) -> start (j_c j) d <> None) ->
    (d_recs (k_del (j_s j)) !! d = None -> entered j (jstep cfg j op).1 (era_in cfg op)) /\
    (is_Some (d_recs (k_del (j_s j)) !! d) -> start (j_c (jstep cfg j op).1) d = start (j_c j) d).
  Proof.
    intros Hy Hr Hs. split.
    2: { intros Hd. apply keeps_start; [done|done|done|]. intros _. now apply Hs. }
    intros Hd.
    assert (Dec : (exists w, joining op.2 w) \/ forall w, ~ joining op.2 w).
    { destruct (op.2) as [| |o [k|]| | | | | | | |]; try (right; intros w Hw; exact Hw); [|right; now destruct o].
      destruct k; try (right; now destruct o); try (destruct o; [right; auto|left; eexists; reflexivity|right; auto]; fail).
      left. exists who. now destruct o. }
    destruct Dec as [[w Hw]|Hn]; [now apply join_start with w|].
    left. split.
    - pose proof (jstep_staking cfg j op Hstep Hy) as K. destruct (step_del sc _ _ _ _ K) as (ls & P & F & _).
      refine (path_recs _ _ _ _ _ d P F _ Hd). unfold sop. destruct (jstep cfg j op).2 eqn:Eo; [|discriminate|discriminate].
      destruct op as [x a]. cbn [fst snd] in *. destruct a as [| |o [k|]| | | | | | | |]; try discriminate.
      destruct k; try discriminate; intros _.
      + destruct o; [discriminate|now apply (Hn who)|discriminate].
      + apply (Hn who). now destruct o.
      + destruct o; [discriminate|now apply (Hn who)|discriminate].
    - destruct op as [x a]. destruct a as [| |o c| | |i|i|i|a0|os i|b];
        try (apply keeps_start; [exact Hy|exact Hr|intros Hj; now apply Hn in Hj|discriminate]).
      unfold jstep. cbn [fst snd jact_step]. destruct (jon_initialize cfg x (j_c j) (j_s j)) as [[[c s] ev]|e|] eqn:E; [|done|done].
      cbn [jsettle fst j_c]. change (start c d = start (j_c j) d). exact (init_start x _ _ _ _ _ Hd E).
  Qed.

  (** The eras in which [d] came on the books. *)
  Fixpoint entry_eras (j : jstate) (h : list jop) : list N :=
    match h with
    | [] => []
    | op :: r => (if entersb cfg d (j, op, (jstep cfg j op).2) then [era_in cfg op] else []) ++ entry_eras (jstep cfg j op).1 r
    end.
  Lemma entry_eras_length h : forall j, N.of_nat (length (entry_eras j h)) = entries cfg j h d.
  Proof.
    unfold entries. induction h as [|op h IH]; intros j; [done|]. cbn [entry_eras visited List.filter].
    rewrite app_length. specialize (IH (jstep cfg j op).1). destruct (entersb cfg d (j, op, (jstep cfg j op).2)); cbn [length] in *; lia.
  Qed.
  Definition begun (E : list N) (j : jstate) : Prop :=
    is_Some (d_recs (k_del (j_s j)) !! d) -> exists e, start (j_c j) d = Some e /\ e ∈ E.
  Lemma jstep_begun E j op : synced j -> ~ rewrites op d -> begun E j ->
    begun (E ++ if entersb cfg d (j, op, (jstep cfg j op).2) then [era_in cfg op] else []) (jstep cfg j op).1.
  Proof.
    intros Hy Hr Hb. destruct (jstep_start j op Hy Hr) as [A B].
    { intros Hd. destruct (Hb Hd) as (e & -> & _). discriminate. }
    intros Hd'. unfold entersb. cbn [fst snd]. destruct (d_recs (k_del (j_s j)) !! d) as [r|] eqn:Er.
    - destruct (Hb (ex_intro _ r Er)) as (e & E1 & E2). exists e. split; [|apply elem_of_app; now left].
      rewrite B by eauto. exact E1.
    - destruct (A eq_refl) as [[A1 _]|[A1 A2]]; [rewrite A1 in Hd'; now destruct Hd'|].
      exists (era_in cfg op). split; [exact A2|]. apply elem_of_app. right. rewrite !bool_decide_eq_true_2 by done. cbn. left.
  Qed.
  Lemma visited_begun h : forall E j, synced j -> Forall (fun op => ~ rewrites op d) h -> begun E j ->
    forall j' op out, (j', op, out) ∈ visited cfg j h -> begun (E ++ entry_eras j h) j'.
  Proof.
    induction h as [|op h IH]; intros E j Hy F Hb j' op' out Hin; [now apply elem_of_nil in Hin|].
    apply Forall_cons in F as [F1 F2]. cbn [visited entry_eras] in *. apply elem_of_cons in Hin as [[= -> -> ->]|Hin].
    - intros Hd. destruct (Hb Hd) as (e & E1 & E2). exists e. split; [done|]. apply elem_of_app; now left.
    - rewrite app_assoc. eapply IH; [|exact F2| |exact Hin]; [now apply jstep_synced|now apply jstep_begun].
  Qed.
End chain.

(** Counting. *)
Lemma windows (E : list N) (n : N) (l : list N) :
  StronglySorted N.lt l -> (forall e, e ∈ l -> exists e0, e0 ∈ E /\ e0 <= e < e0 + n) ->
  N.of_nat (length l) <= N.of_nat (length E) * n.
Proof.
  intros S H.
  set (W := flat_map (fun e0 => map (fun i => e0 + N.of_nat i) (seq 0 (N.to_nat n))) E).
  assert (L : N.of_nat (length W) = N.of_nat (length E) * n).
  { subst W. clear. induction E as [|e E IH]; [done|]. cbn [flat_map length]. rewrite app_length, map_length, seq_length. lia. }
  rewrite <- L. enough (length l <= length W)%nat by lia. apply NoDup_incl_length.
  - clear H. induction S as [|e l S IH F]; constructor; [|exact IH]. intros Hin. pose proof (proj1 (List.Forall_forall _ _) F _ Hin). lia.
  - intros e Hin. apply elem_of_list_In in Hin. destruct (H e Hin) as (e0 & H1 & H2). subst W. apply in_flat_map.
    exists e0. split; [now apply elem_of_list_In|]. apply in_map_iff. exists (N.to_nat (e - e0)). split; [lia|]. apply in_seq. lia.
Qed.
Lemma sorted_filter {A} (P : A -> bool) (f : A -> N) l :
  StronglySorted N.lt (map f l) -> StronglySorted N.lt (map f (List.filter P l)).
Proof.
  induction l as [|a l IH]; intros S; [done|]. cbn in *. apply StronglySorted_inv in S as [S F].
  destruct (P a); [|auto]. cbn. constructor; [auto|]. rewrite List.Forall_forall in *. intros y Hy.
  apply F. apply in_map_iff in Hy as (b & <- & Hb). apply in_map. now apply filter_In in Hb.
Qed.
Lemma lsum_bound {A} (g : A -> option N) v l : (forall a x, a ∈ l -> g a = Some x -> x <= v) ->
  lsum (map (fun a => default 0 (g a)) l) <= N.of_nat (length (List.filter (fun a => bool_decide (is_Some (g a))) l)) * v.
Proof.
  induction l as [|a l IH]; intros H; [cbn; lia|]. cbn [map List.filter].
  change (lsum (default 0 (g a) :: map (fun a => default 0 (g a)) l)) with (default 0 (g a) + lsum (map (fun a => default 0 (g a)) l)).
  assert (IH' : forall b x, b ∈ l -> g b = Some x -> x <= v) by (intros b x Hb; apply H; now right). specialize (IH IH').
  destruct (g a) as [x|] eqn:E.
  - rewrite bool_decide_eq_true_2 by eauto. pose proof (H a x ltac:(left) E). change (default 0 (Some x)) with x. cbn [length]. lia.
  - rewrite bool_decide_eq_false_2 by (intros [? ?]; discriminate). change (default 0 None) with 0. lia.
Qed.
Lemma pay_from cfg c d e v e0 e1 : book_ordered (cr c) e1 -> Spec_Credit.era_pay cfg c d e = Some v -> start c d = Some e0 -> e0 <= e.
Proof.
  intros O E H. destruct (N.le_gt_cases e0 e) as [L|L]; [exact L|exfalso].
  unfold start, Model_Credit.hist_of in H. unfold Spec_Credit.era_pay in E. specialize (O d). cbn in O.
  destruct (default [] (Model_Credit.k_hist c !! d)) as [|[e2 r2] l] eqn:Eh; [discriminate|]. cbn in H. injection H as ->.
  rewrite (in_force_before _ e e0 r2 l eq_refl (proj1 O) L) in E. discriminate.
Qed.

Lemma jrun_limited cfg b p settings data h d n v :
  let g := jgenesis b p settings data in
  Model_Credit.kc_step (jc_c cfg) <> Model_Credit.U64MAX -> Model_Credit.kc_bpe (jc_c cfg) <> 0 ->
  Forall Spec_Credit.setting_typed settings -> orderly cfg 0 h -> Forall (fun op => ~ rewrites op d) h ->
  (forall j op out, (j, op, out) ∈ visited cfg g h -> claimable (j_c j) d /\
     (forall r, Model_Credit.k_uc (j_c j) !! d = Some r -> Model_Credit.cd_eras r <= n) /\
     forall e a, Spec_Credit.era_pay (jc_c cfg) (j_c j) d e = Some a -> a <= v) ->
  paid d (jevents (jouts cfg g h)) <= entries cfg g h d * n * v.
Proof.
  intros g Hs Hb Hset Ho Hr Hv.
  pose proof (genesis_sound b p settings data Hset) as G. fold g in G.
  assert (H0 : forall op r, h = op :: r -> 0 <= era_in cfg op) by (intros; lia).
  destruct (jrun_sound cfg Hs Hb h 0 g [] H0 (ex_intro _ 0 Ho) G) as [V (e' & _ & _ & _ & A)].
  pose proof (jrun_paid cfg Hs Hb h 0 g [] d H0 (ex_intro _ 0 Ho) G (fun j op out H => proj1 (Hv j op out H))) as P.
  destruct (dues_split cfg Hs Hb d (dues cfg g h d)) as (q & Q1 & Q2 & Q3).
  { rewrite dues_asks. cbn [app] in A. apply A. }
  pose proof (visited_begun cfg Hs d h [] g (proj1 G) Hr) as B.
  assert (B0 : begun d [] g) by (intros [r E]; cbn in E; now rewrite lookup_empty in E). specialize (B B0). cbn [app] in B.
  set (pay := fun p : N * credit => Spec_Credit.era_pay (jc_c cfg) p.2 d p.1).
  assert (K : forall p, p ∈ q -> exists j op out, (j, op, out) ∈ visited cfg g h /\ p.2 = j_c j /\ in_period p.2 d p.1 /\
    is_Some (d_recs (k_del (j_s j)) !! d) /\ exists e1, book_ordered (cr (j_c j)) e1).
  { intros p0 Hp. pose proof (proj1 (Forall_forall _ _) Q2 _ Hp) as (f & t & Hd & _ & Hq).
    destruct (dues_elem cfg h g p0.2 d (f, t) Hd) as (j & op & out & Hin & E & Ha).
    destruct (V _ _ _ Hin) as (e1 & ev1 & S1 & L1 & L2 & ->).
    destruct (jstep_asks cfg Hs Hb e1 j op ev1 d f t L1 L2 S1 Ha) as (_ & _ & _ & r & R1 & _).
    exists j, op, (jstep cfg j op).2. split; [exact Hin|]. split; [exact E|]. split; [exact Hq|]. split; [eauto|].
    destruct S1 as (_ & Ob & _). eauto. }
  transitivity (lsum (map (fun p => default 0 (pay p)) q)); [etransitivity; [exact P|exact Q3]|].
  etransitivity; [apply (lsum_bound pay v)|].
  { intros p0 a Hp E. destruct (K p0 Hp) as (j & op & out & Hin & Ec & _). unfold pay in E. rewrite Ec in E. exact (proj2 (proj2 (Hv _ _ _ Hin)) _ _ E). }
  apply N.mul_le_mono_r. rewrite <- (map_length fst), <- (entry_eras_length cfg Hs d h g).
  apply windows; [now apply sorted_filter|]. intros e He. apply elem_of_list_In, in_map_iff in He as (p0 & <- & Hp).
  apply filter_In in Hp as [Hp E]. apply elem_of_list_In in Hp. apply bool_decide_eq_true in E as [a E].
  destruct (K p0 Hp) as (j & op & out & Hin & Ec & Hq & Hd & e1 & Ob). unfold pay in E. rewrite Ec in *.
  destruct (B _ _ _ Hin Hd) as (e0 & Es & Hi). exists e0. split; [exact Hi|]. split; [exact (pay_from _ _ _ _ _ _ _ Ob E Es)|].
  destruct Hq as (r & e2 & r2 & l2 & U & Hh & L). unfold start, Model_Credit.hist_of in Es. rewrite Hh in Es. cbn in Es. injection Es as ->.
  pose proof (proj1 (proj2 (Hv _ _ _ Hin)) r U). lia.
Qed.
