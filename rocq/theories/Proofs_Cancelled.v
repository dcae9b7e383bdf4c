(** Proofs for property C202. *)
From Verif Require Import Base Balances Model_StakingLedger Model_Staking Spec_Staking Proofs_Staking Proofs_Staking14 Proofs_Staking15 Spec_Cancelled.
From stdpp Require Import gmap.
Open Scope N_scope.

Lemma same_goods_refl s : same_goods s s. Proof. repeat split. Qed.
Lemma same_goods_trans s s1 s2 : same_goods s s1 -> same_goods s1 s2 -> same_goods s s2.
Proof. unfold same_goods. intuition congruence. Qed.

Section cancelled.
  Context (cfg : kcfg) (Df : kc_defer cfg <> 0) (x : kctx).
  Lemma compute_rest s st f ex era w now s' u ev :
    compute_slash x s st f ex era w now = (s', u, ev) -> k_del s' = k_del s /\ k_par s' = k_par s.
  Proof.
    unfold compute_slash. destruct (_ =? 0).
    - intros [= <- _ _]. unfold kick_out. destruct (fetch_spans _ _ _) as [k0 sp]. destruct (era_span _ _); [|auto].
      destruct (_ =? _); [|auto]. destruct (kick _ _ _ _ _ _ _) as [[[k1 e1] sp1] d]. auto.
    - destruct (_ <=? _); [intros [= <- _ _]; auto|].
      destruct (fetch_spans _ _ _) as [k0 sp]. destruct (update_span _ _ _ _ _ _) as [[[[[k1 sp1] d1] df] rw] t].
      destruct (if bool_decide _ then _ else _) as [[[k2 e2] sp2] d2]. intros H. injection H as <- _ _. auto.
  Qed.
  Lemma compute_goods s st f ex era w now s' u ev :
    compute_slash x s st f ex era w now = (s', u, ev) -> same_goods s s' /\ s_unapp (k_stk s') = s_unapp (k_stk s) /\
    match u with Some u => u_val u = st | None => True end.
  Proof.
    intros H. destruct (compute_bank _ _ _ _ _ _ _ _ _ _ _ H) as [B _].
    pose proof (compute_slash_view _ _ _ _ _ _ _ _ _ _ _ H) as V.
    destruct (compute_queue _ _ _ _ _ _ _ _ _ _ _ H) as (Q & _ & _ & _ & U). destruct (compute_rest _ _ _ _ _ _ _ _ _ _ H) as [R1 R2].
    split; [|split; [exact (f_equal fst Q)|now destruct u as [u|]; [apply U|]]].
    split; [exact B|]. split; [exact (f_equal v_bonded V)|]. split; [exact (f_equal v_ledger V)|]. split; [exact (f_equal v_lock V)|]. auto.
  Qed.
  (** What a report adds to the queues. *)
  Definition adds (act : N) (who : list N) (s s' : kstate) : Prop :=
    exists new, Forall (fun u => u_val u ∈ who) new /\
      forall e, waiting s' e = waiting s e ++ (if e =? act then new else []).
  Lemma adds_none act who s s' : s_unapp (k_stk s') = s_unapp (k_stk s) -> adds act who s s'.
  Proof. intros E. exists []. split; [constructor|]. intros e. unfold waiting. rewrite E. destruct (_ =? _); now rewrite app_nil_r. Qed.
  Lemma adds_trans act who who' s s1 s2 : adds act who s s1 -> adds act who' s1 s2 -> adds act (who ++ who') s s2.
  Proof.
    intros (n1 & F1 & H1) (n2 & F2 & H2). exists (n1 ++ n2). split.
    - apply Forall_app. split; [eapply Forall_impl; [exact F1|]|eapply Forall_impl; [exact F2|]]; intros u Hu; apply elem_of_app; auto.
    - intros e. rewrite H2, H1. destruct (_ =? _); now rewrite <- app_assoc.
  Qed.
  Lemma offender_goods era w act s ev o s' ev' :
    offender1 cfg x era w act (s, ev) o = (s', ev') -> same_goods s s' /\ adds act [o.1.1.1] s s'.
  Proof.
    destruct o as [[[st ex] reps] fr]. unfold offender1. cbn [fst].
    destruct (bool_decide _); [intros [= <- _]; split; [apply same_goods_refl|now apply adds_none]|].
    destruct (compute_slash _ _ _ _ _ _ _ _) as [[s1 u] e1] eqn:E. destruct (compute_goods _ _ _ _ _ _ _ _ _ _ E) as (G & Q & U).
    destruct u as [u|]; [|intros [= <- _]; split; [exact G|now apply adds_none]].
    destruct (N.eqb_spec (kc_defer cfg) 0); [contradiction|]. intros H. injection H as <- _. split.
    - destruct G as (G1 & G2 & G3 & G4 & G5 & G6). repeat split; cbn; assumption.
    - exists [USlash (u_val u) (u_own u) (u_others u) reps (u_pay u)]. split; [constructor; [|constructor]; cbn; rewrite U; left|].
      intros e. unfold waiting. cbn. rewrite Q. destruct (N.eqb_spec e act) as [->|N].
      + rewrite lookup_insert. reflexivity.
      + rewrite lookup_insert_ne by auto. now rewrite app_nil_r.
  Qed.
  Lemma offenders_goods era w act : forall os s ev s' ev',
    fold_left (offender1 cfg x era w act) os (s, ev) = (s', ev') ->
    same_goods s s' /\ adds act (map (fun o => o.1.1.1) os) s s'.
  Proof.
    induction os as [|o os IH]; intros s ev s' ev' H; cbn [fold_left] in H;
      [injection H as <- _; split; [apply same_goods_refl|now apply adds_none]|].
    destruct (offender1 _ _ _ _ _ _ o) as [s1 ev1] eqn:E. apply offender_goods in E as [G1 A1]. apply IH in H as [G2 A2].
    split; [exact (same_goods_trans _ _ _ G1 G2)|]. exact (adds_trans _ _ _ _ _ _ A1 A2).
  Qed.
  Lemma report_goods s os i act b s' ev :
    e_act (k_era s) = Some (act, b) -> on_offence cfg x s os i = (s', ev) ->
    same_goods s s' /\ adds act (map (fun o => o.1.1.1) os) s s'.
  Proof.
    intros Ea. unfold on_offence. rewrite Ea.
    destruct (slash_era _ _ _); [|intros [= <- _]; split; [apply same_goods_refl|now apply adds_none]].
    intros H. apply offenders_goods in H as [G A].
    assert (G0 : same_goods s (set_k_stk s match s_first (k_stk s) with None => set_s_first (k_stk s) (Some act) | Some _ => k_stk s end))
      by (destruct (s_first (k_stk s)); repeat split).
    split; [exact (same_goods_trans _ _ _ G0 G)|]. destruct A as (new & F & A). exists new. split; [exact F|].
    intros e. rewrite A. f_equal. now destruct (s_first (k_stk s)).
  Qed.
End cancelled.

Lemma numbers_in k : forall n i, i ∈ numbers n k <-> n <= i /\ i < n + N.of_nat k.
Proof.
  induction k as [|k IH]; intros n i; cbn [numbers]; [rewrite elem_of_nil; lia|].
  rewrite elem_of_cons, IH. lia.
Qed.
Lemma numbers_ascending k : forall n, ascending (numbers n k).
Proof.
  induction k as [|k IH]; intros n; [exact Logic.I|]. cbn [numbers]. destruct k; [exact Logic.I|]. split; [lia|]. exact (IH (n + 1)).
Qed.
Lemma without_all {A} (l : list A) : forall i idx, (forall j, i <= j -> j < i + N.of_nat (length l) -> j ∈ idx) -> without i idx l = [].
Proof.
  induction l as [|a l IH]; intros i idx H; [reflexivity|]. cbn [without length] in *. rewrite bool_decide_eq_true_2 by (apply H; lia).
  apply IH. intros j A1 A2. apply H; lia.
Qed.
Lemma without_some {A} (l r : list A) : forall i idx, (forall j, j ∈ idx -> i + N.of_nat (length l) <= j) ->
  without i idx (l ++ r) = l ++ without (i + N.of_nat (length l)) idx r.
Proof.
  induction l as [|a l IH]; intros i idx H; cbn [without length app] in *; [now rewrite N.add_0_r|].
  rewrite bool_decide_eq_false_2 by (intros B; apply H in B; lia). rewrite IH by (intros j B; apply H in B; lia).
  do 3 f_equal. lia.
Qed.
