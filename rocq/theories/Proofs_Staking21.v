(** What dissolving a stake leaves behind, and who delegates to whom. *)
From Verif Require Import Base Balances Model_StakingLedger Model_Staking Spec_Staking Spec_Staking2 Spec_Staking3
  Proofs_Arith Proofs_StakingLedger Proofs_Staking Proofs_Staking2 Proofs_Staking3 Proofs_Staking4
  Proofs_Staking5 Proofs_Staking6 Proofs_Staking8 Proofs_Staking18 Proofs_Staking19 Proofs_Staking20.
From stdpp Require Import gmap sorting.
Open Scope N_scope.

(** Everything still unlocking is due. *)
Lemma consolidate_nil e l : l_unl (consolidate e l) = [] <-> forall ch, ch ∈ l_unl l -> c_era ch <= e.
Proof.
  unfold consolidate. cbn. induction (l_unl l) as [|c r IH]; cbn.
  - split; [intros _ ch Hch; inversion Hch|auto].
  - destruct (N.ltb_spec e (c_era c)).
    + split; [discriminate|]. intros G. specialize (G c ltac:(left)). lia.
    + rewrite IH. split; intros G ch Hch; [|apply G; now right]. apply elem_of_cons in Hch as [->|Hch]; [lia|auto].
Qed.

Section model.
  Context (cfg : kcfg).
  Local Notation ed := (kc_ed cfg).

  Lemma foldr_delete_other (st : N) (l : list span) (m : gmap (N * N) (N * N)) a i :
    a <> st -> foldr (fun p m => delete (st, sn_index p) m) m l !! (a, i) = m !! (a, i).
  Proof. intros Hn. induction l as [|p l IH]; cbn; [auto|]. rewrite lookup_delete_ne by congruence. exact IH. Qed.
  Lemma foldr_delete_in (st : N) (l : list span) (m : gmap (N * N) (N * N)) p :
    p ∈ l -> foldr (fun p m => delete (st, sn_index p) m) m l !! (st, sn_index p) = None.
  Proof.
    induction 1 as [p l|p q l Hin IH]; cbn; [now rewrite lookup_delete|].
    destruct (decide (sn_index q = sn_index p)) as [->|Hn]; [now rewrite lookup_delete|].
    rewrite lookup_delete_ne by congruence. exact IH.
  Qed.
  Lemma unstake_effect x s st n s' :
    linv (view s) -> unstake cfg x s st n = ROk s' ->
    cleared s' st /\ s_spans (k_stk s') !! st = None /\
    (forall sp p, s_spans (k_stk s) !! st = Some sp -> p ∈ spans_iter sp -> s_rec (k_stk s') !! (st, sn_index p) = None) /\
    (forall st', st' <> st -> untouched s s' st').
  Proof.
    intros I H. unfold unstake, kill_stash in H. rewrite clear_stash_spec in H. inv_bind H.
    destruct (s_bonded (k_stk s) !! st) as [c|] eqn:Eb; [|discriminate].
    destruct (_ <=? n) in E; [|discriminate]. cbn in E. injection E as <-. injection H as <-.
    set (k1 := match s_spans (k_stk s) !! st with Some _ => _ | None => _ end).
    assert (B : s_bonded k1 = s_bonded (k_stk s) /\ s_ledger k1 = s_ledger (k_stk s) /\ s_payee k1 = s_payee (k_stk s) /\
      s_valid k1 = s_valid (k_stk s) /\ s_lock k1 = s_lock (k_stk s) /\ s_spans k1 !! st = None /\
      forall a, a <> st -> s_spans k1 !! a = s_spans (k_stk s) !! a /\ forall i, s_rec k1 !! (a, i) = s_rec (k_stk s) !! (a, i)).
    { subst k1. destruct (s_spans (k_stk s) !! st) as [sp|] eqn:Es; cbn.
      - rewrite lookup_delete. repeat split; auto; [apply lookup_delete_ne; congruence|]. intros i. rewrite lookup_delete_ne by congruence. now apply foldr_delete_other.
      - repeat split; auto. }
    destruct B as (B1 & B2 & B3 & B4 & B5 & B6 & B7).
    split; [|split; [|split]].
    - unfold cleared, stake_of, payee_at, stands. cbn. rewrite B1, B3, B4, B5, !lookup_delete.
      repeat split; auto. set_solver.
    - exact B6.
    - intros sp p Es Hin. change (s_rec k1 !! (st, sn_index p) = None). subst k1. rewrite Es. apply (foldr_delete_in st (spans_iter sp)). exact Hin.
    - intros a Ha. destruct (B7 a Ha) as [S R]. unfold untouched, stake_of, payee_at, stands. cbn. rewrite B1, B2, B3, B4, B5.
      rewrite !lookup_delete_ne by congruence. split; [auto|]. split; [|split; [auto|split; [set_solver|auto]]].
      destruct (s_bonded (k_stk s) !! a) as [c'|] eqn:Ea; [|auto]. rewrite lookup_delete_ne; [auto|].
      intros <-. destruct (li_bonded _ I _ _ Eb) as (l & L & L1). destruct (li_bonded _ I _ _ Ea) as (l' & L' & L2).
      cbn in L, L'. congruence.
  Qed.

  Lemma withdraw_cases x s ct n l :
    linv (view s) -> s_ledger (k_stk s) !! ct = Some l ->
    let r := withdraw_unbonded cfg x s ct n in
    (all_due s l /\ l_active l <= ed ->
       if span_count s (l_stash l) <=? n then exists s' ev, r = ROk (s', ev) /\ unstake cfg x s (l_stash l) n = ROk s'
       else r = RErr KIncorrectSpans) /\
    (~ (all_due s l /\ l_active l <= ed) ->
       exists s' ev, r = ROk (s', ev) /\ s_bonded (k_stk s') !! l_stash l = Some ct).
  Proof.
    intros I El. cbn zeta. unfold withdraw_unbonded. rewrite El.
    pose proof (li_ledger _ I _ _ El) as Eb. cbn in Eb.
    set (l1 := match e_cur (k_era s) with None => l | Some e => consolidate e l end).
    assert (A : l_active l1 = l_active l) by (subst l1; destruct (e_cur (k_era s)); auto).
    assert (D : l_unl l1 = [] <-> all_due s l).
    { subst l1. unfold all_due. destruct (e_cur (k_era s)) as [e|].
      - rewrite consolidate_nil. split; [eauto|]. intros [G|(e' & [= <-] & G)]; [rewrite G; intros ch Hch; inversion Hch|auto].
      - split; [auto|]. intros [G|(e' & G & _)]; [auto|discriminate]. }
    rewrite A. destruct (bool_decide (l_unl l1 = []) && (l_active l <=? ed)) eqn:Ek.
    - apply andb_true_iff in Ek as [E1%bool_decide_eq_true E2%N.leb_le]. split; [|tauto]. intros _.
      destruct (N.leb_spec (span_count s (l_stash l)) n).
      + destruct (proj2 (unstake_iff cfg x s (l_stash l) n)) as [s' E]; [split; [unfold bonded; eauto|auto]|].
        rewrite E. cbn. eauto.
      + unfold unstake, kill_stash. rewrite clear_stash_spec, Eb. fold (span_count s (l_stash l)).
        destruct (N.leb_spec (span_count s (l_stash l)) n); [lia|]. reflexivity.
    - split.
      + intros [G1 G2]. exfalso. apply andb_false_iff in Ek as [Ek|Ek]; [apply bool_decide_eq_false in Ek; tauto|apply N.leb_gt in Ek; lia].
      + intros _. eexists _, _. split; [reflexivity|]. destruct (update_ledger_keeps cfg x s ct l1) as (_ & _ & ->). exact Eb.
  Qed.

  (** ** Delegating *)
  (** Without a call that delegates nobody's choice changes, except by vanishing. *)
  Definition fades (k k' : dels) : Prop := forall d r', d_recs k' !! d = Some r' ->
    exists r, d_recs k !! d = Some r /\ dr_vals r' = dr_vals r /\ (dr_on r' = true -> dr_on r = true).
  Lemma fades_refl k k' : d_recs k' = d_recs k -> fades k k'.
  Proof. intros E d r' H. rewrite E in H. eauto. Qed.
  Lemma fades_trans a b c : fades a b -> fades b c -> fades a c.
  Proof.
    intros H G d r' E. destruct (G _ _ E) as (r1 & E1 & V1 & O1). destruct (H _ _ E1) as (r2 & E2 & V2 & O2).
    exists r2. split; [auto|]. split; [congruence|auto].
  Qed.
  Lemma undelegate_fades era k d : fades k (undelegate era k d).
  Proof.
    unfold undelegate. destruct (d_recs k !! d) as [r|] eqn:Er; [|now apply fades_refl].
    destruct (dr_on r) eqn:Eo; [|now apply fades_refl]. cbn zeta.
    assert (G : fades k (set_d_recs k (delete d (d_recs k)))).
    { intros d' r' H. cbn in H. apply lookup_delete_Some in H as [_ H]. eauto. }
    destruct (dr_since r) as [e0|]; [destruct (_ =? _)|]; [exact G| |exact G].
    intros d' r' H. cbn in H. destruct (decide (d = d')) as [<-|Hn].
    - rewrite lookup_insert in H. injection H as <-. exists r. auto.
    - rewrite lookup_insert_ne in H by auto. eauto.
  Qed.
  Lemma fades_path k ls k' x : dpath k ls k' -> Forall (dlab_ok x) ls -> x.2 <> KdJoin -> fades k k'.
  Proof.
    induction 1 as [|k l k1 ls k' H P IH]; intros F X; [now apply fades_refl|]. apply Forall_cons in F as [F1 F2].
    eapply fades_trans; [|now apply IH].
    destruct H as [k k0 R|k k0 R|k k0 R|k y d' vs k0 E|k era d'|k y d' r o R S|k who ref k0 E|k who]; try (now apply fades_refl).
    - cbn in F1. subst x. cbn in X. congruence.
    - apply undelegate_fades.
    - unfold paid_rec. destruct (dr_on r) eqn:Eo; intros d r' H; cbn in H.
      + destruct (decide (d' = d)) as [<-|Hn]; [rewrite lookup_insert in H; injection H as <-; eauto|].
        rewrite lookup_insert_ne in H by auto. eauto.
      + apply lookup_delete_Some in H as [_ H]. eauto.
    - apply fades_refl. unfold set_referer in E. inv_bind E. now injection E as <-.
    - apply fades_refl. unfold unset_referer. now destruct (d_ref k !! who).
  Qed.

  Lemma do_delegate_rec x k d vs k' : do_delegate x k d vs = ROk k' ->
    kx_pass x d = true /\
    d_recs k' = <[d := DRec vs (Some (match d_recs k !! d with Some r => default (kx_era x) (dr_since r) | None => kx_era x end)) true]> (d_recs k).
  Proof.
    unfold do_delegate. intros H. inv_bind H. injection H as <-. split; [auto|].
    destruct (d_recs k !! d) as [r|]; [destruct (dr_on r)|]; reflexivity.
  Qed.
  Lemma do_delegate_iff x k d vs : (exists k', do_delegate x k d vs = ROk k') <-> kx_pass x d = true.
  Proof.
    unfold do_delegate, ensure. destruct (kx_pass x d); cbn; split; eauto; [intros [? ?]; discriminate|discriminate].
  Qed.
  Lemma delegate_iff x s d vs :
    (exists k', delegate cfg x s d vs = ROk k') <->
    ~ stands s d /\ vs <> [] /\ N.of_nat (size (list_to_set vs : gset N)) <= kc_maxdel cfg /\
    (forall v, v ∈ vs -> stands s v) /\ kx_pass x d = true.
  Proof.
    unfold delegate, stands. rewrite <- (do_delegate_iff x (k_del s) d vs). unfold ensure.
    case_bool_decide as H1; cbn; [split; [intros [? ?]; discriminate|tauto]|].
    case_bool_decide as H2; cbn; [split; [intros [? ?]; discriminate|tauto]|].
    destruct (N.leb_spec (N.of_nat (size (list_to_set vs : gset N))) (kc_maxdel cfg)) as [H3|H3]; cbn; [|split; [intros [? ?]; discriminate|lia]].
    case_bool_decide as H4; cbn.
    - split; [|tauto]. intros H. repeat (split; [auto|]); [|auto]. intros v Hv. apply H4. now apply elem_of_list_to_set.
    - split; [intros [? ?]; discriminate|]. intros (_ & _ & _ & G & _). destruct H4. intros v Hv. apply G. now apply elem_of_list_to_set in Hv.
  Qed.
  Lemma delegate_any_valid x s d k : delegate_any cfg x s d = ROk k -> exists v, stands s v /\ do_delegate x (k_del s) d [v] = ROk k.
  Proof.
    unfold delegate_any. intros H. inv_bind H. destruct (_ !! _) as [v|] eqn:Ev; [|discriminate].
    exists v. split; [|auto]. apply elem_of_list_lookup_2 in Ev.
    unfold validators_in_order in Ev. rewrite merge_sort_Permutation in Ev. now apply elem_of_elements in Ev.
  Qed.

  Definition rechosen (s s' : kstate) (op : kop) (d : N) : Prop :=
    may_delegate d op /\ exists vs, chosen s' d = Some vs /\ vs <> [] /\ forall v, v ∈ vs -> stands s v.
  Lemma step_choice s op s' out d :
    kstep cfg s op = (s', out) ->
    (forall r', d_recs (k_del s') !! d = Some r' ->
       exists r, d_recs (k_del s) !! d = Some r /\ dr_vals r' = dr_vals r /\ (dr_on r' = true -> dr_on r = true)) \/
    rechosen s s' op d.
  Proof.
    intros H. pose proof (step_del cfg _ _ _ _ H) as (ls & P & F & _).
    destruct (joins op) eqn:Ej.
    2:{ left. apply (fades_path _ _ _ _ P F). unfold kind_of. cbn. rewrite Ej. destruct op; discriminate. }
    clear P F ls. destruct op as [x o c| | | | | | | |]; try discriminate. cbn [kstep] in H.
    destruct (dispatch cfg x s o c) as [[s1 ev]|er|] eqn:E; cbn [settle] in H; injection H as <- <-; [|left; eauto|left; eauto].
    assert (del : forall w vs k0 k, do_delegate x k0 w vs = ROk k -> d_recs k0 = d_recs (k_del s) -> k_del s1 = k ->
      vs <> [] -> (forall v, v ∈ vs -> stands s v) -> (may_delegate w (KCall x o c)) ->
      (forall r', d_recs (k_del s1) !! d = Some r' ->
       exists r, d_recs (k_del s) !! d = Some r /\ dr_vals r' = dr_vals r /\ (dr_on r' = true -> dr_on r = true)) \/
      rechosen s s1 (KCall x o c) d).
    { intros w vs k0 k D0 Hk <- Hv Hs M. apply do_delegate_rec in D0 as [_ D0]. rewrite Hk in D0.
      destruct (decide (d = w)) as [->|Hn].
      - right. split; [auto|]. exists vs. unfold chosen. rewrite D0, lookup_insert. auto.
      - left. intros r' Er. rewrite D0, lookup_insert_ne in Er by auto. eauto. }
    assert (one : forall s0 v, k_stk s0 = k_stk s -> stands s0 v -> forall v0, v0 ∈ [v] -> stands s v0).
    { intros s0 v Es Sv v0 Hv0. apply elem_of_list_singleton in Hv0 as ->. unfold stands in *. now rewrite <- Es. }
    destruct c; try discriminate; cbn [dispatch] in E; unfold admin, signed, with_del in E; destruct o as [|w|]; try discriminate.
    - inv_bind E. unfold staking_delegate in E. inv_bind E. inv_bind E.
      destruct (kx_level x w); [|discriminate]. inv_bind E.
      destruct (kx_dpr x w !! N.to_nat level); [|discriminate].
      destruct (kx_dpr x w !! N.to_nat n); [|discriminate].
      destruct (transfer_keep _ _ _ _ _); [|discriminate]. inv_bind E. injection E as <- _.
      apply delegate_any_valid in E4 as (v1 & S1 & D1).
      eapply del; [exact D1|reflexivity|reflexivity|discriminate|eapply one; [|exact S1]; reflexivity|].
      exists x, (Signed w), (KStakeDelegate level). split; [auto|]. left. split; [auto|]. right. eauto.
    - inv_bind E. unfold usdt_delegate in E. inv_bind E. inv_bind E. destruct v as [cur rest].
      destruct (0 <? _); [inv_bind E|]; injection E as <- _; [|left; eauto].
      apply delegate_any_valid in E3 as (v1 & S1 & D1).
      eapply del; [exact D1|reflexivity|reflexivity|discriminate|eapply one; [|exact S1]; reflexivity|].
      eexists x, (Signed w), _. split; [reflexivity|]. right. eauto 8.
    - inv_bind E. injection E as <- _. pose proof E0 as E1. unfold delegate in E1.
      repeat match type of E1 with rbind (ensure _ _) _ = _ => inv_bind E1 end.
      destruct (proj1 (delegate_iff x s w l)) as (_ & G1 & _ & G2 & _); [eauto|].
      eapply del; [exact E1|reflexivity|reflexivity|auto|auto|].
      eexists x, (Signed w), _. split; [reflexivity|]. left. eauto.
  Qed.

  (** ** A report in the ongoing span *)
  Lemma compute_kicks x s st f ex era w now s' u ev sp :
    compute_slash x s st f ex era w now = (s', u, ev) ->
    sp = default (spans_new w) (s_spans (k_stk s) !! st) -> sp_start sp <= era ->
    frac_mul f PERBILL (x_total ex) = 0 \/ (default (0, 0) (s_in_era (k_stk s) !! (era, st))).1 < f ->
    st ∉ s_valid (k_stk s').
  Proof.
    intros H Es He Hf.
    assert (Fe : forall k k' sp', s_spans k = s_spans (k_stk s) -> fetch_spans k st w = (k', sp') -> sp' = sp).
    { intros k k' sp' Ek. unfold fetch_spans. rewrite Ek, Es. destruct (_ !! st); now intros [= _ <-]. }
    assert (Kk : forall k e sp d k' e' sp' d', kick x k e st now sp d = (k', e', sp', d') -> st ∉ s_valid k').
    { intros *. unfold kick. destruct (end_span _ _). intros [= <- _ _ _]. cbn. set_solver. }
    assert (Cl : forall k w d sp, s_valid (close_spans k st w d sp) = s_valid k).
    { intros k w0 d sp0. unfold close_spans. destruct d; [|auto]. destruct (prune w0 sp0) as [? [[? ?]|]]; auto. }
    assert (Er : exists t, era_span sp era = Some t /\ sn_index t = sp_index sp).
    { unfold era_span, spans_iter. cbn [List.find]. rewrite contains_open.
      destruct (N.leb_spec (sp_start sp) era); [|lia]. eexists. split; [reflexivity|reflexivity]. }
    destruct Er as (t & Et & Ei).
    unfold compute_slash in H. destruct (N.eqb_spec (frac_mul f PERBILL (x_total ex)) 0) as [Ez|Ez].
    { injection H as <- _ _. unfold kick_out. destruct (fetch_spans (k_stk s) st w) as [k0 sp0] eqn:E0.
      rewrite (Fe _ _ _ eq_refl E0) in *. rewrite Et, Ei, N.eqb_refl.
      destruct (kick x k0 _ _ _ _ _) as [[[k1 e1] sp1] d1] eqn:E1. cbn [k_stk set_k_era set_k_stk]. rewrite Cl. eapply Kk; eauto. }
    destruct Hf as [Hf|Hf]; [contradiction|].
    destruct (N.leb_spec f (default (0, 0) (s_in_era (k_stk s) !! (era, st))).1); [lia|].
    cbn zeta in H. destruct (fetch_spans _ st w) as [k0 sp0] eqn:E0.
    apply Fe in E0; [|reflexivity]. subst sp0.
    destruct (update_span _ _ _ _ _ _) as [[[[[k1 sp1] d1] df] rw] t1] eqn:E1.
    assert (U : t1 = Some (sp_index sp1)).
    { unfold update_span in E1. rewrite Et in E1. destruct (default _ _) as [sl pd]. cbn zeta in E1.
      destruct (_ <? _); [|destruct (_ =? _)]; injection E1 as _ <- _ _ _ <-; cbn; now rewrite Ei. }
    rewrite (bool_decide_eq_true_2 _ U) in H.
    destruct (kick x k1 _ _ _ _ _) as [[[k2 e2] sp2] d2] eqn:E2.
    injection H as <- _ _. cbn [k_stk set_k_era set_k_stk]. rewrite Cl. eapply Kk; eauto.
  Qed.
  (** A report of another account leaves the spans and marks of [st]. *)
  Definition aside (st era : N) (s s' : kstate) : Prop :=
    s_spans (k_stk s') !! st = s_spans (k_stk s) !! st /\
    s_in_era (k_stk s') !! (era, st) = s_in_era (k_stk s) !! (era, st) /\ k_par s' = k_par s.
  Lemma compute_aside x s st0 f ex era w now s' u ev st :
    compute_slash x s st0 f ex era w now = (s', u, ev) -> st <> st0 -> aside st era s s'.
  Proof.
    intros H Hn. split; [|split; [|eapply compute_par; eauto]].
    - assert (Kk : forall k e sp d k' e' sp' d', kick x k e st0 now sp d = (k', e', sp', d') -> s_spans k' = s_spans k).
      { intros *. unfold kick. destruct (end_span _ _). now intros [= <- _ _ _]. }
      assert (Cl : forall k w d sp, s_spans (close_spans k st0 w d sp) !! st = s_spans k !! st).
      { intros k w0 d sp0. unfold close_spans. destruct d; [|auto].
        destruct (prune w0 sp0) as [? [[? ?]|]]; cbn; now rewrite lookup_insert_ne by congruence. }
      assert (Fe : forall k k' sp, fetch_spans k st0 w = (k', sp) -> s_spans k' !! st = s_spans k !! st).
      { intros *. unfold fetch_spans. destruct (_ !! st0); intros [= <- _]; [auto|]. cbn. now rewrite lookup_insert_ne by congruence. }
      assert (Up : forall k sp a b c k1 sp1 d df rw t, update_span k st0 sp a b c = (k1, sp1, d, df, rw, t) -> s_spans k1 = s_spans k).
      { intros *. unfold update_span. destruct (era_span sp b) as [t0|]; [|now intros [= <- _ _ _ _ _]].
        destruct (default _ _). cbn zeta. destruct (if _ <? _ then _ else _) as [[[[? ?] ?] ?] ?].
        intros [= <- _ _ _ _ _]. now destruct (_ || _). }
      unfold compute_slash in H. destruct (_ =? 0).
      { injection H as <- _ _. unfold kick_out. destruct (fetch_spans (k_stk s) st0 w) as [k0 sp] eqn:E0. apply Fe in E0.
        destruct (era_span sp era) as [t|]; [|exact E0]. destruct (_ =? _); [|exact E0].
        destruct (kick x k0 _ _ _ _ _) as [[[k1 e1] sp1] d1] eqn:E1. apply Kk in E1.
        cbn [k_stk set_k_era set_k_stk]. rewrite Cl, E1. exact E0. }
      destruct (_ <=? _); [now injection H as <- _ _|].
      cbn zeta in H. destruct (fetch_spans _ st0 w) as [k0 sp] eqn:E0. apply Fe in E0.
      destruct (update_span _ _ _ _ _ _) as [[[[[k1 sp1] d1] df] rw] t] eqn:E1. apply Up in E1.
      destruct (if bool_decide _ then _ else _) as [[[k2 e2] sp2] d2] eqn:E2 in H.
      injection H as <- _ _. cbn [k_stk set_k_era set_k_stk]. rewrite Cl.
      assert (s_spans k2 = s_spans k1) as ->; [|rewrite E1; exact E0].
      case_bool_decide; [exact (Kk _ _ _ _ _ _ _ _ E2)|]. now injection E2 as <- _ _ _.
    - assert (Kk : forall k e sp d k' e' sp' d', kick x k e st0 now sp d = (k', e', sp', d') -> s_in_era k' = s_in_era k).
      { intros *. unfold kick. destruct (end_span _ _). now intros [= <- _ _ _]. }
      assert (Cl : forall k w d sp, s_in_era (close_spans k st0 w d sp) = s_in_era k).
      { intros k w0 d sp0. unfold close_spans. destruct d; [|auto]. destruct (prune w0 sp0) as [? [[? ?]|]]; auto. }
      assert (Fe : forall k k' sp, fetch_spans k st0 w = (k', sp) -> s_in_era k' = s_in_era k).
      { intros *. unfold fetch_spans. destruct (_ !! st0); now intros [= <- _]. }
      assert (Up : forall k sp a b c k1 sp1 d df rw t, update_span k st0 sp a b c = (k1, sp1, d, df, rw, t) -> s_in_era k1 = s_in_era k).
      { intros *. unfold update_span. destruct (era_span sp b) as [t0|]; [|now intros [= <- _ _ _ _ _]].
        destruct (default _ _). cbn zeta. destruct (if _ <? _ then _ else _) as [[[[? ?] ?] ?] ?].
        intros [= <- _ _ _ _ _]. now destruct (_ || _). }
      unfold compute_slash in H. destruct (_ =? 0).
      { injection H as <- _ _. unfold kick_out. destruct (fetch_spans (k_stk s) st0 w) as [k0 sp] eqn:E0. apply Fe in E0.
        destruct (era_span sp era) as [t|]; [|now rewrite <- E0]. destruct (_ =? _); [|now rewrite <- E0].
        destruct (kick x k0 _ _ _ _ _) as [[[k1 e1] sp1] d1] eqn:E1. apply Kk in E1.
        cbn [k_stk set_k_era set_k_stk]. now rewrite Cl, E1, E0. }
      destruct (_ <=? _); [now injection H as <- _ _|].
      cbn zeta in H. destruct (fetch_spans _ st0 w) as [k0 sp] eqn:E0. apply Fe in E0.
      destruct (update_span _ _ _ _ _ _) as [[[[[k1 sp1] d1] df] rw] t] eqn:E1. apply Up in E1.
      destruct (if bool_decide _ then _ else _) as [[[k2 e2] sp2] d2] eqn:E2 in H.
      injection H as <- _ _. cbn [k_stk set_k_era set_k_stk]. rewrite Cl.
      assert (s_in_era k2 = s_in_era k1) as ->.
      { case_bool_decide; [exact (Kk _ _ _ _ _ _ _ _ E2)|]. now injection E2 as <- _ _ _. }
      rewrite E1, E0. cbn. apply lookup_insert_ne. congruence.
  Qed.
  Lemma offender1_aside x era w now s ev o s' ev' st :
    offender1 cfg x era w now (s, ev) o = (s', ev') -> o.1.1.1 <> st -> aside st era s s'.
  Proof.
    unfold offender1. destruct o as [[[st0 ex] reps] frac]. cbn [fst]. intros H Hn.
    destruct (bool_decide _); [injection H as <- _; repeat split|].
    destruct (compute_slash _ _ _ _ _ _ _ _) as [[s1 u] e1] eqn:E1.
    apply (compute_aside _ _ _ _ _ _ _ _ _ _ _ st) in E1; [|congruence].
    destruct u as [u|]; [|injection H as <- _; auto].
    destruct (_ =? 0); [|injection H as <- _; exact E1].
    destruct (apply_slash _ _ _ _) as [s2 e2] eqn:E2. injection H as <- _.
    pose proof (apply_slash_marks _ _ _ _ _ _ E2) as M. pose proof (apply_slash_par _ _ _ _ _ _ E2) as P.
    apply apply_slash_same in E2 as [E2 _]. destruct E1 as (A & B & C). split; [|split].
    - rewrite (proj1 (E2 st)). exact A.
    - now rewrite M.
    - congruence.
  Qed.
  Lemma offence_kicks x s a st ex reps f c session era s' out :
    kstep cfg s (KOffence x (a ++ (st, ex, reps, f) :: c) session) = (s', out) ->
    (forall o, o ∈ a -> o.1.1.1 <> st) -> st ∉ p_invul (k_par s) ->
    report_era s session = Some era -> in_current cfg s st era ->
    frac_mul f PERBILL (x_total ex) = 0 \/ last_fraction s st era < f ->
    ~ stands s' st.
  Proof.
    cbn [kstep]. destruct (on_offence _ _ _ _ _) as [s1 ev] eqn:E. cbn [settle]. intros [= <- _] Ha Hi Hr Hc Hf.
    unfold on_offence in E. unfold report_era, active_era in Hr. unfold in_current, window, active_era in Hc.
    destruct (e_act (k_era s)) as [[now b]|] eqn:Ea; [|discriminate]. cbn in Hr, Hc. rewrite Hr in E. cbn zeta in E.
    set (w := ssub now (kc_bonding cfg)) in *.
    set (s0 := set_k_stk s _) in E.
    assert (A0 : aside st era s s0) by (subst s0; destruct (s_first (k_stk s)); repeat split).
    rewrite fold_left_app in E.
    destruct (fold_left _ a (s0, [])) as [s2 e2] eqn:E2. cbn [fold_left] in E.
    assert (A2 : aside st era s s2).
    { clear E. clearbody s0. revert s0 A0 E2 Ha. generalize (@nil kev). induction a as [|o a IH]; intros ev0 s0 A0 E2 Ha; cbn [fold_left] in E2.
      - now injection E2 as <- _.
      - destruct (offender1 _ _ _ _ _ _ o) as [s3 e3] eqn:E3. eapply (IH e3 s3); [|exact E2|].
        + apply (offender1_aside _ _ _ _ _ _ _ _ _ st) in E3; [|apply Ha; left].
          destruct A0 as (P & Q & R), E3 as (P' & Q' & R'). repeat split; congruence.
        + intros o0 Ho. apply Ha. now right. }
    destruct (offender1 _ _ _ _ _ (s2, e2) _) as [s3 e3] eqn:E3 in E.
    assert (K3 : st ∉ s_valid (k_stk s3)).
    { destruct A2 as (P & Q & R). unfold offender1 in E3. rewrite R in E3. rewrite bool_decide_eq_false_2 in E3 by auto.
      destruct (compute_slash _ _ _ _ _ _ _ _) as [[s4 u] e4] eqn:E4.
      assert (K4 : st ∉ s_valid (k_stk s4)).
      { eapply compute_kicks; [exact E4|reflexivity| |].
        - rewrite P. destruct (s_spans (k_stk s) !! st) as [sp|]; cbn; [exact Hc|]. subst w. unfold ssub. exact Hc.
        - unfold last_fraction in Hf. now rewrite Q. }
      destruct u as [u|]; [|now injection E3 as <- _].
      destruct (_ =? 0); [|now injection E3 as <- _].
      destruct (apply_slash _ _ _ _) as [s5 e5] eqn:E5. injection E3 as <- _.
      apply apply_slash_keeps in E5 as (V & _ & _). now rewrite V. }
    assert (G : forall os s e s' e', fold_left (offender1 cfg x era w now) os (s, e) = (s', e') -> s_valid (k_stk s') ⊆ s_valid (k_stk s)).
    { clear. induction os as [|o os IH]; intros s e s' e' H; cbn [fold_left] in H; [now injection H as <- _|].
      destruct (offender1 _ _ _ _ _ _ o) as [s1 e1] eqn:E1. apply offender1_chilled in E1 as (_ & _ & E1 & _). etrans; [eapply IH; eauto|exact E1]. }
    apply G in E. unfold stands. intros Hs. apply K3, E, Hs.
  Qed.
End model.
