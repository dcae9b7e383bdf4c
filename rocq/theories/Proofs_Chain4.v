(** Every delegator the staking pallet remembers once passed the credit pallet. *)
From Verif Require Import Base Balances Model_UserPrivileges.
From Verif Require Import Model_StakingLedger Model_Staking Spec_Staking Spec_Staking2 Proofs_Arith
  Proofs_Staking Proofs_Staking6 Proofs_Staking8 Proofs_Staking9 Proofs_Staking12 Proofs_Staking15 Proofs_Staking16 Proofs_Staking22.
From stdpp Require Import gmap sorting.
Open Scope N_scope.

(** [G] holds of every delegator stored with a candidate, in an exposure or in a
    pending slash. *)
Definition owned (G : N -> Prop) (s : kstate) : Prop :=
  (forall v d, d ∈ cd_dels (cand_of (k_del s) v) -> G d) /\
  (forall k ex, e_stakers (k_era s) !! k = Some ex -> Forall G (x_others ex)) /\
  (forall e u, u ∈ pending s e -> Forall G (u_others u)).
Lemma owned_mono (G G' : N -> Prop) s : (forall d, G d -> G' d) -> owned G s -> owned G' s.
Proof.
  intros M (A & B & C). split; [eauto|]. split; intros; (eapply Forall_impl; [|exact M]); eauto.
Qed.

Section model.
  Context (cfg : kcfg) (G : N -> Prop).

  Lemma path_owned k ls k' x kd :
    dpath k ls k' -> Forall (dlab_ok (x, kd)) ls -> (forall y d, x = Some y -> kx_pass y d = true -> G d) ->
    (forall v d, d ∈ cd_dels (cand_of k v) -> G d) -> forall v d, d ∈ cd_dels (cand_of k' v) -> G d.
  Proof.
    intros P F Hx. induction P as [|k l k1 ls k' M P IH]; intros H; [exact H|].
    apply Forall_cons in F as [F1 F2]. apply IH; [exact F2|]. clear IH P F2.
    assert (Same : d_cand k1 = d_cand k -> forall v d, d ∈ cd_dels (cand_of k1 v) -> G d).
    { intros E v d. unfold cand_of. rewrite E. apply H. }
    assert (Un : forall d vs m, (forall v e, e ∈ dels_in m v -> G e) -> forall v e, e ∈ dels_in (leave d vs m) v -> G e).
    { intros d vs m Hm v e Hin. apply leave_in in Hin as [Hin _]. eauto. }
    destruct M as [k k1 E1 E2|k k1 E1 E2|k k1 E1 E2|k y d vs k1 E|k era d|k y d r o E1 E2|k who ref k1 E|k who].
    - now apply Same.
    - now apply Same.
    - intros v d. rewrite E2. apply H.
    - cbn in F1. injection F1 as -> ->. unfold do_delegate in E. inv_bind E.
      pose proof (Hx y d eq_refl E0) as Hd. injection E as <-. intros v e Hin.
      change (e ∈ dels_in (enter d vs (d_cand (match d_recs k !! d with
        | Some r => set_d_cand (set_d_recs (if dr_on r then k else set_d_active k (sadd32 (d_active k) 1))
            (<[d := DRec vs (Some (default (kx_era y) (dr_since r))) true]> (d_recs (if dr_on r then k else set_d_active k (sadd32 (d_active k) 1)))))
            (leave d (dr_vals r) (d_cand (if dr_on r then k else set_d_active k (sadd32 (d_active k) 1))))
        | None => set_d_count (set_d_active (set_d_recs k (<[d := DRec vs (Some (kx_era y)) true]> (d_recs k))) (sadd32 (d_active k) 1)) (sadd32 (d_count k) 1)
        end))) v) in Hin.
      apply enter_in in Hin as [Hin|[-> _]]; [|exact Hd].
      destruct (d_recs k !! d) as [r|]; [|now apply (H v)].
      cbn [d_cand set_d_cand] in Hin. eapply Un, Hin. destruct (dr_on r); exact H.
    - intros v e. unfold undelegate. destruct (d_recs k !! d) as [r|]; [|apply H]. destruct (dr_on r); [|apply H].
      cbv zeta. match goal with |- e ∈ cd_dels (cand_of ?t v) -> _ => assert (E : d_cand t = leave d (dr_vals r) (d_cand k)) end.
      { destruct (dr_since r) as [e0|]; [destruct (e0 =? era)|]; reflexivity. }
      unfold cand_of at 1. rewrite E. exact (Un _ _ (d_cand k) H v e).
    - apply Same. unfold paid_rec. now destruct (dr_on r).
    - apply Same. unfold set_referer in E. inv_bind E. now injection E as <-.
    - apply Same. unfold unset_referer. now destruct (d_ref k !! who).
  Qed.

  (** ** Pending slashes *)
  Lemma remove_at_sub : forall idx l k l', remove_at l idx k = Some l' -> l' ⊆ l.
  Proof.
    induction idx as [|i idx IH]; intros l k l' H; cbn [remove_at] in H; [injection H as <-; set_solver|].
    destruct (_ <? _); [|discriminate]. apply IH in H. intros u Hu. apply H in Hu. apply elem_of_app in Hu as [Hu|Hu].
    - rewrite <- (take_drop (N.to_nat (sub64 i k)) l). apply elem_of_app. now left.
    - rewrite <- (take_drop (S (N.to_nat (sub64 i k))) l). apply elem_of_app. now right.
  Qed.
  Lemma do_slash_queue x s st v pay s' pay' got ev :
    do_slash cfg x s st v pay = (s', pay', got, ev) -> queue (k_stk s') = queue (k_stk s).
  Proof.
    unfold do_slash. destruct (_ !! st) as [c|]; [|now intros [= <- _ _ _]].
    destruct (_ !! c); [|now intros [= <- _ _ _]]. destruct (slash_ledger _ _ _). destruct (_ =? 0); [now intros [= <- _ _ _]|].
    destruct (cslash _ _ _ _ _) as [[? ?] ?]. intros [= <- _ _ _].
    unfold update_ledger, set_lock, queue. now destruct (_ =? 0).
  Qed.
  Lemma apply_slash_queue x s u s' ev : apply_slash cfg x s u = (s', ev) -> queue (k_stk s') = queue (k_stk s).
  Proof.
    unfold apply_slash. destruct (do_slash _ _ _ _ _ _) as [[[s1 p1] g1] e1] eqn:E. intros [= <- _].
    apply do_slash_queue in E. cbn [k_stk set_k_bank]. now rewrite credit_fold_stk.
  Qed.
  Lemma apply_list_queue x : forall l s s' ev, apply_list cfg x l s = (s', ev) -> queue (k_stk s') = queue (k_stk s).
  Proof.
    induction l as [|u l IH]; intros s s' ev H; cbn [apply_list] in H; [now injection H as <- _|].
    destruct (apply_slash _ _ _ _) as [s1 e1] eqn:E1. destruct (apply_list _ _ l s1) as [s2 e2] eqn:E2. injection H as <- _.
    apply apply_slash_queue in E1. apply IH in E2. congruence.
  Qed.
  Lemma apply_eras_pending x : forall n era s s' ev, apply_eras cfg x n era s = (s', ev) -> forall e, pending s' e ⊆ pending s e.
  Proof.
    induction n as [|n IH]; intros era s s' ev H e; cbn [apply_eras] in H; [injection H as <- _; set_solver|].
    cbv zeta in H. destruct (apply_list _ _ _ _) as [s1 e1] eqn:E1. destruct (apply_eras _ _ n _ s1) as [s2 e2] eqn:E2.
    injection H as <- _. apply apply_list_queue in E1. injection E1 as Q _.
    intros u Hu. apply (IH _ _ _ _ E2) in Hu. unfold pending in *. rewrite Q in Hu. cbn in Hu.
    destruct (decide (e = era)) as [->|Hn]; [rewrite lookup_delete in Hu; now apply elem_of_nil in Hu|].
    now rewrite lookup_delete_ne in Hu by congruence.
  Qed.
  Lemma start_pending x s i s' ev : start_session cfg x s i = (s', ev) -> forall e, pending s' e ⊆ pending s e.
  Proof.
    unfold start_session. destruct (_ !! _); [|intros [= <- _]; set_solver].
    destruct (_ <=? _); [|intros [= <- _]; set_solver].
    unfold start_era, apply_unapplied. cbn zeta. cbn [k_stk set_k_era set_k_stk s_first set_s_in_era].
    destruct (s_first (k_stk s)); [|intros [= <- _]; set_solver].
    destruct (apply_eras _ _ _ _ _) as [s1 e1] eqn:E. intros [= <- _]. exact (apply_eras_pending _ _ _ _ _ _ E).
  Qed.
  Lemma compute_others x s st f ex era w now s' u ev :
    compute_slash x s st f ex era w now = (s', Some u, ev) -> u_others u = x_others ex.
  Proof.
    unfold compute_slash. destruct (_ =? 0); [discriminate|]. destruct (_ <=? _); [discriminate|].
    destruct (fetch_spans _ _ _). destruct (update_span _ _ _ _ _ _) as [[[[[? ?] ?] ?] ?] t].
    destruct (if bool_decide _ then _ else _) as [[[? e'] ?] ?]. now intros [= _ <- _].
  Qed.
  Definition reports (os : list (N * expo * list N * N)) : Prop :=
    forall st ex reps f, (st, ex, reps, f) ∈ os -> Forall G (x_others ex).
  Lemma offender_pending x era w now s ev0 o s' ev' :
    offender1 cfg x era w now (s, ev0) o = (s', ev') -> Forall G (x_others o.1.1.2) ->
    (forall e u, u ∈ pending s e -> Forall G (u_others u)) -> forall e u, u ∈ pending s' e -> Forall G (u_others u).
  Proof.
    destruct o as [[[st ex] reps] f]. cbn [offender1 fst snd]. intros H Ho Hp.
    destruct (bool_decide _); [injection H as <- _; exact Hp|].
    destruct (compute_slash _ _ _ _ _ _ _ _) as [[s2 u] e2] eqn:E2.
    destruct (compute_queue _ _ _ _ _ _ _ _ _ _ _ E2) as (Q & _). injection Q as Q _.
    assert (P2 : forall e u, u ∈ pending s2 e -> Forall G (u_others u)).
    { intros e v. unfold pending. rewrite Q. apply Hp. }
    destruct u as [u|]; [|injection H as <- _; exact P2].
    pose proof (compute_others _ _ _ _ _ _ _ _ _ _ _ E2) as O.
    destruct (_ =? 0).
    - destruct (apply_slash _ _ _ _) as [s3 e3] eqn:E3. injection H as <- _. apply apply_slash_queue in E3. injection E3 as Q3 _.
      intros e v. unfold pending. rewrite Q3. apply P2.
    - injection H as <- _. intros e v. unfold pending. cbn.
      destruct (decide (e = now)) as [->|Hn].
      + rewrite lookup_insert. cbn. unfold id. rewrite elem_of_app, elem_of_list_singleton. intros [Hin| ->]; [now apply (P2 now)|].
        cbn. now rewrite O.
      + rewrite lookup_insert_ne by congruence. apply P2.
  Qed.
  Lemma offenders_pending x era w now : forall os s ev0 s' ev',
    fold_left (offender1 cfg x era w now) os (s, ev0) = (s', ev') -> reports os ->
    (forall e u, u ∈ pending s e -> Forall G (u_others u)) -> forall e u, u ∈ pending s' e -> Forall G (u_others u).
  Proof.
    induction os as [|o os IH]; intros s ev0 s' ev' H R Hp; cbn [fold_left] in H; [injection H as <- _; exact Hp|].
    destruct (offender1 cfg x era w now (s, ev0) o) as [s1 e1] eqn:E1.
    eapply IH; [exact H| |].
    - intros st ex reps f Hin. eapply R. right. exact Hin.
    - eapply offender_pending; [exact E1| |exact Hp]. destruct o as [[[st ex] reps] f]. eapply R. left.
  Qed.
  Lemma offence_pending x s os i s' ev :
    on_offence cfg x s os i = (s', ev) -> reports os ->
    (forall e u, u ∈ pending s e -> Forall G (u_others u)) -> forall e u, u ∈ pending s' e -> Forall G (u_others u).
  Proof.
    unfold on_offence. destruct (e_act (k_era s)) as [[a b]|]; [|intros [= <- _] _; auto].
    destruct (slash_era _ _ _) as [era|]; [|intros [= <- _] _; auto]. cbn zeta. intros H R Hp.
    eapply offenders_pending; [exact H|exact R|]. intros e u. unfold pending. destruct (s_first (k_stk s)); apply Hp.
  Qed.

  (** ** Exposures *)
  Definition exposed (s : kstate) : Prop := forall k ex, e_stakers (k_era s) !! k = Some ex -> Forall G (x_others ex).
  Lemma exposed_sub s s' :
    (forall k ex, e_stakers (k_era s') !! k = Some ex -> e_stakers (k_era s) !! k = Some ex) -> exposed s -> exposed s'.
  Proof. intros H E k ex Hk. eauto. Qed.
  Lemma clear_stakers e a b k ex : e_stakers (clear_eras e a b) !! k = Some ex -> e_stakers e !! k = Some ex.
  Proof. unfold clear_eras. cbn. intros H. now apply map_filter_lookup_Some in H as [H _]. Qed.
  Lemma elect_dels s era s1 o v : elect cfg s era = (s1, o) -> cd_dels (cand_of (k_del s1) v) = cd_dels (cand_of (k_del s) v).
  Proof.
    unfold elect. cbn zeta. destruct (_ <? _); intros [= <- _]; [done|]. cbn [k_del set_k_del set_k_era].
    unfold cand_of. cbn [d_cand set_d_cand].
    match goal with |- context [fold_left _ ?l _] => generalize l end. intros l. generalize (d_cand (k_del s)).
    induction l as [|w l IH]; intros m; [done|]. cbn [fold_left]. rewrite IH.
    destruct (decide (v = w)) as [->|Hn]; [now rewrite lookup_insert|now rewrite lookup_insert_ne by congruence].
  Qed.
  Lemma fold_stakers {A} (era : N) (f : N -> A) l : forall (m : gmap (N * N) A) k y,
    fold_left (fun m v => <[(era, v) := f v]> m) l m !! k = Some y -> m !! k = Some y \/ exists v, y = f v.
  Proof.
    induction l as [|w l IH]; intros m k y H; [now left|]. cbn [fold_left] in H. apply IH in H as [H|H]; [|now right].
    destruct (decide (k = (era, w))) as [->|Hn].
    - rewrite lookup_insert in H. injection H as <-. right. eauto.
    - rewrite lookup_insert_ne in H by congruence. now left.
  Qed.
  Lemma elect_exposed s era s1 o : elect cfg s era = (s1, o) ->
    (forall v d, d ∈ cd_dels (cand_of (k_del s) v) -> G d) -> exposed s -> exposed s1.
  Proof.
    intros H Hc He. pose proof (fun v => elect_dels s era s1 o v H) as D.
    unfold elect in H. cbn zeta in H. destruct (_ <? _); injection H as <- _; [exact He|].
    intros k ex Hk. cbn [k_era set_k_era set_k_del e_stakers set_e_stake set_e_stakers] in Hk.
    apply fold_stakers in Hk as [Hk|[v ->]]; [eauto|]. cbn [x_others].
    destruct (_ <? _); [|constructor]. apply Forall_forall. intros d Hd. apply elem_of_elements in Hd.
    apply (Hc v). rewrite <- (D v). exact Hd.
  Qed.
  Lemma new_era_exposed s i s' ev : new_era cfg s i = (s', ev) ->
    (forall v d, d ∈ cd_dels (cand_of (k_del s) v) -> G d) -> exposed s -> exposed s'.
  Proof.
    unfold new_era. cbn zeta. set (e2 := if _ <=? _ then _ else _). intros H Hc He.
    assert (X : exposed (set_k_era s e2)).
    { apply (exposed_sub s); [|exact He]. intros k ex. unfold e2. destruct (_ <=? _); [intros Hk; now apply clear_stakers in Hk|done]. }
    clearbody e2. destruct (elect cfg (set_k_era s e2) _) as [s1 [l|]] eqn:E; injection H as <- _; eapply elect_exposed in E; eauto.
  Qed.
  Lemma new_session_exposed s i s' ev : new_session cfg s i = (s', ev) ->
    (forall v d, d ∈ cd_dels (cand_of (k_del s) v) -> G d) -> exposed s -> exposed s'.
  Proof.
    unfold new_session. destruct (e_cur (k_era s)) as [c|]; [|apply new_era_exposed].
    destruct (e_force (k_era s)); try apply new_era_exposed.
    - cbv zeta. destruct (_ <=? _); [apply new_era_exposed|now intros [= <- _]].
    - intros H Hc He. eapply new_era_exposed; [exact H|exact Hc|exact He].
    - now intros [= <- _].
  Qed.
  Lemma step_exposed s op s' out : kstep cfg s op = (s', out) ->
    (forall v d, d ∈ cd_dels (cand_of (k_del s) v) -> G d) -> exposed s -> exposed s'.
  Proof.
    intros H Hc He.
    assert (R : forall s1, k_era s1 = k_era s -> exposed s1) by (intros s1 E; unfold exposed; now rewrite E).
    destruct op as [x o c|x| |i|x i|x i|a|x os i|b]; cbn [kstep] in H.
    - destruct (dispatch cfg x s o c) as [[s1 ev]|er|] eqn:E; cbn [settle] in H; injection H as <- <-; [|exact He..].
      apply call_forced in E as [[(f & A & F) B]|(v & -> & B & e & C & A)]; unfold exposed; rewrite A; [exact He|].
      intros k ex Hk. apply clear_stakers in Hk. eauto.
    - destruct (on_initialize cfg x s) as [[s1 ev]|er|] eqn:E; cbn [settle] in H; injection H as <- <-; [|exact He..].
      apply init_pool in E as [_ E]. now apply R.
    - injection H as <- _. unfold on_finalize. destruct (e_act (k_era s)) as [[? []]|]; exact He.
    - destruct (new_session _ _ _) as [s1 ev] eqn:E. cbn in H. injection H as <- <-. eapply new_session_exposed; eauto.
    - destruct (start_session _ _ _ _) as [s1 ev] eqn:E. cbn in H. injection H as <- <-.
      pose proof (start_session_spec cfg _ _ _ _ _ E) as Z. cbv zeta in Z.
      destruct Z as [[-> _]|[_ Z]]; [exact He|]. unfold exposed. rewrite Z. exact He.
    - destruct (end_session _ _ _ _) as [s1 ev] eqn:E. cbn in H. injection H as <- <-. apply end_session_same in E as [_ E]. now apply R.
    - injection H as <- _. unfold note_author. destruct (e_act (k_era s)) as [[? ?]|]; [|exact He]. destruct (default _ _). exact He.
    - destruct (on_offence _ _ _ _ _) as [s1 ev] eqn:E. cbn in H. injection H as <- <-.
      apply on_offence_jolt in E as [[E|(A & E & F)] B]; [now apply R|]. unfold exposed. rewrite E. exact He.
    - injection H as <- _. exact He.
  Qed.

  Lemma step_owned s op s' out : kstep cfg s op = (s', out) ->
    (forall y d, ctx_of op = Some y -> kx_pass y d = true -> G d) ->
    (forall x os i, op = KOffence x os i -> reports os) ->
    owned G s -> owned G s'.
  Proof.
    intros H Hx Hr (A & B & C). split; [|split].
    - destruct (step_del cfg _ _ _ _ H) as (ls & P & F & _). exact (path_owned _ _ _ _ _ P F Hx A).
    - exact (step_exposed _ _ _ _ H A B).
    - assert (Keep : queue (k_stk s') = queue (k_stk s) -> forall e u, u ∈ pending s' e -> Forall G (u_others u)).
      { intros [= Q _] e u. unfold pending. rewrite Q. apply C. }
      destruct op as [x o c|x| |i|x i|x i|a|x os i|b];
        try (apply Keep; eapply step_queue; [exact H|split; [|split]; congruence]).
      + destruct c; try (apply Keep; eapply step_queue; [exact H|split; [|split]; congruence]).
        destruct o; try (apply Keep; eapply step_queue; [exact H|split; [|split]; congruence]).
        cbn [kstep dispatch root] in H. unfold with_stk in H.
        destruct (Model_Staking.cancel (k_stk s) era l) as [k|e|] eqn:E; cbn in H; injection H as <- <-; [|exact C..].
        unfold Model_Staking.cancel in E. repeat match type of E with rbind (ensure _ _) _ = _ => inv_bind E end.
        destruct (remove_at _ _ _) as [l'|] eqn:Er; [|discriminate]. injection E as <-.
        intros e u. unfold pending. cbn. destruct (decide (e = era)) as [->|Hn].
        * rewrite lookup_insert. cbn. unfold id. intros Hu. apply (remove_at_sub _ _ _ _ Er) in Hu. exact (C era u Hu).
        * rewrite lookup_insert_ne by congruence. apply C.
      + cbn [kstep] in H. destruct (start_session _ _ _ _) as [s1 ev] eqn:E. cbn in H. injection H as <- <-.
        intros e u Hu. apply (start_pending _ _ _ _ _ E) in Hu. now apply (C e).
      + cbn [kstep] in H. destruct (on_offence _ _ _ _ _) as [s1 ev] eqn:E. cbn in H. injection H as <- <-.
        eapply offence_pending; [exact E|now eapply Hr|exact C].
  Qed.
  Lemma genesis_owned b p : owned G (kgenesis b p).
  Proof.
    split; [|split].
    - intros v d. unfold cand_of. cbn. rewrite lookup_empty. cbn. set_solver.
    - intros k ex. cbn. now rewrite lookup_empty.
    - intros e u. unfold pending. cbn. rewrite lookup_empty. cbn. set_solver.
  Qed.
End model.
