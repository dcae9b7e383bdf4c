(** The joined chain seen from the staking pallet: every step is a step of
    Model_Staking.v whose answers are those of the credit pallet. *)
From Verif Require Import Base Balances Model_UserPrivileges.
From Verif Require Model_Credit.
From Verif Require Import Model_StakingLedger Model_Staking Model_Chain Spec_Staking Spec_Chain Proofs_Arith
  Proofs_Credit Proofs_Credit6 Proofs_StakingLedger Proofs_Staking Proofs_Staking6 Proofs_Staking8.
From stdpp Require Import gmap sorting.
Open Scope N_scope.

(** * Undelegating several accounts *)
Definition lower (d : N) (o : option cand) : option cand :=
  let c := default cand0 o in
  if bool_decide (cd_dels c ∖ {[d]} = ∅) then None else Some (Cand (cd_dels c ∖ {[d]}) (cd_era c)).
Lemma leave1_lookup d m v w : leave1 d m v !! w = if decide (v = w) then lower d (m !! w) else m !! w.
Proof.
  unfold leave1, lower. cbn [cd_dels cd_era]. destruct (decide (v = w)) as [->|Hn].
  - destruct (bool_decide _); [apply lookup_delete|apply lookup_insert].
  - destruct (bool_decide _); [now apply lookup_delete_ne|now apply lookup_insert_ne].
Qed.
Lemma lower_comm d e o : lower d (lower e o) = lower e (lower d o).
Proof.
  unfold lower.
  destruct (bool_decide (cd_dels (default cand0 o) ∖ {[e]} = ∅)) eqn:E1;
    destruct (bool_decide (cd_dels (default cand0 o) ∖ {[d]} = ∅)) eqn:E2.
  - apply bool_decide_eq_true in E1, E2. cbn [default cand0 cd_dels cd_era].
    rewrite !bool_decide_true by set_solver. done.
  - apply bool_decide_eq_true in E1. apply bool_decide_eq_false in E2. cbn [default cand0 cd_dels cd_era].
    change (cd_dels (id (Cand (cd_dels (default cand0 o) ∖ {[d]}) (cd_era (default cand0 o)))))
      with (cd_dels (default cand0 o) ∖ {[d]}).
    rewrite !bool_decide_true by set_solver. done.
  - apply bool_decide_eq_true in E2. apply bool_decide_eq_false in E1. cbn [default cand0 cd_dels cd_era].
    change (cd_dels (id (Cand (cd_dels (default cand0 o) ∖ {[e]}) (cd_era (default cand0 o)))))
      with (cd_dels (default cand0 o) ∖ {[e]}).
    rewrite !bool_decide_true by set_solver. done.
  - cbn [default cd_dels cd_era id].
    change (cd_dels (id (Cand (cd_dels (default cand0 o) ∖ {[d]}) (cd_era (default cand0 o)))))
      with (cd_dels (default cand0 o) ∖ {[d]}).
    change (cd_dels (id (Cand (cd_dels (default cand0 o) ∖ {[e]}) (cd_era (default cand0 o)))))
      with (cd_dels (default cand0 o) ∖ {[e]}).
    replace (cd_dels (default cand0 o) ∖ {[e]} ∖ {[d]}) with (cd_dels (default cand0 o) ∖ {[d]} ∖ {[e]}) by set_solver.
    reflexivity.
Qed.
Lemma leave1_comm d e m v w : leave1 d (leave1 e m w) v = leave1 e (leave1 d m v) w.
Proof.
  apply map_eq. intros k. rewrite !leave1_lookup.
  destruct (decide (v = k)), (decide (w = k)); subst; try done. apply lower_comm.
Qed.
Lemma leave_leave1 d e m v l : leave d l (leave1 e m v) = leave1 e (leave d l m) v.
Proof.
  unfold leave. revert m. induction l as [|w l IH]; intros m; cbn [fold_left]; [done|].
  rewrite leave1_comm. apply IH.
Qed.
Lemma leave_comm d e m l l' : leave d l (leave e l' m) = leave e l' (leave d l m).
Proof.
  unfold leave at 2 3. revert m. induction l' as [|w l' IH]; intros m; cbn [fold_left]; [done|].
  rewrite IH. now rewrite leave_leave1.
Qed.

Definition kept (era : N) (r : drec) : option drec :=
  match dr_since r with
  | Some e => if e =? era then None else Some (DRec (dr_vals r) (dr_since r) false)
  | None => None
  end.
Lemma undelegate_eq era k d :
  undelegate era k d =
  match d_recs k !! d with
  | Some r =>
      if dr_on r then
        Dels (match kept era r with Some r' => <[d := r']> (d_recs k) | None => delete d (d_recs k) end)
             (leave d (dr_vals r) (d_cand k))
             (match kept era r with Some _ => d_count k | None => ssub (d_count k) 1 end)
             (ssub (d_active k) 1) (d_per k) (d_cursor k) (d_pool k) (d_black k) (d_ref k) (d_refc k) (d_bal k)
      else k
  | None => k
  end.
Proof.
  unfold undelegate, kept. destruct (d_recs k !! d) as [r|]; [|done]. destruct (dr_on r); [|done].
  destruct (dr_since r) as [e|]; [|done]. now destruct (e =? era).
Qed.
Lemma undelegate_other era k d e : d <> e -> d_recs (undelegate era k d) !! e = d_recs k !! e.
Proof.
  intros H. rewrite undelegate_eq. destruct (d_recs k !! d) as [r|]; [|done]. destruct (dr_on r); [|done].
  cbn. destruct (kept era r); [now rewrite lookup_insert_ne|now rewrite lookup_delete_ne].
Qed.
Lemma undelegate_idem era k d : undelegate era (undelegate era k d) d = undelegate era k d.
Proof.
  rewrite (undelegate_eq era k d). destruct (d_recs k !! d) as [r|] eqn:E.
  2: { rewrite undelegate_eq, E. done. }
  destruct (dr_on r) eqn:O.
  2: { rewrite undelegate_eq, E, O. done. }
  rewrite undelegate_eq. cbn. unfold kept. destruct (dr_since r) as [e|].
  - destruct (e =? era).
    + now rewrite lookup_delete.
    + rewrite lookup_insert. cbn. reflexivity.
  - now rewrite lookup_delete.
Qed.
Lemma undelegate_comm era k d e : undelegate era (undelegate era k d) e = undelegate era (undelegate era k e) d.
Proof.
  destruct (decide (d = e)) as [->|Hn]; [done|].
  rewrite (undelegate_eq era (undelegate era k d)), (undelegate_eq era (undelegate era k e)).
  rewrite !undelegate_other by done.
  rewrite (undelegate_eq era k d), (undelegate_eq era k e).
  destruct (d_recs k !! d) as [r|] eqn:Ed, (d_recs k !! e) as [r'|] eqn:Ee;
    try destruct (dr_on r) eqn:Or; try destruct (dr_on r') eqn:Oe; cbn [d_recs d_cand d_count d_active d_per d_cursor d_pool
      d_black d_ref d_refc d_bal]; rewrite ?Ed, ?Ee, ?Or, ?Oe; try done.
  f_equal.
  - apply map_eq. intros w. destruct (kept era r), (kept era r');
      (destruct (decide (w = d)) as [->|Hwd]; [|destruct (decide (w = e)) as [->|Hwe]]); by simplify_map_eq.
  - apply leave_comm.
  - destruct (kept era r), (kept era r'); unfold ssub; lia.
Qed.

Definition undels (era : N) (l : list N) (k : dels) : dels := fold_left (undelegate era) l k.
Lemma undels_app era a b k : undels era (a ++ b) k = undels era b (undels era a k).
Proof. apply fold_left_app. Qed.
Lemma undels_cons era d l k : undels era (d :: l) k = undels era l (undelegate era k d).
Proof. done. Qed.
Lemma undels_push era l k d : undels era l (undelegate era k d) = undelegate era (undels era l k) d.
Proof.
  unfold undels. revert k. induction l as [|e l IH]; intros k; cbn [fold_left]; [done|].
  rewrite undelegate_comm. apply IH.
Qed.
Lemma undels_in era l k d : d ∈ l -> undels era l (undelegate era k d) = undels era l k.
Proof.
  intros H. apply elem_of_list_split in H as (a & b & ->). rewrite !undels_app, !undels_cons.
  f_equal. rewrite undels_push. apply undelegate_idem.
Qed.
Lemma undels_subset era a l k : (forall d, d ∈ a -> d ∈ l) -> undels era l (undels era a k) = undels era l k.
Proof.
  revert k. induction a as [|d a IH]; intros k H; [done|]. rewrite !undels_cons.
  rewrite IH by (intros e He; apply H; now right). apply undels_in, H. now left.
Qed.
Lemma undels_comm era a l k : undels era l (undels era a k) = undels era a (undels era l k).
Proof.
  revert k. induction a as [|d a IH]; intros k; [done|]. rewrite !undels_cons.
  rewrite IH. f_equal. apply undels_push.
Qed.
(** Who leaves matters, not in which order nor how often. *)
Lemma undels_set era a l k : (forall d, d ∈ a <-> d ∈ l) -> undels era a k = undels era l k.
Proof.
  intros H. rewrite <- (undels_subset era a l k) by (intros d; apply H).
  rewrite undels_comm. symmetry. apply undels_subset. intros d; apply H.
Qed.

(** * Slashing *)
Section refine.
  Context (cfg : jcfg).
  Local Notation cc := (jc_c cfg).
  Local Notation sc := (jc_s cfg).

  Section step.
    Context (x : jctx).
    Local Notation cx := (jx_c x).
    Local Notation now := (Model_Credit.kx_now cx).

    Lemma slash_passing c d c' e :
      Model_Credit.slash_credit cc c cx d None = ROk c' -> passing cfg c' e = true -> passing cfg c e = true.
    Proof.
      intros H. destruct (decide (e = d)) as [->|Hn].
      2: { unfold passing. now rewrite (proj1 (slash_other _ _ _ _ _ _ _ H Hn)). }
      revert H. unfold passing, Model_Credit.slash_credit. cbn [default].
      destruct (_ =? Model_Credit.U64MAX); [intros [= <-]; cbn; now rewrite lookup_delete|].
      destruct (Model_Credit.k_uc c !! d) as [r|] eqn:E.
      - erewrite update_history_eq by (cbn; apply lookup_insert). intros [= <-]. cbn. rewrite lookup_insert.
        unfold Model_Credit.passes. cbn. intros H%N.leb_le. apply N.leb_le.
        unfold ssub in H. destruct r; cbn in *; lia.
      - rewrite update_history_none by exact E. discriminate.
    Qed.

    (** Two runs through the slashes: the joined one and one that knows the outcome. *)
    Definition twin (k0 : dels) (cend : credit) (P : list N) (c : credit) (s so : kstate) : Prop :=
      so = set_k_del s (k_del so) /\
      exists la lb,
        k_del s = undels (cur_era s) la k0 /\ k_del so = undels (cur_era s) lb k0 /\
        (forall d, d ∈ la <-> d ∈ P /\ passing cfg c d = false) /\
        (forall d, d ∈ lb <-> d ∈ P /\ passing cfg cend d = false).
    Lemma twin_end k0 cend P s so : twin k0 cend P cend s so -> s = so.
    Proof.
      intros (E & la & lb & E1 & E2 & H1 & H2). rewrite E, E2.
      rewrite (undels_set _ lb la) by (intros d; now rewrite H1, H2). rewrite <- E1. now destruct s.
    Qed.
    Lemma twin_start k0 cend c s : k_del s = k0 -> twin k0 cend [] c s s.
    Proof.
      intros E. split; [now destruct s|]. exists [], []. split; [now rewrite E|]. split; [now rewrite E|].
      split; intros d; split; [now intros ?%elem_of_nil|now intros [?%elem_of_nil _]|now intros ?%elem_of_nil|
        now intros [?%elem_of_nil _]].
    Qed.
    (** A function that leaves the delegations alone. *)
    Definition aloof (f : kstate -> kstate) : Prop :=
      forall s k, f (set_k_del s k) = set_k_del (f s) k /\ k_del (f s) = k_del s /\ cur_era (f s) = cur_era s.
    Lemma twin_aloof k0 cend P c s so f : aloof f -> twin k0 cend P c s so -> twin k0 cend P c (f s) (f so).
    Proof.
      intros F (E & la & lb & E1 & E2 & H). destruct (F s (k_del so)) as (F1 & F2 & F3). rewrite <- E in F1.
      split.
      - rewrite F1. destruct (f s) as [b st e p k]. reflexivity.
      - exists la, lb. rewrite F2, F3. split; [exact E1|]. split; [|exact H]. rewrite F1. exact E2.
    Qed.
    Lemma twin_slash k0 cend c0 P c s so d c1 :
      Model_Credit.slash_credit cc c cx d None = ROk c1 ->
      twin k0 cend P c s so ->
      twin k0 cend (P ++ [d]) c1 (credit_slash (sctx cfg x c1) s d) (credit_slash (sctx2 cfg x c0 cend) so d).
    Proof.
      intros Hs (E & la & lb & E1 & E2 & H1 & H2).
      unfold credit_slash. change (kx_pass (sctx cfg x c1) d) with (passing cfg c1 d).
      change (kx_pass (sctx2 cfg x c0 cend) d) with (passing cfg cend d).
      assert (Hother : forall e, e <> d -> passing cfg c1 e = passing cfg c e).
      { intros e He. unfold passing. now rewrite (proj1 (slash_other _ _ _ _ _ _ _ Hs He)). }
      set (s' := if passing cfg c1 d then s else undelegate_in s d).
      set (so' := if passing cfg cend d then so else undelegate_in so d).
      assert (Era : cur_era so = cur_era s) by now rewrite E.
      assert (Es : s' = set_k_del s (k_del s')).
      { subst s'. destruct (passing cfg c1 d); [now destruct s|reflexivity]. }
      assert (Eso : so' = set_k_del s (k_del so')).
      { subst so'. destruct (passing cfg cend d); [exact E|]. unfold undelegate_in. rewrite E. reflexivity. }
      split; [rewrite Eso at 1; rewrite Es; reflexivity|].
      exists (if passing cfg c1 d then la else la ++ [d]), (if passing cfg cend d then lb else lb ++ [d]).
      assert (Ce : cur_era s' = cur_era s) by (rewrite Es; reflexivity).
      rewrite Ce. split; [|split; [|split]].
      - subst s'. destruct (passing cfg c1 d); [exact E1|]. rewrite undels_app, <- E1. reflexivity.
      - subst so'. destruct (passing cfg cend d); [exact E2|]. rewrite undels_app, <- E2, <- Era. reflexivity.
      - intros e. rewrite elem_of_app, elem_of_list_singleton. destruct (decide (e = d)) as [->|He].
        + destruct (passing cfg c1 d) eqn:P1.
          * rewrite H1. rewrite (slash_passing _ _ _ d Hs P1). intuition discriminate.
          * rewrite elem_of_app, elem_of_list_singleton. tauto.
        + rewrite (Hother e He). destruct (passing cfg c1 d); rewrite ?elem_of_app, ?elem_of_list_singleton, H1; tauto.
      - intros e. rewrite elem_of_app, elem_of_list_singleton. destruct (decide (e = d)) as [->|He].
        + destruct (passing cfg cend d) eqn:P1; rewrite ?elem_of_app, ?elem_of_list_singleton, H2, P1; intuition discriminate.
        + destruct (passing cfg cend d); rewrite ?elem_of_app, ?elem_of_list_singleton, H2; tauto.
    Qed.

    Lemma jslash_others_twin k0 cend c0 l : forall P c s so c' s',
      jslash_others cfg x l c s = ROk (c', s') -> twin k0 cend P c s so ->
      twin k0 cend (P ++ l) c' s' (fold_left (credit_slash (sctx2 cfg x c0 cend)) l so).
    Proof.
      induction l as [|d l IH]; intros P c s so c' s' H T; cbn [jslash_others] in H.
      - injection H as <- <-. now rewrite app_nil_r.
      - destruct (Model_Credit.slash_credit cc c cx d None) as [c1| |] eqn:E1; cbn [lift rbind] in H; try discriminate.
        cbn [fold_left]. replace (P ++ d :: l) with ((P ++ [d]) ++ l) by now rewrite <- app_assoc.
        eapply IH; [exact H|]. eapply twin_slash; eassumption.
    Qed.

    (** Slashing the stake and paying the reporters. *)
    Lemma do_slash_sctx c c' : do_slash sc (sctx cfg x c) = do_slash sc (sctx cfg x c').
    Proof. reflexivity. Qed.
    Lemma do_slash_del y s v own pay k :
      do_slash sc y (set_k_del s k) v own pay =
        (let '(s1, p, g, ev) := do_slash sc y s v own pay in (set_k_del s1 k, p, g, ev)) /\
      k_del (do_slash sc y s v own pay).1.1.1 = k_del s /\ cur_era (do_slash sc y s v own pay).1.1.1 = cur_era s.
    Proof.
      unfold do_slash. cbn [k_stk set_k_del].
      destruct (s_bonded (k_stk s) !! v) as [ct|]; [|split; [reflexivity|split; reflexivity]].
      destruct (s_ledger (k_stk s) !! ct) as [l|]; [|split; [reflexivity|split; reflexivity]].
      destruct (slash_ledger _ _ _) as [l' v'] eqn:E. cbn [k_bank set_k_del].
      destruct (v' =? 0); [split; [reflexivity|split; reflexivity]|].
      destruct (cslash sc y (k_bank s) v v') as [[b got] missing] eqn:E2. cbn [fst].
      split; [|split; [now rewrite update_ledger_del|unfold cur_era; now rewrite update_ledger_era]].
      unfold update_ledger, set_lock. destruct (_ =? 0); reflexivity.
    Qed.

    Lemma japply_slash_twin k0 cend c0 P c s so u c' s' ev :
      japply_slash cfg x c s u = ROk (c', s', ev) -> twin k0 cend P c s so ->
      exists so', apply_slash sc (sctx2 cfg x c0 cend) so u = (so', ev) /\
        twin k0 cend (P ++ u_others u) c' s' so'.
    Proof.
      intros H T. unfold japply_slash in H. unfold apply_slash.
      set (f := fun s => (do_slash sc (sctx cfg x c) s (u_val u) (u_own u) (u_pay u)).1.1.1).
      assert (F : aloof f).
      { intros t k. subst f. cbn beta. destruct (do_slash_del (sctx cfg x c) t (u_val u) (u_own u) (u_pay u) k) as (D1 & D2 & D3).
        split; [|split; [exact D2|exact D3]]. rewrite D1.
        now destruct (do_slash sc (sctx cfg x c) t (u_val u) (u_own u) (u_pay u)) as [[[t1 p] g] e]. }
      pose proof (twin_aloof k0 cend P c s so f F T) as T1.
      pose proof (proj1 (do_slash_del (sctx cfg x c) s (u_val u) (u_own u) (u_pay u) (k_del so))) as D.
      rewrite <- (proj1 T) in D.
      change (do_slash sc (sctx2 cfg x c0 cend)) with (do_slash sc (sctx cfg x c)).
      subst f. cbn beta in T1. rewrite D in T1 |- *.
      destruct (do_slash sc (sctx cfg x c) s (u_val u) (u_own u) (u_pay u)) as [[[s1 pay] got] e1]. cbn [fst] in T1.
      destruct (jslash_others cfg x (u_others u) c s1) as [[c2 s2]| |] eqn:E2; cbn [rbind] in H; try discriminate.
      cbn [fst snd] in H. injection H as <- <- <-.
      pose proof (jslash_others_twin k0 cend c0 _ _ _ _ _ _ _ E2 T1) as T2.
      eexists. split; [reflexivity|].
      set (so2 := fold_left (credit_slash (sctx2 cfg x c0 cend)) (u_others u) (set_k_del s1 (k_del so))) in *.
      replace (k_bank so2) with (k_bank s2) by (rewrite (proj1 T2); reflexivity).
      apply (twin_aloof _ _ _ _ _ _ (fun t => set_k_bank t (pay_reporters sc (k_bank s2) pay got (u_reps u)))); [|exact T2].
      intros t k. split; [reflexivity|split; reflexivity].
    Qed.
    Lemma japply_list_twin k0 cend c0 l : forall P c s so c' s' ev,
      japply_list cfg x l c s = ROk (c', s', ev) -> twin k0 cend P c s so ->
      exists so' P', apply_list sc (sctx2 cfg x c0 cend) l so = (so', ev) /\ twin k0 cend P' c' s' so'.
    Proof.
      induction l as [|u l IH]; intros P c s so c' s' ev H T; cbn [japply_list apply_list] in *.
      - injection H as <- <- <-. eauto.
      - destruct (japply_slash cfg x c s u) as [[[c1 s1] e1]| |] eqn:E1; cbn [rbind] in H; try discriminate.
        destruct (japply_list cfg x l c1 s1) as [[[c2 s2] e2]| |] eqn:E2; cbn [rbind fst snd] in H; rewrite E2 in H;
          cbn [rbind fst snd] in H; try discriminate.
        injection H as <- <- <-.
        destruct (japply_slash_twin k0 cend c0 _ _ _ _ _ _ _ _ E1 T) as (so1 & A1 & T1). rewrite A1.
        destruct (IH _ _ _ _ _ _ _ E2 T1) as (so2 & P2 & A2 & T2). rewrite A2. eauto.
    Qed.
    Lemma japply_eras_twin k0 cend c0 n : forall era P c s so c' s' ev,
      japply_eras cfg x n era c s = ROk (c', s', ev) -> twin k0 cend P c s so ->
      exists so' P', apply_eras sc (sctx2 cfg x c0 cend) n era so = (so', ev) /\ twin k0 cend P' c' s' so'.
    Proof.
      induction n as [|n IH]; intros era P c s so c' s' ev H T; cbn [japply_eras apply_eras] in *.
      - injection H as <- <- <-. eauto.
      - assert (Ek : k_stk so = k_stk s) by (rewrite (proj1 T); reflexivity).
        rewrite Ek.
        assert (T0 : twin k0 cend P c (set_k_stk s (set_s_unapp (k_stk s) (delete era (s_unapp (k_stk s)))))
          (set_k_stk so (set_s_unapp (k_stk s) (delete era (s_unapp (k_stk s)))))).
        { apply (twin_aloof _ _ _ _ _ _ (fun t => set_k_stk t (set_s_unapp (k_stk s) (delete era (s_unapp (k_stk s)))))); [|exact T].
          intros t k. split; [reflexivity|split; reflexivity]. }
        destruct (japply_list cfg x _ c _) as [[[c1 s1] e1]| |] eqn:E1; cbn [rbind fst snd] in H; try discriminate.
        destruct (japply_eras cfg x n (era + 1) c1 s1) as [[[c2 s2] e2]| |] eqn:E2; cbn [rbind fst snd] in H; try discriminate.
        injection H as <- <- <-.
        destruct (japply_list_twin k0 cend c0 _ _ _ _ _ _ _ _ E1 T0) as (so1 & P1 & A1 & T1). rewrite A1.
        destruct (IH _ _ _ _ _ _ _ _ E2 T1) as (so2 & P2 & A2 & T2). rewrite A2. eauto.
    Qed.

    Lemma japply_unapplied_ok c s active c' s' ev c0 :
      japply_unapplied cfg x c s active = ROk (c', s', ev) ->
      apply_unapplied sc (sctx2 cfg x c0 c') s active = (s', ev).
    Proof.
      unfold japply_unapplied, apply_unapplied. destruct (s_first (k_stk s)) as [first|].
      2: now intros [= <- <- <-].
      destruct (japply_eras cfg x _ first c s) as [[[c1 s1] e1]| |] eqn:E; cbn [rbind fst snd]; try discriminate.
      intros [= <- <- <-].
      destruct (japply_eras_twin (k_del s) c1 c0 _ _ _ _ _ _ _ _ _ E (twin_start _ _ c s eq_refl)) as (so & P & A & T).
      rewrite A. apply twin_end in T as <-. reflexivity.
    Qed.
    Lemma jstart_session_ok c s i c' s' ev c0 :
      jstart_session cfg x c s i = ROk (c', s', ev) -> start_session sc (sctx2 cfg x c0 c') s i = (s', ev).
    Proof.
      unfold jstart_session, start_session.
      destruct (e_start (k_era s) !! _) as [st|]; [|now intros [= <- <- <-]].
      destruct (st <=? i); [|now intros [= <- <- <-]].
      intros H. now apply (japply_unapplied_ok _ _ _ _ _ _ c0) in H.
    Qed.

    Lemma compute_slash_del y s v frac ex era window active k :
      compute_slash y (set_k_del s k) v frac ex era window active =
        (let '(s1, u, e1) := compute_slash y s v frac ex era window active in (set_k_del s1 k, u, e1)) /\
      k_del (compute_slash y s v frac ex era window active).1.1 = k_del s /\
      cur_era (compute_slash y s v frac ex era window active).1.1 = cur_era s.
    Proof.
      assert (Hk : forall k0 e stash now' sp dirty, e_cur (kick y k0 e stash now' sp dirty).1.1.2 = e_cur e).
      { intros. unfold kick. destruct (end_span _ _) as [sp1 ended]. cbn. destruct (kx_disable y _); [|done].
        unfold ensure_new_era. now destruct (e_force e). }
      unfold compute_slash. cbn [k_stk k_par k_era set_k_del]. destruct (_ =? 0).
      - unfold kick_out. cbn [k_stk k_par k_era set_k_del].
        destruct (fetch_spans (k_stk s) v window) as [k0 sp].
        destruct (era_span sp era) as [t|]; [|split; [done|split; done]].
        destruct (_ =? _); [|split; [done|split; done]].
        pose proof (Hk k0 (k_era s) v active sp false) as Hk'.
        destruct (kick y k0 (k_era s) v active sp false) as [[[k1 e1] sp1] dirty]. cbn in Hk'.
        split; [done|split; [done|]]. unfold cur_era. cbn. now rewrite Hk'.
      - destruct (_ <=? _); [split; [done|split; [|]]; now destruct s|].
        destruct (fetch_spans _ v window) as [k0 sp].
        destruct (update_span _ _ _ _ _ _) as [[[[[k1 sp1] dirty] diff] reward] target].
        destruct (bool_decide _).
        + pose proof (Hk k1 (k_era s) v active sp1 dirty) as Hk'.
          destruct (kick y k1 (k_era s) v active sp1 dirty) as [[[k2 e2] sp2] dirty2]. cbn in Hk'.
          split; [done|split; [done|]]. unfold cur_era. cbn. now rewrite Hk'.
        + split; [done|split; done].
    Qed.

    Lemma joffender1_twin k0 cend c0 era window active P c s so o c' s' ev acc :
      joffender1 cfg x era window active c s o = ROk (c', s', ev) -> twin k0 cend P c s so ->
      exists so' P', offender1 sc (sctx2 cfg x c0 cend) era window active (so, acc) o = (so', acc ++ ev) /\
        twin k0 cend P' c' s' so'.
    Proof.
      destruct o as [[[v ex] reps] frac]. intros H T. unfold joffender1 in H. unfold offender1.
      assert (Ep : k_par so = k_par s) by (rewrite (proj1 T); reflexivity). rewrite Ep.
      destruct (bool_decide _). { injection H as <- <- <-. exists so, P. rewrite app_nil_r. auto. }
      set (f := fun t => (compute_slash (sctx cfg x c) t v frac ex era window active).1.1).
      assert (F : aloof f).
      { intros t k. subst f. cbn beta. destruct (compute_slash_del (sctx cfg x c) t v frac ex era window active k) as (D1 & D2 & D3).
        split; [|split; [exact D2|exact D3]]. rewrite D1.
        now destruct (compute_slash (sctx cfg x c) t v frac ex era window active) as [[t1 u] e]. }
      pose proof (twin_aloof k0 cend P c s so f F T) as T1.
      pose proof (proj1 (compute_slash_del (sctx cfg x c) s v frac ex era window active (k_del so))) as D.
      rewrite <- (proj1 T) in D.
      change (compute_slash (sctx2 cfg x c0 cend)) with (compute_slash (sctx cfg x c)).
      subst f. cbn beta in T1. rewrite D in T1 |- *.
      destruct (compute_slash (sctx cfg x c) s v frac ex era window active) as [[s1 u] e1]. cbn [fst] in T1.
      destruct u as [u0|]. 2: { injection H as <- <- <-. exists (set_k_del s1 (k_del so)), P. auto. }
      destruct (kc_defer sc =? 0).
      - destruct (japply_slash cfg x c s1 _) as [[[c2 s2] e2]| |] eqn:E2; cbn [rbind fst snd] in H; try discriminate.
        injection H as <- <- <-.
        destruct (japply_slash_twin k0 cend c0 _ _ _ _ _ _ _ _ E2 T1) as (so2 & A2 & T2). rewrite A2. eauto.
      - injection H as <- <- <-. cbn [k_stk set_k_del]. eexists _, P. split; [reflexivity|].
        apply (twin_aloof _ _ _ _ _ _ (fun t => set_k_stk t (set_s_unapp (k_stk s1) (<[active := default [] (s_unapp (k_stk s1) !! active) ++ [USlash (u_val u0) (u_own u0) (u_others u0) reps (u_pay u0)]]> (s_unapp (k_stk s1)))))); [|exact T1].
        intros t k. split; [reflexivity|split; reflexivity].
    Qed.
    Lemma joffenders_twin k0 cend c0 era window active os : forall P c s so c' s' ev acc,
      joffenders cfg x era window active os c s = ROk (c', s', ev) -> twin k0 cend P c s so ->
      exists so' P', fold_left (offender1 sc (sctx2 cfg x c0 cend) era window active) os (so, acc) = (so', acc ++ ev) /\
        twin k0 cend P' c' s' so'.
    Proof.
      induction os as [|o os IH]; intros P c s so c' s' ev acc H T; cbn [joffenders fold_left] in *.
      - injection H as <- <- <-. rewrite app_nil_r. eauto.
      - destruct (joffender1 cfg x era window active c s o) as [[[c1 s1] e1]| |] eqn:E1; cbn [rbind fst snd] in H; try discriminate.
        destruct (joffenders cfg x era window active os c1 s1) as [[[c2 s2] e2]| |] eqn:E2; cbn [rbind fst snd] in H; try discriminate.
        injection H as <- <- <-.
        destruct (joffender1_twin k0 cend c0 _ _ _ _ _ _ _ _ _ _ _ acc E1 T) as (so1 & P1 & A1 & T1). rewrite A1.
        destruct (IH _ _ _ _ _ _ _ (acc ++ e1) E2 T1) as (so2 & P2 & A2 & T2). rewrite A2, <- app_assoc. eauto.
    Qed.
    Lemma jon_offence_ok c s os i c' s' ev c0 :
      jon_offence cfg x c s os i = ROk (c', s', ev) -> on_offence sc (sctx2 cfg x c0 c') s os i = (s', ev).
    Proof.
      unfold jon_offence, on_offence. destruct (e_act (k_era s)) as [[active b]|]; [|now intros [= <- <- <-]].
      destruct (slash_era _ _ _) as [era|]; [|now intros [= <- <- <-]].
      cbv zeta. match goal with |- joffenders _ _ _ _ _ _ _ ?s0 = _ -> _ => set (t := s0) end.
      intros H.
      destruct (joffenders_twin (k_del t) c' c0 _ _ _ _ _ _ _ _ _ _ _ [] H (twin_start _ _ c t eq_refl)) as (so & P & A & T).
      apply twin_end in T as <-. exact A.
    Qed.

    (** * Payouts *)
    Lemma pay_agree c0 c1 c s d r pool c' s' paid ev :
      agree d c0 c -> jpay_delegator cfg x c s d r pool = ROk (c', s', paid, ev) ->
      pay_delegator sc (sctx2 cfg x c0 c1) s d r pool = (s', paid, ev).
    Proof.
      intros A H. unfold jpay_delegator in H.
      assert (E : pay_delegator sc (sctx2 cfg x c0 c1) s d r pool = pay_delegator sc (sctx cfg x c) s d r pool).
      { unfold pay_delegator. cbn [kx_era sctx sctx2 kx_reward]. destruct (_ =? _); [done|].
        pose proof (get_reward_agree cc cx d c0 c (default (Model_Credit.era_of cc now) (dr_since r))
          (sub32 (Model_Credit.era_of cc now) 1) A) as L.
        destruct (Model_Credit.get_reward cc c0 cx d _ _) as [[? ?]| |],
          (Model_Credit.get_reward cc c cx d _ _) as [[? ?]| |]; cbn in L; try done.
        destruct L as [_ ->]. reflexivity. }
      rewrite E. destruct (pay_delegator sc (sctx cfg x c) s d r pool) as [[s1 p] e].
      destruct (_ =? _); [now injection H as <- <- <- <-|].
      destruct (Model_Credit.get_reward cc c cx d _ _) as [[? ?]| |]; cbn in H; try discriminate.
      now injection H as <- <- <- <-.
    Qed.
    Lemma jpay_delegator_other c s d r pool c' s' paid ev e :
      Model_Credit.kc_step cc <> Model_Credit.U64MAX ->
      jpay_delegator cfg x c s d r pool = ROk (c', s', paid, ev) -> e <> d -> agree e c c'.
    Proof.
      intros Hs H He. unfold jpay_delegator in H.
      destruct (pay_delegator sc (sctx cfg x c) s d r pool) as [[s1 p] e1].
      destruct (_ =? _); [injection H as <- _ _ _; apply agree_refl|].
      destruct (Model_Credit.get_reward cc c cx d _ _) as [[c2 rw]| |] eqn:G; cbn in H; try discriminate.
      injection H as <- _ _ _. eapply get_reward_other; eassumption.
    Qed.
    Lemma jpay_loop_ok c0 c1 n : forall l c s pool last counter c' s' pool' last' counter' ev,
      Model_Credit.kc_step cc <> Model_Credit.U64MAX ->
      NoDup l.*1 -> (forall d, d ∈ l.*1 -> agree d c0 c) ->
      jpay_loop cfg x n l c s pool last counter = ROk (c', s', pool', last', counter', ev) ->
      pay_loop sc (sctx2 cfg x c0 c1) n l s pool last counter = (s', pool', last', counter', ev).
    Proof.
      induction n as [|n IH]; intros l c s pool last counter c' s' pool' last' counter' ev Hs Hn Ha H.
      - cbn in *. now injection H as <- <- <- <- <- <-.
      - destruct l as [|[d r] l]; [cbn in *; now injection H as <- <- <- <- <- <-|].
        cbn [jpay_loop pay_loop] in *.
        destruct (jpay_delegator cfg x c s d r pool) as [[[[c2 s2] paid] e1]| |] eqn:E1; cbn [rbind] in H; try discriminate.
        rewrite (pay_agree c0 c1 c s d r pool c2 s2 paid e1) by (try exact E1; apply Ha; left).
        destruct (_ =? 0); [now injection H as <- <- <- <- <- <-|].
        destruct (pay_referer sc s2 d paid _) as [[s3 paid2] e2].
        destruct (_ =? 0); [now injection H as <- <- <- <- <- <-|].
        destruct (jpay_loop cfg x n l c2 s3 _ _ _) as [[[[[[c4 s4] p4] l4] ct4] e4]| |] eqn:E2; cbn [rbind] in H; try discriminate.
        injection H as <- <- <- <- <- <-. rewrite fmap_cons in Hn, Ha. inversion Hn as [|? ? Hd Hn']; subst.
        erewrite (IH l c2); [reflexivity|exact Hs|exact Hn'| |exact E2].
        intros e He. eapply agree_trans; [apply Ha; now right|].
        eapply jpay_delegator_other; [exact Hs|exact E1|]. intros ->. now apply Hd.
    Qed.
    Lemma jon_initialize_ok c s c' s' ev c1 :
      Model_Credit.kc_step cc <> Model_Credit.U64MAX ->
      jon_initialize cfg x c s = ROk (c', s', ev) -> on_initialize sc (sctx2 cfg x c c1) s = ROk (s', ev).
    Proof.
      intros Hs. unfold jon_initialize.
      destruct ((0 <? cur_era s) && negb (now mod kc_bpe sc =? 0)) eqn:E.
      2: { unfold on_initialize. cbn [kx_block sctx sctx2]. destruct (0 <? cur_era s); cbn [andb] in E.
           - apply negb_false_iff in E. rewrite E. destruct (sub32 (w32 (kc_bpe sc)) 2 =? 0); cbn [rbind]; [discriminate|now intros [= <- <- <-]].
           - now intros [= <- <- <-]. }
      apply andb_true_iff in E as [E1 E2]. apply negb_true_iff in E2.
      unfold on_initialize. rewrite E1. cbn [kx_block sctx sctx2]. rewrite E2. intros H. f_equal.
      unfold jpay_delegators in H. unfold pay_delegators.
      destruct (pool_of sc (k_del s) =? 0); [now injection H as <- <- <-|].
      destruct (jpay_loop cfg x _ _ c s _ _ _) as [[[[[[c4 s4] p4] l4] ct4] e4]| |] eqn:E3; cbn [rbind] in H; try discriminate.
      erewrite jpay_loop_ok; [|exact Hs|apply delegators_nodup|intros d _; apply agree_refl|exact E3].
      now injection H as <- <- <-.
    Qed.

    (** * Calls *)
    Lemma joined_uc c s s' d : Model_Credit.k_uc (joined cfg x c s s' d) = Model_Credit.k_uc c.
    Proof.
      unfold joined. destruct (d_recs (k_del s) !! d); [done|]. destruct (d_recs (k_del s') !! d); [|done].
      unfold Model_Credit.init_delegator_history. now destruct (Model_Credit.k_uc c !! d).
    Qed.
    Lemma sctx2_uc c0 c1 c2 : Model_Credit.k_uc c1 = Model_Credit.k_uc c2 -> sctx2 cfg x c0 c1 = sctx2 cfg x c0 c2.
    Proof. intros E. unfold sctx2, passing. now rewrite E. Qed.
    (** The same call with the amounts Model_Staking.v leaves out dropped. *)
    Definition plain (c : jcall) : kcall :=
      match c with JOf k => k | JForceUndelegate l => KForceUndelegate (map fst l) end.
    Lemma jforce_ok l : forall c s c' s',
      jforce cfg x l c s = ROk (c', s') -> fold_left undelegate_in (map fst l) s = s'.
    Proof.
      induction l as [|[a n] l IH]; intros c s c' s' H; cbn [jforce map fold_left fst] in *; [now injection H|].
      destruct (Model_Credit.slash_credit cc c cx a (Some n)); cbn in H; try discriminate. eapply IH, H.
    Qed.
    Lemma jforce_undelegate_ok c s o l c' s' ev :
      jforce_undelegate cfg x c s o l = ROk (c', s', ev) ->
      dispatch sc (sctx2 cfg x c c') s o (KForceUndelegate (map fst l)) = ROk (s', ev).
    Proof.
      unfold jforce_undelegate, root, dispatch. destruct o; cbn; try discriminate.
      destruct (jforce cfg x l c s) as [[c1 s1]| |] eqn:E; cbn; try discriminate.
      intros [= <- <- <-]. rewrite (jforce_ok _ _ _ _ _ E), map_map. reflexivity.
    Qed.
    Lemma jdispatch_ok c s o call c' s' ev :
      jdispatch cfg x c s o call = ROk (c', s', ev) ->
      dispatch sc (sctx2 cfg x c c') s o (plain call) = ROk (s', ev).
    Proof.
      intros H.
      assert (G : forall c1 k, (r <-? dispatch sc (sctx2 cfg x c c1) s o k ; ROk (c1, r.1, r.2)) = ROk (c', s', ev) ->
        dispatch sc (sctx2 cfg x c c') s o k = ROk (s', ev)).
      { intros c1 k H'. destruct (dispatch sc (sctx2 cfg x c c1) s o k) as [[s1 e1]| |] eqn:E; cbn in H'; try discriminate.
        injection H' as <- <- <-. exact E. }
      assert (Gj : forall c1 w k, (r <-? dispatch sc (sctx2 cfg x c c1) s o k ; ROk (joined cfg x c1 s r.1 w, r.1, r.2)) = ROk (c', s', ev) ->
        dispatch sc (sctx2 cfg x c c') s o k = ROk (s', ev)).
      { intros c1 w k H'. destruct (dispatch sc (sctx2 cfg x c c1) s o k) as [[s1 e1]| |] eqn:E; cbn in H'; try discriminate.
        injection H' as <- <- <-. rewrite (sctx2_uc c _ c1) by apply joined_uc. exact E. }
      destruct call as [k|l]; [|now apply jforce_undelegate_ok].
      unfold jdispatch in H. cbn [plain]. destruct k; try (now apply (G c)).
      - unfold jstaking_delegate, signed in H. destruct o; try discriminate.
        destruct (lift _) as [c1| |] eqn:E1; cbn [rbind] in H; try discriminate. eapply Gj, H.
      - unfold jusdt_delegate in H. destruct (kx_level (sctx cfg x c) who) as [lv|];
          (destruct (lift _) as [c1| |] eqn:E1; cbn [rbind] in H; try discriminate; eapply Gj, H).
      - unfold jdelegate, signed in H. destruct o; try discriminate. eapply (Gj c), H.
      - apply jforce_undelegate_ok in H. rewrite map_map in H. cbn [fst] in H. now rewrite map_id in H.
      - unfold jforce_unstaking in H. destruct (lift _) as [c1| |] eqn:E1; cbn [rbind] in H; try discriminate. eapply G, H.
    Qed.
  End step.

  (** * Steps *)

  (** The step of the staking pallet that a step of the chain amounts to. *)
  Definition sop (j : jstate) (op : jop) : kop :=
    let j' := (jstep cfg j op).1 in
    let x := sctx2 cfg op.1 (j_c j) (j_c j') in
    match (jstep cfg j op).2 with
    | JDone _ =>
        match op.2 with
        | JCall o c => KCall x o (plain c)
        | JInit => KInit x
        | JStartSession i => KStartSession x i
        | JOffence os i => KOffence x os i
        | JFinal => KFinal
        | JNewSession i => KNewSession i
        | JEndSession i => KEndSession x i
        | JAuthor a => KAuthor a
        | JBank b => KBank b
        | JCredit _ _ | JEntry _ => KBank (k_bank (j_s j'))
        end
    | _ => KBank (k_bank (j_s j'))
    end.

  Lemma bank_self s : set_k_bank s (k_bank s) = s.
  Proof. now destruct s. Qed.
  Lemma bank_uc c b : Model_Credit.k_uc (Model_Credit.set_k_bank c b) = Model_Credit.k_uc c.
  Proof. done. Qed.

  (** The banks of both sides agree. *)
  Definition synced (j : jstate) : Prop := Model_Credit.k_bank (j_c j) = k_bank (j_s j).
  Lemma jstep_synced j op : synced j -> synced (jstep cfg j op).1.
  Proof.
    intros Hy. destruct op as [x a]. unfold jstep. cbn [fst snd].
    assert (G : forall r, synced (jsettle j r).1).
    { intros [[[c s] ev]| |]; [reflexivity|exact Hy|exact Hy]. }
    destruct a; cbn [jact_step]; try apply G; try reflexivity.
    now destruct (staking_only e).
  Qed.

  Lemma jstep_staking j op :
    Model_Credit.kc_step cc <> Model_Credit.U64MAX ->
    synced j ->
    kstep sc (j_s j) (sop j op) =
      (j_s (jstep cfg j op).1, KDone (match (jstep cfg j op).2 with JDone ev => ev | _ => [] end)).
  Proof.
    intros Hs Hy. destruct op as [x a]. unfold sop. cbn [fst snd].
    assert (Same : forall j', j_s j' = j_s j -> kstep sc (j_s j) (KBank (k_bank (j_s j'))) = (j_s j', KDone [])).
    { intros j' ->. cbn. now rewrite bank_self. }
    destruct a as [o c|e|o c| | |i|i|i|a|os i|b]; unfold jstep; cbn [fst snd jact_step].
    - unfold csettle. cbn [fst snd j_s j_c]. cbn [k_bank set_k_bank].
      destruct (Model_Credit.kstep cc (j_c j) (jx_c x) o c) as [c' [[]|e|]]; reflexivity.
    - destruct (staking_only e); [now apply Same|]. unfold csettle. cbn [fst snd j_s j_c k_bank set_k_bank].
      destruct (Model_Credit.kentry_step cc (j_c j) (jx_c x) e) as [c' [?|?|]]; reflexivity.
    - destruct (jdispatch cfg x (j_c j) (j_s j) o c) as [[[c' s'] ev]| |] eqn:E; cbn [jsettle fst snd j_s j_c];
        [|now apply Same..].
      apply jdispatch_ok in E. cbn [kstep]. rewrite (sctx2_uc x (j_c j) _ c') by apply bank_uc. rewrite E. reflexivity.
    - destruct (jon_initialize cfg x (j_c j) (j_s j)) as [[[c' s'] ev]| |] eqn:E; cbn [jsettle fst snd j_s j_c];
        [|now apply Same..].
      cbn [kstep]. erewrite jon_initialize_ok by eassumption. reflexivity.
    - reflexivity.
    - unfold splain. cbn [kstep settle fst snd j_s]. destruct (new_session sc (j_s j) i) as [s' ev] eqn:E.
      cbn [settle fst snd kstep]. now rewrite E.
    - destruct (jstart_session cfg x (j_c j) (j_s j) i) as [[[c' s'] ev]| |] eqn:E; cbn [jsettle fst snd j_s j_c];
        [|now apply Same..].
      apply (jstart_session_ok _ _ _ _ _ _ _ (j_c j)) in E. cbn [kstep]. rewrite (sctx2_uc x (j_c j) _ c') by apply bank_uc.
      rewrite E. reflexivity.
    - unfold splain. cbn [kstep settle fst snd j_s j_c].
      destruct (end_session sc (sctx cfg x (j_c j)) (j_s j) i) as [s' ev] eqn:E. cbn [settle fst snd kstep].
      rewrite (sctx2_uc x (j_c j) _ (j_c j)) by apply bank_uc. fold (sctx cfg x (j_c j)). now rewrite E.
    - reflexivity.
    - destruct (jon_offence cfg x (j_c j) (j_s j) os i) as [[[c' s'] ev]| |] eqn:E; cbn [jsettle fst snd j_s j_c];
        [|now apply Same..].
      apply (jon_offence_ok _ _ _ _ _ _ _ _ (j_c j)) in E. cbn [kstep]. rewrite (sctx2_uc x (j_c j) _ c') by apply bank_uc.
      rewrite E. reflexivity.
    - reflexivity.
  Qed.

  (** The history of the staking pallet that a history of the chain amounts to. *)
  Fixpoint sops (j : jstate) (h : list jop) : list kop :=
    match h with [] => [] | op :: r => sop j op :: sops (jstep cfg j op).1 r end.
  Lemma jrun_staking h : forall j,
    Model_Credit.kc_step cc <> Model_Credit.U64MAX -> synced j ->
    krun sc (j_s j) (sops j h) = j_s (jrun cfg j h) /\
    events (kouts sc (j_s j) (sops j h)) = jevents (jouts cfg j h).
  Proof.
    induction h as [|op h IH]; intros j Hs Hy; [done|].
    cbn [sops krun kouts jrun jouts]. rewrite (jstep_staking j op Hs Hy). cbn [fst snd].
    destruct (IH (jstep cfg j op).1 Hs (jstep_synced j op Hy)) as [E1 E2]. split; [exact E1|].
    unfold events, jevents in *. cbn [map concat]. now rewrite E2.
  Qed.
End refine.
