(** When a hook of the joined chain panics. *)
From Verif Require Import Base Balances Model_UserPrivileges.
From Verif Require Model_Credit Spec_Credit.
From Verif Require Import Model_StakingLedger Model_Staking Model_Chain Spec_Staking Spec_Staking2 Spec_Chain Proofs_Arith
  Proofs_Credit Proofs_Credit2 Proofs_Credit3 Proofs_Credit6 Proofs_Credit7 Proofs_Staking Proofs_Staking8 Proofs_Staking10 Proofs_Staking13
  Proofs_Staking15 Proofs_Chain1 Proofs_Chain2 Proofs_Chain3 Proofs_Chain4.
From stdpp Require Import gmap sorting.
Open Scope N_scope.

Global Instance recorded_dec c d : Decision (has_record c d).
Proof. unfold has_record. apply _. Defined.

Section slash.
  Context (cfg : jcfg) (x : jctx).
  Local Notation cc := (jc_c cfg).
  Local Notation sc := (jc_s cfg).
  Local Notation cx := (jx_c x).
  Context (Hstep : Model_Credit.kc_step cc <> Model_Credit.U64MAX).

  Definition same_recs (c c' : credit) : Prop := forall v, has_record c' v <-> has_record c v.
  Lemma same_recs_refl c : same_recs c c.
  Proof. now intros v. Qed.
  Lemma same_recs_trans a b c : same_recs a b -> same_recs b c -> same_recs a c.
  Proof. intros H K v. now rewrite (K v), (H v). Qed.

  Lemma slash_one c d :
    (has_record c d /\ exists c', Model_Credit.slash_credit cc c cx d None = ROk c' /\ same_recs c c') \/
    (~ has_record c d /\ Model_Credit.slash_credit cc c cx d None = RPanic).
  Proof.
    destruct (decide (has_record c d)) as [R|R].
    - left. split; [done|]. destruct (proj2 (slash_goes cc c cx d None Hstep) R) as [c' E]. exists c'. split; [done|].
      intros v. exact (slash_keeps cc c cx d None c' v Hstep E).
    - right. split; [done|]. destruct (slash_result cc c cx d None) as [E|E]; [|done].
      exfalso. apply R, (proj1 (slash_goes cc c cx d None Hstep) E).
  Qed.
  Lemma slash_all l : forall c s,
    (Forall (has_record c) l /\ exists c' s', jslash_others cfg x l c s = ROk (c', s') /\ same_recs c c' /\ k_stk s' = k_stk s) \/
    (~ Forall (has_record c) l /\ jslash_others cfg x l c s = RPanic).
  Proof.
    induction l as [|d l IH]; intros c s; cbn [jslash_others].
    { left. split; [constructor|]. exists c, s. split; [done|]. split; [apply same_recs_refl|done]. }
    destruct (slash_one c d) as [(R & c1 & E & Q)|(R & E)]; rewrite E; cbn [lift rbind].
    - assert (Ek : k_stk (credit_slash (sctx cfg x c1) s d) = k_stk s) by (unfold credit_slash; now destruct (kx_pass _ d)).
      destruct (IH c1 (credit_slash (sctx cfg x c1) s d)) as [(F & c2 & s2 & E2 & Q2 & K2)|(F & E2)]; rewrite E2.
      + left. split.
        * constructor; [done|]. eapply Forall_impl; [exact F|]. intros v. apply Q.
        * exists c2, s2. split; [done|]. split; [eapply same_recs_trans; eassumption|congruence].
      + right. split; [|done]. intros F'. apply F. apply Forall_cons in F' as [_ F']. eapply Forall_impl; [exact F'|]. intros v. apply Q.
    - right. split; [|done]. intros F'. apply Forall_cons in F' as [F' _]. contradiction.
  Qed.
  Lemma slash_apply c s u :
    (Forall (has_record c) (u_others u) /\ exists c' s' ev, japply_slash cfg x c s u = ROk (c', s', ev) /\ same_recs c c' /\
       queue (k_stk s') = queue (k_stk s)) \/
    (~ Forall (has_record c) (u_others u) /\ japply_slash cfg x c s u = RPanic).
  Proof.
    unfold japply_slash. destruct (do_slash _ _ _ _ _ _) as [[[s1 pay] got] e] eqn:Ed. apply do_slash_queue in Ed.
    destruct (slash_all (u_others u) c s1) as [(F & c2 & s2 & E2 & Q2 & K2)|(F & E2)]; rewrite E2; cbn [rbind fst snd].
    - left. split; [done|]. eexists _, _, _. split; [reflexivity|]. split; [done|]. cbn [k_stk set_k_bank]. congruence.
    - right. auto.
  Qed.
  Definition safe (c : credit) (u : uslash) : Prop := Forall (has_record c) (u_others u).
  Lemma safe_same c c' u : same_recs c c' -> safe c' u <-> safe c u.
  Proof. intros Q. unfold safe. rewrite !Forall_forall. split; intros F v Hv; apply Q, F, Hv. Qed.
  Lemma slash_list l : forall c s,
    (Forall (safe c) l /\ exists c' s' ev, japply_list cfg x l c s = ROk (c', s', ev) /\ same_recs c c' /\
       queue (k_stk s') = queue (k_stk s)) \/
    (~ Forall (safe c) l /\ japply_list cfg x l c s = RPanic).
  Proof.
    induction l as [|u l IH]; intros c s; cbn [japply_list].
    { left. split; [constructor|]. exists c, s, []. split; [done|]. split; [apply same_recs_refl|done]. }
    destruct (slash_apply c s u) as [(R & c1 & s1 & e1 & E & Q & K)|(R & E)]; rewrite E; cbn [rbind fst snd].
    - destruct (IH c1 s1) as [(F & c2 & s2 & e2 & E2 & Q2 & K2)|(F & E2)]; rewrite E2; cbn [rbind fst snd].
      + left. split.
        * constructor; [exact R|]. eapply Forall_impl; [exact F|]. intros v. now apply safe_same.
        * eexists _, _, _. split; [reflexivity|]. split; [eapply same_recs_trans; eassumption|congruence].
      + right. split; [|done]. intros F'. apply F. apply Forall_cons in F' as [_ F']. eapply Forall_impl; [exact F'|]. intros v. now apply safe_same.
    - right. split; [|done]. intros F'. apply Forall_cons in F' as [F' _]. contradiction.
  Qed.
  Lemma slash_eras n : forall era c s,
    ((forall e, era <= e < era + N.of_nat n -> Forall (safe c) (pending s e)) /\
     exists c' s' ev, japply_eras cfg x n era c s = ROk (c', s', ev) /\ same_recs c c') \/
    (~ (forall e, era <= e < era + N.of_nat n -> Forall (safe c) (pending s e)) /\ japply_eras cfg x n era c s = RPanic).
  Proof.
    induction n as [|n IH]; intros era c s; cbn [japply_eras].
    { left. split; [intros; lia|]. exists c, s, []. split; [done|]. apply same_recs_refl. }
    cbv zeta. match goal with |- context [japply_list cfg x ?l c ?s0] => destruct (slash_list l c s0) as [(R & c1 & s1 & e1 & E & Q & K)|(R & E)] end;
      rewrite E; cbn [rbind fst snd].
    - injection K as K _.
      assert (P : forall e, era + 1 <= e -> pending s1 e = pending s e).
      { intros e He. unfold pending. rewrite K. cbn. now rewrite lookup_delete_ne by lia. }
      destruct (IH (era + 1) c1 s1) as [(F & c2 & s2 & e2 & E2 & Q2)|(F & E2)]; rewrite E2; cbn [rbind fst snd].
      + left. split.
        * intros e He. destruct (decide (e = era)) as [->|Hn]; [exact R|].
          rewrite <- P by lia. eapply Forall_impl; [apply F; lia|]. intros v. now apply safe_same.
        * eexists _, _, _. split; [reflexivity|]. eapply same_recs_trans; eassumption.
      + right. split; [|done]. intros F'. apply F. intros e He. rewrite P by lia. eapply Forall_impl; [apply F'; lia|]. intros v. now apply safe_same.
    - right. split; [|done]. intros F'. apply R. apply (F' era). lia.
  Qed.

  (** A session starts unless a slash due now names somebody without a record. *)
  Lemma start_result c s i :
    (jstart_session cfg x c s i = RPanic <->
       starts s i /\ exists u d, due_slash sc s (next_era s) u /\ d ∈ u_others u /\ Model_Credit.k_uc c !! d = None) /\
    forall e, jstart_session cfg x c s i <> RErr e.
  Proof.
    unfold jstart_session, starts, due_slash.
    change (match e_act (k_era s) with Some (j, _) => add32 j 1 | None => 0 end) with (next_era s).
    destruct (e_start (k_era s) !! next_era s) as [st|]; [|split; [split; [discriminate|intros [(? & ? & _) _]; discriminate]|discriminate]].
    destruct (N.leb_spec st i) as [L|L]; [|split; [split; [discriminate|intros [(? & [= <-] & ?) _]; lia]|discriminate]].
    unfold japply_unapplied. change (k_stk (begin_era cfg s i)) with (set_s_in_era (k_stk s) (s_in_era (k_stk (begin_era cfg s i)))).
    cbn [s_first set_s_in_era].
    destruct (s_first (k_stk s)) as [first|] eqn:Ef;
      [|split; [split; [discriminate|intros (_ & u & d & (f & e & E & _) & _); discriminate]|discriminate]].
    assert (P : forall e, pending (begin_era cfg s i) e = pending s e) by done.
    match goal with |- context [japply_eras cfg x ?n first c ?s0] =>
      destruct (slash_eras n first c s0) as [(F & c1 & s1 & e1 & E & Q)|(F & E)] end; rewrite E; cbn [rbind fst snd].
    - split; [|discriminate]. split; [discriminate|]. intros (_ & u & d & (f & e & [= <-] & He1 & He2 & Hu) & Hd & Hn).
      unfold ssub in F. assert (Z : Forall (safe c) (pending s e)) by (rewrite <- P; apply F; lia).
      rewrite Forall_forall in Z. specialize (Z u Hu). unfold safe in Z. rewrite Forall_forall in Z. specialize (Z d Hd).
      destruct Z as [r Hr]. congruence.
    - split; [|discriminate]. split; [|done]. intros _. split; [eauto|].
      destruct (decide (Forall (fun e => Forall (safe c) (pending s e))
        (map (fun k => first + N.of_nat k) (seq 0 (N.to_nat (ssub (next_era s) (kc_defer sc) - first)))))) as [A|A].
      { exfalso. apply F. intros e He. rewrite Forall_forall in A. rewrite P. apply A. apply elem_of_list_fmap.
        exists (N.to_nat (e - first)). split; [lia|]. apply elem_of_seq. lia. }
      apply not_Forall_Exists in A; [|apply _]. apply Exists_exists in A as (e & He & A).
      apply elem_of_list_fmap in He as (k & -> & Hk). apply elem_of_seq in Hk.
      cbn in A. apply not_Forall_Exists in A; [|intros v; unfold safe; apply _]. apply Exists_exists in A as (u & Hu & A).
      cbn in A. unfold safe in A. apply not_Forall_Exists in A; [|apply _]. apply Exists_exists in A as (d & Hd & A).
      exists u, d. split; [|split; [done|]].
      + exists first, (first + N.of_nat k). unfold ssub in Hk. split; [done|]. split; [lia|]. split; [lia|done].
      + cbn in A. unfold has_record in A. now apply eq_None_not_Some.
  Qed.
End slash.
