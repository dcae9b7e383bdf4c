(** Proofs about traffic claims. *)
From Verif Require Import Base Model_CreditAccumulation Spec_CreditAccumulation.
From stdpp Require Import gmap.
From Coq Require Import Lia.
Open Scope N_scope.

Section proofs.
  Context (verify : N -> list N -> list N -> bool) (hash : list N -> list N).
  Notation astep := (astep verify hash).
  Notation ado := (ado verify hash).
  Notation arun := (arun verify hash).
  Notation accepted := (accepted verify hash).

  Lemma add_ok s o nonce sg :
    is_ok (snd (astep s o (AAddCredit nonce sg))) = true ->
    exists who, o = Signed who /\ nonce = default 0 (a_nonce s !! who) /\
      verify_atomos_signature verify hash s nonce sg who = true /\
      ado s (o, AAddCredit nonce sg) =
        AState (<[who := add64 nonce 1]> (a_nonce s)) (a_key s) (a_tmp s) (who :: a_credited s).
  Proof.
    unfold Model_CreditAccumulation.ado, Model_CreditAccumulation.astep; cbn. unfold add_credit_by_traffic.
    destruct o as [|who|]; cbn; try discriminate.
    destruct (N.eqb_spec nonce (default 0 (a_nonce s !! who))) as [E|]; cbn; [|discriminate].
    destruct (verify_atomos_signature verify hash s nonce sg who) eqn:V; cbn; [|discriminate].
    intros _. exists who. rewrite <- E. auto.
  Qed.

  Lemma add_accepts s who sg :
    verify_atomos_signature verify hash s (default 0 (a_nonce s !! who)) sg who = true ->
    is_ok (snd (astep s (Signed who) (AAddCredit (default 0 (a_nonce s !! who)) sg))) = true.
  Proof.
    intros V. unfold Model_CreditAccumulation.astep; cbn. rewrite N.eqb_refl. cbn. now rewrite V.
  Qed.

  Lemma step_fail s x : is_ok (snd (astep s x.1 x.2)) = false -> ado s x = s.
  Proof.
    unfold Model_CreditAccumulation.ado, Model_CreditAccumulation.astep.
    destruct (aexec _ _ _ _ _); cbn; congruence.
  Qed.

  (** One step: the stored nonce counts the accepted claims. *)
  Lemma step_nonce s x who :
    default 0 (a_nonce s !! who) < two64 ->
    let n := default 0 (a_nonce s !! who) in
    let n' := default 0 (a_nonce (ado s x) !! who) in
    (accepted_one verify hash who s x = [] /\ n' = n) \/
    (accepted_one verify hash who s x = [n] /\ n' = (n + 1) mod two64).
  Proof.
    intros Hlt. cbv zeta.
    destruct (is_ok (snd (astep s x.1 x.2))) eqn:Hok.
    2:{ left. split.
        - destruct x as [[|a|] [nonce sg|k|k]]; try reflexivity. unfold accepted_one.
          rewrite Hok. now rewrite andb_false_r.
        - now rewrite step_fail. }
    destruct x as [o [nonce sg|k|k]].
    - cbn [fst snd] in Hok. destruct (add_ok _ _ _ _ Hok) as (a & -> & En & _ & Est).
      unfold accepted_one. cbn [fst snd]. rewrite Hok.
      rewrite Est. cbn [a_nonce].
      destruct (N.eqb_spec a who) as [->|Hne]; cbn [andb].
      + right. rewrite lookup_insert. cbn. subst nonce. auto.
      + left. rewrite lookup_insert_ne by congruence. auto.
    - left. destruct o; cbn in Hok; try discriminate. split; reflexivity.
    - left. destruct o; cbn in Hok; try discriminate. split; reflexivity.
  Qed.

  Lemma add_mod_r a b : (a + b mod two64) mod two64 = (a + b) mod two64.
  Proof. apply N.add_mod_idemp_r. discriminate. Qed.

  Lemma accepted_from h : forall s who n,
    default 0 (a_nonce s !! who) = n mod two64 ->
    accepted who s h =
      map (fun i => (n + N.of_nat i) mod two64) (seq 0 (length (accepted who s h))) /\
    default 0 (a_nonce (arun s h) !! who) = (n + N.of_nat (length (accepted who s h))) mod two64.
  Proof.
    induction h as [|x h IH]; intros s who n Hn.
    - split; [reflexivity|]. cbn. rewrite Hn. f_equal. lia.
    - assert (Hlt : default 0 (a_nonce s !! who) < two64)
        by (rewrite Hn; apply N.mod_lt; discriminate).
      cbn [Spec_CreditAccumulation.accepted].
      change (arun s (x :: h)) with (arun (ado s x) h).
      destruct (step_nonce s x who Hlt) as [[E1 E2]|[E1 E2]]; rewrite E1.
      + cbn [app]. apply IH. now rewrite E2.
      + assert (E3 : default 0 (a_nonce (ado s x) !! who) = (n + 1) mod two64).
        { rewrite E2, Hn. rewrite N.add_comm, add_mod_r. f_equal. lia. }
        destruct (IH (ado s x) who (n + 1) E3) as [A B]. split.
        * cbn [app length seq map]. f_equal.
          { rewrite Hn. f_equal. lia. }
          rewrite A at 1. rewrite <- seq_shift, map_map. apply map_ext. intros i. f_equal. lia.
        * rewrite B. f_equal. cbn [app length]. lia.
  Qed.

  Lemma accepted_counter h who :
    accepted who ainit h = counter (length (accepted who ainit h)).
  Proof.
    destruct (accepted_from h ainit who 0) as [A _].
    { cbn. rewrite lookup_empty. reflexivity. }
    rewrite A at 1. reflexivity.
  Qed.

  Lemma counter_nodup len : N.of_nat len <= two64 -> NoDup (counter len).
  Proof.
    intros H. unfold counter.
    apply (NoDup_fmap_2_strong (fun i => N.of_nat i mod two64)); [|apply NoDup_seq].
    intros i j Hi Hj E. apply elem_of_seq in Hi, Hj.
    rewrite !N.mod_small in E by lia. lia.
  Qed.

  (** Histories split. *)
  Lemma accepted_app h1 h2 s who :
    accepted who s (h1 ++ h2) = accepted who s h1 ++ accepted who (arun s h1) h2.
  Proof.
    revert s. induction h1 as [|x h1 IH]; intros s; [reflexivity|].
    cbn [app Spec_CreditAccumulation.accepted]. rewrite IH, app_assoc. reflexivity.
  Qed.

  (** Credit calls are exactly the accepted claims. *)
  Lemma credited_count h : forall s who,
    length (filter (fun a => a = who) (a_credited (arun s h))) =
    (length (accepted who s h) + length (filter (fun a => a = who) (a_credited s)))%nat.
  Proof.
    induction h as [|x h IH]; intros s who; [reflexivity|].
    change (arun s (x :: h)) with (arun (ado s x) h). rewrite IH.
    cbn [Spec_CreditAccumulation.accepted]. rewrite app_length.
    enough (length (filter (fun a => a = who) (a_credited (ado s x))) =
            (length (accepted_one verify hash who s x) +
             length (filter (fun a => a = who) (a_credited s)))%nat) by lia.
    destruct (is_ok (snd (astep s x.1 x.2))) eqn:Hok.
    2:{ rewrite step_fail by exact Hok.
        destruct x as [[|a|] [nonce sg|k|k]]; try reflexivity. unfold accepted_one.
        rewrite Hok. now rewrite andb_false_r. }
    destruct x as [o [nonce sg|k|k]].
    - cbn [fst snd] in Hok. destruct (add_ok _ _ _ _ Hok) as (a & -> & En & _ & Est).
      unfold accepted_one. cbn [fst snd]. rewrite Hok.
      rewrite Est. cbn [a_credited].
      destruct (N.eqb_spec a who) as [->|Hne]; cbn [andb].
      + rewrite filter_cons_True by reflexivity. reflexivity.
      + rewrite filter_cons_False by exact Hne. reflexivity.
    - destruct o; cbn in Hok; try discriminate. reflexivity.
    - destruct o; cbn in Hok; try discriminate. reflexivity.
  Qed.

  Lemma key_change s x :
    (a_key (ado s x) <> a_key s \/ a_tmp (ado s x) <> a_tmp s) ->
    x.1 = Root /\ exists k, x.2 = ASetKey k \/ x.2 = ASetTmp k.
  Proof.
    intros H. destruct (is_ok (snd (astep s x.1 x.2))) eqn:Hok.
    2:{ rewrite step_fail in H by exact Hok. destruct H; congruence. }
    destruct x as [o [nonce sg|k|k]].
    - cbn [fst snd] in Hok. destruct (add_ok _ _ _ _ Hok) as (a & -> & En & _ & Est).
      rewrite Est in H.
      cbn in H. destruct H; congruence.
    - destruct o; cbn in Hok; try discriminate. eauto.
    - destruct o; cbn in Hok; try discriminate. eauto.
  Qed.
End proofs.

(** The signed bytes determine their parts. *)
Lemma be_bytes_length n w : length (be_bytes n w) = n.
Proof. revert w. induction n; intros; cbn; [reflexivity|]. rewrite app_length, IHn. cbn. lia. Qed.

Lemma be_bytes_inj n w w' :
  w < 256 ^ N.of_nat n -> w' < 256 ^ N.of_nat n -> be_bytes n w = be_bytes n w' -> w = w'.
Proof.
  revert w w'. induction n as [|n IH]; intros w w'.
  - cbn. intros. lia.
  - rewrite Nat2N.inj_succ, N.pow_succ_r'. intros Hw Hw' E. cbn in E.
    apply app_inj_2 in E; [|reflexivity]. destruct E as [E1 E2]. injection E2 as E2.
    apply IH in E1; [|apply N.div_lt_upper_bound; [discriminate|lia]..].
    rewrite (N.div_mod w 256), (N.div_mod w' 256) by discriminate. now rewrite E1, E2.
Qed.

Lemma claim_bytes_inj k n a k' n' a' :
  k < 2 ^ 256 -> k' < 2 ^ 256 -> n < two64 -> n' < two64 -> a < 2 ^ 256 -> a' < 2 ^ 256 ->
  claim_bytes k n a = claim_bytes k' n' a' -> k = k' /\ n = n' /\ a = a'.
Proof.
  intros Hk Hk' Hn Hn' Ha Ha' E. unfold claim_bytes in E.
  apply app_inj_1 in E; [|unfold account_bytes; now rewrite !be_bytes_length].
  destruct E as [E1 E]. apply app_inj_1 in E; [|unfold nonce_bytes; now rewrite !be_bytes_length].
  destruct E as [E2 E3].
  apply be_bytes_inj in E1; [|assumption..]. apply be_bytes_inj in E2; [|assumption..].
  apply be_bytes_inj in E3; [|assumption..]. auto.
Qed.
