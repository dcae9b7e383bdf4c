(** The sessions and eras of a history: lemmas for properties C136-C139. *)
From Verif Require Import Base Balances Model_StakingLedger Model_Staking Spec_Staking Spec_Staking2 Spec_Staking4
  Proofs_Arith Proofs_StakingLedger Proofs_Staking Proofs_Staking2 Proofs_Staking6 Proofs_Staking12 Proofs_Staking16
  Proofs_Staking17 Proofs_Staking22.
From stdpp Require Import gmap.
Open Scope N_scope.

Lemma cut_keep {A} lim (m m' : gmap N A) k : cut lim m m' -> lim <= k -> m' !! k = m !! k.
Proof. intros C L. destruct (C k) as [H|[_ H]]; [exact H|lia]. Qed.
Lemma cut_none {A} lim (m m' : gmap N A) k : cut lim m m' -> m !! k = None -> m' !! k = None.
Proof. intros C L. destruct (C k) as [H|[H _]]; congruence. Qed.
Lemma upto_snoc n : upto (n + 1) = upto n ++ [n].
Proof. unfold upto. rewrite N2Nat.inj_add, seq_app, map_app. f_equal. change (N.to_nat 1) with 1%nat. cbn [seq map Nat.add]. f_equal. lia. Qed.
Lemma upto_nodup n : NoDup (upto n).
Proof. unfold upto. apply NoDup_fmap_2; [intros ? ?; lia|apply NoDup_seq]. Qed.

(** ** Sessions and eras so far *)
(** The last session is [i], in era [a], which began with session [sa]; [B] has the beginnings of
    all eras and [T] the eras of all sessions. *)
Definition annals (i a sa : N) (B T : list (N * N)) : Prop :=
  map fst T = upto (i + 1) /\ last T = Some (i, a) /\
  (forall e, (0, e) ∈ T -> e = 0) /\
  (forall j e e', (j, e) ∈ T -> (j + 1, e') ∈ T -> e' = e \/ e' = e + 1) /\
  (forall j e, (j, e) ∈ T -> j <= i /\ e <= a) /\
  length B = N.to_nat (a + 1) /\ B !! N.to_nat a = Some (a, sa) /\
  (forall n p, B !! n = Some p -> p.1 = N.of_nat n /\ forall j e, (j, e) ∈ T -> (p.2 <= j <-> p.1 <= e)).
Lemma last_in {A} (l : list A) x : last l = Some x -> x ∈ l.
Proof. rewrite last_lookup. apply elem_of_list_lookup_2. Qed.
Lemma annals_0 : annals 0 0 0 [(0, 0)] [(0, 0)].
Proof.
  split; [reflexivity|]. split; [reflexivity|]. split; [|split; [|split; [|split; [reflexivity|split; [reflexivity|]]]]].
  - intros e H. apply elem_of_list_singleton in H. congruence.
  - intros j e e' H H'. apply elem_of_list_singleton in H. apply elem_of_list_singleton in H'. injection H' as H' ->. lia.
  - intros j e H. apply elem_of_list_singleton in H. injection H as -> ->. lia.
  - intros [|n] p H; [|destruct n; discriminate]. injection H as <-. split; [reflexivity|]. intros j e H.
    apply elem_of_list_singleton in H. injection H as -> ->. reflexivity.
Qed.
Lemma annals_stay i a sa B T : annals i a sa B T -> annals (i + 1) a sa B (T ++ [(i + 1, a)]).
Proof.
  intros (A1 & A2 & A3 & A4 & A5 & A6 & A7 & A8). assert (IN := last_in _ _ A2).
  split; [|split; [|split; [|split; [|split; [|split; [exact A6|split; [exact A7|]]]]]]].
  - rewrite map_app, A1, (upto_snoc (i + 1)). reflexivity.
  - now rewrite last_snoc.
  - intros e H. apply elem_of_app in H as [H|H]; [auto|]. apply elem_of_list_singleton in H. injection H as H ->. lia.
  - intros j e e' H H'. apply elem_of_app in H as [H|H]; apply elem_of_app in H' as [H'|H'].
    + eauto.
    + apply elem_of_list_singleton in H'. injection H' as H' ->. assert (j = i) as -> by lia.
      left. destruct (A5 _ _ H) as [_ L]. clear - H IN A1 L.
      apply elem_of_list_lookup in H as (n & H). apply elem_of_list_lookup in IN as (m & IN).
      assert (n = m).
      { assert (F1 : map fst T !! n = Some i) by (rewrite list_lookup_fmap, H; reflexivity).
        assert (F2 : map fst T !! m = Some i) by (rewrite list_lookup_fmap, IN; reflexivity).
        rewrite A1 in F1, F2. eapply NoDup_lookup; [|exact F1|exact F2]. apply upto_nodup. }
      subst. congruence.
    + apply elem_of_list_singleton in H. injection H as -> ->. destruct (A5 _ _ H'). lia.
    + apply elem_of_list_singleton in H. apply elem_of_list_singleton in H'. injection H as -> ->. injection H' as H' _. lia.
  - intros j e H. apply elem_of_app in H as [H|H]; [destruct (A5 _ _ H); lia|]. apply elem_of_list_singleton in H. injection H as -> ->. lia.
  - intros n p H. destruct (A8 _ _ H) as [Q R]. split; [exact Q|]. intros j e K. apply elem_of_app in K as [K|K]; [auto|].
    apply elem_of_list_singleton in K. injection K as -> ->. apply lookup_lt_Some in H. rewrite A6 in H.
    assert (p.1 <= a) by lia. pose proof (proj2 (R _ _ IN) ltac:(assumption)). lia.
Qed.
Lemma annals_next i a sa B T : annals i a sa B T ->
  annals (i + 1) (a + 1) (i + 1) (B ++ [(a + 1, i + 1)]) (T ++ [(i + 1, a + 1)]).
Proof.
  intros (A1 & A2 & A3 & A4 & A5 & A6 & A7 & A8). assert (IN := last_in _ _ A2).
  split; [|split; [|split; [|split; [|split; [|split; [|split]]]]]].
  - rewrite map_app, A1, (upto_snoc (i + 1)). reflexivity.
  - now rewrite last_snoc.
  - intros e H. apply elem_of_app in H as [H|H]; [auto|]. apply elem_of_list_singleton in H. injection H as H ->. lia.
  - intros j e e' H H'. apply elem_of_app in H as [H|H]; apply elem_of_app in H' as [H'|H'].
    + eauto.
    + apply elem_of_list_singleton in H'. injection H' as H' ->. assert (j = i) as -> by lia.
      right. f_equal. clear - H IN A1.
      apply elem_of_list_lookup in H as (n & H). apply elem_of_list_lookup in IN as (m & IN).
      assert (n = m).
      { assert (F1 : map fst T !! n = Some i) by (rewrite list_lookup_fmap, H; reflexivity).
        assert (F2 : map fst T !! m = Some i) by (rewrite list_lookup_fmap, IN; reflexivity).
        rewrite A1 in F1, F2. eapply NoDup_lookup; [|exact F1|exact F2]. apply upto_nodup. }
      subst. congruence.
    + apply elem_of_list_singleton in H. injection H as -> ->. destruct (A5 _ _ H'). lia.
    + apply elem_of_list_singleton in H. apply elem_of_list_singleton in H'. injection H as -> ->. injection H' as H' _. lia.
  - intros j e H. apply elem_of_app in H as [H|H]; [destruct (A5 _ _ H); lia|]. apply elem_of_list_singleton in H. injection H as -> ->. lia.
  - rewrite app_length, A6. cbn. lia.
  - rewrite lookup_app_r by lia. replace (_ - _)%nat with 0%nat by lia. reflexivity.
  - intros n p H. apply lookup_app_Some in H as [H|[L H]].
    + destruct (A8 _ _ H) as [Q R]. split; [exact Q|]. intros j e K. apply elem_of_app in K as [K|K]; [auto|].
      apply elem_of_list_singleton in K. injection K as -> ->. apply lookup_lt_Some in H. rewrite A6 in H.
      assert (p.1 <= a) by lia. pose proof (proj2 (R _ _ IN) ltac:(assumption)). lia.
    + destruct (n - length B)%nat eqn:En; [|destruct n0; discriminate]. injection H as <-. cbn. split; [lia|].
      intros j e K. apply elem_of_app in K as [K|K].
      * destruct (A5 _ _ K). lia.
      * apply elem_of_list_singleton in K. injection K as -> ->. lia.
Qed.

Section model.
  Context (cfg : kcfg).

  Definition quiet_later (s : kstate) : Prop :=
    forall k, (forall c, e_cur (k_era s) = Some c -> c < k) -> e_start (k_era s) !! k = None.
  Definition live (i : N) (fin ahead : bool) (T : list (N * N)) (s : kstate) : Prop :=
    exists a f sa B,
      e_act (k_era s) = Some (a, f) /\ (fin = true -> f = true) /\ e_start (k_era s) !! a = Some sa /\
      (e_cur (k_era s) = Some a \/
       (ahead = true /\ e_cur (k_era s) = Some (a + 1) /\ e_start (k_era s) !! (a + 1) = Some (i + 1))) /\
      annals i a sa B T /\ e_bonded (k_era s) = drop (N.to_nat (a - kc_bonding cfg)) B.
  Definition timed (g : stage) (T : list (N * N)) (s : kstate) : Prop :=
    quiet_later s /\
    match g with
    | Setup => e_cur (k_era s) = None /\ e_act (k_era s) = None /\ T = [] /\ e_bonded (k_era s) = []
    | Planned0 => e_cur (k_era s) = Some 0 /\ e_start (k_era s) !! 0 = Some 0 /\
                  e_act (k_era s) = None /\ T = [] /\ e_bonded (k_era s) = []
    | Planned1 => e_start (k_era s) !! 0 = Some 0 /\
                  (e_cur (k_era s) = Some 0 \/ e_cur (k_era s) = Some 1 /\ e_start (k_era s) !! 1 = Some 1) /\
                  e_act (k_era s) = None /\ T = [] /\ e_bonded (k_era s) = []
    | Running i f => live i f true T s
    | Ended i => live i true true T s
    | Started i => live i false false T s
    end.

  Lemma timed_genesis b p : timed Setup [] (kgenesis b p).
  Proof. split; [intros k _; reflexivity|]. auto. Qed.

  Lemma later_cut s s' lim : e_cur (k_era s') = e_cur (k_era s) -> cut lim (e_start (k_era s)) (e_start (k_era s')) ->
    quiet_later s -> quiet_later s'.
  Proof. intros E C Q k H. eapply cut_none; [exact C|]. apply Q. rewrite E in H. exact H. Qed.
  Lemma plain_timed s op s' out g g' T :
    kstep cfg s op = (s', out) -> plain op -> advance g op = Some g' -> kept s' -> timed g T s -> timed g' T s'.
  Proof.
    intros H P A K [Q W]. destruct (bystander cfg _ _ _ _ H P) as (B1 & B2 & B3 & B4 & _ & _).
    split; [eapply later_cut; eauto|].
    assert (L : forall i fin fin' ahead, live i fin ahead T s ->
      (op = KFinal \/ fin' = fin \/ fin' = false) -> live i fin' ahead T s').
    { intros i fin fin' ahead (a & f & sa & B & L1 & L2 & L3 & L4 & L5 & L6) F.
      assert (Bd : bound s s' <= a).
      { unfold bound. destruct K as [K _]. destruct L4 as [->|(_ & -> & _)]; cbn; lia. }
      exists a, (match op with KFinal => true | _ => f end), sa, B. split; [|split; [|split; [|split; [|split]]]].
      - rewrite B3, L1. destruct op; reflexivity.
      - intros ->. destruct op; auto; destruct F as [F|[F|F]]; try discriminate; auto.
      - rewrite (cut_keep _ _ _ _ B4) by exact Bd. exact L3.
      - rewrite B1, (cut_keep _ _ _ _ B4) by lia. exact L4.
      - exact L5.
      - rewrite B2. exact L6. }
    assert (Bd : bound s s' <= default 0 (e_cur (k_era s)) - 1) by (destruct K as [K _]; unfold bound; lia).
    assert (G : g = Setup \/ g = Planned0 \/ g = Planned1 -> e_act (k_era s') = e_act (k_era s) -> timed g T s').
    { intros Hg Ha. assert (W' := W). destruct Hg as [->|[->| ->]]; (split; [eapply later_cut; eauto|]).
      - rewrite B1, Ha, B2. exact W'.
      - destruct W' as (W1 & W2 & W3 & W4 & W5). rewrite B1, Ha, B2. rewrite (cut_keep _ _ _ _ B4) by (rewrite W1 in Bd; cbn in Bd; lia). auto.
      - destruct W' as (W1 & W2 & W3 & W4 & W5). rewrite B1, Ha, B2.
        rewrite !(cut_keep _ _ _ _ B4) by (destruct W2 as [W2|[W2 _]]; rewrite W2 in Bd; cbn in Bd; lia). auto. }
    assert (Z : e_act (k_era s) = None -> e_act (k_era s') = e_act (k_era s)) by (intros Z; rewrite B3, Z; now destruct op).
    destruct g as [| | |i f|i|i].
    - assert (g' = Setup) as -> by (destruct op; cbn in A; congruence || contradiction P).
      destruct W as (W1 & W2 & W3 & W4). apply G; auto.
    - assert (g' = Planned0) as -> by (destruct op; cbn in A; congruence || contradiction P).
      destruct W as (W1 & W2 & W3 & W4 & W5). apply G; auto.
    - assert (g' = Planned1) as -> by (destruct op; cbn in A; congruence || contradiction P).
      destruct W as (W1 & W2 & W3 & W4 & W5). apply G; auto.
    - destruct op; cbn in A; try contradiction P; try (injection A as <-; eapply L; [exact W|]; auto; fail).
      destruct f; [|discriminate]. destruct (_ =? _) eqn:E; [|discriminate]. injection A as <-. eapply L; [exact W|auto].
    - destruct op; cbn in A; try contradiction P; try discriminate; injection A as <-; eapply L; try exact W; auto.
    - destruct op; cbn in A; try contradiction P; try discriminate; injection A as <-; eapply L; try exact W; auto.
  Qed.

  Lemma new_timed s i s' ev g g' T :
    new_session cfg s i = (s', ev) -> advance g (KNewSession i) = Some g' -> fits cfg s -> kept s -> timed g T s -> timed g' T s'.
  Proof.
    intros H A F K [Q W]. destruct (new_session_spec cfg _ _ _ _ H) as (B1 & B2 & _ & N).
    destruct F as (_ & _ & F & _). unfold cur_era in F.
    assert (N' : (s' = s /\ exists c, e_cur (k_era s) = Some c) \/
      (e_cur (k_era s') = Some (planned s) /\
       (forall k, planned s <= k + 1 -> e_start (k_era s') !! k = (<[planned s := i]> (e_start (k_era s))) !! k) /\ quiet_later s')).
    { destruct N as [(N1 & _ & c & N2 & _)|(N1 & _ & N2)]; [left; eauto|right]. split; [auto|].
      destruct N2 as [N2 _]; [auto| |].
      { unfold planned. destruct (e_cur (k_era s)) as [c|]; [|reflexivity]. cbn in F. unfold two32 in *. rewrite add32_exact; unfold two32; lia. }
      split; [intros k Hk; apply (cut_keep _ _ _ _ N2); lia|]. intros k Hk. eapply cut_none; [exact N2|].
      specialize (Hk _ N1). rewrite lookup_insert_ne by lia. apply Q. intros c Hc. unfold planned in Hk. rewrite Hc in *. cbn in F.
      rewrite add32_exact in Hk by lia. lia. }
    clear N H. destruct g as [| | |j f|j|j]; cbn in A; try discriminate A.
    - destruct (N.eqb_spec i 0) as [->|]; [|discriminate]. injection A as <-. destruct W as (W1 & W2 & W3 & W4).
      destruct N' as [(_ & c & N)|(N1 & N2 & N3)]; [congruence|]. split; [exact N3|].
      unfold planned in *. rewrite W1 in *. rewrite N2 by lia. rewrite lookup_insert. rewrite B1, B2. auto.
    - destruct (N.eqb_spec i 1) as [->|]; [|discriminate]. injection A as <-. destruct W as (W1 & W2 & W3 & W4 & W5).
      destruct N' as [(-> & _)|(N1 & N2 & N3)]; [split; [exact Q|]; auto 10|]. split; [exact N3|].
      unfold planned in *. rewrite W1 in *. rewrite add32_exact in * by (unfold two32; lia). cbn [N.add] in *.
      rewrite !N2 by lia. rewrite lookup_insert, lookup_insert_ne by lia. rewrite B1, B2. auto 10.
    - destruct (N.eqb_spec i (j + 1)) as [->|]; [|discriminate]. injection A as <-.
      destruct W as (a & f & sa & B & L1 & L2 & L3 & L4 & L5 & L6). destruct L4 as [L4|[L4 _]]; [|discriminate].
      destruct N' as [(-> & _)|(N1 & N2 & N3)].
      + split; [exact Q|]. exists a, f, sa, B. auto 10.
      + split; [exact N3|]. unfold planned in *. rewrite L4 in *. cbn in F. rewrite add32_exact in * by lia.
        exists a, f, sa, B. rewrite B1, B2, !N2 by lia. rewrite lookup_insert, lookup_insert_ne by lia. auto 10.
  Qed.

  Lemma leading_bonded a (B : list (N * N)) sess :
    (forall n p, B !! n = Some p -> p.1 = N.of_nat n) -> length B = N.to_nat (a + 1) ->
    let b := drop (N.to_nat (a - kc_bonding cfg)) B ++ [(a + 1, sess)] in
    drop (if kc_bonding cfg <? a + 1 then leading (a + 1 - kc_bonding cfg) b else 0%nat) b =
    drop (N.to_nat (a + 1 - kc_bonding cfg)) (B ++ [(a + 1, sess)]).
  Proof.
    intros HB Hl b. assert (Eb : b = drop (N.to_nat (a - kc_bonding cfg)) (B ++ [(a + 1, sess)])).
    { unfold b. rewrite drop_app_le by lia. auto. }
    assert (HB' : forall n p, (B ++ [(a + 1, sess)]) !! n = Some p -> p.1 = N.of_nat n).
    { intros n p H. apply lookup_app_Some in H as [H|[L H]]; [auto|]. destruct (n - length B)%nat eqn:E; [|destruct n0; discriminate].
      injection H as <-. cbn. lia. }
    assert (Hl' : length (B ++ [(a + 1, sess)]) = N.to_nat (a + 2)) by (rewrite app_length, Hl; cbn; lia).
    clearbody b. subst b. generalize dependent (B ++ [(a + 1, sess)]). clear. intros B HB Hl.
    destruct (N.ltb_spec (kc_bonding cfg) (a + 1)) as [L|L].
    - assert (E : leading (a + 1 - kc_bonding cfg) (drop (N.to_nat (a - kc_bonding cfg)) B) = 1%nat).
      { destruct (B !! N.to_nat (a - kc_bonding cfg)) as [p|] eqn:E1; [|apply lookup_ge_None in E1; lia].
        destruct (B !! S (N.to_nat (a - kc_bonding cfg))) as [q|] eqn:E2; [|apply lookup_ge_None in E2; lia].
        rewrite (drop_S _ _ _ E1), (drop_S _ _ _ E2). apply HB in E1, E2. cbn [leading].
        rewrite (proj2 (N.ltb_lt _ _)) by lia. rewrite (proj2 (N.ltb_ge _ _)) by lia. reflexivity. }
      rewrite E, drop_drop. f_equal. lia.
    - replace (N.to_nat (a - kc_bonding cfg)) with 0%nat by lia. replace (N.to_nat (a + 1 - kc_bonding cfg)) with 0%nat by lia. reflexivity.
  Qed.
  Lemma start_timed s x i s' ev g g' T :
    start_session cfg x s i = (s', ev) -> advance g (KStartSession x i) = Some g' -> fits cfg s -> timed g T s ->
    timed g' (T ++ opens (KStartSession x i) s') s'.
  Proof.
    intros H A F [Q W]. apply start_session_spec in H. cbn zeta in H. destruct F as (_ & _ & _ & F).
    destruct g as [| | |j f|j|j]; cbn in A; try discriminate A.
    - destruct (N.eqb_spec i 0) as [->|]; [|discriminate]. injection A as <-. destruct W as (W1 & W2 & W3 & -> & W5).
      unfold coming in H. rewrite W3, W1, W5 in H. destruct H as [[_ H]|[_ H]]; [specialize (H 0 eq_refl); lia|].
      assert (E : drop (if kc_bonding cfg <? 0 then leading (0 - kc_bonding cfg) ([] ++ [(0, 0)]) else 0%nat) ([] ++ [(0, 0)]) = [(0, 0)]).
      { destruct (N.ltb_spec (kc_bonding cfg) 0); [lia|reflexivity]. }
      rewrite E in H. split; [intros k Hk; rewrite H in *; cbn in *; apply Q; auto|].
      exists 0, false, 0, [(0, 0)]. unfold opens, active_era. rewrite H. cbn. split; [auto|]. split; [discriminate|]. split; [auto|].
      split; [destruct W2 as [W2|[W2 W6]]; auto 10|]. split; [apply annals_0|].
      replace (N.to_nat (0 - kc_bonding cfg)) with 0%nat by lia. reflexivity.
    - destruct (N.eqb_spec i (j + 1)) as [->|]; [|discriminate]. injection A as <-.
      destruct W as (a & f & sa & B & L1 & L2 & L3 & L4 & L5 & L6). rewrite L1 in F.
      unfold coming in H. rewrite L1 in H. rewrite !add32_exact in H by lia.
      destruct L4 as [L4|(_ & L4 & L7)].
      + assert (En : e_start (k_era s) !! (a + 1) = None) by (apply Q; rewrite L4; intros ? [= <-]; lia).
        rewrite En in H. destruct H as [[-> _]|[(k & H & _) _]]; [|discriminate].
        split; [exact Q|]. exists a, f, sa, B. unfold opens, active_era. rewrite L1. cbn. split; [auto|]. split; [discriminate|]. split; [auto|].
        split; [auto|]. split; [|exact L6]. now apply annals_stay.
      + rewrite L7 in H. destruct H as [[_ H]|[_ H]]; [specialize (H _ eq_refl); lia|].
        assert (L5' := L5). destruct L5' as (_ & _ & _ & _ & _ & A6 & _ & A8).
        assert (HB : forall n p, B !! n = Some p -> p.1 = N.of_nat n) by (intros n p Hp; apply (A8 _ _ Hp)).
        rewrite L6 in H. rewrite (leading_bonded a B (j + 1) HB A6) in H.
        split; [intros k Hk; rewrite H in *; cbn in *; apply Q; auto|].
        exists (a + 1), false, (j + 1), (B ++ [(a + 1, j + 1)]). unfold opens, active_era. rewrite H. cbn. split; [auto|]. split; [discriminate|].
        split; [auto|]. split; [auto|]. split; [|reflexivity]. exact (annals_next _ _ _ _ _ L5).
  Qed.

  Lemma step_timed s op s' out g g' T :
    kstep cfg s op = (s', out) -> advance g op = Some g' -> fits cfg s -> kept s -> kept s' -> timed g T s ->
    timed g' (T ++ opens op s') s'.
  Proof.
    intros H A F K K' W. destruct op as [x o c|x| |i|x i|x i|a|x os i|b]; try (cbn [opens]; rewrite app_nil_r; eapply plain_timed; eauto; exact I).
    - cbn [opens]. rewrite app_nil_r. cbn [kstep] in H. destruct (new_session _ _ _) as [s1 ev] eqn:E. cbn in H. injection H as <- <-.
      eapply new_timed; eauto.
    - cbn [kstep] in H. destruct (start_session _ _ _ _) as [s1 ev] eqn:E. cbn in H. injection H as <- <-. eapply start_timed; eauto.
  Qed.
  Lemma always_here P s h : throughout cfg P s h -> P s.
  Proof. intros [A B]. destruct h; [exact B|exact (proj1 A)]. Qed.
  Lemma throughout_step P s op h : throughout cfg P s (op :: h) -> throughout cfg P (kstep cfg s op).1 h.
  Proof. intros [[_ A] B]. split; auto. Qed.
  Lemma run_timed : forall h s g g' T,
    driven g h = Some g' -> sane cfg s h -> throughout cfg kept s h -> timed g T s ->
    timed g' (T ++ timeline cfg s h) (krun cfg s h).
  Proof.
    induction h as [|op h IH]; intros s g g' T D S K W; cbn [driven timeline krun] in *.
    { injection D as <-. now rewrite app_nil_r. }
    destruct (advance g op) as [g1|] eqn:A; [|discriminate]. destruct S as [F [_ S]].
    pose proof (always_here _ _ _ K) as K0. apply throughout_step in K. pose proof (always_here _ _ _ K) as K1.
    destruct (kstep cfg s op) as [s1 o] eqn:E. cbn [fst] in *. rewrite app_assoc. eapply IH; eauto.
    eapply step_timed; eauto.
  Qed.
End model.
