(** The era of a report, and the pay of an era: lemmas for properties C136-C139. *)
From Verif Require Import Base Balances Model_StakingLedger Model_Staking Spec_Staking Spec_Staking2 Spec_Staking4
  Proofs_Arith Proofs_StakingLedger Proofs_Staking Proofs_Staking2 Proofs_Staking6 Proofs_Staking12 Proofs_Staking16
  Proofs_Staking17 Proofs_Staking22 Proofs_Staking23 Proofs_Staking24.
From stdpp Require Import gmap.
Open Scope N_scope.

Lemma find_app_none {A} (f : A -> bool) l1 l2 : (forall a, a ∈ l1 -> f a = false) -> List.find f (l1 ++ l2) = List.find f l2.
Proof.
  induction l1 as [|a l1 IH]; intros H; cbn; [auto|]. rewrite (H a) by (left). apply IH. intros b Hb. apply H. now right.
Qed.
Lemma in_rev_iff {A} (x : A) l : x ∈ rev l <-> x ∈ l.
Proof. rewrite !elem_of_list_In. symmetry. apply in_rev. Qed.
Lemma annals_unique i a sa B T j e e' : annals i a sa B T -> (j, e) ∈ T -> (j, e') ∈ T -> e = e'.
Proof.
  intros (A1 & _) H H'. apply elem_of_list_lookup in H as (n & H). apply elem_of_list_lookup in H' as (m & H').
  assert (n = m).
  { assert (F1 : map fst T !! n = Some j) by (rewrite list_lookup_fmap, H; reflexivity).
    assert (F2 : map fst T !! m = Some j) by (rewrite list_lookup_fmap, H'; reflexivity).
    rewrite A1 in F1, F2. eapply NoDup_lookup; [|exact F1|exact F2]. apply upto_nodup. }
  subst. congruence.
Qed.

Section model.
  Context (cfg : kcfg).
  Local Notation len := (kc_sessions cfg).

  (** ** From genesis *)
  Lemma run_plan_genesis : 0 < len -> forall h s g',
    driven Setup h = Some g' -> sane cfg s h -> throughout cfg kept s h -> timed cfg Setup [] s -> mode s = NotForcing ->
    Forall (fun op => ~ meddles op) h ->
    forall j e, (j, e) ∈ timeline cfg s h -> j <> 0 -> e = scheduled len 0 len j.
  Proof.
    intros Hl. induction h as [|op h IH]; intros s g' D S K W Em M j e Hin Hj; cbn [driven timeline krun] in *.
    { now apply elem_of_nil in Hin. }
    destruct (advance Setup op) as [g1|] eqn:A; [|discriminate]. destruct S as [F [_ S]].
    pose proof (always_here _ _ _ _ K) as K0. apply throughout_step in K. pose proof (always_here _ _ _ _ K) as K1.
    apply Forall_cons in M as [M0 M]. destruct (kstep cfg s op) as [s1 o] eqn:E. cbn [fst] in *.
    pose proof (step_timed _ _ _ _ _ _ _ _ E A F K0 K1 W) as W1.
    assert (Eo : opens op s1 = []) by (destruct op; cbn in A; try reflexivity; discriminate).
    rewrite Eo in *. cbn [app] in *.
    pose proof (step_mode _ _ _ _ _ E M0) as Em'.
    assert (Em1 : mode s1 = NotForcing) by (destruct Em' as [->|(_ & Q & _)]; congruence). clear Em'.
    assert (C : g1 = Setup \/ g1 = Planned0).
    { destruct op; cbn in A; try (injection A as <-; auto); try discriminate. destruct (_ =? _); [injection A as <-; auto|discriminate]. }
    destruct C as [->| ->].
    - eapply IH; eauto.
    - destruct W1 as [Q1 W1]. destruct W1 as (V1 & V2 & V3).
      apply (run_plan cfg NotForcing 0 len Hl _ _ _ _ [] D S K); auto.
      + split; [exact Q1|]. auto.
      + cbn [plan]. exists 0, len. split; [|auto]. split; [auto|]. rewrite Em1. exists 0. split; [auto|]. cbn. lia.
  Qed.

  (** ** The era of a report *)
  Lemma live_report i fin ahead T s j e :
    live cfg i fin ahead T s -> (j, e) ∈ T ->
    report_era s j = if window cfg s <=? e then Some e else None.
  Proof.
    intros (a & f & sa & B & L1 & _ & L3 & _ & L5 & L6) Hin.
    assert (Hw : window cfg s = a - kc_bonding cfg) by (unfold window, active_era; rewrite L1; reflexivity). rewrite Hw. clear Hw.
    unfold report_era, active_era. rewrite L1. cbn [fmap option_fmap option_map fst].
    assert (L5' := L5). destruct L5' as (A1 & A2 & _ & _ & A5 & A6 & A7 & A8).
    unfold slash_era. rewrite L3. change (default 0 (Some sa)) with sa. destruct (A5 _ _ Hin) as [_ He].
    destruct (A8 _ _ A7) as [_ Q]. specialize (Q _ _ Hin). cbn in Q.
    destruct (N.leb_spec sa j) as [L|L].
    - assert (e = a) as -> by lia. rewrite (proj2 (N.leb_le _ _)) by lia. reflexivity.
    - rewrite L6. set (w := N.to_nat (a - kc_bonding cfg)).
      assert (Hb : B = take (S (N.to_nat e)) B ++ drop (S (N.to_nat e)) B) by now rewrite take_drop.
      assert (Hf : forall p, p ∈ drop (S (N.to_nat e)) B -> (p.2 <=? j) = false).
      { intros p Hp. apply elem_of_list_lookup in Hp as (n & Hp). rewrite lookup_drop in Hp.
        destruct (A8 _ _ Hp) as [P1 P2]. specialize (P2 _ _ Hin). apply N.leb_gt. lia. }
      destruct (N.leb_spec (a - kc_bonding cfg) e) as [Lw|Lw].
      + destruct (B !! N.to_nat e) as [p|] eqn:Ep; [|apply lookup_ge_None in Ep; lia].
        destruct (A8 _ _ Ep) as [P1 P2]. specialize (P2 _ _ Hin).
        rewrite (take_S_r _ _ _ Ep) in Hb. rewrite Hb, <- app_assoc, drop_app_le by (rewrite take_length; lia).
        rewrite !rev_app_distr, <- app_assoc. rewrite find_app_none; [|intros q Hq; apply Hf; now apply (proj1 (in_rev_iff _ _))].
        cbn [rev app List.find]. rewrite (proj2 (N.leb_le _ _)) by lia. cbn. f_equal. lia.
      + assert (Hd : drop w B = drop (w - S (N.to_nat e)) (drop (S (N.to_nat e)) B)) by (rewrite drop_drop; f_equal; lia).
        rewrite Hd. rewrite <- (app_nil_r (rev _)). rewrite find_app_none; [reflexivity|].
        intros q Hq. apply Hf. apply (proj1 (in_rev_iff _ _)) in Hq. apply elem_of_list_lookup in Hq as (n & Hq). rewrite lookup_drop in Hq.
        eapply elem_of_list_lookup_2; eauto.
  Qed.
  Lemma timed_live g T s j e : timed cfg g T s -> (j, e) ∈ T -> exists i fin ahead, live cfg i fin ahead T s.
  Proof.
    intros [_ W] Hin. destruct g as [| | |i f|i|i]; cbn in W; eauto.
    - destruct W as (_ & _ & -> & _). now apply elem_of_nil in Hin.
    - destruct W as (_ & _ & _ & -> & _). now apply elem_of_nil in Hin.
    - destruct W as (_ & _ & _ & -> & _). now apply elem_of_nil in Hin.
  Qed.
  (** The charges of a report are for the era of the report. *)
  Lemma compute_charges x s st f ex era w now s' u ev v e i own d :
    compute_slash x s st f ex era w now = (s', u, ev) -> KCharge v e i own d ∈ ev -> e = era.
  Proof.
    unfold compute_slash. intros H Hin. destruct (_ =? 0); [injection H as _ _ <-; now apply elem_of_nil in Hin|].
    destruct (_ <=? _); [injection H as _ _ <-; now apply elem_of_nil in Hin|].
    destruct (fetch_spans _ _ _). destruct (update_span _ _ _ _ _ _) as [[[[[? ?] ?] ?] ?] t].
    destruct (if bool_decide _ then _ else _) as [[[? e'] ?] ?]. injection H as _ _ <-.
    destruct t; [|now apply elem_of_nil in Hin]. apply elem_of_list_singleton in Hin. congruence.
  Qed.
  Lemma apply_slash_charges x s u s' ev v e i own d : apply_slash cfg x s u = (s', ev) -> KCharge v e i own d ∉ ev.
  Proof.
    unfold apply_slash. destruct (do_slash _ _ _ _ _ _) as [[[s1 p1] g1] e1] eqn:E. intros H Hin. injection H as _ <-.
    apply elem_of_app in Hin as [Hin|Hin].
    - unfold do_slash in E. destruct (s_bonded _ !! _) as [c|]; [|injection E as _ _ _ <-; now apply elem_of_nil in Hin].
      destruct (s_ledger _ !! c); [|injection E as _ _ _ <-; now apply elem_of_nil in Hin].
      destruct (slash_ledger _ _ _). destruct (_ =? 0); [injection E as _ _ _ <-; now apply elem_of_nil in Hin|].
      destruct (cslash _ _ _ _ _) as [[? ?] ?]. injection E as _ _ _ <-. apply elem_of_list_singleton in Hin. discriminate.
    - apply elem_of_list_fmap in Hin as (? & ? & _). discriminate.
  Qed.
  Lemma on_offence_charges x s os j s' ev v e i own d :
    on_offence cfg x s os j = (s', ev) -> KCharge v e i own d ∈ ev -> report_era s j = Some e.
  Proof.
    unfold on_offence, report_era, active_era. destruct (e_act (k_era s)) as [[a b]|]; [|intros [= _ <-] Hin; now apply elem_of_nil in Hin].
    cbn. destruct (slash_era _ _ _) as [era|]; [|intros [= _ <-] Hin; now apply elem_of_nil in Hin].
    intros H Hin. f_equal. set (s0 := set_k_stk s _) in H.
    enough (G : forall os s0 ev0 s' ev', fold_left (offender1 cfg x era (ssub a (kc_bonding cfg)) a) os (s0, ev0) = (s', ev') ->
      KCharge v e i own d ∈ ev' -> KCharge v e i own d ∈ ev0 \/ era = e).
    { destruct (G _ _ _ _ _ H Hin) as [Q|Q]; [now apply elem_of_nil in Q|exact Q]. }
    clear. induction os as [|o os IH]; intros s ev0 s' ev' H Hin; cbn [fold_left] in H; [injection H as <- <-; auto|].
    destruct (offender1 _ _ _ _ _ _ o) as [s1 e1] eqn:E1 in H. destruct (IH _ _ _ _ H Hin) as [Q|Q]; [|auto]. clear IH H Hin.
    destruct o as [[[st0 ex] reps] frac]. cbn [offender1] in E1. destruct (bool_decide _); [injection E1 as _ <-; auto|].
    destruct (compute_slash _ _ _ _ _ _ _ _) as [[s3 u] e3] eqn:E3.
    destruct u as [u|].
    - destruct (_ =? 0).
      + destruct (apply_slash _ _ _ _) as [s4 e4] eqn:E4. injection E1 as _ <-.
        apply elem_of_app in Q as [Q|Q]; [auto|]. apply elem_of_app in Q as [Q|Q].
        * right. symmetry. eapply compute_charges; eauto.
        * exfalso. eapply apply_slash_charges; eauto.
      + injection E1 as _ <-. apply elem_of_app in Q as [Q|Q]; [auto|]. right. symmetry. eapply compute_charges; eauto.
    - injection E1 as _ <-. apply elem_of_app in Q as [Q|Q]; [auto|]. right. symmetry. eapply compute_charges; eauto.
  Qed.
  Lemma on_offence_late x s os j : report_era s j = None -> on_offence cfg x s os j = (s, []).
  Proof.
    unfold on_offence, report_era, active_era. destruct (e_act (k_era s)) as [[a b]|]; [|auto]. cbn. now intros ->.
  Qed.

  (** ** Pay *)
  Definition pays_at (s : kstate) (op : kop) : list (N * N) :=
    match op with
    | KEndSession _ i =>
        match e_act (k_era s) with
        | Some (e, true) => if bool_decide (e_start (k_era s) !! (e + 1) = Some (i + 1)) then [(i, e)] else []
        | _ => []
        end
    | _ => []
    end.
  Fixpoint paylist (s : kstate) (h : list kop) : list (N * N) :=
    match h with [] => [] | op :: r => pays_at s op ++ paylist (kstep cfg s op).1 r end.
  Lemma paylist_payday : forall h s i e, (i, e) ∈ paylist s h <-> exists t, payday cfg s h i e t.
  Proof.
    assert (One : forall s op i e, (i, e) ∈ pays_at s op <-> (exists x, op = KEndSession x i) /\ ends_era s i e).
    { intros s op i e. unfold ends_era. split.
      - intros H. destruct op; cbn in H; try (now apply elem_of_nil in H).
        destruct (e_act (k_era s)) as [[a []]|]; try (now apply elem_of_nil in H).
        destruct (bool_decide _) eqn:Eb; [|now apply elem_of_nil in H]. apply bool_decide_eq_true in Eb.
        apply elem_of_list_singleton in H. injection H as -> ->. eauto.
      - intros ((x & ->) & A & B). cbn. rewrite A, bool_decide_true by exact B. now apply elem_of_list_singleton. }
    induction h as [|op h IH]; intros s i e; cbn [paylist].
    - split; [intros H; now apply elem_of_nil in H|]. intros (t & h1 & x & h2 & H & _). now destruct h1.
    - rewrite elem_of_app, One, IH. split.
      + intros [[(x & ->) H]|(t & h1 & x & h2 & -> & -> & H)].
        * exists s, [], x, h. auto.
        * exists (krun cfg (kstep cfg s op).1 h1), (op :: h1), x, h2. auto.
      + intros (t & h1 & x & h2 & H & -> & K). destruct h1 as [|op' h1]; injection H as -> ->.
        * left. eauto.
        * right. exists (krun cfg (kstep cfg s op').1 h1), h1, x, h2. auto.
  Qed.
  Definition settled (g : stage) (T D : list (N * N)) (s : kstate) : Prop :=
    forall i e, (i, e) ∈ D <-> (i, e) ∈ T /\ ((i + 1, e + 1) ∈ T \/ (g = Ended i /\ e_cur (k_era s) = Some (e + 1))).
  Lemma step_settled s op s' out g g' T D :
    kstep cfg s op = (s', out) -> advance g op = Some g' -> fits cfg s -> kept s -> kept s' -> timed cfg g T s ->
    settled g T D s -> settled g' (T ++ opens op s') (D ++ pays_at s op) s'.
  Proof.
    intros H A F K K' W J. pose proof (step_timed _ _ _ _ _ _ _ _ H A F K K' W) as W'.
    destruct op as [x o c|x| |i|x i|x i|a|x os i|b].
    1,2,3,7,8,9: destruct (bystander cfg _ _ _ _ H I) as (B1 & _); cbn [opens pays_at]; rewrite !app_nil_r; intros j e; rewrite (J j e), B1;
      (assert (Eg : g' = Ended j <-> g = Ended j) by (destruct g; cbn in A; injection A as <-; split; congruence)); rewrite Eg; reflexivity.
    - cbn [opens pays_at]. rewrite !app_nil_r. intros j e. rewrite (J j e).
      assert (Eg : g' <> Ended j /\ g <> Ended j).
      { destruct g; cbn in A; try discriminate; destruct (_ =? _); try discriminate; injection A as <-; split; congruence. }
      destruct Eg as [E1 E2]. split; intros [P [Q|[Q _]]]; auto; contradiction.
    - cbn [pays_at]. rewrite app_nil_r. cbn [kstep] in H. destruct (start_session _ _ _ _) as [s1 ev] eqn:E. cbn in H. injection H as <- <-.
      destruct g as [| | |j f|j|j]; cbn in A; try discriminate A.
      + destruct (N.eqb_spec i 0) as [->|]; [|discriminate]. injection A as <-. destruct W as [_ (_ & _ & _ & -> & _)].
        intros j e. rewrite (J j e). split.
        * intros [P _]. now apply elem_of_nil in P.
        * intros [P [Q|[Q _]]]; [|discriminate]. destruct W' as [_ (a & f & sa & B & _ & _ & _ & _ & L5 & _)].
          destruct L5 as (_ & _ & _ & _ & A5 & _). destruct (A5 _ _ Q). lia.
      + destruct (N.eqb_spec i (j + 1)) as [->|]; [|discriminate]. injection A as <-.
        destruct W as [Qs (a & f & sa & B & L1 & L2 & L3 & L4 & L5 & L6)].
        destruct W' as [_ (a' & f' & sa' & B' & L1' & _ & _ & [L4'|[L4' _]] & L5' & _)]; [|discriminate].
        assert (Ec : e_cur (k_era s1) = e_cur (k_era s)).
        { apply start_session_spec in E. cbn zeta in E. destruct E as [[-> _]|[_ ->]]; reflexivity. }
        assert (Eo : opens (KStartSession x (j + 1)) s1 = [(j + 1, a')]) by (cbn; unfold active_era; now rewrite L1').
        rewrite Eo in *. intros k e. rewrite (J k e), !elem_of_app, !elem_of_list_singleton.
        destruct L5 as (_ & A2 & _ & _ & A5 & _). apply last_in in A2. split.
        * intros [P [Q|[Q R]]]; [auto|]. injection Q as <-. split; [auto|]. left. right. f_equal. congruence.
        * intros [[P|P] [[Q|Q]|[Q _]]]; try discriminate.
          -- auto.
          -- injection Q as Q1 Q2. assert (k = j) as -> by lia. split; [auto|]. right. split; [auto|]. congruence.
          -- injection P as -> ->. destruct (A5 _ _ Q). lia.
          -- injection P as -> ->. injection Q as Q _. lia.
    - destruct g as [| | |j []|j|j]; cbn in A; try discriminate A. destruct (N.eqb_spec i j) as [->|]; [|discriminate]. injection A as <-.
      destruct (bystander cfg _ _ _ _ H I) as (B1 & _). cbn [opens]. rewrite app_nil_r.
      destruct W as [Qs (a & f & sa & B & L1 & L2 & L3 & L4 & L5 & L6)]. rewrite (L2 eq_refl) in L1.
      assert (Ep : pays_at s (KEndSession x j) = if bool_decide (e_cur (k_era s) = Some (a + 1)) then [(j, a)] else []).
      { cbn. rewrite L1. destruct L4 as [L4|(_ & L4 & L7)].
        - rewrite (Qs (a + 1)) by (rewrite L4; intros ? [= <-]; lia). rewrite L4. rewrite !bool_decide_false; [auto|intros [= Q]; lia|discriminate].
        - rewrite L7, L4. now rewrite !bool_decide_true by auto. }
      rewrite Ep. intros k e. rewrite elem_of_app, (J k e), B1. assert (L5' := L5). destruct L5' as (_ & A2 & _ & _ & A5 & _). apply last_in in A2. split.
      + intros [[P [Q|[Q _]]]|P]; [auto|discriminate|]. destruct (bool_decide _) eqn:Eb; [|now apply elem_of_nil in P].
        apply bool_decide_eq_true in Eb. apply elem_of_list_singleton in P. injection P as -> ->. auto.
      + intros [P [Q|[Q R]]]; [auto|]. injection Q as <-. right. rewrite (annals_unique _ _ _ _ _ _ _ _ L5 P A2) in *.
        rewrite bool_decide_true by exact R. now apply elem_of_list_singleton.
  Qed.
  Lemma run_settled : forall h s g g' T D,
    driven g h = Some g' -> sane cfg s h -> throughout cfg kept s h -> timed cfg g T s -> settled g T D s ->
    settled g' (T ++ timeline cfg s h) (D ++ paylist s h) (krun cfg s h).
  Proof.
    induction h as [|op h IH]; intros s g g' T D Dr S K W J; cbn [driven timeline krun paylist] in *.
    { injection Dr as <-. now rewrite !app_nil_r. }
    destruct (advance g op) as [g1|] eqn:A; [|discriminate]. destruct S as [F [_ S]].
    pose proof (always_here _ _ _ _ K) as K0. apply throughout_step in K. pose proof (always_here _ _ _ _ K) as K1.
    destruct (kstep cfg s op) as [s1 o] eqn:E. cbn [fst] in *. rewrite !app_assoc. eapply IH; eauto.
    - eapply step_timed; eauto.
    - eapply step_settled; eauto.
  Qed.

  (** ** Elections *)
  Definition voted (L : N -> list (list N)) (s : kstate) : Prop :=
    forall e, (forall c, e_cur (k_era s) = Some c -> c <= e + 1) -> L e = match e_vals (k_era s) !! e with Some l => [l] | None => [] end.
  Definition unvoted (s : kstate) : Prop :=
    forall e, (forall c, e_cur (k_era s) = Some c -> c < e) -> e_vals (k_era s) !! e = None.
  Lemma step_voted s op s' out L :
    kstep cfg s op = (s', out) -> fits cfg s -> kept s -> kept s' -> voted L s -> unvoted s ->
    voted (fun e => L e ++ elects e op out) s' /\ unvoted s' /\
    forall c e, e_cur (k_era s) = Some c -> e <= c -> elects e op out = [] /\ exists c', e_cur (k_era s') = Some c' /\ c <= c'.
  Proof.
    intros H F K K' V U.
    assert (G : plain op -> voted (fun e => L e ++ elects e op out) s' /\ unvoted s' /\
      forall c e, e_cur (k_era s) = Some c -> e <= c -> elects e op out = [] /\ exists c', e_cur (k_era s') = Some c' /\ c <= c').
    { intros P. destruct (bystander cfg _ _ _ _ H P) as (B1 & _ & _ & _ & B5 & _).
      assert (E0 : forall e, elects e op out = []) by (intros e; destruct op; try contradiction P; reflexivity).
      split; [|split].
      - intros e He. rewrite B1 in He. rewrite E0, app_nil_r, (V e He). destruct (e_cur (k_era s)) as [c|] eqn:Ec.
        + specialize (He _ eq_refl). rewrite (cut_keep _ _ _ _ B5); [auto|]. unfold bound. rewrite Ec. cbn. destruct K' as [K' _]. lia.
        + assert (Eu : e_vals (k_era s) !! e = None) by (apply U; rewrite Ec; discriminate). rewrite Eu.
          now rewrite (cut_none _ _ _ _ B5 Eu).
      - intros e He. rewrite B1 in He. eapply cut_none; eauto.
      - intros c e Hc He. split; [auto|]. exists c. rewrite B1. split; [auto|lia]. }
    destruct op as [x o c|x| |i|x i|x i|a|x os i|b]; try (apply G; exact I).
    - clear G. cbn [kstep] in H. destruct (new_session _ _ _) as [s1 ev] eqn:E. cbn in H. injection H as <- <-.
      destruct F as (_ & _ & F & _). unfold cur_era in F. cbn [elects].
      destruct (new_session_spec cfg _ _ _ _ E) as (_ & _ & _ & [(-> & -> & _)|(N1 & _ & N)]).
      { cbn. split; [|split; [auto|]].
        - intros e He. rewrite app_nil_r. auto.
        - intros c e Hc He. split; [auto|]. exists c. auto using N.le_refl. }
      assert (Hp : planned s < two32 /\ forall c, e_cur (k_era s) = Some c -> planned s = c + 1).
      { unfold planned. destruct (e_cur (k_era s)) as [c|]; [|split; [reflexivity|discriminate]]. cbn in F.
        rewrite add32_exact by lia. split; [lia|]. now intros ? [= <-]. }
      destruct Hp as [Hp Hp']. destruct (N K Hp) as [_ (o & -> & N3)].
      assert (Fu : forall e, e_vals (k_era s1) !! e = None \/ e < planned s -> True) by auto. clear Fu.
      split; [|split].
      + intros e He. specialize (He _ N1). rewrite (cut_keep _ _ _ _ N3) by lia.
        assert (V' : L e = match e_vals (k_era s) !! e with Some l => [l] | None => [] end).
        { apply V. intros c Hc. specialize (Hp' _ Hc). lia. }
        rewrite V'. destruct o as [l|]; cbn.
        * destruct (N.eqb_spec (planned s) e) as [<-|Ne].
          -- rewrite lookup_insert. assert (Eu : e_vals (k_era s) !! planned s = None) by (apply U; intros c Hc; specialize (Hp' _ Hc); lia).
             now rewrite Eu.
          -- rewrite lookup_insert_ne by auto. now rewrite app_nil_r.
        * now rewrite app_nil_r.
      + intros e He. specialize (He _ N1). eapply cut_none; [exact N3|].
        assert (Eu : e_vals (k_era s) !! e = None) by (apply U; intros c Hc; specialize (Hp' _ Hc); lia).
        destruct o as [l|]; [rewrite lookup_insert_ne by lia|]; exact Eu.
      + intros c e Hc He. specialize (Hp' _ Hc). split; [|exists (planned s); split; [auto|lia]].
        destruct o as [l|]; cbn; [|auto]. destruct (N.eqb_spec (planned s) e); [lia|auto].
    - clear G. cbn [kstep] in H. destruct (start_session _ _ _ _) as [s1 ev] eqn:E. cbn in H. injection H as <- <-.
      apply start_session_spec in E. cbn zeta in E. cbn [elects].
      assert (Q : e_cur (k_era s1) = e_cur (k_era s) /\ e_vals (k_era s1) = e_vals (k_era s)) by (destruct E as [[-> _]|[_ ->]]; auto).
      destruct Q as [Q1 Q2]. split; [|split].
      + intros e He. rewrite app_nil_r, Q2. apply V. now rewrite <- Q1.
      + intros e He. rewrite Q2. apply U. now rewrite <- Q1.
      + intros c e Hc He. split; [auto|]. exists c. rewrite Q1. split; [auto|lia].
  Qed.
  Lemma run_voted : forall h s L,
    sane cfg s h -> throughout cfg kept s h -> voted L s -> unvoted s ->
    voted (fun e => L e ++ elections cfg s h e) (krun cfg s h) /\ unvoted (krun cfg s h) /\
    forall c e, e_cur (k_era s) = Some c -> e <= c -> elections cfg s h e = [].
  Proof.
    induction h as [|op h IH]; intros s L S K V U; cbn [krun elections].
    { split; [|auto]. intros e He. rewrite app_nil_r. auto. }
    destruct S as [F [_ S]].
    pose proof (always_here _ _ _ _ K) as K0. apply throughout_step in K. pose proof (always_here _ _ _ _ K) as K1.
    destruct (kstep cfg s op) as [s1 o] eqn:E. cbn [fst snd] in *.
    destruct (step_voted _ _ _ _ _ E F K0 K1 V U) as (V1 & U1 & C1).
    destruct (IH _ _ S K V1 U1) as (V2 & U2 & C2). split; [|split; [exact U2|]].
    - intros e He. rewrite app_assoc. exact (V2 e He).
    - intros c e Hc He. destruct (C1 _ _ Hc He) as [-> (c' & Hc' & Lc)]. cbn. apply (C2 c' e Hc'). lia.
  Qed.
  Lemma elections_app h1 : forall h2 s e,
    elections cfg s (h1 ++ h2) e = elections cfg s h1 e ++ elections cfg (krun cfg s h1) h2 e.
  Proof. induction h1 as [|op h1 IH]; intros h2 s e; cbn; [auto|]. now rewrite IH, app_assoc. Qed.
  Lemma sane_app h1 : forall h2 s, sane cfg s (h1 ++ h2) -> sane cfg s h1 /\ sane cfg (krun cfg s h1) h2.
  Proof.
    induction h1 as [|op h1 IH]; intros h2 s H; cbn [app krun].
    - split; [split; [|exact I]; destruct h2; apply H|exact H].
    - destruct H as (F & T & H). destruct (IH _ _ H) as [A B]. split; [|exact B]. split; [exact F|]. auto.
  Qed.
  Lemma throughout_app P h1 : forall h2 s, throughout cfg P s (h1 ++ h2) -> throughout cfg P s h1 /\ throughout cfg P (krun cfg s h1) h2.
  Proof.
    induction h1 as [|op h1 IH]; intros h2 s H; cbn [app krun].
    - split; [split; [exact I|apply (always_here _ _ _ _ H)]|exact H].
    - pose proof (always_here _ _ _ _ H) as A. apply throughout_step in H. destruct (IH _ _ H) as [[B C] D]. split; [|exact D]. split; [split; auto|exact C].
  Qed.
  Lemma driven_app h1 : forall h2 g g', driven g (h1 ++ h2) = Some g' -> exists g1, driven g h1 = Some g1 /\ driven g1 h2 = Some g'.
  Proof.
    induction h1 as [|op h1 IH]; intros h2 g g' H; cbn [app driven] in *; [eauto|]. destruct (advance g op); [|discriminate]. eauto.
  Qed.
  Lemma timeline_app h1 : forall h2 s, timeline cfg s (h1 ++ h2) = timeline cfg s h1 ++ timeline cfg (krun cfg s h1) h2.
  Proof. induction h1 as [|op h1 IH]; intros h2 s; cbn; [auto|]. now rewrite IH, app_assoc. Qed.
  Lemma payday_elected b p h i e t :
    sane cfg (kgenesis b p) h -> throughout cfg kept (kgenesis b p) h -> driven Setup h <> None ->
    payday cfg (kgenesis b p) h i e t ->
    elections cfg (kgenesis b p) h e = match e_vals (k_era t) !! e with Some l => [l] | None => [] end.
  Proof.
    intros S K D (h1 & x & h2 & -> & -> & E). destruct (driven Setup (h1 ++ KEndSession x i :: h2)) as [g'|] eqn:Dg; [|contradiction].
    apply driven_app in Dg as (g1 & D1 & D2).
    apply sane_app in S as [S1 S2]. apply throughout_app in K as [K1 K2]. rewrite elections_app.
    assert (V0 : voted (fun _ => []) (kgenesis b p)) by (intros ? _; reflexivity).
    assert (U0 : unvoted (kgenesis b p)) by (intros ? _; reflexivity).
    destruct (run_voted _ _ _ S1 K1 V0 U0) as (V1 & U1 & _). destruct (run_voted _ _ _ S2 K2 V1 U1) as (_ & _ & C).
    pose proof (run_timed _ _ _ _ _ _ D1 S1 K1 (timed_genesis cfg b p)) as W1.
    cbn in D2. destruct g1 as [| | |j []|j|j]; try discriminate D2. destruct W1 as [_ (a & f & sa & B & L1 & _ & _ & L4 & _)].
    destruct E as [E1 E2]. rewrite L1 in E1. injection E1 as -> ->.
    assert (Hc : exists c, e_cur (k_era (krun cfg (kgenesis b p) h1)) = Some c /\ e <= c <= e + 1).
    { destruct L4 as [L4|(_ & L4 & _)]; eexists; (split; [exact L4|lia]). }
    destruct Hc as (c & Hc & L). rewrite (C c e Hc) by lia. rewrite app_nil_r. apply (V1 e). intros c1 Hc1. rewrite Hc in Hc1. injection Hc1 as <-. lia.
  Qed.

  (** ** The first session of the current era *)
  Lemma live_since i f T s : live cfg i f true T s ->
    exists c k, e_cur (k_era s) = Some c /\ e_start (k_era s) !! c = Some k /\ since (T ++ [(i + 1, c)]) c k.
  Proof.
    intros (a & f' & sa & B & L1 & _ & L3 & L4 & (A1 & A2 & _ & _ & A5 & _ & A7 & A8) & _).
    destruct (A8 _ _ A7) as [_ Q]. apply last_in in A2. destruct L4 as [L4|(_ & L4 & L5)].
    - exists a, sa. split; [auto|]. split; [auto|]. pose proof (Q _ _ A2) as Qi. cbn in Qi, Q. split.
      + apply elem_of_app. left. assert (In : sa ∈ map fst T).
        { rewrite A1. unfold upto. apply elem_of_list_fmap. exists (N.to_nat sa). split; [lia|]. apply elem_of_seq. lia. }
        apply elem_of_list_fmap in In as ((j & e) & -> & In). cbn in *. destruct (A5 _ _ In). specialize (Q _ _ In).
        assert (e = a) as -> by lia. exact In.
      + intros j Hj. apply elem_of_app in Hj as [Hj|Hj]; [specialize (Q _ _ Hj); lia|].
        apply elem_of_list_singleton in Hj. injection Hj as ->. lia.
    - exists (a + 1), (i + 1). split; [auto|]. split; [auto|]. split; [apply elem_of_app; right; now apply elem_of_list_singleton|].
      intros j Hj. apply elem_of_app in Hj as [Hj|Hj]; [destruct (A5 _ _ Hj); lia|].
      apply elem_of_list_singleton in Hj. injection Hj as ->. lia.
  Qed.
  Lemma timeline_later h : forall s i f g' T, driven (Running i f) h = Some g' -> sane cfg s h -> throughout cfg kept s h ->
    timed cfg (Running i f) T s -> forall j e, (j, e) ∈ timeline cfg s h -> i < j.
  Proof.
    intros s i f g' T D S K W j e Hin. pose proof (run_timed cfg h _ _ _ _ D S K W) as W'.
    assert (Hi : (j, e) ∈ T ++ timeline cfg s h) by (apply elem_of_app; auto).
    destruct (timed_live _ _ _ _ _ W' Hi) as (i' & f' & a' & (a & f0 & sa & B & _ & _ & _ & _ & (A1 & _) & _)).
    destruct W as [_ (? & ? & ? & ? & _ & _ & _ & _ & (A1' & _) & _)]. rewrite map_app, A1' in A1.
    assert (Nd : NoDup (upto (i + 1) ++ map fst (timeline cfg s h))) by (rewrite A1; apply upto_nodup).
    apply NoDup_app in Nd as (_ & Nd & _). destruct (N.lt_ge_cases i j) as [|L]; [auto|exfalso].
    apply (Nd j).
    - unfold upto. apply elem_of_list_fmap. exists (N.to_nat j). split; [lia|]. apply elem_of_seq. lia.
    - apply elem_of_list_fmap. now exists (j, e).
  Qed.
  Lemma force_sets x f s s' out : kstep cfg s (KCall x Root (KForce f)) = (s', out) -> mode s' <> mode s -> f = mode s'.
  Proof.
    intros H N. destruct (bystander cfg _ _ _ _ H I) as (_ & _ & _ & _ & _ & [E|[_ [E|(y & E)]]]); [contradiction| |congruence].
    cbn in H. injection H as <- _. reflexivity.
  Qed.
End model.
