(** The bill of a history. *)
From Verif Require Import Base Balances.
From Verif Require Model_Credit Model_Adsc Model_Tips Model_Micropayment.
From Verif Require Model_Staking Spec_Staking2 Spec_Tips Model_Operation.
From Verif Require Proofs_Staking14 Proofs_Staking20 Proofs_Chain1 Proofs_Micropayment.
From Verif Require Import Model_Chain Model_World Spec_World Spec_World2 Spec_World6 Proofs_World2 Proofs_World14 Proofs_World15.
From stdpp Require Import gmap.
Open Scope N_scope.

Section world.
  Context (cfg : wcfg) (ed : N) (Hs : Model_Credit.kc_step (jc_c (wc_chain cfg)) <> Model_Credit.U64MAX)
    (He : one_deposit cfg ed) (Hf : Model_Tips.tc_fee (wc_tips cfg) <= 100) (Hm : Model_Micropayment.m_burn (wc_chan cfg) <= 100).
  Local Notation upgraded w := (negb (Model_Adsc.a_version (w_adsc w) <? 2)).

  Lemma created_split h2 : forall h1 w,
    supply w + created (upgraded w) (wlog cfg w (h1 ++ h2)) < two128 ->
    supply (wrun cfg w h1) + created (upgraded (wrun cfg w h1)) (wlog cfg (wrun cfg w h1) h2) < two128.
  Proof.
    clear He Hf Hm. induction h1 as [|op h1 IH]; intros w F; [exact F|].
    unfold wlog in *. cbn [app wouts zip_with zip wrun created] in *. cbn [fst] in *.
    destruct (wstep cfg w op) as [w1 out] eqn:E. cbn [fst snd] in *.
    destruct (step_eff cfg Hs w op w1 out) as [[S _] V]; [lia|exact E|].
    apply IH. rewrite S. assert (U : upgraded w1 = upgraded w || upgrades op.2).
    { rewrite V. destruct (_ <? 2), (upgrades op.2); reflexivity. }
    rewrite U. lia.
  Qed.
  Lemma billed a : forall h w, supply w + created (upgraded w) (wlog cfg w h) < two128 ->
    solvent cfg ed w h a -> owned w a <= owned (wrun cfg w h) a + bill cfg ed w h a.
  Proof.
    induction h as [|op h IH]; intros w F Hv; [cbn; lia|].
    pose proof (created_split h [op] w F) as F1.
    assert (F0 : supply w < 2 ^ 128) by (change (2 ^ 128) with two128; lia).
    cbn [wrun bill solvent] in *. destruct (wstep cfg w op) as [w1 out] eqn:E. cbn [fst snd] in *.
    destruct Hv as [H1 H2]. specialize (IH _ F1 H2).
    destruct out as [ev| |].
    - destruct (step_at_most cfg ed Hs He Hf Hm w op w1 ev F0 E a) as [Q|[Q _]]; lia.
    - apply step_same in E as [-> _]; [lia|discriminate].
    - apply step_same in E as [-> _]; [lia|discriminate].
  Qed.
End world.

(** Only stashes are slashed. *)
Section slashes.
  Import Model_Staking Spec_Staking2 Proofs_Staking14 Proofs_Staking20.
  Context (cfg : kcfg).
  Definition on_stashes (s s' : kstate) (ev : list kev) : Prop :=
    s_bonded (k_stk s') = s_bonded (k_stk s) /\ forall a, slashed_in ev a -> is_Some (s_bonded (k_stk s) !! a).
  Lemma none_slashed ev a : Forall (fun e => match e with KSlashed _ _ => False | _ => True end) ev -> ~ slashed_in ev a.
  Proof. intros F [v H]. rewrite Forall_forall in F. exact (F _ H). Qed.
  Lemma on_refl s : on_stashes s s [].
  Proof. split; [reflexivity|]. intros a [v H]. inversion H. Qed.
  Lemma on_trans s s1 s2 e1 e2 : on_stashes s s1 e1 -> on_stashes s1 s2 e2 -> on_stashes s s2 (e1 ++ e2).
  Proof.
    intros [A B] [C D]. split; [congruence|]. intros a [v H]. apply elem_of_app in H as [H|H]; [apply B; now exists v|].
    rewrite <- A. apply D. now exists v.
  Qed.
  Lemma apply_slash_on x s u s' ev : apply_slash cfg x s u = (s', ev) -> on_stashes s s' ev.
  Proof.
    intros H. split; [apply apply_slash_keeps in H; apply H|].
    unfold apply_slash in H. destruct (do_slash _ _ _ _ _ _) as [[[s1 pay] got] e1] eqn:E. injection H as _ <-.
    intros a [v Hv]. apply elem_of_app in Hv as [Hv|Hv]; [|apply elem_of_list_fmap in Hv as (? & ? & _); discriminate].
    unfold do_slash in E. destruct (_ !! u_val u) eqn:Eb; [|injection E as _ _ _ <-; inversion Hv].
    destruct (_ !! n); [|injection E as _ _ _ <-; inversion Hv].
    destruct (Model_StakingLedger.slash_ledger _ _ _) as [l' q]. destruct (q =? 0); [injection E as _ _ _ <-; inversion Hv|].
    destruct (cslash _ _ _ _ _) as [[b g] ms]. injection E as _ _ _ <-. apply elem_of_list_singleton in Hv. injection Hv as -> _. eauto.
  Qed.
  Lemma apply_list_on x : forall l s s' ev, apply_list cfg x l s = (s', ev) -> on_stashes s s' ev.
  Proof.
    induction l as [|u l IH]; intros s s' ev H; cbn [apply_list] in H; [injection H as <- <-; apply on_refl|].
    destruct (apply_slash _ _ _ _) as [s1 e1] eqn:E1. destruct (apply_list _ _ _ s1) as [s2 e2] eqn:E2. injection H as <- <-.
    eapply on_trans; [eapply apply_slash_on|eapply IH]; eauto.
  Qed.
  Lemma apply_eras_on x : forall n era s s' ev, apply_eras cfg x n era s = (s', ev) -> on_stashes s s' ev.
  Proof.
    induction n as [|n IH]; intros era s s' ev H; cbn [apply_eras] in H; [injection H as <- <-; apply on_refl|].
    destruct (apply_list _ _ _ _) as [s1 e1] eqn:E1. destruct (apply_eras _ _ _ _ _) as [s2 e2] eqn:E2. injection H as <- <-.
    apply apply_list_on in E1. eapply on_trans; [|eapply IH; eauto]. exact E1.
  Qed.
  Lemma start_session_on x s i s' ev : start_session cfg x s i = (s', ev) -> on_stashes s s' ev.
  Proof.
    unfold start_session. cbn zeta. destruct (_ !! _); [|intros [= <- <-]; apply on_refl]. destruct (_ <=? _); [|intros [= <- <-]; apply on_refl].
    unfold start_era, apply_unapplied. cbn zeta. destruct (s_first _); [|intros [= <- <-]; apply (on_refl s)].
    destruct (apply_eras _ _ _ _ _) as [s2 e2] eqn:E. intros [= <- <-]. apply apply_eras_on in E. exact E.
  Qed.
  Lemma compute_on x s st f ex era w now s' u ev : compute_slash x s st f ex era w now = (s', u, ev) -> on_stashes s s' ev.
  Proof.
    intros H. split; [apply compute_chilled in H; apply H|]. intros a Ha. exfalso. revert Ha.
    apply none_slashed. revert H.
    unfold compute_slash. destruct (_ =? 0); [intros [= _ _ <-]; constructor|].
    destruct (_ <=? _); [intros [= _ _ <-]; constructor|].
    destruct (fetch_spans _ _ _) as [k0 sp]. destruct (update_span _ _ _ _ _ _) as [[[[[k1 sp1] d1] df] rw] t].
    destruct (if bool_decide _ then _ else _) as [[[k2 e2] sp2] d2]. intros H. injection H as _ _ <-.
    destruct t; repeat constructor.
  Qed.
  Lemma offenders_on x era w act : forall os s ev s' ev',
    fold_left (offender1 cfg x era w act) os (s, ev) = (s', ev') -> exists e1, ev' = ev ++ e1 /\ on_stashes s s' e1.
  Proof.
    induction os as [|[[[st ex] reps] f] os IH]; intros s ev s' ev' H; cbn [fold_left] in H.
    - injection H as <- <-. exists []. rewrite app_nil_r. split; [auto|apply on_refl].
    - destruct (offender1 _ _ _ _ _ _ _) as [s1 ev1] eqn:E. apply IH in H as (e2 & -> & B).
      assert (A : exists e1, ev1 = ev ++ e1 /\ on_stashes s s1 e1).
      { unfold offender1 in E. destruct (bool_decide _).
        { injection E as <- <-. exists []. rewrite app_nil_r. split; [auto|apply on_refl]. }
        destruct (compute_slash _ _ _ _ _ _ _ _) as [[s2 u] e1] eqn:Ec. apply compute_on in Ec. destruct u as [u|].
        - destruct (_ =? 0).
          + destruct (apply_slash _ _ _ _) as [s3 e3] eqn:E3. injection E as <- <-. exists (e1 ++ e3). split; [auto|].
            apply apply_slash_on in E3. eapply on_trans; eassumption.
          + injection E as <- <-. exists e1. split; [auto|]. exact Ec.
        - injection E as <- <-. exists e1. split; [auto|]. exact Ec. }
      destruct A as (e1 & -> & A). exists (e1 ++ e2). rewrite app_assoc. split; [auto|]. eapply on_trans; eassumption.
  Qed.
  Lemma on_offence_on x s os i s' ev : on_offence cfg x s os i = (s', ev) -> on_stashes s s' ev.
  Proof.
    unfold on_offence. destruct (e_act (k_era s)) as [[act b]|]; [|intros [= <- <-]; apply on_refl].
    destruct (slash_era _ _ _); [|intros [= <- <-]; apply on_refl]. cbn zeta.
    intros H. apply offenders_on in H as (e1 & -> & A). destruct (s_first (k_stk s)); exact A.
  Qed.
  Lemma no_stash_sum s s' ev a : on_stashes s s' ev -> s_bonded (k_stk s) !! a = None -> slash_sum a ev = 0.
  Proof.
    intros [_ B] Hn. assert (Hf : ~ slashed_in ev a). { intros Q. destruct (B a Q) as [? E]. congruence. }
    clear B. induction ev as [|e ev IH]; [reflexivity|]. unfold slash_sum in *. cbn.
    rewrite IH by (intros [v Hv]; apply Hf; exists v; now right).
    destruct e; try reflexivity. match goal with |- context [?b =? a] => destruct (N.eqb_spec b a) as [->|]; [|reflexivity] end. exfalso. apply Hf. eexists. left.
  Qed.
End slashes.

(** ** Steps of others *)
Section quiet.
  Context (cfg : wcfg) (ed : N) (Hs : Model_Credit.kc_step (jc_c (wc_chain cfg)) <> Model_Credit.U64MAX).
  Lemma block_slash x w b w' ev a : Model_Staking.s_bonded (Model_Staking.k_stk (j_s (w_chain w))) !! a = None ->
    (exists i, b = BStartSession i) \/ (exists os i, b = BOffence os i) ->
    wblock_step cfg x w b = (w', WDone ev) -> Spec_Staking2.slash_sum a (omap staking_event ev) = 0.
  Proof.
    intros Hn Hb H.
    assert (G : forall act, ((exists i, act = JStartSession i) \/ (exists os i, act = JOffence os i)) ->
      of_chain w (wjstep cfg x w act) = (w', WDone ev) -> Spec_Staking2.slash_sum a (omap staking_event ev) = 0).
    { clear H. intros act Ha H. destruct (wjstep cfg x w act) as [j [v| |]] eqn:E; cbn in H; try discriminate. injection H as _ <-.
      rewrite staking_events. unfold wjstep in E.
      pose proof (Proofs_Chain1.jstep_staking (wc_chain cfg) (jsync (w_chain w) (w_bank w)) (wjctx cfg x w, act) Hs eq_refl) as K.
      unfold Proofs_Chain1.sop in K. rewrite E in K. cbn [fst snd] in K.
      destruct Ha as [[i ->]|(os & i & ->)]; cbn [Model_Staking.kstep] in K.
      - destruct (Model_Staking.start_session _ _ _ _) as [s1 e1] eqn:Es. cbn in K. injection K as _ <-.
        apply start_session_on in Es. eapply no_stash_sum; [exact Es|exact Hn].
      - destruct (Model_Staking.on_offence _ _ _ _ _) as [s1 e1] eqn:Es. cbn in K. injection K as _ <-.
        apply on_offence_on in Es. eapply no_stash_sum; [exact Es|exact Hn]. }
    destruct Hb as [[i ->]|(os & i & ->)]; cbn [wblock_step] in H; (eapply G; [|exact H]); eauto.
  Qed.
  Lemma channel_free x w who c w' ev a : who <> a -> (forall v, Model_Micropayment.m_chan (w_chan w) !! (a, v) = None) ->
    wchannel cfg x w who c = (w', WDone ev) -> price cfg ed w (x, WChannel who c) ev a = 0.
  Proof.
    intros Hw Hn H. unfold wchannel in H. destruct (negb _); [discriminate|].
    destruct (Model_Micropayment.mstep _ _ _ _ _ _) as [m [e| |]] eqn:E; try discriminate. injection H as _ <-.
    apply Proofs_Micropayment.mstep_ok in E as [E [->|[e0 ->]]].
    - remember Model_Micropayment.MCloseExpired as call eqn:Ec. clear Hn. unfold price. cbn [snd]. rewrite map_map.
      induction E as [s|s e s1 ev s2 A B IH]; [reflexivity|]. cbn [map lsum]. rewrite IH.
      destruct A as [? ? ? ? E|? ? ? ? E|c v ch s3 Es Q D|? ? ? ? ? ? E|? ? ? E]; try (subst; discriminate).
      cbn. destruct (N.eqb_spec c a) as [->|]; [|reflexivity]. subst. exfalso.
      destruct Q as [(? & ?)|[(? & (? & ? & ? & ?) & _)|[(? & _)|(? & _)]]]; congruence.
    - inversion E as [|? ? s1 ? ? A B]; subst. unfold price. cbn [snd map lsum]. rewrite N.add_0_r.
      destruct A as [? ? ? ? ?|? ? ? ? ?|c0 v ch s3 Es Q D|c0 ? ? ? ? ? ? Es|? ? ? ?]; try reflexivity; cbn.
      + destruct (N.eqb_spec c0 a) as [->|]; [|reflexivity]. cbn in Es. congruence.
      + destruct (N.eqb_spec c0 a) as [->|]; [|reflexivity]. cbn in Es. congruence.
  Qed.
  Lemma others_free w op w' ev a : wstep cfg w op = (w', WDone ev) ->
    uninvolved cfg w a -> signer op.2 <> Some a -> ~ seized op.2 a -> price cfg ed w op ev a = 0.
  Proof.
    intros H (U1 & U2 & U3 & U4 & U5 & U6 & U7) Hn Hz. destruct op as [x act]. cbn [snd] in Hn, Hz.
    assert (is : forall b v, b <> a -> (if b =? a then v else 0) = 0).
    { intros b v Hb. destruct (N.eqb_spec b a); [contradiction|reflexivity]. }
    destruct act as [o c|o c|o c|o c|o c|who c|o c|o c|o c|caller user score add|b|from to v|who v|who v]; try reflexivity.
    - destruct o as [|who|]; try reflexivity. destruct c; try reflexivity. apply is. cbn in Hn. congruence.
    - destruct o as [|who|]; try reflexivity. destruct c as [k|l]; try reflexivity. destruct k; try reflexivity.
      + apply is. cbn in Hn. congruence.
      + unfold price. cbn [snd]. rewrite bool_decide_false by apply U2. reflexivity.
    - cbn [wstep fst snd] in H. eapply channel_free; [|exact U3|exact H]. cbn in Hn. congruence.
    - destruct o as [|who|]; try reflexivity; destruct c; try reflexivity; cbn in Hn, Hz; try (apply is; congruence).
      unfold price. cbn [snd]. destruct (Model_Operation.o_fund (w_rel w)) as [pool|]; [|reflexivity]. apply is. congruence.
    - destruct o as [|who|]; try reflexivity. destruct c; try reflexivity. unfold price. cbn [snd].
      assert (forall l, lsum (map (fun e => match e with VAdsc (Model_Adsc.ESwap _ _ dpr) => if Model_Adsc.ac_acct (wc_adsc cfg) =? a then dpr else 0 | _ => 0 end) l) = 0) as Z.
      { clear -U6. induction l as [|e l IH]; [reflexivity|]. cbn [map lsum]. rewrite IH.
        destruct (N.eqb_spec (Model_Adsc.ac_acct (wc_adsc cfg)) a); [congruence|]. destruct e; try reflexivity. destruct e; reflexivity. }
      apply Z.
    - assert (Sl : forall h, match Model_Tips.t_tips (w_tips w) !! h with Some t => if Model_Tips.ot_finder t =? a then Model_Tips.ot_deposit t else 0 | None => 0 end = 0).
      { intros h. destruct (_ !! h) as [t|] eqn:E; [|reflexivity]. apply is. eapply U4. exact E. }
      destruct o as [|who|]; destruct c; try reflexivity; try apply Sl. apply is. congruence.
    - destruct b; try reflexivity; cbn [wstep fst snd] in H; (eapply block_slash; [exact U1| |exact H]); eauto.
    - cbn in Hn. apply is. congruence.
  Qed.
End quiet.
