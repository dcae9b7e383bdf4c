(** Votes along a history. *)
From Verif Require Import Base Balances Model_Tips Spec_Tips Proofs_Tips.
From stdpp Require Import gmap sorting.
Open Scope N_scope.

Definition votes (ch : chan) (t : otip) : list (N * N) :=
  match ch with Coin => ot_tips t | Cred => ot_credits t end.
Definition stands (ch : chan) (s : tstate) (h a : N) : option N :=
  match t_tips s !! h with Some t => look a (votes ch t) | None => None end.
Definition tip_ok (t : otip) : Prop :=
  forall ch, ordered (votes ch t) /\ Forall (fun p => p.2 < two128) (votes ch t).
Definition vinv (s : tstate) : Prop := forall h t, t_tips s !! h = Some t -> tip_ok t.

Lemma give_back_tips cfg s t : t_tips (give_back cfg s t) = t_tips s.
Proof. unfold give_back. now destruct (_ =? _). Qed.
Lemma give_back_reasons cfg s t : t_reasons (give_back cfg s t) = t_reasons s.
Proof. unfold give_back. now destruct (_ =? _). Qed.
Lemma give_back_owner cfg s t : t_owner (give_back cfg s t) = t_owner s.
Proof. unfold give_back. now destruct (_ =? _). Qed.

Lemma votes_closes t n ch : votes ch (set_closes t n) = votes ch t.
Proof. now destruct ch. Qed.
Lemma check_votes cfg x n t ch : votes ch (check_closing cfg x n t).1 = votes ch t.
Proof. unfold check_closing. destruct (_ && _); [apply votes_closes|reflexivity]. Qed.

Lemma vote_vals a v l : v < two128 -> Forall (fun p => p.2 < two128) l -> Forall (fun p => p.2 < two128) (vote a v l).
Proof.
  intros Hv. induction 1 as [|[b w] r H F IH]; cbn; [repeat constructor; exact Hv|].
  destruct (b <? a); [constructor; auto|]. destruct (b =? a); repeat (constructor; auto).
Qed.

(** One declaration. *)
Lemma declare_spec m w v l : StronglySorted N.lt m -> w ∈ m -> v < two128 ->
  ordered l -> Forall (fun p => p.2 < two128) l ->
  ordered (retain m (vote w v l)) /\ Forall (fun p => p.2 < two128) (retain m (vote w v l)) /\
  (forall a, look a (retain m (vote w v l)) =
     if w =? a then Some v else if bool_decide (a ∈ m) then look a l else None) /\
  length (retain m (vote w v l)) = length (omap (fun a => look a (retain m (vote w v l))) m).
Proof.
  intros Sm Hw Hv So Sb. destruct (vote_spec w v l So) as [O L].
  pose proof (retain_filter (vote w v l) m Sm O) as E.
  assert (O' : ordered (retain m (vote w v l))) by (rewrite E; now apply ordered_filter).
  split; [exact O'|]. split; [rewrite E, Forall_forall; intros p Hp; apply elem_of_list_filter in Hp as [_ Hp]; revert p Hp; rewrite <- Forall_forall; now apply vote_vals|]. split.
  - intros a. rewrite E, look_filter, L. rewrite N.eqb_sym. destruct (N.eqb_spec w a) as [->|]; [|reflexivity].
    now rewrite bool_decide_true.
  - pose proof (retain_values m _ Sm O') as P. rewrite <- P, fmap_length.
    rewrite (retain_filter _ m Sm O'). rewrite E. f_equal. symmetry.
    clear. generalize (vote w v l) as k. induction k as [|p k IH]; [reflexivity|].
    rewrite filter_cons. destruct (decide (p.1 ∈ m)); [|exact IH]. rewrite filter_cons, decide_True by assumption. now f_equal.
Qed.

Section step.
  Context (cfg : tcfg).

  Lemma tipper_ok x o w : tipper x o = ROk w -> o = Signed w /\ w ∈ tx_members x.
  Proof.
    unfold tipper, signed. destruct o; try discriminate. cbn. unfold ensure.
    case_bool_decide; cbn; [|discriminate]. now intros [= ->].
  Qed.
  Lemma signed_ok o w : signed o = ROk w -> o = Signed w.
  Proof. destruct o; try discriminate. now intros [= ->]. Qed.
  Lemma find_ok s h t : find_tip s h = ROk t -> t_tips s !! h = Some t.
  Proof. unfold find_tip. destruct (t_tips s !! h); [now intros [= ->]|discriminate]. Qed.

  (** What a successful call does to the open tips. *)
  Inductive tchange (x : tctx) (o : origin) (c : tcall) (s s' : tstate) (ev : list tev) : Prop :=
  | ch_open reason h t w : h = tc_thash cfg (ot_reason t) (ot_who t) ->
      ot_reason t = tc_rhash cfg reason -> t_reasons s !! ot_reason t = None -> o = Signed w -> ot_finder t = w ->
      ot_closes t = None ->
      t_tips s' = <[h := t]> (t_tips s) -> t_reasons s' = <[ot_reason t := reason]> (t_reasons s) ->
      t_owner s' = t_owner s ->
      match c with
      | TReport reason' who => reason' = reason /\ who = ot_who t /\ ot_tips t = [] /\ ot_credits t = [] /\ ot_fee t = true /\
          N.of_nat (length reason) <= tc_maxlen cfg /\
          ot_deposit t = add128 (tc_base cfg) (w128 (tc_perbyte cfg * w32 (N.of_nat (length reason)))) /\
          reserve (tc_ed cfg) (t_bank s) w (ot_deposit t) = Some (t_bank s')
      | TTipNew reason' who v => reason' = reason /\ who = ot_who t /\ ot_tips t = [(w, v)] /\ ot_credits t = [] /\
                                 ot_deposit t = 0 /\ ot_fee t = false /\ t_bank s' = t_bank s /\ w ∈ tx_members x
      | TCreditNew reason' who v => reason' = reason /\ who = ot_who t /\ ot_tips t = [] /\ ot_credits t = [(w, v)] /\
                                 ot_deposit t = 0 /\ ot_fee t = false /\ t_bank s' = t_bank s /\ w ∈ tx_members x
      | _ => False
      end -> ev = [match c with TCreditNew _ _ _ => TNewCredit h | _ => TNew h end] -> tchange x o c s s' ev
  | ch_vote h t t' w v b : t_tips s !! h = Some t -> o = Signed w -> w ∈ tx_members x ->
      match c with
      | TTip k u => k = h /\ u = v /\
          (t', b) = check_closing cfg x (length (retain (tx_members x) (vote w v (ot_tips t))))
                      (set_tips t (retain (tx_members x) (vote w v (ot_tips t))))
      | TCreditTip k u => k = h /\ u = v /\
          (t', b) = check_closing cfg x (length (retain (tx_members x) (vote w v (ot_credits t))))
                      (set_credits t (retain (tx_members x) (vote w v (ot_credits t))))
      | _ => False
      end ->
      s' = put_tip s h t' -> ev = closing h b -> tchange x o c s s' ev
  | ch_drop h t : t_tips s !! h = Some t ->
      match c with TRetract k | TClose k | TSlash k | TCreditClose k => k = h | _ => False end ->
      t_tips s' = delete h (t_tips s) -> t_reasons s' = delete (ot_reason t) (t_reasons s) ->
      t_owner s' = t_owner s ->
      Forall (fun e => match e with TNew _ | TNewCredit _ | TClosing _ => False | _ => True end) ev -> tchange x o c s s' ev
  | ch_owner who : c = TSetOwner who -> o = Root ->
      s' = TState (t_bank s) (t_tips s) (t_reasons s) (Some who) -> ev = [TOwner who] -> tchange x o c s s' ev.

  Lemma exec_change x o c s s' ev : texec cfg x s o c = ROk (s', ev) -> tchange x o c s s' ev.
  Proof.
    destruct c; cbn [texec].
    - destruct (signed o) as [w| |] eqn:Ew; cbn; try discriminate. apply signed_ok in Ew. unfold report, ensure.
      destruct (N.leb_spec (N.of_nat (length reason)) (tc_maxlen cfg)); cbn; [|discriminate]. unfold known. case_bool_decide as Hk; cbn; [discriminate|].
      case_bool_decide; cbn; [discriminate|]. destruct (reserve _ _ _ _) eqn:Er; [|discriminate]. intros [= <- <-].
      eapply ch_open with (t := OTip _ _ _ _ _ _ _ _) (w := w); cbn; try reflexivity; auto 12.
      rewrite <- eq_None_not_Some in Hk. exact Hk.
    - destruct (signed o) as [w| |] eqn:Ew; cbn; try discriminate. unfold retract.
      destruct (find_tip s h) as [t| |] eqn:Ef; cbn; try discriminate. apply find_ok in Ef. unfold ensure.
      destruct (_ =? _); cbn; [|discriminate]. intros [= <- <-].
      eapply ch_drop; rewrite ?give_back_tips, ?give_back_reasons, ?give_back_owner; cbn; eauto; repeat constructor.
    - destruct (tipper x o) as [w| |] eqn:Ew; cbn; try discriminate. apply tipper_ok in Ew as [Ew Hw]. unfold tip_new, ensure, known.
      case_bool_decide as Hk; cbn; [discriminate|]. intros [= <- <-].
      eapply ch_open with (t := OTip _ _ _ _ _ _ _ _) (w := w); cbn; try reflexivity; auto 10.
      rewrite <- eq_None_not_Some in Hk. exact Hk.
    - destruct (tipper x o) as [w| |] eqn:Ew; cbn; try discriminate. apply tipper_ok in Ew as [Ew Hw]. unfold do_tip.
      destruct (find_tip s h) as [t| |] eqn:Ef; cbn; try discriminate. apply find_ok in Ef.
      destruct (check_closing _ _ _ _) as [t2 b] eqn:Ec. intros [= <- <-].
      eapply ch_vote; eauto.
    - destruct (signed o) as [w| |] eqn:Ew; cbn; try discriminate. unfold close.
      destruct (find_tip s h) as [t| |] eqn:Ef; cbn; try discriminate. apply find_ok in Ef.
      destruct (ripe x t); cbn; try discriminate. unfold payout_tip. destruct (middle _ _); [|discriminate].
      intros [= <- <-]. eapply ch_drop; cbn; rewrite ?give_back_tips, ?give_back_reasons, ?give_back_owner; cbn; eauto; repeat constructor.
    - unfold ensure. destruct (tx_reject x); cbn; [|discriminate]. unfold slash.
      destruct (find_tip s h) as [t| |] eqn:Ef; cbn; try discriminate. apply find_ok in Ef.
      destruct (slash_reserved _ _ _ _) as [b got]. intros [= <- <-].
      eapply ch_drop; try exact Ef; cbn; try reflexivity; try (now destruct (_ =? _)); repeat constructor.
    - destruct (tipper x o) as [w| |] eqn:Ew; cbn; try discriminate. apply tipper_ok in Ew as [Ew Hw]. unfold credit_new, ensure, known.
      case_bool_decide as Hk; cbn; [discriminate|]. intros [= <- <-].
      eapply ch_open with (t := OTip _ _ _ _ _ _ _ _) (w := w); cbn; try reflexivity; auto 10.
      rewrite <- eq_None_not_Some in Hk. exact Hk.
    - destruct (tipper x o) as [w| |] eqn:Ew; cbn; try discriminate. apply tipper_ok in Ew as [Ew Hw]. unfold do_credit_tip.
      destruct (find_tip s h) as [t| |] eqn:Ef; cbn; try discriminate. apply find_ok in Ef.
      destruct (check_closing _ _ _ _) as [t2 b] eqn:Ec. intros [= <- <-].
      eapply ch_vote; eauto.
    - destruct (signed o) as [w| |] eqn:Ew; cbn; try discriminate. unfold credit_close.
      destruct (find_tip s h) as [t| |] eqn:Ef; cbn; try discriminate. apply find_ok in Ef.
      destruct (ripe x t); cbn; try discriminate. destruct (middle _ _); [|discriminate].
      intros [= <- <-]. eapply ch_drop; cbn; rewrite ?give_back_tips, ?give_back_reasons, ?give_back_owner; cbn; eauto; repeat constructor.
    - destruct o; try discriminate. intros [= <- <-]. eapply ch_owner; reflexivity.
  Qed.

  Lemma step_votes s op ch h a : op_ok op -> vinv s ->
    vinv (tstep cfg s op).1 /\
    stands ch (tstep cfg s op).1 h a = said cfg ch h a (stands ch s h a) (op, (tstep cfg s op).2).
  Proof.
    intros Hop V. destruct op as [x o c|b]; [|split; [exact V|reflexivity]].
    destruct Hop as [Sm Ha]. cbn [tstep].
    destruct (texec cfg x s o c) as [[s' ev]| |] eqn:E; cbn [fst snd]; [|split; [exact V|reflexivity]..].
    apply exec_change in E. destruct E as [reason k t w Hk Hr Hn Ho Hf Hc Ht Hrs Hw Hm Hev|k t t' w v b Hk Ho Hw Hm -> Hev|k t Hk Hm Ht Hr Hw Hev|who -> -> -> Hev].
    - subst o. split.
      + intros k' t1. rewrite Ht. destruct (decide (k' = k)) as [->|]; [rewrite lookup_insert|rewrite lookup_insert_ne by auto; apply V].
        intros [= <-]. intros ch'. destruct c; try contradiction; decompose [and] Hm; destruct ch'; cbn in *;
          repeat match goal with E : ot_tips t = _ |- _ => rewrite E; clear E | E : ot_credits t = _ |- _ => rewrite E; clear E end;
          split; repeat constructor; exact Ha.
      + unfold stands. rewrite Ht. destruct (N.eqb_spec k h) as [->|Hne].
        * rewrite lookup_insert. destruct c; try contradiction; decompose [and] Hm; subst; cbn [said];
            rewrite <- Hr, N.eqb_refl; destruct ch; cbn;
            repeat match goal with E : ot_tips t = _ |- _ => rewrite E; clear E | E : ot_credits t = _ |- _ => rewrite E; clear E end;
            cbn; rewrite ?(N.eqb_sym a); reflexivity.
        * rewrite lookup_insert_ne by auto. apply N.eqb_neq in Hne.
          destruct c; try contradiction; decompose [and] Hm; subst; cbn [said]; rewrite <- Hr, Hne; reflexivity.
    - subst o. pose proof (V _ _ Hk) as Vt.
      assert (K : (forall ch', votes ch' t' = if match c with TTip _ _ => bool_decide (ch' = Coin) | _ => bool_decide (ch' = Cred) end
                      then retain (tx_members x) (vote w v (votes ch' t)) else votes ch' t) /\ v < two128).
      { destruct c; try contradiction; destruct Hm as (-> & -> & Hm); (split; [|exact Ha]); intros ch';
          change t' with (t', b).1; rewrite Hm, check_votes; destruct ch'; reflexivity. }
      destruct K as [K Hv]. split.
      + intros k' t1. cbn. destruct (decide (k' = k)) as [->|]; [rewrite lookup_insert|rewrite lookup_insert_ne by auto; apply V].
        intros [= <-]. intros ch'. rewrite K. destruct (Vt ch') as [O F].
        destruct (declare_spec (tx_members x) w v (votes ch' t) Sm Hw Hv O F) as (D1 & D2 & _).
        now destruct (match c with TTip _ _ => _ | _ => _ end).
      + unfold stands. cbn. destruct (N.eqb_spec k h) as [->|Hne].
        * rewrite lookup_insert, Hk, K. destruct (Vt ch) as [O F].
          destruct (declare_spec (tx_members x) w v (votes ch t) Sm Hw Hv O F) as (_ & _ & D3 & _).
          destruct c; try contradiction; destruct Hm as (-> & -> & _); cbn [said]; rewrite N.eqb_refl;
            destruct ch; cbn; try reflexivity; rewrite D3; reflexivity.
        * rewrite lookup_insert_ne by auto. apply N.eqb_neq in Hne.
          destruct c; try contradiction; destruct Hm as (-> & -> & _); cbn [said]; rewrite Hne, andb_false_r; reflexivity.
    - split.
      + intros k' t1. rewrite Ht. intros H. apply lookup_delete_Some in H as [_ H]. eapply V; exact H.
      + unfold stands. rewrite Ht. destruct (N.eqb_spec k h) as [->|Hne].
        * rewrite lookup_delete. destruct c; try contradiction; subst; cbn [said]; rewrite N.eqb_refl; reflexivity.
        * rewrite lookup_delete_ne by auto. apply N.eqb_neq in Hne.
          destruct c; try contradiction; subst; cbn [said]; rewrite Hne; reflexivity.
    - split; [exact V|reflexivity].
  Qed.

  (** Histories, from the end. *)
  Lemma trun_app s h1 h2 : trun cfg s (h1 ++ h2) = trun cfg (trun cfg s h1) h2.
  Proof. revert s. induction h1 as [|op h1 IH]; intros s; [reflexivity|]. cbn. apply IH. Qed.
  Lemma tlog_cons s op h : tlog cfg s (op :: h) = (op, (tstep cfg s op).2) :: tlog cfg (tstep cfg s op).1 h.
  Proof. reflexivity. Qed.
  Lemma tlog_app s h1 h2 : tlog cfg s (h1 ++ h2) = tlog cfg s h1 ++ tlog cfg (trun cfg s h1) h2.
  Proof. revert s. induction h1 as [|op h1 IH]; intros s; [reflexivity|]. cbn [app]. rewrite !tlog_cons. cbn [app trun]. now rewrite IH. Qed.

  Lemma run_votes hist : forall s, hist_ok hist -> vinv s ->
    vinv (trun cfg s hist) /\
    forall ch h a, stands ch (trun cfg s hist) h a = fold_left (said cfg ch h a) (tlog cfg s hist) (stands ch s h a).
  Proof.
    induction hist as [|op hist IH]; intros s Hh V; [split; [exact V|reflexivity]|].
    inversion Hh as [|? ? Hop Hr]; subst. rewrite tlog_cons. cbn [trun fold_left].
    assert (V1 : vinv (tstep cfg s op).1) by (apply (step_votes s op Coin 0 0); auto).
    destruct (IH _ Hr V1) as [H1 H2]. split; [exact H1|]. intros ch h a. rewrite H2.
    destruct (step_votes s op ch h a Hop V) as [_ ->]. reflexivity.
  Qed.
  Lemma genesis_vinv b : vinv (tgenesis b).
  Proof. intros h t H. discriminate H. Qed.

  Lemma reach_votes b hist : hist_ok hist -> vinv (trun cfg (tgenesis b) hist) /\
    forall ch h a, stands ch (trun cfg (tgenesis b) hist) h a = latest cfg ch (tlog cfg (tgenesis b) hist) h a.
  Proof. intros Hh. apply (run_votes hist (tgenesis b) Hh (genesis_vinv b)). Qed.

  Lemma reach_declared b hist ch h t m : hist_ok hist -> t_tips (trun cfg (tgenesis b) hist) !! h = Some t ->
    omap (fun a => look a (votes ch t)) m = declared cfg ch (tlog cfg (tgenesis b) hist) h m.
  Proof.
    intros Hh Ht. unfold declared. apply omap_ext'. intros a. destruct (reach_votes b hist Hh) as [_ H].
    rewrite <- H. unfold stands. now rewrite Ht.
  Qed.
End step.
