(** Each pallet of the whole chain behaves as in its own model. *)
From Verif Require Import Base Balances Model_UserPrivileges.
From Verif Require Model_Credit Model_Staking Model_DeeperNode Model_CreditAccumulation.
From Verif Require Model_Micropayment Model_Operation Model_Adsc Model_Tips.
From Verif Require Import Model_Chain Model_World Spec_World Spec_World2 Spec_Chain Proofs_World2.
From stdpp Require Import gmap.
Open Scope N_scope.

Section refine.
  Context (cfg : wcfg).

  (** ** Runs of the single models over joined histories *)
  Lemma jrun_app c h1 : forall j h2, jrun c j (h1 ++ h2) = jrun c (jrun c j h1) h2.
  Proof. induction h1 as [|op h1 IH]; intros; [reflexivity|]. cbn. apply IH. Qed.
  Lemma jouts_app c h1 : forall j h2, jouts c j (h1 ++ h2) = jouts c j h1 ++ jouts c (jrun c j h1) h2.
  Proof. induction h1 as [|op h1 IH]; intros; [reflexivity|]. cbn. now rewrite IH. Qed.
  Lemma jevents_app a b : jevents (a ++ b) = jevents a ++ jevents b.
  Proof. unfold jevents. now rewrite map_app, concat_app. Qed.
  Lemma trun_app c h1 : forall s h2, Model_Tips.trun c s (h1 ++ h2) = Model_Tips.trun c (Model_Tips.trun c s h1) h2.
  Proof. induction h1 as [|op h1 IH]; intros; [reflexivity|]. cbn. apply IH. Qed.
  Lemma orun_app c h1 : forall s h2,
    Model_Operation.orun c s (h1 ++ h2) =
      let '(s1, e1) := Model_Operation.orun c s h1 in let '(s2, e2) := Model_Operation.orun c s1 h2 in (s2, e1 ++ e2).
  Proof.
    induction h1 as [|op h1 IH]; intros s h2; cbn; [now destruct (Model_Operation.orun c s h2)|].
    destruct (Model_Operation.odo c s op) as [s0 e0]. rewrite IH. destruct (Model_Operation.orun c s0 h1) as [s1 e1].
    destruct (Model_Operation.orun c s1 h2) as [s2 e2]. now rewrite app_assoc.
  Qed.
  Lemma arun_app c h1 : forall s h2,
    Model_Adsc.arun c s (h1 ++ h2) =
      let '(s1, e1) := Model_Adsc.arun c s h1 in let '(s2, e2) := Model_Adsc.arun c s1 h2 in (s2, e1 ++ e2).
  Proof.
    induction h1 as [|op h1 IH]; intros s h2; cbn; [now destruct (Model_Adsc.arun c s h2)|].
    destruct (Model_Adsc.ado c s op) as [s0 e0]. rewrite IH. destruct (Model_Adsc.arun c s0 h1) as [s1 e1].
    destruct (Model_Adsc.arun c s1 h2) as [s2 e2]. now rewrite app_assoc.
  Qed.

  (** ** What a step leaves alone *)
  Lemma of_chain_rest x w a w' ev : of_chain w (wjstep cfg x w a) = (w', WDone ev) ->
    exists j e, wjstep cfg x w a = (j, JDone e) /\ w' = set_w_chain w j /\ ev = map VStaking e.
  Proof.
    unfold of_chain. destruct (wjstep cfg x w a) as [j [e| |]]; intros H; try discriminate. injection H as <- <-. eauto.
  Qed.
  Lemma to_credit_rest x w e v w0 w' ev : to_credit cfg x w e v w0 = (w', WDone ev) ->
    exists j, wjstep cfg x w (JEntry e) = (j, JDone []) /\ w' = set_w_chain w j /\ ev = v.
  Proof.
    unfold to_credit. destruct (wjstep cfg x w (JEntry e)) as [j [e0| |]] eqn:E; intros H; try discriminate.
    injection H as <- <-. pose proof (entry_events cfg _ _ _ _ _ E) as ->. eauto.
  Qed.
  Lemma omap_none {A B} (f : A -> option B) l : (forall a, f a = None) -> omap f l = [].
  Proof. intros Z. induction l as [|a l IH]; [reflexivity|]. cbn. now rewrite Z. Qed.
  Lemma omap_map_none {A B C} (g : C -> A) (f : A -> option B) l : (forall c, f (g c) = None) -> omap f (map g l) = [].
  Proof. intros Z. induction l as [|a l IH]; [reflexivity|]. cbn. now rewrite Z. Qed.
  Lemma omap_map_some {A B} (g : B -> A) (f : A -> option B) l : (forall c, f (g c) = Some c) -> omap f (map g l) = l.
  Proof. intros Z. induction l as [|a l IH]; [reflexivity|]. cbn. rewrite Z. f_equal. exact IH. Qed.

  (** ** One step, pallet by pallet *)
  Definition jproj (w : wstate) : jstate := jsync (w_chain w) (w_bank w).

  Lemma jsync_sync j b b' : jsync (jsync j b) b' = jsync j b'.
  Proof. reflexivity. Qed.
  Lemma bank_move x j b : jstep (wc_chain cfg) j (x, JBank b) = (jsync j b, JDone []).
  Proof. reflexivity. Qed.
  Lemma part_step x w w1 a j e : w_chain w1 = w_chain w ->
    wjstep cfg x w1 a = (j, JDone e) ->
    jrun (wc_chain cfg) (jproj w) [(wjctx cfg x w1, JBank (w_bank w1)); (wjctx cfg x w1, a)] = j /\
    jevents (jouts (wc_chain cfg) (jproj w) [(wjctx cfg x w1, JBank (w_bank w1)); (wjctx cfg x w1, a)]) = e.
  Proof.
    intros Hc H. unfold wjstep in H. cbn [jrun jouts]. rewrite bank_move. cbn [fst snd].
    assert (E : jsync (jproj w) (w_bank w1) = jsync (w_chain w1) (w_bank w1)) by (rewrite Hc; reflexivity).
    rewrite E, H. cbn. split; [reflexivity|apply app_nil_r].
  Qed.

  Definition chain_same (w w' : wstate) (ev : list wev) : Prop := w_chain w' = w_chain w /\ omap staking_event ev = [].
  Definition rel_same (w w' : wstate) (ev : list wev) : Prop := w_rel w' = w_rel w /\ omap release_event ev = [].
  Definition adsc_same (w w' : wstate) (ev : list wev) : Prop := w_adsc w' = w_adsc w /\ omap adsc_event ev = [].
  Definition chain_moved (w : wstate) (op : wop) (w' : wstate) (ev : list wev) : Prop :=
    match chain_part cfg w op with
    | Some (w1, a) => w_chain w1 = w_chain w /\ wjstep cfg op.1 w1 a = (w_chain w', JDone (omap staking_event ev))
    | None => chain_same w w' ev
    end.
  Definition rel_moved (w : wstate) (op : wop) (w' : wstate) (ev : list wev) : Prop :=
    match rel_part op with
    | Some c => Model_Operation.odo (wc_rel cfg) (Model_Operation.set_o_bank (w_rel w) (w_bank w)) (octx cfg op.1 w, c) =
                (w_rel w', omap release_event ev)
    | None => rel_same w w' ev
    end.
  Definition adsc_moved (w : wstate) (op : wop) (w' : wstate) (ev : list wev) : Prop :=
    match adsc_part op with
    | Some c => Model_Adsc.ado (wc_adsc cfg) (Model_Adsc.set_a_bank (w_adsc w) (w_bank w)) (actx cfg op.1 w, c) =
                (w_adsc w', omap adsc_event ev)
    | None => adsc_same w w' ev
    end.
  Definition tips_moved (w : wstate) (op : wop) (w' : wstate) : Prop :=
    match op.2 with
    | WTips o c => exists ev, Model_Tips.tstep (wc_tips cfg) (Model_Tips.set_bank (w_tips w) (w_bank w)) (Model_Tips.TCall (tctx op.1) o c) =
                   (w_tips w', Model_Tips.TDone ev)
    | _ => w_tips w' = w_tips w
    end.
  Definition moved (w : wstate) (op : wop) (w' : wstate) (ev : list wev) : Prop :=
    chain_moved w op w' ev /\ rel_moved w op w' ev /\ adsc_moved w op w' ev /\ tips_moved w op w'.

  Lemma staking_events l : omap staking_event (map VStaking l) = l.
  Proof. now apply omap_map_some. Qed.
  Ltac same := first [reflexivity | apply omap_map_none; reflexivity | apply omap_map_some; reflexivity].
  Lemma chain_only x a w' ev w b : of_chain w (wjstep cfg x w b) = (w', WDone ev) ->
    chain_part cfg w (x, a) = Some (w, b) -> rel_part (x, a) = None -> adsc_part (x, a) = None ->
    (forall o c, a <> WTips o c) -> moved w (x, a) w' ev.
  Proof.
    intros H Hc Hr Ha Ht. apply of_chain_rest in H as (j & e & E & -> & ->).
    unfold moved, chain_moved, rel_moved, adsc_moved, tips_moved, rel_same, adsc_same. rewrite Hc, Hr, Ha. cbn [fst snd].
    rewrite staking_events. repeat split; try same; try exact E.
    destruct a; try reflexivity. now destruct (Ht o c).
  Qed.
  Lemma step_moved w op w' ev : wstep cfg w op = (w', WDone ev) -> moved w op w' ev.
  Proof.
    intros H. destruct op as [x a]. destruct a; cbn [wstep fst snd] in H.
    - destruct (ustep _ _ _) as [p [r| |]]; try discriminate. injection H as <- <-. repeat split.
    - unfold wproof in H. unfold moved, chain_moved, rel_moved, adsc_moved, tips_moved, rel_same, adsc_same, chain_same.
      cbn [chain_part rel_part adsc_part fst snd].
      destruct (Model_CreditAccumulation.astep _ _ _ _ _) as [p [r| |]] eqn:E; try discriminate.
      destruct o as [|a|], c; try (injection H as <- <-; repeat split).
      rewrite E. apply to_credit_rest in H as (j & Ej & -> & ->). repeat split. exact Ej.
    - unfold wnode in H. destruct (negb _); [discriminate|].
      destruct (Model_DeeperNode.dstep _ _ _ _ _) as [p [r| |]]; try discriminate. injection H as <- <-. repeat split; same.
    - eapply chain_only; [exact H|reflexivity..|discriminate].
    - eapply chain_only; [exact H|reflexivity..|discriminate].
    - unfold wchannel in H. destruct (negb _); [discriminate|].
      destruct (Model_Micropayment.mstep _ _ _ _ _ _) as [p [r| |]]; try discriminate. injection H as <- <-. repeat split; same.
    - unfold woperation in H. unfold moved, chain_moved, rel_moved, adsc_moved, tips_moved, adsc_same, chain_same.
      cbn [chain_part rel_part adsc_part fst snd]. unfold Model_Operation.odo. cbn [fst snd].
      destruct (Model_Operation.ostep _ _ _ _ _) as [r [e| |]] eqn:E; try discriminate.
      destruct c; try (injection H as <- <-; repeat split; try same; f_equal; symmetry; same);
        apply to_credit_rest in H as (j & Ej & -> & ->);
        (cbn [fst]; repeat split; try same; [rewrite Ej; f_equal; f_equal; symmetry; same|f_equal; symmetry; same]).
    - unfold wadsc in H. unfold moved, chain_moved, rel_moved, adsc_moved, tips_moved, rel_same, chain_same.
      cbn [chain_part rel_part adsc_part fst snd]. unfold Model_Adsc.ado. cbn [fst snd].
      destruct (Model_Adsc.astep _ _ _ _ _) as [r [e| |]] eqn:E; try discriminate.
      injection H as <- <-. repeat split; try same. f_equal. symmetry. same.
    - unfold wtips in H. unfold moved, chain_moved, rel_moved, adsc_moved, tips_moved, rel_same, adsc_same, chain_same.
      cbn [chain_part rel_part adsc_part fst snd].
      destruct (Model_Tips.tstep _ _ _) as [t [e| |]] eqn:E; try discriminate.
      destruct e as [|[] e]; cbn [tipped] in H;
        try (injection H as <- <-; repeat split; try same; eexists; reflexivity).
      apply to_credit_rest in H as (j & Ej & -> & ->).
      repeat split; try same; [rewrite Ej; f_equal; f_equal; symmetry; same|eexists; reflexivity].
    - eapply chain_only; [exact H|reflexivity..|discriminate].
    - destruct b; cbn [wblock_step] in H; try (eapply chain_only; [exact H|reflexivity..|discriminate]).
      + unfold moved, chain_moved, rel_moved, adsc_moved, tips_moved, adsc_same, chain_same.
        cbn [chain_part rel_part adsc_part fst snd]. unfold Model_Operation.odo. cbn [fst snd].
        destruct (Model_Operation.on_finalize _ _ _) as [r e] eqn:E. injection H as <- <-.
        repeat split; try same. f_equal. symmetry. same.
      + unfold moved, chain_moved, rel_moved, adsc_moved, tips_moved, rel_same, chain_same.
        cbn [chain_part rel_part adsc_part fst snd]. unfold Model_Adsc.ado. cbn [fst snd].
        destruct (adsc_entry e); [|discriminate]. cbn [negb] in H.
        destruct (Model_Adsc.aentry _ _ _ _) as [r v] eqn:E. injection H as <- <-.
        repeat split; try same. f_equal. symmetry. same.
    - destruct (transfer_allow _ _ _ _ _); [|discriminate]. injection H as <- <-. repeat split.
    - unfold wreserve in H. destruct (reserve _ _ _ _); [|discriminate]. injection H as <- <-. repeat split.
    - unfold wrelease in H. injection H as <- <-. repeat split.
  Qed.

  (** ** Histories *)
  Lemma step_idle w op : done (wstep cfg w op).2 = false -> (wstep cfg w op).1 = w.
  Proof.
    destruct (wstep cfg w op) as [w' out] eqn:E. cbn. intros H.
    apply (step_same cfg w op w' out E). intros ev ->. discriminate.
  Qed.
  Lemma events_cons {A} (f : wev -> option A) e log :
    events_of f (e :: log) =
    match e.2 with WDone ev => map (fun v => (wx_ms e.1.1, v)) (omap f ev) | _ => [] end ++ events_of f log.
  Proof. reflexivity. Qed.
  Lemma wlog_cons w op h : wlog cfg w (op :: h) = (op, (wstep cfg w op).2) :: wlog cfg (wstep cfg w op).1 h.
  Proof. reflexivity. Qed.
  Lemma snd_stamp {A} (t : N) (l : list A) : map snd (map (fun v => (t, v)) l) = l.
  Proof. rewrite map_map. apply map_id. Qed.

  Theorem chain_refines h : forall w,
    jrun (wc_chain cfg) (jproj w) (view cfg (chain_view1 cfg) w h) = jproj (wrun cfg w h) /\
    jevents (jouts (wc_chain cfg) (jproj w) (view cfg (chain_view1 cfg) w h)) =
      map snd (events_of staking_event (wlog cfg w h)).
  Proof.
    induction h as [|op h IH]; intros w; [split; reflexivity|].
    cbn [view wrun]. rewrite jrun_app, jouts_app, jevents_app, wlog_cons, events_cons, map_app. cbn [snd fst].
    assert (S : jrun (wc_chain cfg) (jproj w) (chain_view1 cfg w op) = jproj (wstep cfg w op).1 /\
      jevents (jouts (wc_chain cfg) (jproj w) (chain_view1 cfg w op)) =
      map snd (match (wstep cfg w op).2 with WDone ev => map (fun v => (wx_ms op.1, v)) (omap staking_event ev) | _ => [] end)).
    { unfold chain_view1. destruct (wstep cfg w op) as [w' out] eqn:E. cbn [fst snd].
      destruct out as [ev| |]; cbn [done];
        [|apply step_same in E as [-> _]; [split; reflexivity|discriminate]..].
      apply step_moved in E as [M _]. unfold chain_moved in M. rewrite snd_stamp, jrun_app, jouts_app, jevents_app.
      destruct (chain_part cfg w op) as [[w1 a]|].
      - destruct M as [Hc M]. destruct (part_step _ _ _ _ _ _ Hc M) as [-> ->].
        split; [reflexivity|]. apply app_nil_r.
      - destruct M as [Hc ->]. cbn [jrun jouts]. rewrite bank_move. cbn [fst snd]. split; [|reflexivity].
        unfold jproj. rewrite jsync_sync, Hc. reflexivity. }
    destruct S as [-> ->]. destruct (IH (wstep cfg w op).1) as [-> ->]. split; reflexivity.
  Qed.

  Definition rproj (w : wstate) : arelease := Model_Operation.set_o_bank (w_rel w) (w_bank w).
  Theorem rel_refines h : forall w,
    Model_Operation.orun (wc_rel cfg) (rproj w) (view cfg (rel_view1 cfg) w h) =
      (rproj (wrun cfg w h), events_of release_event (wlog cfg w h)).
  Proof.
    induction h as [|op h IH]; intros w; [reflexivity|].
    cbn [view wrun]. rewrite orun_app, wlog_cons, events_cons. cbn [snd fst].
    assert (S : Model_Operation.orun (wc_rel cfg) (rproj w) (rel_view1 cfg w op) =
      (rproj (wstep cfg w op).1,
       match (wstep cfg w op).2 with WDone ev => map (fun v => (wx_ms op.1, v)) (omap release_event ev) | _ => [] end)).
    { unfold rel_view1. destruct (wstep cfg w op) as [w' out] eqn:E. cbn [fst snd].
      destruct out as [ev| |]; cbn [done];
        [|apply step_same in E as [-> _]; [reflexivity|discriminate]..].
      apply step_moved in E as (_ & M & _). unfold rel_moved in M. rewrite orun_app.
      destruct (rel_part op) as [c|].
      - cbn [Model_Operation.orun]. unfold rproj at 1. rewrite M. cbn. now rewrite !app_nil_r.
      - destruct M as [Hc ->]. cbn. unfold rproj. now rewrite Hc. }
    rewrite S, IH. reflexivity.
  Qed.

  Definition aproj (w : wstate) : aadsc := Model_Adsc.set_a_bank (w_adsc w) (w_bank w).
  Theorem adsc_refines h : forall w,
    Model_Adsc.arun (wc_adsc cfg) (aproj w) (view cfg (adsc_view1 cfg) w h) =
      (aproj (wrun cfg w h), events_of adsc_event (wlog cfg w h)).
  Proof.
    induction h as [|op h IH]; intros w; [reflexivity|].
    cbn [view wrun]. rewrite arun_app, wlog_cons, events_cons. cbn [snd fst].
    assert (S : Model_Adsc.arun (wc_adsc cfg) (aproj w) (adsc_view1 cfg w op) =
      (aproj (wstep cfg w op).1,
       match (wstep cfg w op).2 with WDone ev => map (fun v => (wx_ms op.1, v)) (omap adsc_event ev) | _ => [] end)).
    { unfold adsc_view1. destruct (wstep cfg w op) as [w' out] eqn:E. cbn [fst snd].
      destruct out as [ev| |]; cbn [done];
        [|apply step_same in E as [-> _]; [reflexivity|discriminate]..].
      apply step_moved in E as (_ & _ & M & _). unfold adsc_moved in M. rewrite arun_app.
      destruct (adsc_part op) as [c|].
      - cbn [Model_Adsc.arun]. unfold aproj at 1. rewrite M. cbn. now rewrite !app_nil_r.
      - destruct M as [Hc ->]. cbn. unfold aproj. now rewrite Hc. }
    rewrite S, IH. reflexivity.
  Qed.

  Definition tproj (w : wstate) : atips := Model_Tips.set_bank (w_tips w) (w_bank w).
  Theorem tips_refines h : forall w,
    Model_Tips.trun (wc_tips cfg) (tproj w) (view cfg (tips_view1 cfg) w h) = tproj (wrun cfg w h).
  Proof.
    induction h as [|op h IH]; intros w; [reflexivity|].
    cbn [view wrun]. rewrite trun_app.
    assert (S : Model_Tips.trun (wc_tips cfg) (tproj w) (tips_view1 cfg w op) = tproj (wstep cfg w op).1).
    { unfold tips_view1. destruct (wstep cfg w op) as [w' out] eqn:E. cbn [fst snd].
      destruct out as [ev| |]; cbn [done];
        [|apply step_same in E as [-> _]; [reflexivity|discriminate]..].
      apply step_moved in E as (_ & _ & _ & M). unfold tips_moved in M. rewrite trun_app.
      destruct op as [x a]; cbn [fst snd] in *.
      destruct a; try (cbn; unfold tproj; now rewrite M).
      destruct M as [e M]. cbn [Model_Tips.trun]. unfold tproj at 1. rewrite M. reflexivity. }
    rewrite S. apply IH.
  Qed.
End refine.
