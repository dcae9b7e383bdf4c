(** Who may change a stake, and how a stake gets smaller. *)
From Verif Require Import Base Balances Model_StakingLedger Model_Staking Spec_Staking
  Proofs_Arith Proofs_StakingLedger Proofs_Staking Proofs_Staking2 Proofs_Staking3.
From stdpp Require Import gmap.
Open Scope N_scope.

Definition stakev (m : lview) (st : N) : option ledger :=
  match v_bonded m !! st with Some c => v_ledger m !! c | None => None end.
Lemma stakev_view s st : stakev (view s) st = stake_of s st.
Proof. reflexivity. Qed.

Lemma stakev_ledger m c l : linv m -> v_ledger m !! c = Some l -> stakev m (l_stash l) = Some l.
Proof. intros I H. unfold stakev. now rewrite (li_ledger _ I _ _ H). Qed.
Lemma stakev_some m st l : linv m -> stakev m st = Some l ->
  exists c, v_bonded m !! st = Some c /\ v_ledger m !! c = Some l /\ l_stash l = st.
Proof.
  intros I. unfold stakev. destruct (v_bonded m !! st) as [c|] eqn:E; [|discriminate]. intros H.
  exists c. split; [auto|]. split; [auto|]. destruct (li_bonded _ I _ _ E) as (l' & A & B). congruence.
Qed.

(** What one move does to the stake of [st]. *)
Inductive moved (ed : N) (m : lview) (st : N) : lab -> option ledger -> Prop :=
| MV_same lb : moved ed m st lb (stakev m st)
| MV_bond c v : stakev m st = None -> moved ed m st (LBond st c v) (Some (Ledger st v v []))
| MV_upd c h l : v_bonded m !! st = Some c -> stakev m st = Some l -> change_ok h l ->
    moved ed m st (LUpd c h) (Some (change ed h l))
| MV_kill : moved ed m st (LKill st) None.

Lemma lmove_moved ed m lb m' st : linv m -> lmove ed m lb m' -> moved ed m st lb (stakev m' st).
Proof.
  intros I M. destruct M as [m st0 c v Hb Hl|m c h l Hl Hc|m st0 c Hb|m st0 c old l Hb Hl Hne Ho].
  - destruct (decide (st0 = st)) as [->|Hn].
    + replace (stakev _ st) with (Some (Ledger st v v [])).
      * constructor. unfold stakev. now rewrite Hb.
      * unfold stakev. cbn. rewrite lookup_insert. now rewrite lookup_insert.
    + replace (stakev _ st) with (stakev m st); [constructor|].
      unfold stakev. cbn. rewrite lookup_insert_ne by auto. destruct (v_bonded m !! st) as [c'|] eqn:E; [|auto].
      destruct (li_bonded _ I _ _ E) as (l' & A & _). rewrite lookup_insert_ne; [auto|congruence].
  - pose proof (li_ledger _ I _ _ Hl) as Hb. destruct (decide (l_stash l = st)) as [<-|Hn].
    + replace (stakev _ (l_stash l)) with (Some (change ed h l)).
      * constructor; auto. unfold stakev. now rewrite Hb.
      * unfold stakev. cbn. rewrite Hb. now rewrite lookup_insert.
    + replace (stakev _ st) with (stakev m st); [constructor|].
      unfold stakev. cbn. destruct (v_bonded m !! st) as [c'|] eqn:E; [|auto].
      destruct (li_bonded _ I _ _ E) as (l' & A & B). rewrite lookup_insert_ne; [auto|]. intros <-. congruence.
  - destruct (decide (st0 = st)) as [->|Hn].
    + replace (stakev _ st) with (@None ledger); [constructor|]. unfold stakev. cbn. now rewrite lookup_delete.
    + replace (stakev _ st) with (stakev m st); [constructor|].
      unfold stakev. cbn. rewrite lookup_delete_ne by auto. destruct (v_bonded m !! st) as [c'|] eqn:E; [|auto].
      destruct (li_bonded _ I _ _ E) as (l' & A & B). destruct (li_bonded _ I _ _ Hb) as (l0 & A0 & B0).
      rewrite lookup_delete_ne; [auto|]. intros <-. congruence.
  - replace (stakev _ st) with (stakev m st); [constructor|].
    destruct (li_bonded _ I _ _ Hb) as (l0 & A0 & B0). rewrite A0 in Ho. subst l.
    unfold stakev. cbn. destruct (decide (st0 = st)) as [->|Hn].
    + rewrite Hb, lookup_insert. now rewrite lookup_insert.
    + rewrite lookup_insert_ne by auto. destruct (v_bonded m !! st) as [c'|] eqn:E; [|auto].
      destruct (li_bonded _ I _ _ E) as (l' & A & B). rewrite lookup_insert_ne by congruence.
      rewrite lookup_delete_ne; [auto|]. intros <-. congruence.
Qed.

Section model.
  Context (cfg : kcfg).
  Local Notation ed := (kc_ed cfg).

  (** ** Calls *)
  Lemma call_moved x o c s s' out st :
    fits cfg s -> linv (view s) -> kstep cfg s (KCall x o c) = (s', out) ->
    stake_of s' st = stake_of s st \/
    exists lb, moved ed (view s) st lb (stake_of s' st) /\ lab_ok cfg s (KCall x o c) out lb.
  Proof.
    intros (Ty & _) I H. destruct (step_path cfg _ _ _ _ Ty H) as (ls & P & L & N0). cbn in N0.
    rewrite <- !stakev_view.
    destruct ls as [|lb [|]]; [left| right |cbn in N0; lia].
    - apply lpath_nil_inv in P. now rewrite P.
    - apply lpath_one_inv in P. exists lb. split; [now apply lmove_moved|]. now apply Forall_cons in L as [L _].
  Qed.

  Lemma call_authority x o c s s' out st :
    fits cfg s -> linv (view s) -> kstep cfg s (KCall x o c) = (s', out) ->
    stake_of s' st <> stake_of s st -> may_change cfg s st o c.
  Proof.
    intros Fi I H Hne. destruct (call_moved x o c s s' out st Fi I H) as [E|(lb & M & L)]; [contradiction|].
    rewrite <- !stakev_view in *. unfold may_change. inversion M as [lb0 E|c0 v Hn E|c0 h l Hb Hl Hc E|E]; subst.
    - congruence.
    - destruct L as (x0 & v0 & d & Eo & _). injection Eo as -> -> ->. left. eauto 8.
    - destruct h; cbn in L.
      + destruct L as (x0 & n & Eo & _). injection Eo as -> -> ->. right. left. eauto 9.
      + destruct L as (x0 & st0 & v0 & Eo & Hb0 & _). injection Eo as -> -> ->. left.
        assert (st0 = st).
        { destruct (li_bonded _ I _ _ Hb) as (l1 & A1 & B1). destruct (li_bonded _ I _ _ Hb0) as (l2 & A2 & B2). congruence. }
        subst. eauto 8.
      + destruct L as (x0 & v0 & l0 & Eo & _). injection Eo as -> -> ->. right. left. eauto 9.
      + destruct L as (x0 & n & Eo & _). injection Eo as -> -> ->. right. left. eauto 9.
      + destruct L as (x0 & Eo). injection Eo as -> -> ->. right. left. eauto 9.
      + destruct L as [(x0 & i & Eo)|(x0 & os & i & Eo & _)]; discriminate.
      + destruct L as (x0 & Eo). injection Eo as -> -> ->. right. left. eauto 9.
      + destruct L as ((x0 & i & Eo) & _). discriminate.
    - cbn in L. destruct L as [(x0 & n & Eo)|[(x0 & o0 & n & Eo & Ht)|(x0 & c0 & n & l & Eo & Hl & Hs & _)]].
      + injection Eo as -> -> ->. right. right. left. eauto.
      + injection Eo as -> -> ->. right. right. right. eauto.
      + injection Eo as -> -> ->. right. left. exists c0. split; [auto|]. split; [|eauto].
        rewrite <- Hs. exact (li_ledger _ I _ _ Hl).
  Qed.

  (** ** Stakes that get smaller *)
  Lemma total_of_some s st l : stake_of s st = Some l -> total_of s st = l_total l.
  Proof. unfold total_of. now intros ->. Qed.

  Lemma rewards_grow r ls : forall m m' st,
    lpath ed m ls m' -> linv m ->
    (forall lb, lb ∈ ls -> exists c v, lb = LUpd c (HReward v) /\ v <= r) ->
    (forall c l, v_ledger m !! c = Some l -> l_total l + N.of_nat (length ls) * r < two128) ->
    match stakev m st with Some l => l_total l | None => 0 end <=
    match stakev m' st with Some l => l_total l | None => 0 end.
  Proof.
    induction ls as [|lb ls IH]; intros m m' st P I F B.
    - apply lpath_nil_inv in P. subst. lia.
    - inversion P as [|? ? m1 ? ? M P']; subst.
      destruct (F lb (elem_of_list_here _ _)) as (c & v & -> & Hv). cbn [length] in B.
      assert (Fl : lab_fits m (LUpd c (HReward v))).
      { cbn. intros l Hl. specialize (B c l Hl). nia. }
      etransitivity; [|apply (IH m1 m' st P')].
      + pose proof (lmove_moved _ _ _ _ st I M) as Mv. inversion Mv as [lb0 E E'| |c0 h l Hb Hl Hc E E'|]; subst; [lia|].
        rewrite Hl. cbn. unfold stakev in Hl. rewrite Hb in Hl. specialize (B c l Hl).
        rewrite add128_exact by nia. lia.
      + eapply lmove_inv; eauto.
      + intros lb' Hin. apply F. now right.
      + apply upd_inv in M as (l0 & Hl0 & M). rewrite M. intros c' l' H'.
        destruct (decide (c = c')) as [<-|Hn].
        * rewrite lookup_insert in H'. injection H' as <-. specialize (B c l0 Hl0). cbn. rewrite add128_exact by nia. nia.
        * rewrite lookup_insert_ne in H' by auto. specialize (B c' l' H'). nia.
  Qed.

  Lemma step_drop s op s' out st :
    fits cfg s -> op_typed op -> linv (view s) -> kstep cfg s op = (s', out) ->
    total_of s' st < total_of s st -> may_drop cfg s s' st op.
  Proof.
    intros Fi Ot I H Hlt. pose proof Fi as (Ty & Ro & _).
    destruct op as [x o c|x| |i|x i|x i|a|x os i|b].
    - pose proof (call_moved x o c s s' out st Fi I H) as [E|(lb & M & L)].
      { exfalso. unfold total_of in Hlt. rewrite E in Hlt. lia. }
      rewrite <- stakev_view in M. unfold may_drop.
      inversion M as [lb0 E E'|c0 v Hn E E'|c0 h l Hb Hl Hc E E'|E E']; subst.
      + exfalso. unfold total_of in Hlt. rewrite <- !stakev_view, <- E' in Hlt. lia.
      + exfalso. unfold total_of in Hlt. rewrite <- !stakev_view, Hn in Hlt. lia.
      + assert (Hl' : s_ledger (k_stk s) !! c0 = Some l) by (unfold stakev in Hl; rewrite Hb in Hl; exact Hl).
        pose proof (li_sound _ I _ _ Hl') as So. pose proof (li_small _ I _ _ Hl') as Sm.
        rewrite stakev_view in Hl. symmetry in E'. rewrite stakev_view in E'.
        rewrite (total_of_some _ _ _ Hl), (total_of_some _ _ _ E') in Hlt.
        destruct h; cbn in L, Hlt.
        * lia.
        * exfalso. cbn in Hc. rewrite add128_exact in Hlt by lia. lia.
        * lia.
        * destruct L as (x0 & n & Eo & Ee). injection Eo as -> -> ->. left.
          exists x0, c0, n, l. split; [auto|]. split; [exact Hb|]. split; [auto|]. left.
          exists (consolidate era l). split; [exact E'|]. unfold cur_era. rewrite Ee. cbn [default].
          split; [now apply cons_drop|]. now destruct (consolidate_spec era l So) as (_ & _ & A & _).
        * exfalso. destruct L as (x0 & Eo). injection Eo as -> -> ->. destruct (rebond_spec v l So Sm Ot) as (_ & _ & A & _). lia.
        * destruct L as [(x0 & i & Eo)|(x0 & os & i & Eo & _)]; discriminate.
        * destruct L as (x0 & Eo). injection Eo as -> -> ->. right. right. left. eauto.
        * destruct L as ((x0 & i & Eo) & _). discriminate.
      + cbn in L. destruct L as [(x0 & n & Eo)|[(x0 & o0 & n & Eo & Ht)|(x0 & c0 & n & l & Eo & Hl & Hs & Ha & Hu)]].
        * injection Eo as -> -> ->. right. right. right. left. eauto.
        * injection Eo as -> -> ->. right. right. right. right. eauto.
        * injection Eo as -> -> ->. left.
          pose proof (li_ledger _ I _ _ Hl) as Hb. rewrite Hs in Hb. cbn in Hb.
          assert (Hst : stake_of s st = Some l) by (unfold stake_of; now rewrite Hb).
          exists x0, c0, n, l. split; [auto|]. split; [exact Hb|]. split; [auto|].
          right. split; [now rewrite <- stakev_view|].
          split; [auto|]. unfold due, unlocking. f_equal. f_equal.
          assert (Hall : forall ch, ch ∈ l_unl l -> c_era ch <=? cur_era s = true).
          { intros ch Hch. destruct (Hu ch Hch) as (e' & E1 & E2). unfold cur_era. rewrite E1. now apply N.leb_le. }
          revert Hall. clear. induction (l_unl l) as [|c r IH]; intros H; cbn; auto.
          rewrite (H c) by constructor. f_equal. apply IH. intros. apply H. now right.
    - exfalso. destruct (step_path cfg _ _ _ _ Ty H) as (ls & P & L & ->). apply lpath_nil_inv in P.
      unfold total_of in Hlt. rewrite <- !stakev_view, P in Hlt. lia.
    - exfalso. destruct (step_path cfg _ _ _ _ Ty H) as (ls & P & L & ->). apply lpath_nil_inv in P.
      unfold total_of in Hlt. rewrite <- !stakev_view, P in Hlt. lia.
    - exfalso. destruct (step_path cfg _ _ _ _ Ty H) as (ls & P & L & ->). apply lpath_nil_inv in P.
      unfold total_of in Hlt. rewrite <- !stakev_view, P in Hlt. lia.
    - right. left. left. eauto.
    - exfalso. destruct (step_path cfg _ _ _ _ Ty H) as (ls & P & L & [i0 N0]). rewrite Forall_forall in L.
      apply N.lt_nge in Hlt. apply Hlt. unfold total_of. rewrite <- !stakev_view.
      apply (rewards_grow (p_reward (k_par s)) ls _ _ st P I).
      + intros lb Hin. specialize (L lb Hin).
        destruct lb as [st' c v|c []|st'|st' c]; cbn in L;
          try (repeat match goal with H : exists _, _ |- _ => destruct H as [? H] | H : _ /\ _ |- _ => destruct H
                   | H : _ \/ _ |- _ => destruct H end; discriminate).
        destruct L as [_ L]. eauto.
      + intros c l Hl. specialize (Ro c l i0 Hl). cbn in Hl. nia.
    - exfalso. destruct (step_path cfg _ _ _ _ Ty H) as (ls & P & L & ->). apply lpath_nil_inv in P.
      unfold total_of in Hlt. rewrite <- !stakev_view, P in Hlt. lia.
    - destruct (N.eq_dec (kc_defer cfg) 0) as [Ed|Ed]; [right; left; right; eauto|]. exfalso.
      destruct (step_path cfg _ _ _ _ Ty H) as (ls & P & L & _).
      destruct ls as [|lb ls].
      + apply lpath_nil_inv in P. unfold total_of in Hlt. rewrite <- !stakev_view, P in Hlt. lia.
      + apply Forall_cons in L as [L _].
        destruct lb as [st' c v|c []|st'|st' c]; cbn in L;
          repeat match goal with H : exists _, _ |- _ => destruct H as [? H] | H : _ /\ _ |- _ => destruct H
                   | H : _ \/ _ |- _ => destruct H end; first [discriminate|congruence].
    - exfalso. destruct (step_path cfg _ _ _ _ Ty H) as (ls & P & L & ->). apply lpath_nil_inv in P.
      unfold total_of in Hlt. rewrite <- !stakev_view, P in Hlt. lia.
  Qed.
End model.
