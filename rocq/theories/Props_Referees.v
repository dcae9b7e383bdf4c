(** Property C192 (pallets/credit): referees. *)
From Verif Require Import Base Balances Model_UserPrivileges Model_Credit Spec_Credit Spec_Record Spec_Referees Proofs_Referees.
From Verif Require Import Props_Record.
From stdpp Require Import gmap.
From Coq Require Import Lia.
Open Scope N_scope.

(** Campaign 4 pays for three referees, one DPR each; campaign 8 for one. *)
Definition fset (m : N) : list setting :=
  [Setting 4 1 (10000 * DPR) 20 10 5 0 m DPR; Setting 8 1 (5000 * DPR) 5 0 0 0 1 0].
Definition fs0 (m n : N) : kstate := kinit (Bank ∅ 0) (fset m) [(1, CData 4 150 1 3 n 1 270)].
Definition fh1 : list kop := [rentry 11 (KInitHistory 1)].
Definition fh2 : list kop := fh1 ++ [rcall 12 (KSetSwitch [4] [8]); rentry 35 (KGetReward 1 1 2)].

(** C192. A step leaves the number of referees as it was, or sets it to zero, or Root or a
    credit admin writes it, and then it is one that the campaign and the level allow. *)
Theorem C192_written_partial :
  forall cfg s op w d', k_uc (kdo cfg s op) !! w = Some d' ->
    (exists d, k_uc s !! w = Some d /\ cd_refs d' = cd_refs d) \/ cd_refs d' = 0 \/
    (writes op w d' /\ cd_refs d' <= most_refs s (cd_camp d') (cd_init d')).
Proof. exact step_refs. Qed.
Print Assumptions C192_written_partial.

(** So no record ever names more referees than some setting allowed at some time. *)
Theorem C192_most_partial :
  forall cfg s h m w,
    never_more cfg s h m -> (forall d, k_uc s !! w = Some d -> cd_refs d <= m) ->
    forall d, k_uc (krun cfg s h) !! w = Some d -> cd_refs d <= m.
Proof. intros cfg s h m w. apply run_refs. Qed.
Print Assumptions C192_most_partial.

(** Four referees are refused, three are written for account 2. *)
Definition fh3 : list kop :=
  [rcall 12 (KExternalData 2 (CData 4 150 1 0 4 1 270)); rcall 13 (KExternalData 2 (CData 4 150 1 0 3 1 270))].
Example C192_nonvacuous :
  k_uc (krun rcfg (fs0 3 2) (take 1 fh3)) !! 2 = None /\
  k_uc (krun rcfg (fs0 3 2) fh3) !! 2 = Some (CData 4 150 1 0 3 1 270) /\
  most_refs (krun rcfg (fs0 3 2) fh3) 4 1 = 3 /\ never_more rcfg (fs0 3 2) fh3 3.
Proof.
  split; [vm_compute; reflexivity|]. split; [vm_compute; reflexivity|]. split; [vm_compute; reflexivity|].
  assert (K : forall k, k_settings (krun rcfg (fs0 3 2) (take k fh3)) = k_settings (fs0 3 2)).
  { intros [|[|k]]; [reflexivity..|]. replace (take (S (S k)) fh3) with fh3 by (now destruct k). vm_compute. reflexivity. }
  intros k camp lvl. unfold most_refs. rewrite K.
  assert (F : map_Forall (fun _ st => st_maxref st <= 3) (k_settings (fs0 3 2))).
  { apply (bool_decide_eq_true_1 _). vm_compute. reflexivity. }
  destruct (k_settings (fs0 3 2) !! (camp, lvl)) as [st|] eqn:E; [exact (F _ _ E)|lia].
Qed.

(** But an account that moves on to another campaign keeps a number that is not allowed there. *)
Theorem C192_allowed_refuted :
  exists cfg b settings data h a,
    (forall w, refs_allowed (kinit b settings data) w) /\ Forall (unwritten a) h /\
    ~ refs_allowed (krun cfg (kinit b settings data) h) a.
Proof.
  exists rcfg, (Bank ∅ 0), (fset 3), [(1, CData 4 150 1 3 3 1 270)], fh2, 1. split; [|split].
  - intros w d E. change (k_uc (fs0 3 3) !! w = Some d) in E.
    destruct (N.eq_dec w 1) as [->|Hn]; [vm_compute in E; injection E as <-; vm_compute; discriminate|].
    unfold fs0, kinit in E. cbv zeta in E. cbn [k_uc set_k_uc fold_left fst snd] in E.
    rewrite lookup_insert_ne, lookup_empty in E by congruence. discriminate.
  - repeat constructor; intros d [H|(a & _ & H)]; discriminate H.
  - intros H. assert (E : k_uc (krun rcfg (fs0 3 3) fh2) !! 1 = Some (CData 8 150 1 3 3 1 3650)) by (vm_compute; reflexivity).
    specialize (H _ E). vm_compute in H. now apply H.
Qed.
Print Assumptions C192_allowed_refuted.

(** And referees earn nothing: with all that are allowed an account is paid what it is paid
    with none, and this is less than if the setting paid for no referees at all. *)
Theorem C192_paid_refuted :
  exists cfg x who from to camp lvl r r0,
    let s m n := krun cfg (fs0 m n) fh1 in
    let pay m n := (kentry_step cfg (s m n) x (KGetReward who from to)).2 in
    from <= to /\ most_refs (s 3 3) camp lvl = 3 /\ 0 < per_ref (s 3 3) camp lvl /\
    k_uc (s 3 3) !! who = with_refs 3 <$> k_uc (s 3 0) !! who /\ (cd_camp <$> k_uc (s 3 3) !! who) = Some camp /\
    pay 3 3 = ROk (KReward (Some r)) /\ pay 3 0 = ROk (KReward (Some r)) /\ pay 0 0 = ROk (KReward (Some r0)) /\
    r0 = r + 3 * per_ref (s 3 3) camp lvl * (to - from + 1).
Proof.
  let v := eval vm_compute in (kentry_step rcfg (krun rcfg (fs0 3 3) fh1) (rx 35) (KGetReward 1 1 2)).2 in
  let v0 := eval vm_compute in (kentry_step rcfg (krun rcfg (fs0 0 0) fh1) (rx 35) (KGetReward 1 1 2)).2 in
  match v with ROk (KReward (Some ?r)) => match v0 with ROk (KReward (Some ?r0)) =>
    exists rcfg, (rx 35), 1, 1, 2, 4, 1, r, r0 end end.
  cbv zeta. split; [discriminate|]. do 7 (split; [vm_compute; reflexivity|]). vm_compute. reflexivity.
Qed.
Print Assumptions C192_paid_refuted.
