(** Proofs about referees. *)
From Verif Require Import Base Balances Model_UserPrivileges Model_Credit Spec_Credit Proofs_Arith
  Proofs_Credit Spec_Record Proofs_Record Spec_Referees.
From stdpp Require Import gmap.
From Coq Require Import Lia.
Open Scope N_scope.

Section refs.
  Context (cfg : kcfg).

  Lemma most_setting s camp lvl : most_refs s camp lvl = st_maxref (setting_of s camp lvl).
  Proof. unfold most_refs, setting_of. destruct (k_settings s !! (camp, lvl)); reflexivity. Qed.

  Lemma check_refs s d u : check_credit_data s d = ROk u -> cd_refs d <= most_refs s (cd_camp d) (cd_init d).
  Proof.
    intros H. unfold check_credit_data in H. inv_bind H. apply ensure_ok, N.leb_le in H. now rewrite most_setting.
  Qed.

  (** A record that is written is one that passed the check, or the step did nothing. *)
  Lemma written_refs s op w d : writes op w d -> kdo cfg s op = s \/ cd_refs d <= most_refs s (cd_camp d) (cd_init d).
  Proof.
    destruct op as [x oc]. intros [E|(a & _ & E)]; cbn [snd] in E; subst oc; unfold kdo, kstep; cbn [fst snd kexec].
    - destruct (ensure_root_k Root) as [u| |]; cbn [rbind]; [|now left..].
      destruct (check_credit_data s d) as [u1| |] eqn:C; cbn [rbind]; [|now left..].
      right. exact (check_refs _ _ _ C).
    - destruct (ensure_admin x (Signed a)) as [u| |]; cbn [rbind]; [|now left..].
      destruct (check_credit_data s d) as [u1| |] eqn:C; cbn [rbind]; [|now left..].
      right. exact (check_refs _ _ _ C).
  Qed.

  Lemma step_refs s op w d' : k_uc (kdo cfg s op) !! w = Some d' ->
    (exists d, k_uc s !! w = Some d /\ cd_refs d' = cd_refs d) \/ cd_refs d' = 0 \/
    (writes op w d' /\ cd_refs d' <= most_refs s (cd_camp d') (cd_init d')).
  Proof.
    intros H. destruct (step_explained cfg s op w d' H) as [(d & Ed & [B|[M|[_ B]]])|[W|(_ & g & c & _ & _ & B)]].
    - left. exists d. split; [exact Ed|]. now injection B.
    - left. exists d. split; [exact Ed|]. destruct M as (f & t & id & _ & _ & _ & _ & B). now injection B.
    - right. left. now injection B.
    - destruct (written_refs s op w d' W) as [E|L]; [|now right; right].
      left. rewrite E in H. eauto.
    - right. left. now injection B.
  Qed.

  Lemma run_refs w m : forall h s, never_more cfg s h m -> (forall d, k_uc s !! w = Some d -> cd_refs d <= m) ->
    forall d, k_uc (krun cfg s h) !! w = Some d -> cd_refs d <= m.
  Proof.
    induction h as [|op h IH]; intros s NM H; [exact H|].
    change (krun cfg s (op :: h)) with (krun cfg (kdo cfg s op) h). apply IH.
    - intros k camp lvl. exact (NM (S k) camp lvl).
    - intros d' E. destruct (step_refs s op w d' E) as [(d & Ed & ->)|[->|[_ L]]]; [now apply H|lia|].
      etransitivity; [exact L|]. exact (NM O (cd_camp d') (cd_init d')).
  Qed.
End refs.
