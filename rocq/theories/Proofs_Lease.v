(** Proofs about the time a server asks for. *)
From Verif Require Import Base Proofs_Arith Balances Model_DeeperNode Spec_DeeperNode Proofs_DeeperNode
  Spec_Lease.
From stdpp Require Import gmap strings.
From Coq Require Import Lia.
Open Scope N_scope.

Section lease.
  Context (cfg : dcfg).
  Context (Hlevels : forall c, is_Some (d_regions cfg !! c) ->
    region_of cfg c <> region_of cfg (region_of cfg c)).

  Definition term_inv (s : dstate) (t : gmap N N) : Prop :=
    forall w, n_expire <$> d_dev s !! w = t !! w.

  Lemma add_dev s r now who d c (sv : bool) :
    reg_inv cfg s r -> r !! who = Some (c, sv) ->
    d_dev (try_add_server cfg s now who d) =
    if sv then d_dev s else <[who := Node c (add32 now d)]> (d_dev s).
  Proof.
    intros I Er. pose proof I as (HC & HR & HD & HN & MC & MR).
    destruct (HD _ _ _ Er) as [(n & En & Ec) Hreg].
    unfold try_add_server. rewrite En.
    change (default (Node EmptyString 0) (Some n)) with n. cbv zeta. rewrite Ec.
    pose proof (slist_insert_spec (get_list (d_bycountry s) c) who (HC c)) as P1.
    destruct (slist_insert (get_list (d_bycountry s) c) who) as [lc|].
    2:{ apply MC in P1. unfold serves in P1. rewrite Er in P1. injection P1 as ->. reflexivity. }
    destruct P1 as (Nin & Ilc & Mlc).
    assert (Hsv : sv = false).
    { destruct sv; [|reflexivity]. exfalso. apply Nin. apply MC. exact Er. }
    subst sv.
    assert (Hnot : forall c', ~ serves r who c') by (intros c'; unfold serves; rewrite Er; congruence).
    pose proof (slist_insert_spec (get_list (d_byregion s) (region_of cfg c)) who (HR _)) as P2.
    destruct (slist_insert (get_list (d_byregion s) (region_of cfg c)) who) as [l1|].
    2:{ exfalso. apply MR in P2 as (c' & Hs & _). exact (Hnot _ Hs). }
    pose proof (Hlevels c Hreg) as Hlev.
    rewrite get_list_insert. rewrite decide_False by exact Hlev.
    pose proof (slist_insert_spec (get_list (d_byregion s) (region_of cfg (region_of cfg c))) who (HR _)) as P3.
    destruct (slist_insert (get_list (d_byregion s) (region_of cfg (region_of cfg c))) who) as [l2|].
    2:{ exfalso. apply MR in P3 as (c' & Hs & _). exact (Hnot _ Hs). }
    reflexivity.
  Qed.

  Lemma insert_inv s s' t who n e : term_inv s t -> d_dev s' = <[who := n]> (d_dev s) -> n_expire n = e ->
    term_inv s' (<[who := e]> t).
  Proof.
    intros T E <- w. rewrite E. destruct (decide (who = w)) as [<-|Hn].
    - now rewrite !lookup_insert.
    - rewrite !lookup_insert_ne by exact Hn. apply T.
  Qed.

  Lemma same_inv s s' t : term_inv s t -> d_dev s' = d_dev s -> term_inv s' t.
  Proof. intros T E w. rewrite E. apply T. Qed.

  Lemma span_exact now eras : now + d_maxeras cfg * d_bpe cfg < two32 -> eras <= d_maxeras cfg ->
    add32 now (w32 (eras * d_bpe cfg)) = now + eras * d_bpe cfg.
  Proof.
    intros H L. assert (eras * d_bpe cfg <= d_maxeras cfg * d_bpe cfg) by now apply N.mul_le_mono_r.
    unfold add32, w32. rewrite (N.mod_small (eras * d_bpe cfg)) by lia. apply N.mod_small. lia.
  Qed.

  Lemma step_term s r t x who c :
    reg_inv cfg s r -> term_inv s t -> x_now x + d_maxeras cfg * d_bpe cfg < two32 ->
    term_inv (ddo cfg s (x, Signed who, c))
      (if is_ok (snd (dstep cfg s x (Signed who) c)) then term_call cfg r t (x_now x) who c else t).
  Proof.
    intros I T R. unfold ddo, dstep; cbn [fst snd]. unfold dexec.
    pose proof I as (HC & HR & HD & HN & MC & MR).
    destruct c as [country| |eras|eras| | |nonce sg ti f u|nonce sg evm| |dest amount|amount|amount].
    - unfold register_device. destruct (bool_decide (is_Some (d_regions cfg !! country))) eqn:Eb; cbn; [|exact T].
      destruct (d_dev s !! who) as [n|] eqn:En.
      + clear Eb. cbn. case_bool_decide.
        * apply (insert_inv s _ _ _ (Node country (x_now x)) (x_now x) T); reflexivity.
        * apply (insert_inv s _ _ _ (Node country (x_now x)) (x_now x) T); [|reflexivity].
          unfold try_remove_server. rewrite En. cbn. now rewrite insert_insert.
      + destruct (reserve (d_ed cfg) (d_bank s) who (d_minlock cfg)) as [b|]; cbn; [|exact T].
        apply (insert_inv s _ _ _ (Node country (x_now x)) (x_now x) T); reflexivity.
    - unfold unregister_device. destruct (d_dev s !! who) as [n|] eqn:En; cbn; [|exact T].
      intros w. unfold try_remove_server. rewrite En. cbn. rewrite delete_insert_delete.
      destruct (decide (who = w)) as [<-|Hn].
      + now rewrite !lookup_delete.
      + rewrite !lookup_delete_ne by exact Hn. apply T.
    - unfold register_server. destruct (d_dev s !! who) as [n|] eqn:En; cbn; [|exact T].
      destruct (N.leb_spec eras (d_maxeras cfg)) as [L|L]; cbn; [|exact T].
      destruct (r !! who) as [[c sv]|] eqn:Er; [|rewrite (HN _ Er) in En; discriminate].
      pose proof (add_dev s r (x_now x) who (w32 (eras * d_bpe cfg)) c sv I Er) as A.
      destruct sv; [now apply (same_inv s)|].
      apply (insert_inv s _ _ _ _ _ T A). cbn. now apply span_exact.
    - unfold update_server. destruct (d_dev s !! who) as [n|] eqn:En; cbn; [|exact T].
      destruct (N.leb_spec eras (d_maxeras cfg)) as [L|L]; cbn; [|exact T].
      eapply (insert_inv s _ _ _ _ _ T); [reflexivity|]. cbn. now apply span_exact.
    - unfold unregister_server. destruct (d_dev s !! who) as [n|] eqn:En; cbn; [|exact T].
      unfold try_remove_server. rewrite En.
      eapply (insert_inv s _ _ _ _ _ T); reflexivity.
    - now apply (same_inv s).
    - unfold report_credit_proof. destruct (x_verify x nonce sg who); cbn; now apply (same_inv s).
    - unfold reward_mapping. destruct (x_verify_new x nonce sg who); cbn; [|exact T].
      destruct (bool_decide _); cbn; [|exact T].
      destruct (d_d2e s !! who) as [old|]; [destruct (evm =? old)|]; cbn; now apply (same_inv s).
    - unfold get_npow_reward. destruct (d_d2e s !! who); exact T.
    - unfold env_transfer. destruct (transfer_allow _ _ _ _ _); cbn; now apply (same_inv s).
    - unfold env_reserve. destruct (reserve _ _ _ _); cbn; now apply (same_inv s).
    - cbn. now apply (same_inv s).
  Qed.

  Lemma run_terms h : forall s r t, reg_inv cfg s r -> term_inv s t -> roomy cfg h ->
    term_inv (drun cfg s h) (terms_after cfg s r t h).
  Proof.
    induction h as [|[[x o] c] h IH]; intros s r t I T R; [exact T|].
    change (drun cfg s ((x, o, c) :: h)) with (drun cfg (ddo cfg s (x, o, c)) h).
    assert (R' : roomy cfg h) by (intros o' Ho; apply R; now right).
    pose proof (step_reg cfg Hlevels s r (x, o, c) I) as I'. cbn [fst snd] in I'.
    cbn [terms_after fst snd]. destruct o as [|who|].
    - exact (IH _ _ _ I' T R').
    - apply IH; [exact I'| |exact R'].
      apply step_term; [exact I|exact T|]. exact (R (x, Signed who, c) (or_introl eq_refl)).
    - exact (IH _ _ _ I' T R').
  Qed.

  Lemma init_term b st : term_inv (dinit b st) ∅.
  Proof. intros w. unfold dinit. cbn. now rewrite !lookup_empty. Qed.

  (** What was asked for lies at most the longest time ahead. *)
  Lemma call_bound r t now who c B :
    (forall w e, t !! w = Some e -> e <= B) -> now + d_maxeras cfg * d_bpe cfg <= B ->
    (forall e, c = DRegisterServer e \/ c = DUpdateServer e -> e <= d_maxeras cfg) ->
    forall w e, term_call cfg r t now who c !! w = Some e -> e <= B.
  Proof.
    intros HT Hn He w e.
    assert (A : forall v, v <= B -> <[who := v]> t !! w = Some e -> e <= B).
    { intros v Hv. destruct (decide (who = w)) as [<-|Hne].
      - rewrite lookup_insert. intros [= <-]. exact Hv.
      - rewrite lookup_insert_ne by exact Hne. apply HT. }
    assert (M : forall k, k <= d_maxeras cfg -> now + k * d_bpe cfg <= B).
    { intros k Hk. pose proof (N.mul_le_mono_r k (d_maxeras cfg) (d_bpe cfg) Hk). lia. }
    destruct c; cbn [term_call]; try apply HT.
    - apply A. lia.
    - intros H. apply lookup_delete_Some in H as [_ H]. now apply HT in H.
    - destruct (r !! who) as [[? []]|]; [apply HT| |]; apply A, M, He; auto.
    - apply A, M, He. auto.
    - apply A. lia.
  Qed.

  Lemma accepted_eras s x who c : is_ok (snd (dstep cfg s x (Signed who) c)) = true ->
    forall e, c = DRegisterServer e \/ c = DUpdateServer e -> e <= d_maxeras cfg.
  Proof.
    intros H e [-> | ->]; unfold dstep, dexec in H; cbn in H.
    - unfold register_server in H. destruct (d_dev s !! who); [|discriminate].
      destruct (N.leb_spec e (d_maxeras cfg)); [assumption|discriminate].
    - unfold update_server in H. destruct (d_dev s !! who); [|discriminate].
      destruct (N.leb_spec e (d_maxeras cfg)); [assumption|discriminate].
  Qed.

  Lemma terms_bound B h : forall s r t,
    (forall w e, t !! w = Some e -> e <= B) ->
    (forall o, In o h -> x_now o.1.1 + d_maxeras cfg * d_bpe cfg <= B) ->
    forall w e, terms_after cfg s r t h !! w = Some e -> e <= B.
  Proof.
    induction h as [|[[x o] c] h IH]; intros s r t HT HB; [exact HT|].
    cbn [terms_after fst snd].
    assert (HB' : forall o, In o h -> x_now o.1.1 + d_maxeras cfg * d_bpe cfg <= B)
      by (intros o' Ho; apply HB; now right).
    destruct o as [|who|]; [now apply IH| |now apply IH].
    destruct (is_ok (snd (dstep cfg s x (Signed who) c))) eqn:Ok.
    - apply IH; [|exact HB'].
      apply call_bound; [exact HT| |].
      + exact (HB (x, Signed who, c) (or_introl eq_refl)).
      + exact (accepted_eras s x who c Ok).
    - now apply IH.
  Qed.

  (** Who serves goes on serving unless it calls. *)
  Lemma registry_others who h : forall s r,
    (forall o, In o h -> ~ sent_by who o) ->
    registry_after cfg s r h !! who = r !! who.
  Proof.
    induction h as [|[[x o] c] h IH]; intros s r H; [reflexivity|].
    cbn [registry_after fst snd]. rewrite IH by (intros o' Ho; apply H; now right).
    destruct o as [|w|]; [reflexivity| |reflexivity].
    destruct (is_ok _); [|reflexivity].
    assert (Hne : w <> who).
    { intros ->. exact (H (x, Signed who, c) (or_introl eq_refl) eq_refl). }
    destruct c; cbn [reg_call]; try reflexivity.
    - destruct (r !! w) as [[? ?]|]; now rewrite lookup_insert_ne by exact Hne.
    - now rewrite lookup_delete_ne by exact Hne.
    - destruct (r !! w) as [[? ?]|]; [now rewrite lookup_insert_ne by exact Hne|reflexivity].
    - destruct (r !! w) as [[? ?]|]; [now rewrite lookup_insert_ne by exact Hne|reflexivity].
  Qed.

  Lemma registry_app h h' : forall s r,
    registry_after cfg s r (h ++ h') = registry_after cfg (drun cfg s h) (registry_after cfg s r h) h'.
  Proof.
    induction h as [|o h IH]; intros s r; [reflexivity|].
    cbn [app registry_after]. rewrite IH. reflexivity.
  Qed.
End lease.
