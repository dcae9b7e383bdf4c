(** Proofs about the record of what was put into the ADSC pool. *)
From Coq Require Import ZifyBool Lia.
From Verif Require Import Base Balances Proofs_Balances Model_Adsc Spec_Pool Proofs_Adsc Proofs_Adsc3.
From stdpp Require Import gmap.
Open Scope N_scope.

Section pool.
  Context (cfg : acfg).

  Definition same (s s' : astate) : Prop :=
    a_pool s' = a_pool s /\ a_version s' = a_version s /\ a_bank s' = a_bank s.

  Lemma reward_same s x s' evs : adsc_reward cfg s x = (s', evs) -> same s s'.
  Proof.
    intros H. apply (adsc_reward_ind cfg x (fun s1 _ => same s s1) s s' evs); [| | |exact H|repeat split].
    - intros s1 w d s2 v e (H1 & H2 & H3) _ P. apply pd_rest in P. unfold same_rest in P. decompose [and] P. repeat split; congruence.
    - intros s1 s2 e P (H1 & H2 & H3). unfold pass_same in P. decompose [and] P. repeat split; congruence.
    - intros s1 c e P. exact P.
  Qed.

  (** What a step adds to the record. *)
  Definition adds_to (s : astate) (op : aop) : N :=
    match snd op with
    | inl (Root, AAddPool v) => v
    | inr AUpgrade => if a_version s <? 2 then 100000000 * 10 ^ 18 else 0
    | _ => 0
    end.
  Definition version_after (v : N) (op : aop) : N :=
    match snd op with inr AUpgrade => N.max v 2 | _ => v end.

  Lemma sat_zero p : p < two128 -> sadd128 p 0 = p.
  Proof. unfold sadd128. lia. Qed.

  Lemma step_record s op : a_pool s < two128 ->
    a_pool (fst (ado cfg s op)) = sadd128 (a_pool s) (adds_to s op) /\
    a_version (fst (ado cfg s op)) = version_after (a_version s) op /\
    (takes op = false -> a_bank (fst (ado cfg s op)) =
       if adds_to s op =? 0 then a_bank s else deposit_creating (ac_ed cfg) (a_bank s) (ac_acct cfg) (adds_to s op)).
  Proof.
    intros L. pose proof (sat_zero _ L) as Z. destruct op as [x [[o c]|e]]; unfold ado, adds_to, version_after, takes; cbn [fst snd].
    - unfold astep. destruct (aexec cfg s x o c) as [[s' evs]| |] eqn:E; cbn [fst].
      + destruct c; cbn [aexec] in E;
          unfold ensure_admin, do_add_nft, do_bridge_burn, do_bridge_mint, do_swap, ensure_admin in E;
          destruct o; cbn in E; try discriminate;
          repeat (case_match; cbn in *; try discriminate); simplify_eq; cbn;
          try (split; [symmetry; exact Z|split; [reflexivity|intros; first [reflexivity|discriminate]]]).
        all: split; [reflexivity|]; split; [reflexivity|]; intros _; first [reflexivity|now apply N.eqb_eq in H as ->].
      + destruct o; [destruct c; try discriminate E|..]; cbn; (split; [symmetry; exact Z|split; reflexivity]).
      + destruct o; [destruct c; try discriminate E|..]; cbn; (split; [symmetry; exact Z|split; reflexivity]).
    - destruct e; cbn [aentry fst]; try (cbn; repeat case_match; cbn; split; [symmetry; exact Z|split; [reflexivity|intros; first [reflexivity|discriminate]]]).
      + unfold on_init. destruct (_ <? _); cbn; [split; [symmetry; exact Z|split; reflexivity]|].
        destruct (adsc_reward cfg s x) as [s' evs] eqn:E. apply reward_same in E as (E1 & E2 & E3). cbn.
        rewrite E1, E2, E3. split; [symmetry; exact Z|split; reflexivity].
      + unfold on_upgrade. destruct (N.ltb_spec (a_version s) 2) as [V|V]; cbn [fst].
        * destruct (a_ass s); cbn; (split; [reflexivity|split; [lia|reflexivity]]).
        * cbn. split; [symmetry; exact Z|split; [lia|reflexivity]].
      + destruct (u_colls (a_uniq s) !! class), (u_items (a_uniq s) !! (class, item)); (split; [symmetry; exact Z|split; reflexivity]).
      + destruct (u_items (a_uniq s) !! (class, item)); (split; [symmetry; exact Z|split; reflexivity]).
      + destruct (a_ass s) as [l|]; [destruct (atransfer l src dst amount)|]; (split; [symmetry; exact Z|split; reflexivity]).
  Qed.

  Lemma arun_fst s op h : fst (arun cfg s (op :: h)) = fst (arun cfg (fst (ado cfg s op)) h).
  Proof. cbn [arun]. destruct (ado cfg s op) as [s1 evs]. cbn [fst]. destruct (arun cfg s1 h). reflexivity. Qed.

  Lemma run_record : forall h s, a_pool s < two128 ->
    a_pool (fst (arun cfg s h)) = N.min (a_pool s + put_in (negb (a_version s <? 2)) h) (two128 - 1).
  Proof.
    induction h as [|op h IH]; intros s L; [cbn [arun fst put_in]; lia|]. rewrite arun_fst.
    destruct (step_record s op L) as (P & V & _).
    rewrite IH by (rewrite P; unfold sadd128; lia). rewrite P, V. clear P V IH.
    unfold adds_to, version_after, sadd128. cbn [put_in].
    destruct (snd op) as [[o c]|e]; [destruct o; try destruct c; lia|].
    destruct e; try lia. replace (N.max (a_version s) 2 <? 2) with false by lia. cbn [negb].
    destruct (a_version s <? 2); cbn [negb]; lia.
  Qed.

  Definition held (s : astate) : Prop := acct_of (a_bank s) (ac_acct cfg) = Acct (a_pool s) 0 0.

  Lemma run_held : ac_ed cfg <= 100000000 * 10 ^ 18 -> forall h s,
    a_pool s + put_in (negb (a_version s <? 2)) h < two128 ->
    Forall (fun op => takes op = false /\ adds_dust (ac_ed cfg) op = false) h ->
    held s -> held (fst (arun cfg s h)).
  Proof.
    intros He. induction h as [|op h IH]; intros s L F H; [exact H|]. apply Forall_cons in F as [[F1 F2] F]. rewrite arun_fst.
    assert (L0 : a_pool s < two128) by lia.
    destruct (step_record s op L0) as (P & V & B). specialize (B F1).
    assert (L1 : a_pool s + adds_to s op + put_in (negb (version_after (a_version s) op <? 2)) h < two128).
    { clear - L. unfold adds_to, version_after. cbn [put_in] in L.
      destruct (snd op) as [[o c]|e]; [destruct o; try destruct c; lia|].
      destruct e; try lia. replace (N.max (a_version s) 2 <? 2) with false by lia. cbn [negb].
      destruct (a_version s <? 2); cbn [negb] in *; lia. }
    assert (P' : a_pool (fst (ado cfg s op)) = a_pool s + adds_to s op) by (rewrite P; unfold sadd128; lia).
    apply IH; [rewrite P', V; exact L1|exact F|]. unfold held in *. rewrite B, P'.
    destruct (N.eqb_spec (adds_to s op) 0) as [->|Hz]; [now rewrite N.add_0_r|].
    assert (D : ac_ed cfg <= adds_to s op).
    { unfold adds_to in *. unfold adds_dust in F2. destruct (snd op) as [[o c]|e]; [destruct o; try destruct c; lia|].
      destruct e; try lia. destruct (a_version s <? 2); lia. }
    unfold deposit_creating. rewrite H. cbn [free rsv frz]. destruct (N.eqb_spec (adds_to s op) 0) as [E|_]; [destruct (Hz E)|].
    replace (adds_to s op <? ac_ed cfg) with false by lia. rewrite andb_false_r.
    replace (two128 <=? a_pool s + adds_to s op) with false by lia. apply put_acct_eq. cbn. lia.
  Qed.
End pool.
