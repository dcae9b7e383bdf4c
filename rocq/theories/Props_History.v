(** Staking pallet: the records of past eras: property C199. *)
From Verif Require Import Base Balances Model_StakingLedger Model_Staking Spec_Staking Spec_Staking2 Spec_Staking4 Spec_History
  Proofs_Staking16 Proofs_Staking17 Proofs_Staking22 Proofs_Staking23 Proofs_History Props_Staking Props_Staking2 Props_Staking3.
From stdpp Require Import gmap.
Open Scope N_scope.

(** * C199: the history of eras *)
(** While an era is in the history, its first session, its validators, their exposures and
    the total stake stay as they are. *)
Theorem C199_kept cfg s h i :
  sane cfg s h -> throughout cfg (fun s => p_depth (k_par s) < 2 ^ 32 /\ in_history i s) s h ->
  same_record s (krun cfg s h) i.
Proof. apply run_kept_record. Qed.
Print Assumptions C199_kept.
(** So do its reward points once it is over. *)
Theorem C199_points cfg s h i :
  sane cfg s h ->
  throughout cfg (fun s => p_depth (k_par s) < 2 ^ 32 /\ in_history i s /\ active_era s <> Some i) s h ->
  e_points (k_era (krun cfg s h)) !! i = e_points (k_era s) !! i.
Proof. apply run_kept_points. Qed.
Print Assumptions C199_points.
(** Nothing but reward points is kept of eras before the history. *)
Theorem C199_gone cfg b p h i :
  sane cfg (kgenesis b p) h -> throughout cfg (fun s => p_depth (k_par s) < 2 ^ 32) (kgenesis b p) h ->
  let s := krun cfg (kgenesis b p) h in
  i + p_depth (k_par s) < cur_era s -> no_record s i.
Proof.
  intros S T s. apply run_trimmed; [exact S|exact T|]. intros j Hj. split; [reflexivity|]. auto.
Qed.
Print Assumptions C199_gone.
(** Nor reward points, if the active era always was in the history, as the documentation
    of HistoryDepth demands. *)
Theorem C199_points_gone_partial cfg b p h i :
  sane cfg (kgenesis b p) h ->
  throughout cfg (fun s => p_depth (k_par s) < 2 ^ 32 /\ guaranteed s) (kgenesis b p) h ->
  let s := krun cfg (kgenesis b p) h in
  i + p_depth (k_par s) < cur_era s -> e_points (k_era s) !! i = None.
Proof. intros S T s. apply run_tidy; [exact S|exact T|]. intros j Hj. reflexivity. Qed.
Print Assumptions C199_points_gone_partial.
(** An era that is planned gets its record, if the history depth is neither 0 nor 2^32 - 1. *)
Theorem C199_written_partial cfg s i s' ev :
  fits cfg s -> 1 <= p_depth (k_par s) < 2 ^ 32 - 1 ->
  kstep cfg s (KNewSession i) = (s', KDone ev) -> e_cur (k_era s') <> e_cur (k_era s) ->
  exists n, e_cur (k_era s') = Some n /\ e_start (k_era s') !! n = Some i /\
    forall l, KElected n l ∈ ev -> e_vals (k_era s') !! n = Some l.
Proof.
  intros F K H N. cbn [kstep] in H. destruct (new_session _ _ _) as [s1 e] eqn:E. cbn in H. injection H as <- <-.
  apply new_session_spec in E as (_ & _ & _ & [(-> & _)|(A & _ & B)]); [now destruct N|].
  assert (L : planned s < two32).
  { unfold planned. destruct (e_cur (k_era s)); [apply N.mod_lt; discriminate|reflexivity]. }
  destruct (B K L) as (B1 & o & -> & B2). exists (planned s). split; [exact A|].
  split; [rewrite (cut_keep _ _ _ _ B1) by lia; apply lookup_insert|]. intros l Hl. destruct o as [l0|]; [|now apply elem_of_nil in Hl].
  apply elem_of_list_singleton in Hl. injection Hl as ->. rewrite (cut_keep _ _ _ _ B2) by lia. apply lookup_insert.
Qed.
Print Assumptions C199_written_partial.

(** What is missing: Root may set the history depth to 0. The record of the active era then
    goes when the next one is planned, its validators are not paid, and points of
    blocks authored afterwards stay for ever. *)
Definition y199 : list kop :=
  zsetup ++ zera 0 ++ [zroot (KSetDepth 0); KNewSession 2; KAuthor 1; KEndSession zx 1; KStartSession zx 2; KFinal] ++ zera 4 ++ zera 6.
Theorem C199_points_gone_refuted : exists cfg b p h i,
  sane cfg (kgenesis b p) h /\ throughout cfg (fun s => p_depth (k_par s) < 2 ^ 32) (kgenesis b p) h /\
  let s := krun cfg (kgenesis b p) h in
  i + p_depth (k_par s) < cur_era s /\ e_points (k_era s) !! i <> None.
Proof.
  exists zcfg, zbank, zpars, y199, 0. split; [apply saneb_ok; vm_compute; reflexivity|].
  split; [|split; [vm_compute; reflexivity|vm_compute; discriminate]].
  split; [|vm_compute; reflexivity]. apply (alwaysb_ok _ _ (fun s => p_depth (k_par s) <? 2 ^ 32)); [intros s; apply N.ltb_lt|]. vm_compute. reflexivity.
Qed.
Print Assumptions C199_points_gone_refuted.
(** Or to 2^32 - 1: then the next era is planned without a record of its first session, and
    never begins. *)
Definition y199b : list kop := zsetup ++ zera 0 ++ [zroot (KSetDepth (2 ^ 32 - 1))].
Theorem C199_written_refuted : exists cfg b p h i,
  let s := krun cfg (kgenesis b p) h in
  fits cfg s /\ p_depth (k_par s) < 2 ^ 32 /\
  exists n, e_cur (k_era (kstep cfg s (KNewSession i)).1) = Some n /\ e_cur (k_era s) <> Some n /\
    e_start (k_era (kstep cfg s (KNewSession i)).1) !! n = None.
Proof.
  exists zcfg, zbank, zpars, y199b, 2. split; [apply sane_fits, saneb_ok; vm_compute; reflexivity|].
  split; [vm_compute; reflexivity|]. exists 1. vm_compute. repeat split; discriminate.
Qed.
Print Assumptions C199_written_refuted.

(** A history depth of 1: when era 3 is planned the record of era 1 goes, that of era 2 stays. *)
Definition y199c : list kop :=
  zsetup ++ zera 0 ++ [zroot (KSetDepth 1); KAuthor 1] ++ zera 2 ++ [KAuthor 2] ++ zera 4 ++ [KAuthor 2].
Definition in_historyb (i : N) (s : kstate) : bool :=
  match e_cur (k_era s) with Some c => (i <=? c) && (c <=? i + p_depth (k_par s)) | None => false end.
Lemma in_historyb_ok i s : in_historyb i s = true -> in_history i s.
Proof. unfold in_historyb, in_history. destruct (e_cur (k_era s)) as [c|]; [|discriminate]. intros H. exists c. split; [reflexivity|]. lia. Qed.
Definition guaranteedb (s : kstate) : bool := match active_era s with Some a => in_historyb a s | None => true end.
Lemma guaranteedb_ok s : guaranteedb s = true -> guaranteed s.
Proof. unfold guaranteedb, guaranteed. intros H a Ha. rewrite Ha in H. now apply in_historyb_ok. Qed.
Example C199_example :
  let s := krun zcfg zs0 y199c in
  let h := [KNewSession 6; zroot (KSetCount 3); KStartSession zx 6; KFinal] in
  let s' := krun zcfg s h in
  sane zcfg zs0 (y199c ++ h) /\ throughout zcfg (fun s => p_depth (k_par s) < 2 ^ 32 /\ guaranteed s) zs0 (y199c ++ h) /\
  throughout zcfg (fun s => p_depth (k_par s) < 2 ^ 32 /\ in_history 2 s) s h /\
  e_vals (k_era s') !! 2 = Some [2; 1] /\ e_start (k_era s') !! 2 = Some 4 /\
  (e_points (k_era s') !! 2 <> None) /\ cur_era s' = 3 /\
  e_vals (k_era s) !! 1 = Some [3; 1] /\ e_stakers (k_era s) !! (1, 3) <> None /\
  e_vals (k_era s') !! 1 = None /\ e_stakers (k_era s') !! (1, 3) = None /\ e_points (k_era s) !! 1 <> None /\ e_points (k_era s') !! 1 = None.
Proof.
  cbv zeta. split; [apply saneb_ok; vm_compute; reflexivity|].
  assert (A : forall i h s, alwaysb zcfg (fun s => (p_depth (k_par s) <? 2 ^ 32) && in_historyb i s) s h = true ->
    (let s' := krun zcfg s h in (p_depth (k_par s') <? 2 ^ 32) && in_historyb i s') = true ->
    throughout zcfg (fun s => p_depth (k_par s) < 2 ^ 32 /\ in_history i s) s h).
  { intros i h s A B. assert (P : forall s, (p_depth (k_par s) <? 2 ^ 32) && in_historyb i s = true -> p_depth (k_par s) < 2 ^ 32 /\ in_history i s).
    { intros s0 H. apply andb_true_iff in H as [H1 H2]. split; [now apply N.ltb_lt|now apply in_historyb_ok]. }
    split; [|now apply P]. apply (alwaysb_ok _ _ _ P). exact A. }
  assert (P : forall s, (p_depth (k_par s) <? 2 ^ 32) && guaranteedb s = true -> p_depth (k_par s) < 2 ^ 32 /\ guaranteed s).
  { intros s0 H. apply andb_true_iff in H as [H1 H2]. split; [now apply N.ltb_lt|now apply guaranteedb_ok]. }
  split; [split; [apply (alwaysb_ok _ _ _ P); vm_compute; reflexivity|apply P; vm_compute; reflexivity]|].
  split; [apply A; vm_compute; reflexivity|].
  repeat match goal with |- _ /\ _ => split end; vm_compute; first [reflexivity | intros X; discriminate X].
Qed.
