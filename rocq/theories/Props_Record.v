(** Property C189 (pallets/credit): what a credit record says besides its score. *)
From Verif Require Import Base Balances Model_UserPrivileges Model_Credit Spec_Credit Spec_Record Proofs_Record.
From stdpp Require Import gmap.
Open Scope N_scope.

(** Example chain: an era has 10 blocks, account 7 administers credit. *)
Definition rcfg : kcfg := KCfg 5 10 5 100 1 50 99.
Definition rx (now : N) : kctx :=
  KCtx now (now * 5) (fun _ => None) (fun _ => 0) (fun _ => None) (fun a _ => a =? 7) (fun _ _ => false).
Definition rs0 : kstate :=
  kinit (Bank ∅ 0) [Setting 4 1 (10000 * DPR) 20 10 5 0 0 0; Setting 8 1 (5000 * DPR) 5 0 0 0 1 0]
    [(1, CData 4 150 1 3 2 1 270)].
Definition rcall (now : N) (c : kcall) : kop := (rx now, inl (Signed 7, c)).
Definition rentry (now : N) (e : kentry) : kop := (rx now, inr e).
(** Users of campaign 4 are named for campaign 4, then for campaign 8; user 1 claims in
    both times; user 3 buys credit; user 1 gives its stake back. *)
Definition rh1 : list kop :=
  [rentry 11 (KInitHistory 1); rcall 12 (KSetSwitch [4] [4]); rentry 35 (KGetReward 1 1 2)].
Definition rh2 : list kop := rh1 ++ [rcall 36 (KSetSwitch [4] [8]); rentry 45 (KGetReward 1 3 3)].
Definition rh3 : list kop := rh2 ++ [rentry 46 (KAddOrUpdate 3 230 (Some 5)); rentry 47 (KAddOrUpdate 3 100 (Some 6))].
Definition rh4 : list kop := rh3 ++ [rcall 48 (KSetStaking [(1, 100)]); rcall 49 (KUnstakingSlash 1)].

(** C189. A step gives an account the record it has for one of these reasons only. *)
Theorem C189_reasons :
  forall cfg s op who d', k_uc (kdo cfg s op) !! who = Some d' -> explained cfg s op who d'.
Proof. exact step_explained. Qed.
Print Assumptions C189_reasons.

(** Nobody but Root and credit admins gives an account another number of paid eras than ten
    years, or what it had at genesis, and half years more. *)
Theorem C189_eras :
  forall cfg b settings data h who d,
    Forall (unwritten who) h ->
    k_uc (krun cfg (kinit b settings data) h) !! who = Some d ->
    span (10 * 365) (cd_eras d) \/
    exists d0, k_uc (kinit b settings data) !! who = Some d0 /\
      (cd_eras d = cd_eras d0 \/ span (cd_eras d0) (cd_eras d)).
Proof.
  intros cfg b settings data h who d U.
  apply (run_spans cfg who (fun e => span (10 * 365) e \/ exists d0, k_uc (kinit b settings data) !! who = Some d0 /\
    (e = cd_eras d0 \/ span (cd_eras d0) e))); [| |exact U|].
  - intros e [H|(d0 & E & [->|H])].
    + left. now apply span_more.
    + right. exists d0. split; [exact E|]. right. now exists 1.
    + right. exists d0. split; [exact E|]. right. now apply span_more.
  - left. now exists 0.
  - intros d0 E. right. eauto.
Qed.
Print Assumptions C189_eras.

(** The initial level, rank and number of referees of an account change only when the record
    is written or begins anew because the stake was given back. *)
Theorem C189_kept :
  forall cfg s op who d d',
    k_uc s !! who = Some d -> k_uc (kdo cfg s op) !! who = Some d' ->
    (cd_init d', cd_rank d', cd_refs d') = (cd_init d, cd_rank d, cd_refs d) \/
    writes op who d' \/ (unstakes op who /\ begun (k_default_id s) d').
Proof.
  intros cfg s op who d d' E H.
  destruct (step_explained cfg s op who d' H) as [(d1 & E1 & [B|[M|U]])|[W|(N1 & _)]].
  - left. assert (d1 = d) as -> by congruence. injection B. congruence.
  - left. assert (d1 = d) as -> by congruence. destruct M as (f & t & id & _ & _ & _ & _ & B). injection B. congruence.
  - auto.
  - auto.
  - congruence.
Qed.
Print Assumptions C189_kept.

Example C189_nonvacuous :
  k_uc rs0 !! 1 = Some (CData 4 150 1 3 2 1 270) /\
  k_uc (krun rcfg rs0 rh1) !! 1 = Some (CData 4 150 1 3 2 1 450) /\
  k_uc (krun rcfg rs0 rh2) !! 1 = Some (CData 8 150 1 3 2 1 3650) /\
  k_uc (krun rcfg rs0 rh3) !! 3 = Some (CData 5 330 2 0 0 3 3650) /\
  k_uc (krun rcfg rs0 rh4) !! 1 = Some (CData 8 50 0 0 0 0 3650) /\
  Forall (unwritten 1) rh4.
Proof.
  do 5 (split; [vm_compute; reflexivity|]).
  repeat constructor; intros d [H|(a & _ & H)]; discriminate H.
Qed.
