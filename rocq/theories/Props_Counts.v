(** Staking pallet: the number of validators elected: property C203. *)
From Verif Require Import Base Balances Model_StakingLedger Model_Staking Spec_Staking Spec_Counts Proofs_Counts Props_Staking.
From stdpp Require Import gmap.
Open Scope N_scope.

(** * C203: enough validators are elected *)
(** An election picks all that stand, or as many of them as validators are asked for. *)
Theorem C203_size cfg s i s' ev era l :
  kstep cfg s (KNewSession i) = (s', KDone ev) -> KElected era l ∈ ev ->
  N.of_nat (length l) = N.min (p_count (k_par s)) (N.of_nat (length (standing s))).
Proof.
  intros H Hin. cbn [kstep settle] in H. destruct (new_session cfg s i) as [s1 ev1] eqn:E. injection H as <- <-.
  exact (proj1 (session_size cfg _ _ _ _ _ _ E Hin)).
Qed.
Print Assumptions C203_size.
(** Full statement: no set of validators is elected that is empty or smaller than the minimum.
    It holds after every history in which Root keeps the number asked for at one and at the
    minimum or above. Missing: neither is required of Root, see below. *)
Theorem C203_partial cfg s0 h i s' ev era l :
  sound_counts s0 -> all_wise cfg s0 h -> let s := krun cfg s0 h in
  kstep cfg s (KNewSession i) = (s', KDone ev) -> KElected era l ∈ ev ->
  1 <= N.of_nat (length l) /\ p_min (k_par s) <= N.of_nat (length l) /\ N.of_nat (length l) <= p_count (k_par s).
Proof.
  intros S W s H Hin. destruct (run_sound cfg h s0 W S) as [S1 S2]. fold s in S1, S2.
  cbn [kstep settle] in H. destruct (new_session cfg s i) as [s1 ev1] eqn:E. injection H as <- <-.
  destruct (session_size cfg _ _ _ _ _ _ E Hin) as [-> L]. lia.
Qed.
Print Assumptions C203_partial.
(** Three validators stand, two are asked for, then one more, then twice as many. *)
Definition y203 : list kop :=
  zsetup ++ zera 0 ++ [zroot (KIncCount 1); zroot (KSetMin 3); zroot (KScaleCount 100)] ++ zera 2.
Example C203_example :
  sound_counts zs0 /\ all_wise zcfg zs0 y203 /\
  map (fun o => match o with KDone [KElected e l] => Some l | _ => None end) (kouts zcfg zs0 y203) =
    repeat None 6 ++ [Some [1; 2]; None; None; None; None; None; Some [3; 1; 2]; None; None] /\
  p_count (k_par (krun zcfg zs0 y203)) = 6 /\ p_min (k_par (krun zcfg zs0 y203)) = 3.
Proof.
  split; [split; vm_compute; discriminate|]. split; [vm_compute; repeat split; discriminate|].
  repeat match goal with |- _ /\ _ => split end; vm_compute; reflexivity.
Qed.

(** The minimum is compared with those who stand, not with those elected. Root asks for no
    validator, or adds to the number so that it wraps: an empty set is elected. Root
    asks for fewer than the minimum: so many are elected. *)
Theorem C203_refuted :
  exists cfg s i,
    sound_counts s /\ p_min (k_par s) = 2 /\ length (standing s) = 3%nat /\
    forall c l, (c, l) ∈ [(KSetCount 0, []); (KIncCount (2 ^ 32 - 2), []); (KSetCount 1, [3])] ->
      exists s' s'' era, kstep cfg s (KCall zx Root c) = (s', KDone []) /\
        kstep cfg s' (KNewSession i) = (s'', KDone [KElected era l]) /\ N.of_nat (length l) < p_min (k_par s).
Proof.
  exists zcfg, (krun zcfg zs0 (zsetup ++ zera 0 ++ [zroot (KSetMin 2)])), 2.
  split; [split; vm_compute; discriminate|]. split; [vm_compute; reflexivity|]. split; [vm_compute; reflexivity|].
  intros c l H.
  assert (K : kstep zcfg (krun zcfg zs0 (zsetup ++ zera 0 ++ [zroot (KSetMin 2)])) (KCall zx Root c) =
      ((kstep zcfg (krun zcfg zs0 (zsetup ++ zera 0 ++ [zroot (KSetMin 2)])) (KCall zx Root c)).1, KDone []) /\
    (kstep zcfg (kstep zcfg (krun zcfg zs0 (zsetup ++ zera 0 ++ [zroot (KSetMin 2)])) (KCall zx Root c)).1 (KNewSession 2)).2 = KDone [KElected 1 l] /\
    N.of_nat (length l) < 2).
  { repeat (apply elem_of_cons in H as [H|H]; [injection H as -> ->; repeat split; vm_compute; reflexivity|]). now apply elem_of_nil in H. }
  destruct K as (K1 & K2 & K3). do 3 eexists. split; [exact K1|]. split; [rewrite <- K2; apply surjective_pairing|exact K3].
Qed.
Print Assumptions C203_refuted.
