(** Properties of the council's and the technical committee's motions. *)
From Verif Require Import Base Model_Council Spec_Council Proofs_Council.
From stdpp Require Import gmap.
From Coq Require Import Lia.
Open Scope N_scope.

(** C130. A call is executed as [Members(n, m)] only if [m] members sit and either [n] of them, at
    least two, stand for it; or the motion has had its time, the sitting prime stands for it and all
    but [n] stand against it; or one sitting member proposed it alone, with [n = 1]. *)
Theorem C130_mandate : forall cfg l s log l1 h n m before,
  distinct_seats l -> crun cfg cinit [] l = (s, log) -> log = l1 ++ EExecuted h n m :: before ->
  m = count (sitting before) /\ count (for_it h before) + count (against_it h before) <= m /\
  ((2 <= n /\ n = count (for_it h before)) \/
   (2 <= n /\ q_duration cfg <= age h before /\ n + count (against_it h before) = m /\
    exists p, prime before = Some p /\ p ∈ sitting before /\ stance h p before = Some true) \/
   (n = 1 /\ exists who r, before = EProposed h who :: r /\ who ∈ sitting r)).
Proof.
  intros cfg l s log l1 h n m before Hd Hr El.
  eapply all_lawful_in; [|exact El]. eapply i_law, run_inv; [apply init_inv|exact Hd|exact Hr].
Qed.
(** A vote counts exactly if a sitting member changes their stance to an open motion by it, and a
    motion can be closed exactly if it is decided or has had its time. *)
Theorem C130_votes : forall cfg l s log h m, distinct_seats l -> crun cfg cinit [] l = (s, log) ->
  c_motions s !! h = Some m ->
  (forall w b, is_Some (cstep cfg s (OVote w h (m_index m) b)) <-> w ∈ sitting log /\ stance h w log <> Some b) /\
  (is_Some (cstep cfg s (OClose h (m_index m))) <->
     m_threshold m <= count (for_it h log) \/ count (sitting log) < m_threshold m + count (against_it h log) \/
     q_duration cfg <= age h log).
Proof.
  intros cfg l s log h m Hd Hr Em.
  assert (HI : inv cfg s log) by (eapply run_inv; [apply init_inv|exact Hd|exact Hr]).
  destruct (i_ayes _ _ _ HI h m Em) as [Na Ha]. destruct (i_nays _ _ _ HI h m Em) as [Nn Hn].
  pose proof (i_end _ _ _ HI h m Em) as He. pose proof (i_members _ _ _ HI) as Hm. pose proof (i_nodup _ _ _ HI) as Hs.
  split.
  - intros w b. cbn [cstep]. rewrite Em, N.eqb_refl, Hm.
    destruct (bool_decide (w ∈ sitting log)) eqn:E1;
      [apply bool_decide_eq_true in E1|apply bool_decide_eq_false in E1; split; [intros []; discriminate|tauto]].
    destruct (bool_decide (w ∈ (if b then m_ayes m else m_nays m))) eqn:E2;
      [apply bool_decide_eq_true in E2|apply bool_decide_eq_false in E2].
    + split; [intros []; discriminate|]. intros [_ H]. exfalso. apply H. destruct b; [by apply Ha|by apply Hn].
    + split; [|eauto]. intros _. split; [exact E1|]. intros X. apply E2. destruct b; [by apply Ha|by apply Hn].
  - cbn [cstep]. rewrite Em, N.eqb_refl. unfold close.
    assert (Ca : N.of_nat (length (m_ayes m)) = count (for_it h log)).
    { apply votes_count; try assumption. intros w. apply (i_seat _ _ _ HI). }
    assert (Cn : N.of_nat (length (m_nays m)) = count (against_it h log)).
    { apply votes_count; try assumption. intros w. apply (i_seat _ _ _ HI). }
    rewrite Hm. fold (count (sitting log)). rewrite Ca, Cn.
    pose proof (disjoint_count h log Hs) as D.
    pose proof (i_two _ _ _ HI h m Em) as T2.
    destruct (N.leb_spec (m_threshold m) (count (for_it h log))) as [H1|H1]; [split; eauto|].
    destruct (N.ltb_spec (count (sitting log) - count (against_it h log)) (m_threshold m)) as [H2|H2].
    { split; [intros _; right; left; lia|eauto]. }
    destruct (N.ltb_spec (c_now s) (m_end m)) as [H3|H3].
    { split; [intros []; discriminate|]. intros [X|[X|X]]; lia. }
    split; [intros _; right; right; lia|]. intros _. destruct (m_threshold m <=? _); eauto.
Qed.
(** Thirteen members; 1 is prime. *)
Definition xq : ccfg := CCfg 3 100.
Definition xseats : list N := [1; 2; 3; 4; 5; 6; 7; 8; 9; 10; 11; 12; 13].
Definition xlog (l : list cop) : list cevent := (crun xq cinit [] l).2.
Example C130_example :
  (** carried by votes *)
  xlog [OMembers [1; 2; 3]; OPropose 1 7 2; OVote 1 7 0 true; OVote 2 7 0 false; OVote 2 7 0 true; OVote 4 7 0 true; OClose 7 0] =
    [EExecuted 7 2 3; EVoted 7 2 true; EVoted 7 2 false; EVoted 7 1 true; EProposed 7 1; EMembers [1; 2; 3]] /\
  (** a vote goes with its seat *)
  xlog [OMembers [1; 2; 3]; OPropose 1 7 2; OVote 1 7 0 true; OVote 2 7 0 true; OMembers [1; 3; 4]; OClose 7 0] =
    [EMembers [1; 3; 4]; EVoted 7 2 true; EVoted 7 1 true; EProposed 7 1; EMembers [1; 2; 3]] /\
  (** proposed alone *)
  xlog [OMembers [1; 2; 3]; OPropose 1 7 1] = [EExecuted 7 1 3; EProposed 7 1; EMembers [1; 2; 3]].
Proof. vm_compute. auto. Qed.
Print Assumptions C130_mandate.
Print Assumptions C130_votes.

(** C131. "A straight majority of the council": what is done as ExternalOrigin is backed by more
    than half of the sitting members. *)
Definition C131_claim : Prop := forall cfg l s log l1 h n m before,
  distinct_seats l -> crun cfg cinit [] l = (s, log) -> log = l1 ++ EExecuted h n m :: before ->
  empowered ExternalOrigin n m = true -> m < 2 * count (for_it h before).
(** It fails: half is enough, and so is the prime alone when nobody else votes. *)
Definition xhalf : list cop := [OMembers [1; 2; 3; 4]; OPropose 1 7 2; OVote 1 7 0 true; OVote 2 7 0 true; OClose 7 0].
Definition xlone : list cop :=
  [OMembers xseats; OPrime (Some 1); OPropose 1 7 13; OVote 1 7 0 true; OBlock; OBlock; OBlock; OClose 7 0].
Lemma xlone_distinct : distinct_seats xlone.
Proof.
  intros m Hm. cbn in Hm. destruct Hm as [X|Hm]; [|repeat destruct Hm as [X|Hm]; discriminate || contradiction].
  injection X as <-. apply (bool_decide_unpack _). vm_compute. exact I.
Qed.
Theorem C131_refuted : ~ C131_claim.
Proof.
  intros H.
  assert (E : exists b, xlog xlone = [] ++ EExecuted 7 13 13 :: b /\ count (for_it 7 b) = 1).
  { eexists. split; [reflexivity|]. vm_compute. reflexivity. }
  destruct E as (b & E & C).
  specialize (H xq xlone (crun xq cinit [] xlone).1 (xlog xlone) [] 7 13 13 b xlone_distinct (surjective_pairing _) E eq_refl).
  rewrite C in H. discriminate H.
Qed.
Print Assumptions C131_refuted.
(** What holds of every power (missing: abstentions following the prime, and the exact half): as
    many members as the power asks for stand for the call; or the motion has had its time, the prime
    stands for it and those not standing against it are as many; or the power belongs to a single
    member and one proposed it. *)
Theorem C131_partial : forall cfg l s log l1 h n m before pw,
  distinct_seats l -> crun cfg cinit [] l = (s, log) -> log = l1 ++ EExecuted h n m :: before ->
  empowered pw n m = true ->
  m = count (sitting before) /\
  (empowered pw (count (for_it h before)) m = true \/
   (q_duration cfg <= age h before /\ (exists p, prime before = Some p /\ p ∈ sitting before /\ stance h p before = Some true) /\
    empowered pw (m - count (against_it h before)) m = true) \/
   (empowered pw 1 m = true /\ exists who r, before = EProposed h who :: r /\ who ∈ sitting r)).
Proof.
  intros cfg l s log l1 h n m before pw Hd Hr El Hp.
  destruct (C130_mandate cfg l s log l1 h n m before Hd Hr El) as (Hm & Hc & [[_ ->]|[(_ & Ha & En & Hpr)|[-> Hw]]]).
  - split; [exact Hm|]. by left.
  - split; [exact Hm|]. right; left. split; [exact Ha|]. split; [exact Hpr|]. by replace (m - count (against_it h before)) with n by lia.
  - split; [exact Hm|]. right; right. by split.
Qed.
(** What the proportions mean: half, more than half, three fifths, two thirds, three quarters, all. *)
Theorem C131_proportions : forall n m,
  (empowered ExternalOrigin n m = true <-> m <= 2 * n) /\ (empowered ScheduleOrigin n m = true <-> m <= 2 * n) /\
  (empowered HalfCouncil n m = true <-> m < 2 * n) /\ (empowered FounderSetOrigin n m = true <-> m < 2 * n) /\
  (empowered ExternalMajorityOrigin n m = true <-> 3 * m <= 5 * n) /\ (empowered ApproveOrigin n m = true <-> 3 * m <= 5 * n) /\
  (empowered FastTrackOrigin n m = true <-> 2 * m <= 3 * n) /\ (empowered CancellationOrigin n m = true <-> 2 * m <= 3 * n) /\
  (empowered SlashCancelOrigin n m = true <-> 3 * m <= 4 * n) /\
  (empowered ExternalDefaultOrigin n m = true <-> m <= n) /\ (empowered InstantOrigin n m = true <-> m <= n) /\
  (empowered CancelProposalOrigin n m = true <-> m <= n).
Proof. intros n m. unfold empowered, at_least, more_than. rewrite !N.leb_le, !N.ltb_lt. repeat split; lia. Qed.
Example C131_example :
  distinct_seats xhalf /\
  (exists b, xlog xhalf = [] ++ EExecuted 7 2 4 :: b /\ count (for_it 7 b) = 2) /\
  empowered ExternalOrigin 2 4 = true /\ empowered HalfCouncil 2 4 = false /\ empowered SlashCancelOrigin 10 13 = true /\
  empowered SlashCancelOrigin 9 13 = false.
Proof.
  split; [|split; [eexists; split; [reflexivity|]; vm_compute; reflexivity|vm_compute; auto]].
  intros m Hm. cbn in Hm. destruct Hm as [X|Hm]; [|repeat destruct Hm as [X|Hm]; discriminate || contradiction].
  injection X as <-. apply (bool_decide_unpack _). vm_compute. exact I.
Qed.
Print Assumptions C131_partial.
Print Assumptions C131_proportions.

(** C132. "A unanimous council", "must be unanimous": what is done as ExternalDefaultOrigin,
    InstantOrigin or CancelProposalOrigin is backed by every sitting member. *)
Definition C132_claim : Prop := forall cfg l s log l1 h n m before,
  distinct_seats l -> crun cfg cinit [] l = (s, log) -> log = l1 ++ EExecuted h n m :: before ->
  empowered ExternalDefaultOrigin n m = true -> forall w, w ∈ sitting before -> stance h w before = Some true.
Theorem C132_refuted : ~ C132_claim.
Proof.
  intros H.
  assert (E : exists b, xlog xlone = [] ++ EExecuted 7 13 13 :: b /\ stance 7 2 b = None /\ 2 ∈ sitting b).
  { eexists. split; [reflexivity|]. split; [reflexivity|]. apply (bool_decide_unpack _). vm_compute. exact I. }
  destruct E as (b & E & C & I2).
  specialize (H xq xlone (crun xq cinit [] xlone).1 (xlog xlone) [] 7 13 13 b xlone_distinct (surjective_pairing _) E eq_refl 2 I2).
  rewrite C in H. discriminate H.
Qed.
Print Assumptions C132_refuted.
(** What holds: nobody sitting stands against it, and all stand for it, or the motion has had its
    time and the prime stands for it, or the council has a single seat and its holder proposed it
    (missing: silence of the others counts as consent). *)
Theorem C132_partial : forall cfg l s log l1 h n m before pw,
  In pw [ExternalDefaultOrigin; InstantOrigin; CancelProposalOrigin] ->
  distinct_seats l -> crun cfg cinit [] l = (s, log) -> log = l1 ++ EExecuted h n m :: before ->
  empowered pw n m = true ->
  (forall w, w ∈ sitting before -> stance h w before <> Some false) /\
  ((forall w, w ∈ sitting before -> stance h w before = Some true) \/
   (q_duration cfg <= age h before /\ exists p, prime before = Some p /\ p ∈ sitting before /\ stance h p before = Some true) \/
   exists who, sitting before = [who] /\ exists r, before = EProposed h who :: r).
Proof.
  intros cfg l s log l1 h n m before pw Hpw Hd Hr El Hp.
  assert (Hmn : m <= n).
  { destruct (C131_proportions n m) as (_ & _ & _ & _ & _ & _ & _ & _ & _ & P1 & P2 & P3).
    destruct Hpw as [<-|[<-|[<-|[]]]]; [by apply P1|by apply P2|by apply P3]. }
  assert (NA : count (against_it h before) = 0 -> forall w, w ∈ sitting before -> stance h w before <> Some false).
  { intros Z w Hw X. assert (Hin : w ∈ against_it h before) by (apply elem_of_list_filter; auto).
    unfold count in Z. destruct (against_it h before); [by apply elem_of_nil in Hin|cbn in Z; lia]. }
  destruct (C130_mandate cfg l s log l1 h n m before Hd Hr El) as (Hm & Hc & [[_ En]|[(_ & Ha & En & Hpr)|[-> (who & r & -> & Hw)]]]).
  - assert (Z : count (against_it h before) = 0) by lia. split; [by apply NA|]. left.
    assert (Lf : length (for_it h before) = length (sitting before)) by (unfold count in *; lia).
    intros w Hw. destruct (decide (stance h w before = Some true)) as [|Hno]; [done|]. exfalso.
    assert (Hlt : (length (for_it h before) < length (sitting before))%nat); [|lia].
    unfold for_it. clear -Hw Hno. induction (sitting before) as [|x L IH]; [by apply elem_of_nil in Hw|].
    rewrite filter_cons. apply elem_of_cons in Hw as [<-|Hw].
    + rewrite decide_False by exact Hno. cbn. pose proof (filter_length (fun w => stance h w before = Some true) L). lia.
    + destruct (decide _); cbn; specialize (IH Hw); lia.
  - assert (Z : count (against_it h before) = 0) by lia. split; [by apply NA|]. right; left.
    by split.
  - cbn [sitting] in *. split.
    + intros w Hw' X. cbn in X. rewrite N.eqb_refl in X. discriminate X.
    + right; right. unfold count in Hm. destruct (sitting r) as [|x [|y L]] eqn:Es; cbn in Hm; try lia.
      { by apply elem_of_nil in Hw. }
      apply elem_of_list_singleton in Hw as ->. exists x. split; [reflexivity|]. by exists r.
Qed.
Example C132_example :
  let l := [OMembers [1; 2; 3]; OPropose 1 7 3; OVote 1 7 0 true; OVote 2 7 0 true; OVote 3 7 0 true; OClose 7 0] in
  distinct_seats l /\ exists b, xlog l = [] ++ EExecuted 7 3 3 :: b /\ empowered ExternalDefaultOrigin 3 3 = true /\
    for_it 7 b = [1; 2; 3].
Proof.
  split; [|eexists; split; [reflexivity|]; vm_compute; auto].
  intros m Hm. cbn in Hm. destruct Hm as [X|Hm]; [|repeat destruct Hm as [X|Hm]; discriminate || contradiction].
  injection X as <-. apply (bool_decide_unpack _). vm_compute. exact I.
Qed.
Print Assumptions C132_partial.
