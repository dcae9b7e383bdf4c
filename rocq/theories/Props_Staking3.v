(** Staking pallet, third part: money, deferred slashes and the span of an era:
    properties C61, C93 and C94. *)
From Verif Require Import Base Balances Model_StakingLedger Model_Staking Spec_Staking Spec_Staking2
  Proofs_Arith Proofs_StakingLedger Proofs_Staking Proofs_Staking2 Proofs_Staking6 Proofs_Staking14 Proofs_Staking15
  Props_Staking Props_Staking2.
From stdpp Require Import gmap.
Open Scope N_scope.

Lemma sane_fits cfg : forall h s, sane cfg s h -> fits cfg (krun cfg s h).
Proof. induction h as [|op h IH]; intros s [F S]; [exact F|]. destruct S as [_ S]. exact (IH _ S). Qed.
Lemma fits_act cfg s : fits cfg s -> act s + 2 < two32.
Proof. intros (_ & _ & _ & F). unfold act. destruct (e_act _) as [[? ?]|]; [auto|reflexivity]. Qed.

(** * C61: an offence is put on the span that contains its era *)
Theorem C61_found cfg b p h s st sp era :
  sane cfg (kgenesis b p) h -> s = krun cfg (kgenesis b p) h -> s_spans (k_stk s) !! st = Some sp ->
  match era_span sp era with
  | Some t => t ∈ spans_iter sp /\ in_span t era
  | None => forall t, t ∈ spans_iter sp -> ~ in_span t era
  end.
Proof.
  intros S -> E. assert (I : ok_at (act (kgenesis b p)) st (k_stk (kgenesis b p))) by exact I.
  pose proof (fits_act _ _ (sane_fits _ _ _ S)) as F.
  pose proof (run_ok cfg st h _ S I) as K. unfold ok_at in K. rewrite E in K.
  apply (era_span_found _ _ _ K). lia.
Qed.
Print Assumptions C61_found.
(** The three spans of the first stash, at their borders. *)
Example C61_found_example :
  (fun sp => map (era_span sp) [0; 1; 2; 3; 4]) <$> (s_spans (k_stk zs) !! 1) =
  Some [Some (Span 0 0 (Some 2)); Some (Span 0 0 (Some 2)); Some (Span 1 2 (Some 1)); Some (Span 2 3 None); Some (Span 2 3 None)].
Proof. vm_compute. reflexivity. Qed.

(** * C93: money of the staking pallet *)
(** Every step creates exactly what its mint events say, and destroys nothing but what
    it moves to [lost]; reserves stay. *)
Theorem C93_money cfg s op s' out :
  no_bank op -> kstep cfg s op = (s', out) ->
  money (k_bank s') = money (k_bank s) + minted (events [out]) /\
  lost (k_bank s) <= lost (k_bank s') /\
  forall a, rsv (acct_of (k_bank s') a) = rsv (acct_of (k_bank s) a).
Proof. intros Nb H. destruct (step_bmv cfg s op s' out Nb H) as ((A & B) & _ & C). rewrite N.add_0_r in A. auto. Qed.
Print Assumptions C93_money.
Theorem C93_run cfg h : forall s,
  Forall no_bank h -> money (k_bank (krun cfg s h)) = money (k_bank s) + minted (events (kouts cfg s h)).
Proof.
  induction h as [|op h IH]; intros s F; [cbn; lia|]. apply Forall_cons in F as [N0 F].
  cbn [krun kouts]. destruct (kstep cfg s op) as [s1 o] eqn:E. cbn [fst snd]. rewrite events_cons, minted_app, IH by auto.
  destruct (C93_money _ _ _ _ _ N0 E) as [-> _]. cbn. lia.
Qed.
Print Assumptions C93_run.
(** Nobody loses more free balance than the step costs them, except for a rest below the
    existential deposit. *)
Theorem C93_loss cfg b p h s op s' out a :
  sane cfg (kgenesis b p) h -> s = krun cfg (kgenesis b p) h -> no_bank op -> kstep cfg s op = (s', out) ->
  free_of (k_bank s) a <= free_of (k_bank s') a + cost s op (events [out]) a \/
  free_of (k_bank s) a < cost s op (events [out]) a + kc_ed cfg.
Proof.
  intros S -> Nb H. exact (step_lam cfg _ op s' out (run_linv cfg h _ S (genesis_linv b p)) Nb H a).
Qed.
Print Assumptions C93_loss.
(** Slashes, rewards and other mints: 4000 DPR at genesis, minted in the example. *)
Example C93_example :
  money (k_bank zs0) = 4000 * DPR /\ minted zev = 158499999900000000003 /\ money (k_bank zds) = 4158499999900000000003 /\
  let s := krun zcfg zs0 (take 27 zh) in
  map (fun a => (free_of (k_bank s) a, free_of (k_bank (kstep zcfg s (KStartSession zx 6)).1) a)) [1; 2; 5] =
  [(1000 * DPR, 880 * DPR); (1000 * DPR, 950 * DPR); (0, 9500000000000000000)].
Proof. vm_compute. repeat split. Qed.

(** * C94: deferred slashes *)
(** When an era starts, exactly the slashes that have waited for the defer duration are
    applied, each once and in order, to the stake of their stash; all others stay. *)
Theorem C94_applied cfg b p h s x i s' ev :
  sane cfg (kgenesis b p) h -> s = krun cfg (kgenesis b p) h ->
  kstep cfg s (KStartSession x i) = (s', KDone ev) ->
  (s' = s /\ ev = []) \/
  exists a, a = match active_era s with Some j => j + 1 | None => 0 end /\ active_era s' = Some a /\
    (forall e, pending s' e = if e + kc_defer cfg <? a then [] else pending s e) /\
    (forall st, stake_of s' st = fold_left (punish (kc_ed cfg)) (against st (ripe cfg s a)) (stake_of s st)) /\
    (forall st, slash_sum st ev + total_of s' st = total_of s st).
Proof.
  intros S -> H. cbn [kstep] in H. destruct (start_session _ _ _ _) as [s1 e1] eqn:E. cbn in H. injection H as <- <-.
  pose proof (run_linv cfg h _ S (genesis_linv b p)) as I.
  pose proof (run_qinv cfg h _ S (genesis_linv b p) (genesis_qinv b p)) as Q.
  destruct (start_stake _ _ _ _ _ _ (linv_pairs _ I) Q (fits_act _ _ (sane_fits _ _ _ S)) E)
    as [A|(a & A1 & A2 & A3 & A4 & A5 & _)]; [auto|]. right. exists a. auto 6.
Qed.
Print Assumptions C94_applied.
(** A report queues, under the active era, slashes against the reported stashes, with
    the given reporters, that add up to what is charged, and leaves stakes and balances alone;
    without deferral they are applied at once. *)
Theorem C94_queued cfg b p h s x os i s' ev :
  sane cfg (kgenesis b p) h -> s = krun cfg (kgenesis b p) h ->
  kstep cfg s (KOffence x os i) = (s', KDone ev) ->
  exists new,
    Forall (fun u => exists ex f, (u_val u, ex, u_reps u, f) ∈ os) new /\
    (forall st, lsum (against st new) = charge_sum st ev) /\
    (forall st, slash_sum st ev + total_of s' st = total_of s st) /\
    if kc_defer cfg =? 0
    then (forall e, pending s' e = pending s e) /\
         forall st, stake_of s' st = fold_left (punish (kc_ed cfg)) (against st new) (stake_of s st)
    else (forall e, pending s' e = pending s e ++ if bool_decide (active_era s = Some e) then new else []) /\
         (forall st, stake_of s' st = stake_of s st) /\ k_bank s' = k_bank s.
Proof.
  intros S -> H. cbn [kstep] in H. destruct (on_offence _ _ _ _ _) as [s1 e1] eqn:E. cbn in H. injection H as <- <-.
  pose proof (run_linv cfg h _ S (genesis_linv b p)) as I.
  destruct (offence_queue _ _ _ _ _ _ _ (linv_pairs _ I) E) as (new & A & B & C & D & _). exists new.
  split; [exact A|]. split; [auto|]. split; [auto|].
  destruct (on_offence_bmv _ _ _ _ _ _ _ E) as (_ & _ & K).
  destruct (N.eqb_spec (kc_defer cfg) 0); [auto|]. destruct D. auto.
Qed.
Print Assumptions C94_queued.
(** Nothing else touches the queue; cancelling is property C59. *)
Theorem C94_kept cfg s op s' out e :
  kstep cfg s op = (s', out) -> leaves_slashes op -> pending s' e = pending s e.
Proof.
  intros H L. assert (Q : queue (k_stk s') = queue (k_stk s)).
  { eapply step_queue; [exact H|]. split; [|split]; intros; intros ->; exact L. }
  injection Q as Q _. unfold pending. now rewrite Q.
Qed.
Print Assumptions C94_kept.
Example C94_example :
  let s := krun zcfg zs0 (take 27 zh) in
  let s' := (kstep zcfg s (KStartSession zx 6)).1 in
  active_era s = Some 2 /\ active_era s' = Some 3 /\
  map (fun u => (u_val u, u_own u, u_reps u)) (pending s 1) = [(1, 40 * DPR, [5]); (2, 50 * DPR, [5]); (1, 80 * DPR, [5])] /\
  pending s' 1 = [] /\ pending s' 2 = pending s 2 /\ map u_own (pending s 2) = [22 * DPR] /\
  against 1 (ripe zcfg s 3) = [40 * DPR; 80 * DPR] /\
  map (total_of s) [1; 2; 3] = [500 * DPR; 300 * DPR; 400 * DPR] /\
  map (total_of s') [1; 2; 3] = [380 * DPR; 250 * DPR; 400 * DPR].
Proof. vm_compute. repeat split. Qed.
