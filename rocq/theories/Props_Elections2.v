(** Properties of the elections pallet: authority, votes, terms and limits. *)
From Verif Require Import Base Balances Proofs_Arith Proofs_Balances Model_Elections Spec_Elections
  Proofs_Elections Proofs_Elections2 Proofs_Elections3 Proofs_Elections4 Proofs_Elections5 Proofs_Elections6
  Proofs_Elections7 Proofs_Elections8 Proofs_Elections9 Proofs_Elections10 Proofs_Elections11 Proofs_Elections12
  Props_Elections.
From Coq Require Import Sorting.Sorted.
From stdpp Require Import gmap sorting.
Open Scope N_scope.

(** * C105: authority over seats *)

(** Only root removes members and cleans voters; the other calls must be signed. A call
    that fails changes nothing. *)
Theorem C105_origin : forall cfg s o c s' out, eexec cfg s (ECall o c) = (s', out) ->
  (forall ev, out = EDone ev -> match c with
     | ERemoveMember _ _ _ | EClean => o = Root
     | _ => exists w, o = Signed w
     end) /\ ((forall ev, out <> EDone ev) -> s' = s).
Proof.
  intros cfg s o c s' out H. split.
  - intros ev ->. cbn [eexec] in H. destruct (dispatch _ _ _ _) as [[s1 ev1]|e|] eqn:E; try discriminate.
    destruct c; destruct o; try discriminate; eauto.
  - intros Hn. cbn [eexec] in H. destruct (dispatch _ _ _ _) as [[s1 ev1]|e|] eqn:E; injection H as <- <-; auto.
    now destruct (Hn ev1).
Qed.
Print Assumptions C105_origin.
(** A seat is lost only by the holder's own call, by root naming the holder, or in an
    election. *)
Theorem C105_seat : forall cfg s op x, elect_ok cfg -> 0 < ec_ed cfg -> reached cfg s ->
  x ∈ seat_ids s -> x ∉ seat_ids (eexec cfg s op).1 ->
  op = ECall (Signed x) ERenounceMember \/ op = ECall (Signed x) ERenounceRunner \/
  (exists sl re, op = ECall Root (ERemoveMember x sl re)) \/
  (exists l, ENewTerm l ∈ events (eexec cfg s op).2) /\
    ((exists n, op = EBlock n) \/ exists w sl, op = ECall Root (ERemoveMember w sl true)).
Proof. intros cfg s op x H1 H2 H3. apply step_seat; auto. now apply reached_good. Qed.
Print Assumptions C105_seat.
(** Root's removal takes the seat and takes or returns the bond, as asked, and touches
    nobody else's money. *)
Theorem C105_removed : forall cfg s w sl s' ev, elect_ok cfg -> 0 < ec_ed cfg -> reached cfg s ->
  eexec cfg s (ECall Root (ERemoveMember w sl false)) = (s', EDone ev) ->
  w ∈ member_ids s /\ w ∉ role_ids s' /\
  free (acct_of (e_bank s') w) = free (acct_of (e_bank s) w) + (if sl then 0 else bonds s w) /\
  rsv (acct_of (e_bank s') w) + bonds s w = rsv (acct_of (e_bank s) w) /\
  (forall x, x <> w -> acct_of (e_bank s') x = acct_of (e_bank s) x /\ bonds s' x = bonds s x) /\
  (forall v, ESeatSlashed w v ∈ ev <-> sl = true /\ v = bonds s w) /\ e_voting s' = e_voting s.
Proof.
  intros cfg s w sl s' ev H1 H2 H3 H. pose proof (reached_good cfg s H1 H2 H3) as Hg. cbn in H.
  unfold remove_member, rbind in H. destruct (remove_and_replace _ _ _ _) as [[[s1 ev1] rep]|?|] eqn:E; try discriminate.
  injection H as <- <-.
  pose proof (remove_view cfg H2 _ _ _ _ _ _ E Hg) as
    (V1 & V2 & _ & Va & Vo & Vv & _ & _ & _ & _ & _ & _ & _ & _ & _ & Ve & _).
  pose proof (C98_reserved cfg s w H1 H2 H3) as Hr.
  split; [done|]. split; [done|]. rewrite Va. cbn [free rsv]. split; [done|]. split; [lia|]. split; [done|]. split; [|done].
  intros v. rewrite Ve, !elem_of_app. destruct sl.
  - split.
    + intros [[Hx|Hx]|Hx]; apply elem_of_list_singleton in Hx; [|discriminate|discriminate]. now injection Hx as ->.
    + intros [_ ->]. left. left. now left.
  - split; [|intros [? _]; discriminate].
    intros [[Hx|Hx]|Hx]; [now apply elem_of_nil in Hx| |]; apply elem_of_list_singleton in Hx; discriminate.
Qed.
Print Assumptions C105_removed.
Example C105_example :
  (eexec (zc 9 9) zpost (ECall (Signed 3) (ERemoveMember 2 true false))).2 = EFail BadOrigin /\
  (eexec (zc 9 9) zpost (ECall Root (ERemoveMember 2 true false))).2 =
    EDone [ESeatSlashed 2 10; EChange [3] [2] [1; 3]; EKicked 2].
Proof. vm_compute. auto. Qed.

(** * C106: votes stay *)

(** A voter's record changes only by the voter's own call, or when root cleans up and
    nobody on the ballot stands any more. *)
Theorem C106_stay : forall cfg s op x, elect_ok cfg -> 0 < ec_ed cfg -> reached cfg s ->
  e_voting (eexec cfg s op).1 !! x <> e_voting s !! x ->
  (exists votes value, op = ECall (Signed x) (EVote votes value)) \/ op = ECall (Signed x) ERemoveVoter \/
  op = ECall Root EClean /\ exists v, e_voting s !! x = Some v /\ forall y, y ∈ v_votes v -> y ∉ role_ids s.
Proof. intros cfg s op x H1 H2 H3. apply step_voting; auto. now apply reached_good. Qed.
Print Assumptions C106_stay.
(** Cleaning removes exactly the voters with nobody left on the ballot; they get their
    deposit and their lock back; nobody else is touched. *)
Theorem C106_clean : forall cfg s s' ev, elect_ok cfg -> 0 < ec_ed cfg -> reached cfg s ->
  eexec cfg s (ECall Root EClean) = (s', EDone ev) ->
  role_ids s' = role_ids s /\ forall x,
  (forall v, e_voting s !! x = Some v -> (forall y, y ∈ v_votes v -> y ∉ role_ids s) ->
     e_voting s' !! x = None /\
     free (acct_of (e_bank s') x) = free (acct_of (e_bank s) x) + vote_deposit s x /\
     rsv (acct_of (e_bank s') x) + vote_deposit s x = rsv (acct_of (e_bank s) x) /\
     frz (acct_of (e_bank s') x) = lock_of (e_oth s) x) /\
  (e_voting s !! x = None \/ (exists v y, e_voting s !! x = Some v /\ y ∈ v_votes v /\ y ∈ role_ids s) ->
     e_voting s' !! x = e_voting s !! x /\ acct_of (e_bank s') x = acct_of (e_bank s) x).
Proof.
  intros cfg s s' ev H1 H2 H3 H. pose proof (reached_good cfg s H1 H2 H3) as Hg. cbn in H. injection H as <- <-.
  destruct (clean_facts cfg H2 s Hg) as (_ & _ & _ & _ & _ & _ & Hx). cbv zeta in Hx.
  destruct (clean_roles cfg s) as (E1 & E2 & E3). split.
  { unfold role_ids, member_ids, runner_ids, cand_ids. now rewrite E1, E2, E3. }
  intros x. destruct (Hx x) as [A B]. pose proof (C98_reserved cfg s x H1 H2 H3) as Hr. split.
  - intros v Hv Hd. destruct (A v Hv Hd) as (K1 & _ & ->). cbn [free rsv frz]. split; [done|]. split; [done|]. split; [lia|done].
  - intros Hd. destruct (B Hd) as (K1 & _ & K2). auto.
Qed.
Print Assumptions C106_clean.
(** Removing one's vote gives the deposit back and ends the lock. *)
Theorem C106_unvote : forall cfg s w, elect_ok cfg -> 0 < ec_ed cfg -> reached cfg s ->
  let r := eexec cfg s (ECall (Signed w) ERemoveVoter) in
  (e_voting s !! w = None -> r = (s, EFail MustBeVoter)) /\
  (is_Some (e_voting s !! w) -> r.2 = EDone [] /\ e_voting r.1 = delete w (e_voting s) /\
     free (acct_of (e_bank r.1) w) = free (acct_of (e_bank s) w) + vote_deposit s w /\
     rsv (acct_of (e_bank r.1) w) + vote_deposit s w = rsv (acct_of (e_bank s) w) /\
     frz (acct_of (e_bank r.1) w) = lock_of (e_oth s) w).
Proof.
  intros cfg s w H1 H2 H3 r. pose proof (reached_good cfg s H1 H2 H3) as [Hr Hb]. unfold r. cbn [eexec dispatch signed rbind].
  unfold remove_voter, ensure, is_voter. split.
  - intros ->. rewrite bool_decide_false; [done|]. intros [? ?]; discriminate.
  - intros Hs. rewrite bool_decide_true by done. cbn [rbind fst snd]. split; [done|].
    destruct (unvote_facts cfg s w Hb) as (b & -> & Hm). split; [done|]. cbn [e_bank set_ebank].
    rewrite (moved_eq _ _ _ _ Hm). cbn [free rsv frz]. pose proof (C98_reserved cfg s w H1 H2 H3). repeat split; lia.
Qed.
Print Assumptions C106_unvote.
(** The vote for 3 is defunct after 3 renounced, the one for 1 is not. *)
Definition zdef : estate := erun (zc 9 9) (zgen 9 9 [])
  (zid ++ zsub ++ zvote ++ [ECall (Signed 2) (EVote [1] 50); EBlock 5; ECall (Signed 3) ERenounceRunner; EBlock 10]).
Example C106_example : reached (zc 9 9) zdef /\ role_ids zdef = [1; 2] /\
  v_votes <$> e_voting zdef !! 6 = Some [3] /\ rsv (acct_of (e_bank zdef) 6) = 3 /\ frz (acct_of (e_bank zdef) 6) = 300 /\
  let s' := (eexec (zc 9 9) zdef (ECall Root EClean)).1 in
  e_voting s' !! 6 = None /\ acct_of (e_bank s') 6 = Acct 1000 0 0 /\ v_votes <$> e_voting s' !! 2 = Some [1].
Proof. split; [apply zreached; vm_compute; eauto|]. vm_compute. auto 10. Qed.

(** * C107: the stake is locked *)

(** Missing: the stakes of members named at genesis are not locked and their votes have
    no deposit, see [C107_refuted]. Every other vote has 1 to 16 names, its exact
    deposit, and its stake locked; who has no vote has no lock of this pallet. *)
Theorem C107_partial : forall cfg s w v, elect_ok cfg -> 0 < ec_ed cfg -> reached cfg s ->
  e_voting s !! w = Some v ->
  (1 <= length (v_votes v) <= 16)%nat /\
  (v_deposit v = vote_price cfg (length (v_votes v)) /\ v_stake v <= frz (acct_of (e_bank s) w) \/
   v_deposit v = 0 /\ v_votes v = [w]).
Proof.
  intros cfg s w v H1 H2 H3 Hv. pose proof (reached_good cfg s H1 H2 H3) as [_ Hb].
  destruct (Hb w) as (_ & _ & Hz & Ha). unfold vote_at in Ha. rewrite Hv in Ha. destruct Ha as ((Hn & Hl) & Ha).
  unfold MAXIMUM_VOTE in Hl. split.
  { destruct (v_votes v); [done|]. cbn [length] in *. lia. }
  destruct Ha as [(Hd & Ho)|(Hd & _ & He)]; [left|now right].
  rewrite Hd. split; [now apply deposit_of_eq|lia].
Qed.
Print Assumptions C107_partial.
Theorem C107_unlocked : forall cfg s w, elect_ok cfg -> 0 < ec_ed cfg -> reached cfg s ->
  e_voting s !! w = None -> frz (acct_of (e_bank s) w) = lock_of (e_oth s) w.
Proof.
  intros cfg s w H1 H2 H3 Hv. pose proof (reached_good cfg s H1 H2 H3) as [_ Hb].
  destruct (Hb w) as (_ & _ & Hz & Ha). unfold vote_at in Ha. rewrite Hv in Ha. lia.
Qed.
Print Assumptions C107_unlocked.
Example C107_example : v_stake <$> e_voting zpre !! 5 = Some 500 /\ frz (acct_of (e_bank zpre) 5) = 500 /\
  v_deposit <$> e_voting zpre !! 5 = Some (vote_price (zc 9 9) 2).
Proof. vm_compute. auto. Qed.
(** A member named at genesis spends the stake and is elected again on the strength of
    it. *)
Theorem C107_refuted : exists cfg s n l, elect_ok cfg /\ 0 < ec_ed cfg /\ reached cfg s /\
  v_stake <$> e_voting s !! 1 = Some 900 /\ wealth s 1 = 1 /\
  ENewTerm l ∈ events (eexec cfg s (EBlock n)).2 /\ (1, 900) ∈ l.
Proof.
  exists (zc 9 9), (erun (zc 9 9) (zgen 9 9 [(1, 900)]) [EDebit 1 999]), 5, [(1, 900)]. split; [apply by_stake_ok|].
  split; [reflexivity|]. split; [apply zreached; vm_compute; eauto|]. split; [reflexivity|]. split; [reflexivity|].
  replace (events _) with [EChange [] [] [1]; ENewTerm [(1, 900)]] by (vm_compute; reflexivity).
  split; [right; now left|now left].
Qed.
Print Assumptions C107_refuted.

(** * C108: terms *)

(** Elections are held in the blocks whose number is a multiple of the term, and in no
    others; how they end depends only on whether anybody stands, on the number of voters,
    and on the election algorithm. *)
Theorem C108_when : forall cfg s n s' ev, elect_ok cfg -> 0 < ec_ed cfg -> reached cfg s ->
  eexec cfg s (EBlock n) = (s', EDone ev) ->
  (ec_term cfg = 0 \/ n mod ec_term cfg <> 0) /\ ev = [] \/
  ec_term cfg <> 0 /\ n mod ec_term cfg = 0 /\
    (role_ids s = [] /\ ev = [EEmptyTerm] \/
     role_ids s <> [] /\ ((ec_maxvoters cfg < size (e_voting s))%nat \/
       ec_elect cfg (ec_runners cfg + ec_members cfg) (role_ids s) (ballot_list s) = None) /\ ev = [EElectionError] \/
     role_ids s <> [] /\ (size (e_voting s) <= ec_maxvoters cfg)%nat /\
       is_Some (ec_elect cfg (ec_runners cfg + ec_members cfg) (role_ids s) (ballot_list s)) /\
       exists l, ENewTerm l ∈ ev).
Proof.
  intros cfg s n s' ev H1 H2 H3 H. pose proof (reached_good cfg s H1 H2 H3) as [Hr Hb].
  apply block_election in H as [(Hn & _ & ->)|(Hn & Hm & H)]; [now left|]. right. split; [done|]. split; [done|].
  apply (phragmen_spec cfg H1) in H as [(E & _ & ->)|[(E & E' & _ & ->)|(E & Ev & ws & Ew & K1 & K2 & K3)]]; auto.
  right. right. split; [done|]. split; [done|]. split; [eauto|].
  destruct (install_facts cfg s ws s' ev K3 Hr Hb K1 K2) as (_ & _ & _ & _ & _ & _ & _ & _ & _ & _ & _ & _ & _ & He).
  eexists. rewrite He, elem_of_cons, elem_of_app. right. right. now left.
Qed.
Print Assumptions C108_when.
(** The round counter counts the terms (modulo 2^32). *)
Theorem C108_rounds : forall cfg b l s0 hist, elect_ok cfg -> 0 < ec_ed cfg -> sound_bank cfg b ->
  genesis cfg b l = Some s0 -> e_rounds (erun cfg s0 hist) = terms cfg s0 hist mod 2 ^ 32.
Proof.
  intros cfg b l s0 hist H1 H2 Hs Hgen. pose proof (genesis_good cfg b l s0 Hs Hgen) as Hg0.
  pose proof (genesis_facts cfg b l s0 Hgen) as (_ & _ & _ & _ & _ & Er & _).
  rewrite (run_rounds cfg H1 H2 s0 hist Hg0); rewrite Er; [reflexivity|reflexivity].
Qed.
Print Assumptions C108_rounds.
Example C108_example : e_rounds zdef = 2 /\ (eexec (zc 9 9) zpre (EBlock 6)).2 = EDone [] /\
  (eexec (zc 9 9) (zgen 9 9 []) (EBlock 5)).2 = EDone [EEmptyTerm].
Proof. vm_compute. auto. Qed.

(** * C109: how to become a candidate *)

(** Whoever stands was named at genesis or submitted their candidacy themselves, with an
    email identity at that time. *)
Theorem C109_identity : forall cfg b l s0 hist w, elect_ok cfg -> 0 < ec_ed cfg -> sound_bank cfg b ->
  genesis cfg b l = Some s0 -> w ∈ role_ids (erun cfg s0 hist) ->
  w ∈ fst <$> l \/ submitted cfg s0 hist w.
Proof.
  intros cfg b l s0 hist w H1 H2 Hs Hgen Hw. pose proof (genesis_good cfg b l s0 Hs Hgen) as Hg0.
  pose proof (genesis_facts cfg b l s0 Hgen) as (_ & Ec & Er & _ & _ & _ & _ & _ & _ & _ & _ & _ & _ & _ & _ & Hl).
  pose proof (run_good cfg H1 H2 s0 hist Hg0) as [Hr _].
  destruct (hist_standing cfg s0 hist w _ H1 H2 Hg0 (standing_bond cfg _ w Hr Hw)) as [Hb|[Hb _]]; [left|now right].
  apply standing_role in Hb. unfold role_ids, cand_ids, runner_ids in Hb. rewrite Ec, Er in Hb. cbn in Hb.
  rewrite app_nil_r in Hb. now apply Hl.
Qed.
Print Assumptions C109_identity.
Example C109_example :
  (eexec (zc 9 9) (erun (zc 9 9) (zgen 9 9 []) zid) (ECall (Signed 5) (ESubmit 9))).2 = EFail NotHasEmailIdentity /\
  (eexec (zc 9 9) (erun (zc 9 9) (zgen 9 9 []) zid) (ECall (Signed 4) (ESubmit 9))).2 = EDone [].
Proof. vm_compute. auto. Qed.

(** * C110: the limit on candidates *)

(** Missing: there can be one more candidate than MaxCandidates, see [C110_refuted]. *)
Theorem C110_partial : forall cfg s, elect_ok cfg -> 0 < ec_ed cfg -> reached cfg s ->
  ec_maxcand cfg + 1 < 2 ^ 32 -> N.of_nat (length (cand_ids s)) <= ec_maxcand cfg + 1.
Proof.
  intros cfg s H1 H2 (b & l & s0 & hist & Hs & Hgen & ->) Hm. unfold cand_ids. rewrite fmap_length.
  pose proof (genesis_good cfg b l s0 Hs Hgen) as Hg0.
  pose proof (genesis_facts cfg b l s0 Hgen) as (_ & Ec & _).
  induction hist as [|op hist IH] using rev_ind; [simpl; rewrite Ec; simpl; lia|].
  pose proof (run_good cfg H1 H2 s0 hist Hg0) as Hg. unfold erun in *. rewrite foldl_app. cbn [foldl].
  fold (erun cfg s0 hist) in *. now apply step_maxcand.
Qed.
Print Assumptions C110_partial.
Example C110_example : reached (zc 9 9) zpre /\ ec_maxcand (zc 9 9) + 1 < 2 ^ 32 /\ length (cand_ids zpre) = 4%nat.
Proof. split; [apply zpre_reached|]. vm_compute. auto. Qed.
Theorem C110_refuted : exists cfg s, elect_ok cfg /\ 0 < ec_ed cfg /\ reached cfg s /\
  ec_maxcand cfg = 3 /\ length (cand_ids s) = 4%nat.
Proof.
  exists (zc 3 9), (erun (zc 3 9) (zgen 3 9 []) (zid ++ zsub)). split; [apply by_stake_ok|]. split; [reflexivity|].
  split; [apply zreached; vm_compute; eauto|]. vm_compute. auto.
Qed.
Print Assumptions C110_refuted.

(** * C111: the limit on voters *)

(** Missing: voters beyond MaxVoters are not ignored; no election succeeds while there
    are too many, see [C111_refuted]. Up to the limit all votes count. *)
Theorem C111_partial : forall cfg s n s' ev, elect_ok cfg -> 0 < ec_ed cfg -> reached cfg s ->
  eexec cfg s (EBlock n) = (s', EDone ev) ->
  ((ec_maxvoters cfg < size (e_voting s))%nat -> s' = s /\ forall l, ENewTerm l ∉ ev) /\
  ((size (e_voting s) <= ec_maxvoters cfg)%nat -> ec_term cfg <> 0 -> n mod ec_term cfg = 0 -> role_ids s <> [] ->
     is_Some (ec_elect cfg (ec_runners cfg + ec_members cfg) (role_ids s) (ballot_list s)) ->
     exists l, ENewTerm l ∈ ev).
Proof.
  intros cfg s n s' ev H1 H2 H3 H. pose proof (C108_when cfg s n s' ev H1 H2 H3 H) as W. split.
  - intros Hn.
    assert (Hno : forall l, ENewTerm l ∉ ev).
    { intros l Hl. destruct W as [[_ ->]|(_ & _ & [[_ ->]|[(_ & _ & ->)|(_ & W & _)]])].
      - now apply elem_of_nil in Hl.
      - apply elem_of_list_singleton in Hl. discriminate.
      - apply elem_of_list_singleton in Hl. discriminate.
      - lia. }
    split; [|done]. eapply C101_nothing; eauto.
  - intros Hn Ht Hm Hr [ws Hw]. destruct W as [[[W|W] _]|(_ & _ & [[W _]|[(_ & [W|W] & _)|(_ & _ & _ & W)]])]; try done.
    + lia.
    + congruence.
Qed.
Print Assumptions C111_partial.
Theorem C111_refuted : exists cfg s w votes value, elect_ok cfg /\ 0 < ec_ed cfg /\ reached cfg s /\
  (eexec cfg s (ECall (Signed w) (EVote votes value))).2 = EDone [] /\
  ENewTerm [(1, 500); (2, 500)] ∈ events (eexec cfg s (EBlock 5)).2 /\
  (eexec cfg (eexec cfg s (ECall (Signed w) (EVote votes value))).1 (EBlock 5)).2 = EDone [EElectionError].
Proof.
  exists (zc 9 2), (erun (zc 9 2) (zgen 9 2 []) (zid ++ zsub ++ zvote)), 4, [4], 5. split; [apply by_stake_ok|].
  split; [reflexivity|]. split; [apply zreached; vm_compute; eauto|]. split; [vm_compute; reflexivity|].
  split; [|vm_compute; reflexivity].
  replace (events _) with [EChange [1; 2] [] [1; 2]; ECandSlashed 4 10; ENewTerm [(1, 500); (2, 500)]]
    by (vm_compute; reflexivity).
  right. right. now left.
Qed.
Print Assumptions C111_refuted.

(** * C112: removal and new elections *)

(** Missing: the election is held whenever it is asked for, also if a runner-up has
    already taken the seat, see [C112_refuted]. Removal with an election is removal
    without, followed by an ordinary election; without the request none is held. *)
Theorem C112_partial : forall cfg s w sl, elect_ok cfg -> 0 < ec_ed cfg -> reached cfg s -> ec_term cfg <> 0 ->
  w ∈ member_ids s ->
  (eexec cfg s (ECall Root (ERemoveMember w sl true))).1 =
    (eexec cfg (eexec cfg s (ECall Root (ERemoveMember w sl false))).1 (EBlock 0)).1 /\
  forall l, ENewTerm l ∉ events (eexec cfg s (ECall Root (ERemoveMember w sl false))).2.
Proof.
  intros cfg s w sl H1 H2 H3 Ht Hw. pose proof (reached_good cfg s H1 H2 H3) as Hg.
  cbn [eexec dispatch root rbind]. unfold remove_member, rbind.
  destruct (remove_and_replace cfg s w sl) as [[[s1 ev1] rep]|e|] eqn:E.
  - cbn [fst snd events]. unfold on_initialize. destruct (N.eqb_spec (ec_term cfg) 0) as [|_]; [done|].
    rewrite N.mod_0_l by done. cbn [negb andb N.eqb]. destruct (do_phragmen cfg s1) as [s2 ev2]. split; [done|].
    intros l. pose proof (remove_view cfg H2 _ _ _ _ _ _ E Hg) as
      (_ & _ & _ & _ & _ & _ & _ & _ & _ & _ & _ & _ & _ & _ & _ & -> & _).
    rewrite !elem_of_app, !elem_of_list_singleton. destruct sl.
    + rewrite elem_of_list_singleton. intros [[?|?]|?]; discriminate.
    + rewrite elem_of_nil. intros [[[]|?]|?]; discriminate.
  - exfalso. destruct (renounce_member_ok cfg s w Hg Hw) as [r Hr]. unfold renounce_member, remove_and_replace in *.
    destruct (bsearch _ _ _); discriminate.
  - exfalso. unfold remove_and_replace in E. destruct (bsearch _ _ _); discriminate.
Qed.
Print Assumptions C112_partial.
Example C112_example : member_ids (eexec (zc 9 9) zpost (ECall Root (ERemoveMember 2 false true))).1 = [1; 3] /\
  e_rounds (eexec (zc 9 9) zpost (ECall Root (ERemoveMember 2 false true))).1 = 2.
Proof. vm_compute. auto. Qed.
Theorem C112_refuted : exists cfg s l, elect_ok cfg /\ 0 < ec_ed cfg /\ reached cfg s /\
  runner_ids s = [3] /\ ENewTerm l ∈ events (eexec cfg s (ECall Root (ERemoveMember 2 false true))).2.
Proof.
  exists (zc 9 9), zpost, [(1, 500); (3, 300)]. split; [apply by_stake_ok|]. split; [reflexivity|].
  split; [apply zpost_reached|]. split; [reflexivity|].
  replace (events _) with [EChange [3] [2] [1; 3]; EKicked 2; EChange [] [] [1; 3]; ENewTerm [(1, 500); (3, 300)]]
    by (vm_compute; reflexivity).
  do 3 right. now left.
Qed.
Print Assumptions C112_refuted.

(** * C113: the same name twice on a ballot *)

Lemma once_weight m pos votes : NoDup votes ->
  weight_from m pos votes = once m (16 - N.of_nat pos) votes.
Proof.
  revert pos. induction votes as [|x votes IH]; intros pos Hn; [done|]. rewrite weight_from_cons. cbn [once].
  apply NoDup_cons in Hn as [Hx Hn]. rewrite (IH (S pos) Hn). destruct (N.eqb_spec x m) as [->|].
  - assert (Ho : forall k, once m k votes = 0); [|rewrite Ho; lia].
    clear IH Hn. induction votes as [|y votes IH]; intros k; [done|]. cbn [once].
    apply not_elem_of_cons in Hx as [Hy Hx]. destruct (N.eqb_spec y m); [congruence|]. auto.
  - rewrite N.add_0_l. f_equal. lia.
Qed.
(** Missing: a name that is repeated on a ballot counts again, see [C113_refuted]. If no
    ballot repeats a name, the prime is the winner of the Borda count in which every name
    counts once per ballot. *)
Theorem C113_partial : forall cfg s n s' ev l, elect_ok cfg -> 0 < ec_ed cfg -> reached cfg s ->
  (forall w v, e_voting s !! w = Some v -> NoDup (v_votes v)) ->
  eexec cfg s (EBlock n) = (s', EDone ev) -> ENewTerm l ∈ ev ->
  match e_prime s' with
  | Some p => best_of (score_once s) (member_ids s') p
  | None => member_ids s' = []
  end.
Proof.
  intros cfg s n s' ev l H1 H2 H3 Hn H Hl. pose proof (C103_borda cfg s n s' ev l H1 H2 H3 H Hl) as P.
  assert (Hs : forall m, score_once s m = score s m).
  { intros m. unfold score_once, score. f_equal. rewrite !msum_list. f_equal. apply list_fmap_ext.
    intros i [w v] Hi. cbn [fst snd]. f_equal. symmetry.
    assert (Hv : e_voting s !! w = Some v).
    { apply elem_of_map_to_list. eapply elem_of_list_lookup_2; eauto. }
    apply (once_weight m 0). eauto. }
  destruct (e_prime s') as [p|]; [|done]. destruct P as [P1 P2]. split; [done|]. intros m Hm. rewrite !Hs. auto.
Qed.
Print Assumptions C113_partial.
Example C113_example : (forall w v, e_voting zpre !! w = Some v -> NoDup (v_votes v)) /\
  score_once zpre 2 = 8000 /\ score_once zpre 1 = 7500 /\ e_prime (eexec (zc 9 9) zpre (EBlock 5)).1 = Some 2.
Proof.
  split; [|vm_compute; auto].
  assert (Hf : Forall (fun p => NoDup (v_votes p.2)) (map_to_list (e_voting zpre))).
  { replace (map_to_list (e_voting zpre)) with [(5, Voter [2; 1] 500 4); (6, Voter [3] 300 3)] by (vm_compute; reflexivity).
    repeat constructor; simpl; rewrite ?elem_of_cons, ?elem_of_nil; intuition congruence. }
  intros w v Hv. apply elem_of_map_to_list in Hv. rewrite Forall_forall in Hf. now apply (Hf _ Hv).
Qed.
(** 5 names candidate 2 twice; 6 stakes more on candidate 1, but 2 becomes prime. *)
Theorem C113_refuted : exists cfg s p q, elect_ok cfg /\ 0 < ec_ed cfg /\ reached cfg s /\
  member_ids (eexec cfg s (EBlock 5)).1 = [p; q] /\ e_prime (eexec cfg s (EBlock 5)).1 = Some q /\
  score_once s q < score_once s p.
Proof.
  exists (zc 9 9), (erun (zc 9 9) (zgen 9 9 []) (zid ++ zsub ++
    [ECall (Signed 5) (EVote [2; 2] 500); ECall (Signed 6) (EVote [1] 600)])), 1, 2.
  split; [apply by_stake_ok|]. split; [reflexivity|]. split; [apply zreached; vm_compute; eauto|]. vm_compute. auto.
Qed.
Print Assumptions C113_refuted.

(** * C114: money *)

(** What calls and blocks take from the issuance is exactly what their events say. *)
Theorem C114_money : forall cfg s op s' ev, elect_ok cfg -> 0 < ec_ed cfg -> reached cfg s ->
  (exists o c, op = ECall o c) \/ (exists n, op = EBlock n) ->
  eexec cfg s op = (s', EDone ev) -> issuance (e_bank s') + burnt ev = issuance (e_bank s).
Proof.
  intros cfg s op s' ev H1 H2 H3 Hop H. pose proof (reached_good cfg s H1 H2 H3) as Hg.
  assert (money (e_bank s') = money (e_bank s) /\ lost (e_bank s') = lost (e_bank s) + burnt ev) as [M1 M2].
  { destruct Hop as [(o & c & ->)|[n ->]].
    - cbn [eexec] in H. destruct (dispatch _ _ _ _) as [[s1 ev1]|e|] eqn:E; try discriminate. injection H as <- <-.
      eapply dispatch_money; eauto.
    - apply block_election in H as [(_ & -> & ->)|(_ & _ & H)].
      + split; [done|]. unfold burnt. simpl. lia.
      + eapply phragmen_money; eauto. }
  pose proof (issuance_money (e_bank s)). pose proof (issuance_money (e_bank s')). lia.
Qed.
Print Assumptions C114_money.
Example C114_example : issuance (e_bank zpre) = 6000 /\ issuance (e_bank zpost) = 5990 /\
  burnt (events (eexec (zc 9 9) zpre (EBlock 5)).2) = 10.
Proof. vm_compute. auto. Qed.

(** * C115: voting *)

(** A vote is accepted if and only if it has 1 to 16 names, no more than accounts that
    stand, a value above the existential deposit, and what is missing of the deposit can
    be set aside. It then replaces the former vote; the deposit is exact and the stake is
    the value, or all that is free. *)
Theorem C115_vote : forall cfg s w votes value, elect_ok cfg -> 0 < ec_ed cfg -> reached cfg s ->
  let r := eexec cfg s (ECall (Signed w) (EVote votes value)) in
  (r.2 = EDone [] <->
    (1 <= length votes <= 16)%nat /\ (length votes <= length (role_ids s))%nat /\ ec_ed cfg < value /\
    can_reserve cfg s w (vote_price cfg (length votes) - vote_deposit s w)) /\
  (r.2 = EDone [] ->
    e_voting r.1 = <[w := Voter votes (N.min value (free (acct_of (e_bank r.1) w))) (vote_price cfg (length votes))]> (e_voting s) /\
    free (acct_of (e_bank r.1) w) + vote_price cfg (length votes) = free (acct_of (e_bank s) w) + vote_deposit s w /\
    frz (acct_of (e_bank r.1) w) = N.max (N.min value (free (acct_of (e_bank r.1) w))) (lock_of (e_oth s) w) /\
    role_ids r.1 = role_ids s).
Proof.
  intros cfg s w votes value H1 H2 H3 r. pose proof (reached_good cfg s H1 H2 H3) as Hg. unfold r.
  cbn [eexec dispatch signed rbind]. split.
  - transitivity (exists x, vote cfg s w votes value = ROk x).
    + destruct (vote cfg s w votes value) as [[s' ev]|e|] eqn:E; cbn [fst snd].
      * apply vote_facts in E as (b & f & f0 & rr & z & E); auto; [|apply Hg]. decompose [and] E. subst ev.
        split; [eauto|done].
      * split; [discriminate|]. intros [? ?]. discriminate.
      * split; [discriminate|]. intros [? ?]. discriminate.
    + rewrite (vote_iff cfg H2 s w votes value Hg). split; intros (K1 & K2 & K3 & K4); repeat split; try lia;
        rewrite deposit_of_eq in * by lia; exact K4.
  - destruct (vote cfg s w votes value) as [[s' ev]|e|] eqn:E; cbn [fst snd]; try discriminate. intros _.
    destruct (vote_facts cfg _ _ _ _ _ _ E) as (b & f & f0 & rr & z & Hf & Hle & Hr & Hf0 & Ha & Hz & Hm & (_ & Hlen) & _ & _ & _ & _ & Es & _); auto; [apply Hg|].
    unfold MAXIMUM_VOTE in Hlen. rewrite (deposit_of_eq cfg H2 (length votes) Hlen) in *.
    change (N.min (ec_base cfg + ec_factor cfg * N.of_nat (length votes)) (two128 - 1)) with (vote_price cfg (length votes)) in *.
    assert (Eb : acct_of (e_bank s') w = Acct f rr z) by (rewrite Es; apply (moved_eq _ _ _ _ Hm)).
    rewrite Eb. cbn [free rsv frz]. rewrite <- Hf0. split; [now rewrite Es|]. split; [lia|]. split; [done|]. now rewrite Es.
Qed.
Print Assumptions C115_vote.
Example C115_example :
  (eexec (zc 9 9) zpre (ECall (Signed 5) (EVote [1; 2; 3; 4; 1] 10))).2 = EFail TooManyVotes /\
  (eexec (zc 9 9) zpre (ECall (Signed 5) (EVote [3] 5000))).2 = EDone [] /\
  e_voting (eexec (zc 9 9) zpre (ECall (Signed 5) (EVote [3] 5000))).1 !! 5 = Some (Voter [3] 997 3).
Proof. vm_compute. auto. Qed.

(** * C116: candidacy *)

(** A candidacy is accepted if and only if the announced count and the limit allow for
    the candidates there are, the account has an email identity, holds no role yet, and
    can set the bond aside. It then stands, with exactly the bond reserved. *)
Theorem C116_submit : forall cfg s w n, elect_ok cfg -> 0 < ec_ed cfg -> reached cfg s ->
  let r := eexec cfg s (ECall (Signed w) (ESubmit n)) in
  (r.2 = EDone [] <->
    N.of_nat (length (cand_ids s)) mod 2 ^ 32 <= N.min n (ec_maxcand cfg) /\ w ∈ e_ident s /\ w ∉ role_ids s /\
    can_reserve cfg s w (ec_bond cfg)) /\
  (r.2 = EDone [] -> cand_ids r.1 ≡ₚ w :: cand_ids s /\ member_ids r.1 = member_ids s /\ runner_ids r.1 = runner_ids s /\
    acct_of (e_bank r.1) w = Acct (free (acct_of (e_bank s) w) - ec_bond cfg) (rsv (acct_of (e_bank s) w) + ec_bond cfg)
                                  (frz (acct_of (e_bank s) w)) /\ ec_bond cfg <= free (acct_of (e_bank s) w)).
Proof.
  intros cfg s w n H1 H2 H3 r. pose proof (reached_good cfg s H1 H2 H3) as Hg. unfold r.
  cbn [eexec dispatch signed rbind]. split.
  - transitivity (exists x, submit_candidacy cfg s w n = ROk x).
    + destruct (submit_candidacy cfg s w n) as [[s' ev]|e|] eqn:E; cbn [fst snd].
      * apply submit_facts in E as (b & i & _ & _ & _ & _ & _ & -> & _); [|apply Hg]. split; [eauto|done].
      * split; [discriminate|]. intros [? ?]. discriminate.
      * split; [discriminate|]. intros [? ?]. discriminate.
    + rewrite (submit_iff cfg H2 s w n Hg). unfold cand_ids. now rewrite fmap_length.
  - destruct (submit_candidacy cfg s w n) as [[s' ev]|e|] eqn:E; cbn [fst snd]; try discriminate. intros _.
    apply submit_facts in E as (b & i & -> & Eb & _ & _); [|apply Hg]. apply reserve_moved in Eb as (Hm & Hle & _).
    split; [|split; [done|split; [done|split; [apply (moved_eq _ _ _ _ Hm)|done]]]].
    unfold cand_ids. cbn [e_cands set_roles]. now rewrite (insert_at_perm i), fmap_cons.
Qed.
Print Assumptions C116_submit.
Example C116_example : let s := erun (zc 9 9) (zgen 9 9 []) zid in
  (eexec (zc 9 9) s (ECall (Signed 4) (ESubmit 9))).2 = EDone [] /\
  (eexec (zc 9 9) zpre (ECall (Signed 4) (ESubmit 9))).2 = EFail DuplicatedCandidate.
Proof. vm_compute. auto. Qed.
