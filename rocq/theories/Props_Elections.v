(** Properties of the elections pallet (pallets/elections-phragmen). *)
From Verif Require Import Base Balances Proofs_Arith Proofs_Balances Model_Elections Spec_Elections
  Proofs_Elections Proofs_Elections2 Proofs_Elections3 Proofs_Elections4 Proofs_Elections5 Proofs_Elections6
  Proofs_Elections7 Proofs_Elections8 Proofs_Elections9 Proofs_Elections10 Proofs_Elections11 Proofs_Elections12.
From Coq Require Import Sorting.Sorted.
From stdpp Require Import gmap sorting.
Open Scope N_scope.

(** * A concrete chain for the examples *)

(** Winners by the stake of the ballots that name them. *)
Definition tally (vs : list (N * N * list N)) (c : N) : N :=
  lsum ((fun b => if bool_decide (c ∈ b.2) then b.1.2 else 0) <$> vs).
Definition by_stake (n : nat) (cs : list N) (vs : list (N * N * list N)) : option (list (N * N)) :=
  Some (take n (ksort (fun p => 2 ^ 70 - p.2) ((fun c => (c, tally vs c)) <$> cs))).
Lemma by_stake_ok ed bond base factor m r term mc mv :
  elect_ok (ECfg ed bond base factor m r term mc mv by_stake).
Proof.
  intros n cs vs ws Hn [= <-].
  set (l := ksort _ _).
  assert (Hp : fst <$> l ≡ₚ cs).
  { unfold l. rewrite (ksort_perm (fun p : N * N => 2 ^ 70 - p.2)). rewrite <- list_fmap_compose.
    now rewrite (list_fmap_ext _ id), list_fmap_id by done. }
  split; [|split].
  - eapply sublist_NoDup; [apply fmap_sublist, sublist_take|]. now rewrite Hp.
  - intros w Hw. rewrite <- Hp. eapply elem_of_submseteq; [exact Hw|].
    apply sublist_submseteq, fmap_sublist, sublist_take.
  - rewrite take_length. lia.
Qed.
Definition bank_of (l : list (N * N)) : bank := Bank (list_to_map ((fun p => (p.1, Acct p.2 0 0)) <$> l)) 0.
Lemma bank_of_sound cfg l : Forall (fun p => ec_ed cfg <= p.2) l -> sound_bank cfg (bank_of l).
Proof.
  intros Hf w. unfold acct_of. simpl. destruct (_ !! w) as [a|] eqn:E; [|now right]. left.
  apply elem_of_list_to_map_2 in E. apply elem_of_list_fmap in E as (p & [= -> ->] & Hp).
  rewrite Forall_forall in Hf. now apply Hf.
Qed.
Definition state0 : estate := EState [] [] [] 0 ∅ (Bank ∅ 0) ∅ ∅ ∅ ∅ [] None.

(** Two members, one runner-up, a bond of 10, deposits of 2 and 1 per vote, terms of 5. *)
Definition zc (mc : N) (mv : nat) : ecfg := ECfg 1 10 2 1 2 1 5 mc mv by_stake.
Definition zb : bank := bank_of [(1, 1000); (2, 1000); (3, 1000); (4, 1000); (5, 1000); (6, 1000)].
Definition zgen (mc : N) (mv : nat) (l : list (N * N)) : estate := default state0 (genesis (zc mc mv) zb l).
Definition zid : list eop := (fun w => EIdentity w true) <$> [1; 2; 3; 4].
Definition zsub : list eop := (fun w => ECall (Signed w) (ESubmit 9)) <$> [1; 2; 3; 4].
Definition zvote : list eop := [ECall (Signed 5) (EVote [2; 1] 500); ECall (Signed 6) (EVote [3] 300)].
Definition zpre : estate := erun (zc 9 9) (zgen 9 9 []) (zid ++ zsub ++ zvote).
Definition zpost : estate := erun (zc 9 9) (zgen 9 9 []) (zid ++ zsub ++ zvote ++ [EBlock 5]).
Lemma zreached mc mv l hist : is_Some (genesis (zc mc mv) zb l) -> reached (zc mc mv) (erun (zc mc mv) (zgen mc mv l) hist).
Proof.
  intros [s E]. exists zb, l, s, hist. split; [|split; [done|]].
  - apply bank_of_sound. repeat constructor; vm_compute; discriminate.
  - unfold zgen. now rewrite E.
Qed.
Lemma zpre_reached : reached (zc 9 9) zpre.
Proof. apply zreached. vm_compute. eauto. Qed.
Lemma zpost_reached : reached (zc 9 9) zpost.
Proof. apply zreached. vm_compute. eauto. Qed.

(** * C97: roles *)

(** The members and the candidates are sorted, no account has two roles, and there are
    never more members and runners-up than seats. *)
Theorem C97_roles : forall cfg s, elect_ok cfg -> 0 < ec_ed cfg -> reached cfg s ->
  ascending (member_ids s) /\ ascending (cand_ids s) /\ NoDup (role_ids s) /\
  (length (e_members s) <= ec_members cfg)%nat /\ (length (e_runners s) <= ec_runners cfg)%nat.
Proof.
  intros cfg s H1 H2 H3. destruct (reached_good cfg s H1 H2 H3) as [[] _]. auto.
Qed.
Print Assumptions C97_roles.
Example C97_example : reached (zc 9 9) zpre /\ cand_ids zpre = [1; 2; 3; 4] /\
  member_ids zpost = [1; 2] /\ runner_ids zpost = [3].
Proof. split; [apply zpre_reached|]. vm_compute. auto. Qed.

(** * C98: bonds and deposits *)

(** What is reserved on an account is exactly the vote deposit, the bond, and what other
    pallets reserved. *)
Theorem C98_reserved : forall cfg s w, elect_ok cfg -> 0 < ec_ed cfg -> reached cfg s ->
  rsv (acct_of (e_bank s) w) = others s w + vote_deposit s w + bonds s w.
Proof. intros cfg s w H1 H2 H3. destruct (reached_good cfg s H1 H2 H3) as [_ Hb]. apply (Hb w). Qed.
Print Assumptions C98_reserved.

Lemma hist_standing cfg s0 hist w d : elect_ok cfg -> 0 < ec_ed cfg -> good cfg s0 ->
  (w, d) ∈ standing (erun cfg s0 hist) ->
  (w, d) ∈ standing s0 \/ submitted cfg s0 hist w /\ d = ec_bond cfg.
Proof.
  intros H1 H2 Hg. induction hist as [|op hist IH] using rev_ind; [now left|].
  unfold erun in *. rewrite foldl_app. cbn [foldl]. fold (erun cfg s0 hist) in *. intros Hw.
  pose proof (run_good cfg H1 H2 s0 hist Hg) as Hg'.
  destruct (step_standing cfg H1 H2 _ op w d Hg' Hw) as [Hb|(n & -> & Hi & Hn & -> & Ho)].
  - destruct (IH Hb) as [|[(h1 & n & h2 & -> & K) ->]]; [now left|]. right. split; [|done].
    exists h1, n, (h2 ++ [op]). split; [|done]. now rewrite <- app_assoc.
  - right. split; [|done]. exists hist, n, []. auto.
Qed.
Lemma standing_bond cfg s w : roles cfg s -> w ∈ role_ids s -> (w, bonds s w) ∈ standing s.
Proof.
  intros Hr Hw. rewrite <- standing_ids in Hw. apply elem_of_list_fmap in Hw as ([c d] & -> & Hw). simpl.
  rewrite bonds_standing, (bond_in_at (standing s) c d); auto. rewrite standing_ids. apply Hr.
Qed.
Lemma standing_role s w d : (w, d) ∈ standing s -> w ∈ role_ids s.
Proof. intros H. rewrite <- standing_ids. now apply (elem_of_list_fmap_1 fst) in H. Qed.

(** The bond of whoever stands is the candidacy bond, except that members named at
    genesis have none until they lose their seat; nobody else has a bond. *)
Theorem C98_bonds : forall cfg b l s0 hist w, elect_ok cfg -> 0 < ec_ed cfg -> sound_bank cfg b ->
  genesis cfg b l = Some s0 -> let s := erun cfg s0 hist in
  (w ∉ role_ids s -> bonds s w = 0) /\
  (w ∈ role_ids s -> bonds s w = ec_bond cfg \/ bonds s w = 0 /\ w ∈ fst <$> l) /\
  (w ∈ cand_ids s -> bonds s w = ec_bond cfg).
Proof.
  intros cfg b l s0 hist w H1 H2 Hs Hgen s. pose proof (genesis_good cfg b l s0 Hs Hgen) as Hg0.
  pose proof (run_good cfg H1 H2 s0 hist Hg0) as Hg. fold s in Hg.
  pose proof (genesis_facts cfg b l s0 Hgen) as (_ & Ec & Er & _ & _ & _ & _ & _ & _ & _ & _ & Hz & _ & _ & _ & Hl).
  split; [|split].
  - intros Hw. rewrite bonds_standing. apply bond_in_out. now rewrite standing_ids.
  - intros Hw. pose proof (standing_bond cfg s w (proj1 Hg) Hw) as Hst.
    destruct (hist_standing cfg s0 hist w _ H1 H2 Hg0 Hst) as [Hb|[_ Hb]]; [right|now left].
    unfold standing in Hb. rewrite Ec, Er in Hb. cbn in Hb. rewrite app_nil_r in Hb.
    apply elem_of_list_fmap in Hb as (m & E & Hm). injection E as E1 E2. rewrite Forall_forall in Hz.
    rewrite E2. split; [now apply Hz|]. apply Hl. rewrite E1. unfold member_ids. now apply elem_of_list_fmap_1.
  - subst s. induction hist as [|op hist IH] using rev_ind.
    { unfold cand_ids. simpl. rewrite Ec. intros Hc. now apply elem_of_nil in Hc. }
    pose proof (run_good cfg H1 H2 s0 hist Hg0) as Hg'. specialize (IH Hg').
    unfold erun in *. rewrite foldl_app in *. cbn [foldl] in *. fold (erun cfg s0 hist) in *.
    set (s := erun cfg s0 hist) in *. intros Hc.
    assert (Hw : w ∈ role_ids (eexec cfg s op).1) by (unfold role_ids; apply elem_of_app; now left).
    pose proof (standing_bond cfg _ w (proj1 Hg) Hw) as Hst.
    destruct (step_standing cfg H1 H2 s op w _ Hg' Hst) as [Hb|(n & _ & _ & _ & Hb & _)]; [|done].
    destruct (step_cands cfg H1 H2 s op w Hg' Hc) as [Hk|[n ->]].
    + rewrite <- (IH Hk). rewrite (bonds_standing s). symmetry. apply bond_in_at; [|done].
      rewrite standing_ids. apply Hg'.
    + pose proof (standing_role _ _ _ Hb) as Hin. clear Hst Hw Hb Hg. cbn [eexec] in *.
      destruct (dispatch _ _ _ _) as [[s' ev]|e|] eqn:E; cbn [fst] in *; [|now apply IH|now apply IH].
      simpl in E. apply submit_facts in E as (? & ? & _ & _ & _ & Hno & _); [done|apply Hg'].
Qed.
Print Assumptions C98_bonds.
Example C98_example : rsv (acct_of (e_bank zpre) 1) = 10 /\ bonds zpre 1 = 10 /\
  rsv (acct_of (e_bank zpre) 5) = 4 /\ vote_deposit zpre 5 = 4 /\ bonds zpost 3 = 10 /\ bonds zpost 4 = 0.
Proof. vm_compute. auto 10. Qed.

(** * C99: what an account's own calls can touch *)

(** A signed call leaves every other account's money, votes, locks, bonds and roles as
    they are, except that a runner-up may take the seat that the caller gives up; the
    caller is neither richer nor poorer, counting what is reserved. *)
Theorem C99_own : forall cfg s w c s' ev, elect_ok cfg -> 0 < ec_ed cfg -> reached cfg s ->
  eexec cfg s (ECall (Signed w) c) = (s', EDone ev) ->
  wealth s' w = wealth s w /\
  forall x, x <> w ->
    acct_of (e_bank s') x = acct_of (e_bank s) x /\ e_voting s' !! x = e_voting s !! x /\
    e_own s' !! x = e_own s !! x /\ bonds s' x = bonds s x /\
    (x ∈ cand_ids s' <-> x ∈ cand_ids s) /\ (x ∈ member_ids s -> x ∈ member_ids s') /\
    (x ∈ runner_ids s' -> x ∈ runner_ids s) /\
    (x ∈ runner_ids s -> x ∈ runner_ids s' \/ w ∈ member_ids s /\ x ∈ member_ids s') /\
    (x ∈ member_ids s' -> x ∈ member_ids s \/ w ∈ member_ids s /\ x ∈ runner_ids s).
Proof.
  intros cfg s w c s' ev H1 H2 H3 H. pose proof (reached_good cfg s H1 H2 H3) as Hg. cbn [eexec] in H.
  destruct (dispatch _ _ _ _) as [[s1 ev1]|e|] eqn:E; try discriminate. injection H as <- <-.
  pose proof (signed_solo cfg H2 _ _ _ _ _ E Hg) as So. split; [apply So|]. intros x Hx.
  split; [now apply So|]. split; [now apply So|]. split; [now apply So|]. split; [now apply So|].
  split; [now apply So|]. split; [now apply So|]. split; [now apply So|]. split; [now apply So|]. now apply So.
Qed.
Print Assumptions C99_own.
Example C99_example : let r := eexec (zc 9 9) zpost (ECall (Signed 1) ERenounceMember) in
  r.2 = EDone [EChange [3] [1] [2; 3]; ERenounced 1] /\
  wealth r.1 1 = 1000 /\ member_ids r.1 = [2; 3] /\ runner_ids r.1 = [].
Proof. vm_compute. auto. Qed.

(** * C100: renouncing *)

(** Whoever stands can renounce, and gets exactly the bond back. *)
Theorem C100_refund : forall cfg s w c s' ev, elect_ok cfg -> 0 < ec_ed cfg -> reached cfg s ->
  c = ERenounceMember \/ c = ERenounceRunner \/ (exists n, c = ERenounceCandidate n) ->
  eexec cfg s (ECall (Signed w) c) = (s', EDone ev) ->
  w ∈ role_ids s /\ w ∉ role_ids s' /\ bonds s' w = 0 /\
  free (acct_of (e_bank s') w) = free (acct_of (e_bank s) w) + bonds s w /\
  rsv (acct_of (e_bank s') w) + bonds s w = rsv (acct_of (e_bank s) w).
Proof.
  intros cfg s w c s' ev H1 H2 H3 Hc H. pose proof (reached_good cfg s H1 H2 H3) as Hg. cbn [eexec] in H.
  destruct (dispatch _ _ _ _) as [[s1 ev1]|e|] eqn:E; try discriminate. injection H as <- <-.
  destruct (leave_view cfg H2 s w w c s1 ev1 Hg Hc E eq_refl) as (K1 & K2 & K3 & ->).
  repeat (split; [done|]). simpl. pose proof (C98_reserved cfg s w H1 H2 H3). lia.
Qed.
Print Assumptions C100_refund.
Theorem C100_possible : forall cfg s w, elect_ok cfg -> 0 < ec_ed cfg -> reached cfg s ->
  (w ∈ member_ids s -> exists ev, (eexec cfg s (ECall (Signed w) ERenounceMember)).2 = EDone ev) /\
  (w ∈ runner_ids s -> exists ev, (eexec cfg s (ECall (Signed w) ERenounceRunner)).2 = EDone ev) /\
  (w ∈ cand_ids s -> forall n, N.of_nat (length (e_cands s)) <= n ->
     exists ev, (eexec cfg s (ECall (Signed w) (ERenounceCandidate n))).2 = EDone ev).
Proof.
  intros cfg s w H1 H2 H3. pose proof (reached_good cfg s H1 H2 H3) as Hg. cbn. split; [|split].
  - intros Hw. destruct (renounce_member_ok cfg s w Hg Hw) as [[s' ev] ->]. eauto.
  - intros Hw. destruct (renounce_runner_ok cfg s w Hw) as [[s' ev] ->]. eauto.
  - intros Hw n Hn. destruct (renounce_candidate_ok cfg H2 s w n Hg Hw Hn) as [[s' ev] ->]. eauto.
Qed.
Print Assumptions C100_possible.
Example C100_example : let r := eexec (zc 9 9) zpre (ECall (Signed 4) (ERenounceCandidate 4)) in
  r.2 = EDone [ERenounced 4] /\ free (acct_of (e_bank zpre) 4) = 990 /\
  free (acct_of (e_bank r.1) 4) = 1000 /\ cand_ids r.1 = [1; 2; 3].
Proof. vm_compute. auto. Qed.

(** * C101: what an election costs *)

Lemma block_election cfg s n s' ev : eexec cfg s (EBlock n) = (s', EDone ev) ->
  (ec_term cfg = 0 \/ n mod ec_term cfg <> 0) /\ s' = s /\ ev = [] \/
  ec_term cfg <> 0 /\ n mod ec_term cfg = 0 /\ do_phragmen cfg s = (s', ev).
Proof.
  cbn [eexec]. unfold on_initialize. destruct (N.eqb_spec (ec_term cfg) 0) as [H0|H0]; cbn [negb andb].
  { intros [= <- <-]. left. auto. }
  destruct (N.eqb_spec (n mod ec_term cfg) 0) as [Hm|Hm].
  - destruct (do_phragmen cfg s) as [s1 ev1]. intros [= <- <-]. right. auto.
  - intros [= <- <-]. left. auto.
Qed.
Lemma block_term cfg s n s' ev l : elect_ok cfg -> good cfg s -> eexec cfg s (EBlock n) = (s', EDone ev) ->
  ENewTerm l ∈ ev -> exists ws,
    ec_elect cfg (ec_runners cfg + ec_members cfg) (role_ids s) (ballot_list s) = Some ws /\
    NoDup (fst <$> ws) /\ (forall w, w ∈ fst <$> ws -> w ∈ role_ids s) /\ install cfg s ws = (s', ev).
Proof.
  intros H1 [Hr Hb] H Hl. apply block_election in H as [(_ & _ & ->)|(_ & _ & H)]; [now apply elem_of_nil in Hl|].
  apply (phragmen_spec cfg H1) in H as [(_ & _ & ->)|[(_ & _ & _ & ->)|(_ & _ & ws & E & K1 & K2 & K3)]]; auto.
  - apply elem_of_list_singleton in Hl. discriminate.
  - apply elem_of_list_singleton in Hl. discriminate.
  - eauto 6.
Qed.

(** After an election everybody who holds a seat stood before, and their bond and account
    are untouched; everybody else loses the bond, which the events report, and nothing
    more; no candidates are left. *)
Theorem C101_outcome : forall cfg s n s' ev l, elect_ok cfg -> 0 < ec_ed cfg -> reached cfg s ->
  eexec cfg s (EBlock n) = (s', EDone ev) -> ENewTerm l ∈ ev ->
  e_cands s' = [] /\ forall w,
  (w ∈ seat_ids s' -> w ∈ role_ids s /\ acct_of (e_bank s') w = acct_of (e_bank s) w /\ bonds s' w = bonds s w) /\
  (w ∉ seat_ids s' -> bonds s' w = 0 /\ free (acct_of (e_bank s') w) = free (acct_of (e_bank s) w) /\
     rsv (acct_of (e_bank s') w) + bonds s w = rsv (acct_of (e_bank s) w) /\
     frz (acct_of (e_bank s') w) = frz (acct_of (e_bank s) w)) /\
  (forall d, ECandSlashed w d ∈ ev <-> w ∈ role_ids s /\ w ∉ seat_ids s' /\ d = bonds s w).
Proof.
  intros cfg s n s' ev l H1 H2 H3 H Hl. pose proof (reached_good cfg s H1 H2 H3) as Hg.
  destruct (block_term cfg s n s' ev l H1 Hg H Hl) as (ws & E & K1 & K2 & K3). destruct Hg as [Hr Hb].
  destruct (install_facts cfg s ws s' ev K3 Hr Hb K1 K2) as (Ec & _). split; [done|]. intros w.
  destruct (install_account cfg s ws s' ev K3 Hr Hb K1 K2 w) as (A1 & A2 & A3). split; [done|]. split; [|done].
  intros Hw. destruct (A2 Hw) as [-> ->]. simpl. pose proof (C98_reserved cfg s w H1 H2 H3). repeat split; lia.
Qed.
Print Assumptions C101_outcome.
(** An election that does not take place changes nothing. *)
Theorem C101_nothing : forall cfg s n s' ev, elect_ok cfg -> 0 < ec_ed cfg -> reached cfg s ->
  eexec cfg s (EBlock n) = (s', EDone ev) -> (forall l, ENewTerm l ∉ ev) -> s' = s.
Proof.
  intros cfg s n s' ev H1 H2 H3 H Hl. pose proof (reached_good cfg s H1 H2 H3) as [Hr Hb].
  apply block_election in H as [(_ & -> & _)|(_ & _ & H)]; [done|].
  apply (phragmen_spec cfg H1) in H as [(_ & -> & _)|[(_ & _ & -> & _)|(_ & _ & ws & E & K1 & K2 & K3)]]; auto.
  exfalso. destruct (install_facts cfg s ws s' ev K3 Hr Hb K1 K2) as (_ & _ & _ & _ & _ & _ & _ & _ & _ & _ & _ & _ & _ & He).
  eapply Hl. rewrite He, elem_of_cons, elem_of_app. right. right. now left.
Qed.
Print Assumptions C101_nothing.
Example C101_example : let r := eexec (zc 9 9) zpre (EBlock 5) in
  r.2 = EDone [EChange [1; 2] [] [1; 2]; ECandSlashed 4 10; ENewTerm [(1, 500); (2, 500)]] /\
  wealth r.1 4 = 990 /\ wealth r.1 1 = 1000 /\ free (acct_of (e_bank r.1) 1) = 990.
Proof. vm_compute. auto. Qed.

(** * C102: who is elected and who moves up *)

(** The members are the first winners that have any backing, the runners-up the following
    ones from worst to best, and their recorded stake is the backing scaled back to the
    currency; the council is told. *)
Theorem C102_ranking : forall cfg s n s' ev l, elect_ok cfg -> 0 < ec_ed cfg -> reached cfg s ->
  eexec cfg s (EBlock n) = (s', EDone ev) -> ENewTerm l ∈ ev ->
  exists ws, ec_elect cfg (ec_runners cfg + ec_members cfg) (role_ids s) (ballot_list s) = Some ws /\
    let won := filter (fun p => p.2 <> 0) ws in
    member_ids s' ≡ₚ fst <$> take (ec_members cfg) won /\
    reverse (runner_ids s') = fst <$> drop (ec_members cfg) won /\
    (forall m, m ∈ e_members s' ++ e_runners s' ->
       exists b, (s_who m, b) ∈ won /\ s_stake m = N.min (b * scale s) (2 ^ 128 - 1)) /\
    l = (fun m => (s_who m, s_stake m)) <$> e_members s' /\ e_council s' = member_ids s'.
Proof.
  intros cfg s n s' ev l H1 H2 H3 H Hl. pose proof (reached_good cfg s H1 H2 H3) as Hg.
  destruct (block_term cfg s n s' ev l H1 Hg H Hl) as (ws & E & K1 & K2 & K3). destruct Hg as [Hr Hb].
  exists ws. split; [done|]. destruct (install_term cfg s ws s' ev K3 Hr Hb K1 K2) as (A1 & A2 & A3 & _ & A5).
  split; [done|]. split; [done|]. split; [done|]. split; [|done].
  destruct (install_facts cfg s ws s' ev K3 Hr Hb K1 K2) as (_ & Em & _ & _ & _ & _ & _ & _ & _ & _ & _ & _ & _ & He).
  rewrite He, elem_of_cons, elem_of_app, elem_of_list_singleton in Hl. destruct Hl as [Hl|[Hl|Hl]]; [discriminate| |].
  - apply elem_of_list_fmap in Hl as (p & Hl & _). discriminate.
  - injection Hl as ->. rewrite Em, <- list_fmap_compose. rewrite <- (list_fmap_id (ksort fst _)) at 1.
    apply list_fmap_ext. now intros _ [x y] _.
Qed.
Print Assumptions C102_ranking.
(** A member who leaves is replaced by the best runner-up, that is, the one that the
    election placed right behind the members. *)
Theorem C102_replaced : forall cfg s op w s' ev, elect_ok cfg -> 0 < ec_ed cfg -> reached cfg s ->
  op = ECall (Signed w) ERenounceMember \/ (exists sl, op = ECall Root (ERemoveMember w sl false)) ->
  eexec cfg s op = (s', EDone ev) ->
  w ∈ member_ids s /\ cand_ids s' = cand_ids s /\
  match reverse (runner_ids s) with
  | [] => w :: member_ids s' ≡ₚ member_ids s /\ runner_ids s' = []
  | r :: rs => w :: member_ids s' ≡ₚ r :: member_ids s /\ reverse (runner_ids s') = rs
  end.
Proof.
  intros cfg s op w s' ev H1 H2 H3 Hop H. pose proof (reached_good cfg s H1 H2 H3) as Hg.
  assert (exists sl ev' rep, remove_and_replace cfg s w sl = ROk (s', ev', rep)) as (sl & ev' & rep & E).
  { destruct Hop as [->|[sl ->]]; cbn in H.
    - unfold renounce_member in H. destruct (remove_and_replace _ _ _ _) as [[[s1 ev1] rep]|?|] eqn:E; try discriminate.
      injection H as <- _. eauto.
    - unfold remove_member, rbind in H. destruct (remove_and_replace _ _ _ _) as [[[s1 ev1] rep]|?|] eqn:E; try discriminate.
      injection H as <- _. eauto. }
  pose proof (remove_view cfg H2 _ _ _ _ _ _ E Hg) as (V1 & _ & _ & _ & _ & _ & _ & _ & _ & _ & _ & Vc & V & _).
  split; [done|]. split; [done|]. destruct (last (e_runners s)) as [r|] eqn:El.
  - destruct V as [V3 V4]. rewrite V4, reverse_app. cbn. now rewrite V3.
  - apply last_None in El. unfold runner_ids at 1. rewrite El. exact V.
Qed.
Print Assumptions C102_replaced.
Example C102_example : let s' := (eexec (zc 9 9) zpost (ECall Root (ERemoveMember 2 true false))).1 in
  member_ids s' = [1; 3] /\ runner_ids s' = [] /\ wealth s' 2 = 990 /\
  s_stake <$> e_members zpost = [500; 500] /\ s_stake <$> e_runners zpost = [300].
Proof. vm_compute. auto. Qed.

(** * C103: the prime *)

(** After an election the prime is the new member with the highest Borda count. *)
Theorem C103_borda : forall cfg s n s' ev l, elect_ok cfg -> 0 < ec_ed cfg -> reached cfg s ->
  eexec cfg s (EBlock n) = (s', EDone ev) -> ENewTerm l ∈ ev ->
  match e_prime s' with
  | Some p => best_of (score s) (member_ids s') p
  | None => member_ids s' = []
  end.
Proof.
  intros cfg s n s' ev l H1 H2 H3 H Hl. pose proof (reached_good cfg s H1 H2 H3) as Hg.
  destruct (block_term cfg s n s' ev l H1 Hg H Hl) as (ws & E & K1 & K2 & K3). destruct Hg as [Hr Hb].
  destruct (install_facts cfg s ws s' ev K3 Hr Hb K1 K2) as (_ & _ & _ & _ & _ & _ & _ & _ & _ & Ec & Ep & _).
  destruct (install_term cfg s ws s' ev K3 Hr Hb K1 K2) as (_ & _ & _ & _ & A5). rewrite <- A5, Ec, Ep.
  pose proof (prime_spec s (ksort fst (take (ec_members cfg) (ranked s ws)))) as P.
  destruct (pick_prime _).
  - apply P. apply ksort_asc. eapply sublist_NoDup; [apply fmap_sublist, sublist_take|].
    eapply sublist_NoDup; [apply ranked_sub|done].
  - rewrite P; [done|]. apply ksort_asc. eapply sublist_NoDup; [apply fmap_sublist, sublist_take|].
    eapply sublist_NoDup; [apply ranked_sub|done].
Qed.
Print Assumptions C103_borda.
Lemma hist_council cfg b l s0 hist : elect_ok cfg -> 0 < ec_ed cfg -> sound_bank cfg b -> genesis cfg b l = Some s0 ->
  prime_in (erun cfg s0 hist) /\
  (told (erun cfg s0 hist) \/ e_council (erun cfg s0 hist) = [] /\ member_ids (erun cfg s0 hist) = member_ids s0 /\
     forall out e, out ∈ outputs cfg s0 hist -> e ∈ events out -> is_change e = false).
Proof.
  intros H1 H2 Hs Hgen. pose proof (genesis_good cfg b l s0 Hs Hgen) as Hg0.
  pose proof (genesis_facts cfg b l s0 Hgen) as (_ & _ & _ & Ec & Ep & _).
  assert (Hout : forall k t, outputs cfg t (k ++ []) = outputs cfg t k) by (intros; now rewrite app_nil_r).
  assert (Hsn : forall k op t, outputs cfg t (k ++ [op]) = outputs cfg t k ++ [(eexec cfg (erun cfg t k) op).2]).
  { intros k op. induction k as [|o k IH]; intros t; [done|]. cbn [outputs app]. rewrite IH. done. }
  induction hist as [|op hist IH] using rev_ind.
  - split.
    + intros p E. simpl in E. congruence.
    + right. split; [done|]. split; [done|]. intros out e Ho. now apply elem_of_nil in Ho.
  - destruct IH as [IH1 IH2]. pose proof (run_good cfg H1 H2 s0 hist Hg0) as Hg.
    unfold erun in *. rewrite foldl_app. cbn [foldl]. fold (erun cfg s0 hist) in *. set (s := erun cfg s0 hist) in *.
    destruct (step_council cfg H1 H2 s op Hg) as [(U1 & U2 & U3 & U4)|(U1 & U2 & U3)].
    + split.
      * intros p E. rewrite U4 in E. destruct (IH1 p E) as [P1 P2]. unfold told in *. split; congruence.
      * destruct IH2 as [P|(P1 & P2 & P3)]; [left; unfold told in *; congruence|right].
        split; [congruence|]. split; [congruence|]. intros out e. rewrite Hsn, elem_of_app, elem_of_list_singleton.
        intros [Ho| ->] He; [eauto|]. destruct (is_change e) eqn:Ee; [|done]. exfalso.
        assert (Hin : e ∈ List.filter is_change (events (eexec cfg s op).2)).
        { apply elem_of_list_In, filter_In. split; [now apply elem_of_list_In|done]. }
        fold (erun cfg s0 hist) in Hin. rewrite U1 in Hin. now apply elem_of_nil in Hin.
    + split; [auto|now left].
Qed.
(** The prime is always a council member. *)
Theorem C103_member : forall cfg s p, elect_ok cfg -> 0 < ec_ed cfg -> reached cfg s ->
  e_prime s = Some p -> p ∈ e_council s /\ p ∈ member_ids s.
Proof.
  intros cfg s p H1 H2 (b & l & s0 & hist & Hs & Hgen & ->) Hp.
  destruct (hist_council cfg b l s0 hist H1 H2 Hs Hgen) as [P _]. destruct (P p Hp) as [K1 K2]. split; [done|].
  unfold told in K2. now rewrite <- K2.
Qed.
Print Assumptions C103_member.
(** Between elections the prime stays as long as they are a member. *)
Theorem C103_kept : forall cfg s op s' ev p, elect_ok cfg -> 0 < ec_ed cfg -> reached cfg s ->
  eexec cfg s op = (s', EDone ev) -> (forall l, ENewTerm l ∉ ev) -> e_prime s = Some p ->
  e_prime s' = (if bool_decide (p ∈ member_ids s') then Some p else None).
Proof.
  intros cfg s op s' ev p H1 H2 H3 H Hl Hp.
  pose proof (reached_good cfg s H1 H2 H3) as Hg.
  destruct (C103_member cfg s p H1 H2 H3 Hp) as [_ Hin].
  pose proof (reached_step cfg s op H3) as Hr'. rewrite H in Hr'. cbn [fst] in Hr'.
  assert (Hrem : forall w sl s1 ev1 rep, remove_and_replace cfg s w sl = ROk (s1, ev1, rep) ->
    e_prime s1 = (if bool_decide (p ∈ member_ids s1) then Some p else None)).
  { intros w sl s1 ev1 rep E.
    pose proof (remove_view cfg H2 _ _ _ _ _ _ E Hg) as (V1 & V2 & _ & _ & _ & _ & _ & _ & _ & _ & _ & _ & V & _ & Vp & _).
    rewrite Vp, Hp. destruct (N.eqb_spec p w) as [->|Hn].
    - rewrite bool_decide_false; [done|]. intros Hc. apply V2. unfold role_ids. rewrite !elem_of_app. auto.
    - rewrite bool_decide_true; [done|].
      destruct (last (e_runners s)) as [r|]; destruct V as [V _].
      + assert (Hx : p ∈ s_who r :: member_ids s) by now right.
        rewrite <- V in Hx. apply elem_of_cons in Hx as [|]; [congruence|done].
      + rewrite <- V in Hin. apply elem_of_cons in Hin as [|]; [congruence|done]. }
  assert (Hph : forall t t' evp, do_phragmen cfg t = (t', evp) -> good cfg t -> (forall l, ENewTerm l ∉ evp) -> t' = t).
  { intros t t' evp E [Hr Hb] Hno.
    apply (phragmen_spec cfg H1) in E as [(_ & -> & _)|[(_ & _ & -> & _)|(_ & _ & ws & _ & K1 & K2 & K3)]]; auto.
    exfalso. destruct (install_facts cfg t ws t' evp K3 Hr Hb K1 K2) as (_ & _ & _ & _ & _ & _ & _ & _ & _ & _ & _ & _ & _ & He).
    eapply Hno. rewrite He, elem_of_cons, elem_of_app. right. right. now left. }
  destruct (step_council cfg H1 H2 s op Hg) as [(U1 & U2 & U3 & U4)|(U1 & _)]; rewrite H in *; cbn [fst snd events] in *.
  { rewrite U4, Hp, bool_decide_true; [done|congruence]. }
  destruct op as [o c|n|y has|y v|y v|y v|y v|y v|y v]; cbn [eexec] in H;
    try (injection H as <- <-; now destruct U1).
  - destruct (dispatch cfg s o c) as [[s1 ev1]|e|] eqn:E; try discriminate. injection H as <- <-.
    destruct c; simpl in E; unfold rbind in E; try destruct o as [|w|]; try discriminate; cbn [signed root] in E.
    + exfalso. apply vote_facts in E as (b & f & f0 & r & z & E); auto; [|apply Hg]. decompose [and] E. subst ev1. now apply U1.
    + exfalso. unfold remove_voter, ensure in E. destruct (is_voter s w); [|discriminate]. injection E as <- <-. now apply U1.
    + exfalso. apply submit_facts in E as (b & i & _ & _ & _ & _ & _ & -> & _); [now apply U1|apply Hg].
    + unfold renounce_member in E. destruct (remove_and_replace _ _ _ _) as [[[s2 ev2] rep]|?|] eqn:E1; try discriminate.
      injection E as <- _. eauto.
    + exfalso. apply runner_facts in E as (i & r & _ & _ & -> & _). now apply U1.
    + exfalso. apply cand_facts in E as (i & r & _ & -> & _). now apply U1.
    + unfold remove_member, rbind in E.
      destruct (remove_and_replace _ _ _ _) as [[[s2 ev2] rep]|?|] eqn:E1; try discriminate.
      destruct rerun; [|injection E as <- _; eauto].
      destruct (do_phragmen cfg s2) as [s3 ev3] eqn:E3. injection E as <- <-.
      rewrite (Hph s2 s3 ev3 E3); [eauto| |].
      * split; eapply remove_good; eauto; apply Hg.
      * intros l Hx. apply (Hl l). apply elem_of_app. right. now right.
    + exfalso. injection E as <- <-. now apply U1.
  - unfold on_initialize in H. destruct (_ && _); [|injection H as <- <-; now destruct U1].
    destruct (do_phragmen cfg s) as [s1 ev1] eqn:E. injection H as <- <-.
    rewrite (Hph s s1 ev1 E Hg Hl). rewrite Hp, bool_decide_true; done.
Qed.
Print Assumptions C103_kept.
Example C103_example : e_prime zpost = Some 2 /\ score zpre 2 = 8000 /\ score zpre 1 = 7500 /\
  e_prime (eexec (zc 9 9) zpost (ECall (Signed 1) ERenounceMember)).1 = Some 2 /\
  e_prime (eexec (zc 9 9) zpost (ECall (Signed 2) ERenounceMember)).1 = None.
Proof. vm_compute. auto. Qed.

(** * C104: the council *)

(** Missing: the council is not told of the members named at genesis, see [C104_refuted].
    From the first change on, and always if genesis names nobody, the council is the
    elected members. *)
Theorem C104_partial : forall cfg b l s0 hist, elect_ok cfg -> 0 < ec_ed cfg -> sound_bank cfg b ->
  genesis cfg b l = Some s0 ->
  l = [] \/ (exists out e, out ∈ outputs cfg s0 hist /\ e ∈ events out /\ is_change e = true) ->
  e_council (erun cfg s0 hist) = member_ids (erun cfg s0 hist).
Proof.
  intros cfg b l s0 hist H1 H2 Hs Hgen Hor.
  destruct (hist_council cfg b l s0 hist H1 H2 Hs Hgen) as [_ [P|(P1 & P2 & P3)]]; [done|].
  destruct Hor as [->|(out & e & Ho & He & Hc)].
  - rewrite P1, P2. pose proof (genesis_facts cfg b [] s0 Hgen) as (_ & _ & _ & _ & _ & _ & _ & _ & _ & _ & _ & _ & _ & Hl & _).
    unfold member_ids. destruct (e_members s0); [done|discriminate].
  - rewrite (P3 out e Ho He) in Hc. discriminate.
Qed.
Print Assumptions C104_partial.
(** What the council is told is right: the new list, who came and who went. *)
Theorem C104_change : forall cfg s op s' ev i o k, elect_ok cfg -> 0 < ec_ed cfg -> reached cfg s ->
  (forall w sl, op <> ECall Root (ERemoveMember w sl true)) ->
  eexec cfg s op = (s', EDone ev) -> EChange i o k ∈ ev ->
  k = member_ids s' /\ (forall x, x ∈ i <-> x ∈ member_ids s' /\ x ∉ member_ids s) /\
  (forall x, x ∈ o <-> x ∈ member_ids s /\ x ∉ member_ids s').
Proof.
  intros cfg s op s' ev i o k H1 H2 H3 Hno H Hin. pose proof (reached_good cfg s H1 H2 H3) as Hg.
  assert (Hrem : forall w sl s1 ev1 rep evx, remove_and_replace cfg s w sl = ROk (s1, ev1, rep) ->
    EChange i o k ∈ ev1 ++ [evx] -> (forall a b c, evx <> EChange a b c) ->
    k = member_ids s1 /\ (forall x, x ∈ i <-> x ∈ member_ids s1 /\ x ∉ member_ids s) /\
    (forall x, x ∈ o <-> x ∈ member_ids s /\ x ∉ member_ids s1)).
  { intros w sl s1 ev1 rep evx E Hi Hx.
    pose proof (remove_view cfg H2 _ _ _ _ _ _ E Hg) as (V1 & V2 & _ & _ & _ & _ & _ & _ & _ & _ & _ & _ & V & _ & _ & He & _).
    assert (Hi' : EChange i o k = EChange (match last (e_runners s) with Some r => [s_who r] | None => [] end) [w] (member_ids s1)).
    { rewrite He in Hi. rewrite !elem_of_app in Hi. destruct Hi as [[Hi|Hi]|Hi].
      - destruct sl; [|now apply elem_of_nil in Hi]. apply elem_of_list_singleton in Hi. discriminate.
      - now apply elem_of_list_singleton in Hi.
      - apply elem_of_list_singleton in Hi. symmetry in Hi. now apply Hx in Hi. }
    injection Hi' as -> -> ->. split; [done|].
    assert (Hw1 : w ∉ member_ids s1) by (intros Hc; apply V2; unfold role_ids; rewrite !elem_of_app; auto).
    pose proof (r_nodup _ _ (proj1 Hg)) as Hnd.
    destruct (last (e_runners s)) as [r|] eqn:El; destruct V as [V V'].
    - assert (Hr1 : s_who r ∉ member_ids s).
      { intros Hc. unfold role_ids in Hnd. apply NoDup_app in Hnd as (_ & _ & Hnd). apply NoDup_app in Hnd as (_ & Hnd & _).
        apply (Hnd _ Hc). rewrite V'. apply elem_of_app. right. now left. }
      assert (Hmem : forall x, x = w \/ x ∈ member_ids s1 <-> x = s_who r \/ x ∈ member_ids s).
      { intros x. rewrite <- !elem_of_cons. now rewrite V. }
      split; intros x; rewrite elem_of_list_singleton; specialize (Hmem x); split.
      + intros ->. split; [|done]. destruct Hmem as [_ [Hm|Hm]]; [now left| |done].
        exfalso. apply Hr1. now rewrite Hm.
      + intros [Hx1 Hx2]. destruct Hmem as [[Hm|Hm] _]; [now right|done|done].
      + intros ->. done.
      + intros [Hx1 Hx2]. destruct Hmem as [_ [Hm|Hm]]; [now right|done|done].
    - assert (Hmem : forall x, x = w \/ x ∈ member_ids s1 <-> x ∈ member_ids s).
      { intros x. rewrite <- elem_of_cons. now rewrite V. }
      split; intros x; specialize (Hmem x).
      + rewrite elem_of_nil. split; [done|]. intros [Hx1 Hx2]. apply Hx2, Hmem. now right.
      + rewrite elem_of_list_singleton. split; [intros ->; done|]. intros [Hx1 Hx2]. apply Hmem in Hx1 as [|]; done. }
  assert (Hph : do_phragmen cfg s = (s', ev) ->
    k = member_ids s' /\ (forall x, x ∈ i <-> x ∈ member_ids s' /\ x ∉ member_ids s) /\
    (forall x, x ∈ o <-> x ∈ member_ids s /\ x ∉ member_ids s')).
  { intros E. destruct Hg as [Hr Hb].
    apply (phragmen_spec cfg H1) in E as [(_ & _ & ->)|[(_ & _ & _ & ->)|(_ & _ & ws & _ & K1 & K2 & K3)]]; auto.
    - apply elem_of_list_singleton in Hin. discriminate.
    - apply elem_of_list_singleton in Hin. discriminate.
    - destruct (install_facts cfg s ws s' ev K3 Hr Hb K1 K2) as (_ & _ & _ & _ & _ & _ & _ & _ & _ & _ & _ & _ & _ & He).
      destruct (install_term cfg s ws s' ev K3 Hr Hb K1 K2) as (_ & _ & _ & _ & A5).
      rewrite He, elem_of_cons, elem_of_app, elem_of_list_singleton in Hin. destruct Hin as [Hin|[Hin|Hin]].
      + injection Hin as -> -> ->. rewrite A5. split; [done|]. unfold diff.
        split; intros x; rewrite elem_of_list_filter; tauto.
      + apply elem_of_list_fmap in Hin as (p & Hin & _). discriminate.
      + discriminate. }
  destruct op as [og c|n|y has|y v|y v|y v|y v|y v|y v]; cbn [eexec] in H;
    try (injection H as <- <-; now apply elem_of_nil in Hin).
  - destruct (dispatch cfg s og c) as [[s1 ev1]|e|] eqn:E; try discriminate. injection H as <- <-.
    destruct c; simpl in E; unfold rbind in E; try destruct og as [|w|]; try discriminate; cbn [signed root] in E.
    + exfalso. apply vote_facts in E as (b & f & f0 & r & z & E); auto; [|apply Hg]. decompose [and] E. subst ev1. now apply elem_of_nil in Hin.
    + exfalso. unfold remove_voter, ensure in E. destruct (is_voter s w); [|discriminate]. injection E as <- <-. now apply elem_of_nil in Hin.
    + exfalso. apply submit_facts in E as (b & j & _ & _ & _ & _ & _ & -> & _); [now apply elem_of_nil in Hin|apply Hg].
    + unfold renounce_member in E. destruct (remove_and_replace _ _ _ _) as [[[s2 ev2] rep]|?|] eqn:E1; try discriminate.
      injection E as <- <-. eapply Hrem; eauto; discriminate.
    + exfalso. apply runner_facts in E as (j & r & _ & _ & -> & _). apply elem_of_list_singleton in Hin. discriminate.
    + exfalso. apply cand_facts in E as (j & r & _ & -> & _). apply elem_of_list_singleton in Hin. discriminate.
    + unfold remove_member, rbind in E.
      destruct (remove_and_replace _ _ _ _) as [[[s2 ev2] rep]|?|] eqn:E1; try discriminate.
      destruct rerun; [now destruct (Hno who slash)|]. injection E as <- <-. eapply Hrem; eauto; discriminate.
    + exfalso. injection E as <- <-. now apply elem_of_nil in Hin.
  - unfold on_initialize in H. destruct (_ && _); [|injection H as <- <-; now apply elem_of_nil in Hin].
    destruct (do_phragmen cfg s) as [s1 ev1] eqn:E. injection H as <- <-. auto.
Qed.
Print Assumptions C104_change.
Example C104_example : e_council zpost = [1; 2] /\
  (eexec (zc 9 9) zpost (ECall (Signed 1) ERenounceMember)).2 = EDone [EChange [3] [1] [2; 3]; ERenounced 1].
Proof. vm_compute. auto. Qed.
Theorem C104_refuted : exists cfg s, elect_ok cfg /\ 0 < ec_ed cfg /\ reached cfg s /\
  member_ids s = [1; 2] /\ e_council s = [].
Proof.
  exists (zc 9 9), (erun (zc 9 9) (zgen 9 9 [(1, 100); (2, 50)]) []). split; [apply by_stake_ok|]. split; [reflexivity|].
  split; [apply zreached; vm_compute; eauto|]. vm_compute. auto.
Qed.
Print Assumptions C104_refuted.
