(** Histories: offers, teams, and which collections bring credit or ADSC. *)
From Verif Require Import Base Balances Model_UserPrivileges.
From Verif Require Model_Credit Model_Adsc Proofs_Adsc Proofs_Adsc3 Proofs_Adsc4 Proofs_Chain1 Proofs_Chain2 Proofs_Operation3 Proofs_Nfts0.
From Verif Require Import Model_Chain Model_World Spec_World Spec_World2 Proofs_World5 Model_Nfts Spec_Nfts Proofs_Nfts1 Proofs_Nfts2.
From stdpp Require Import gmap.
Open Scope N_scope.

Section histories.
  Context (cfg : wcfg).

  Lemma nrun_app h1 : forall n h2, nrun cfg n (h1 ++ h2) = nrun cfg (nrun cfg n h1) h2.
  Proof. induction h1 as [|op h1 IH]; intros n h2; [reflexivity|]. cbn. apply IH. Qed.
  Lemma nrun_snoc n h op : nrun cfg n (h ++ [op]) = (nstep cfg (nrun cfg n h) op).1.
  Proof. now rewrite nrun_app. Qed.

  (** * Offers *)
  Lemma step_price n op n' r k q : nstep cfg n op = (n', r) -> n_price n' !! k = Some q ->
    (exists w, op.2 = NUniq (Signed w) (NPrice k.1 k.2 (Some q)) /\ holder n k = Some w) \/ n_price n !! k = Some q.
  Proof.
    destruct op as [x [o c|a]]; unfold nstep; cbn [fst snd].
    2: { unfold nworld. destruct (negb _); [intros [= <- <-]; auto|].
         destruct (wstep cfg (handed n) (x, a)) as [w' [ev| |]]; [|intros [= <- <-]; auto..].
         intros [= <- <-] H. cbn in H. apply map_filter_lookup_Some in H as [H _]. auto. }
    destruct (nexec cfg x n o c) as [n1|] eqn:E; [|intros [= <- <-]; auto]. intros [= <- <-] H.
    assert (D : forall k', delete k' (n_price n) !! k = Some q -> n_price n !! k = Some q).
    { intros k' G. now apply lookup_delete_Some in G as [_ G]. }
    destruct c; cbn [nexec] in E;
      repeat match type of E with
      | match ?b with _ => _ end = Some _ => destruct b eqn:?; try discriminate
      end; injection E as <-; cbn in H; try (right; exact H); try (right; eapply D; exact H).
    - right. now apply map_filter_lookup_Some in H as [H _].
    - destruct (decide (k = (class, item))) as [->|Hn].
      + rewrite lookup_partial_alter in H. subst p. left. exists who. split; [done|]. cbn [fst snd]. unfold holder.
        match goal with B : (_ =? _) = true |- _ => apply N.eqb_eq in B as -> end. assumption.
      + rewrite lookup_partial_alter_ne in H by congruence. now right.
  Qed.
  Lemma step_approved n op n' r k d : nstep cfg n op = (n', r) -> n_approved n' !! k = Some d ->
    (exists w o, op.2 = NUniq o (NApprove k.1 k.2 d) /\ holder n k = Some w /\
       (o = Root \/ exists b, o = Signed b /\ (b = w \/ admin_of n k.1 = Some b))) \/ n_approved n !! k = Some d.
  Proof.
    destruct op as [x [o c|a]]; unfold nstep; cbn [fst snd].
    2: { unfold nworld. destruct (negb _); [intros [= <- <-]; auto|].
         destruct (wstep cfg (handed n) (x, a)) as [w' [ev| |]]; [|intros [= <- <-]; auto..].
         intros [= <- <-] H. cbn in H. apply map_filter_lookup_Some in H as [H _]. auto. }
    destruct (nexec cfg x n o c) as [n1|] eqn:E; [|intros [= <- <-]; auto]. intros [= <- <-] H.
    assert (D : forall k', delete k' (n_approved n) !! k = Some d -> n_approved n !! k = Some d).
    { intros k' G. now apply lookup_delete_Some in G as [_ G]. }
    destruct c; cbn [nexec] in E.
    6: { destruct (n_items n !! (class, item)) as [w|] eqn:Ew; [|discriminate].
         destruct (decide (k = (class, item))) as [->|Hn].
         - destruct (match o with Root => _ | _ => _ end) eqn:Ho; [|discriminate]. injection E as <-. cbn in H. rewrite lookup_insert in H. injection H as <-.
           left. exists w, o. split; [done|]. split; [exact Ew|]. destruct o as [|b|]; [now left|right|discriminate]. exists b. split; [done|].
           apply holds_spec in Ho as (w' & Hw & Hp). rewrite Ew in Hw. injection Hw as <-. exact Hp.
         - destruct (match o with Root => _ | _ => _ end) eqn:Ho; [|discriminate]. injection E as <-. cbn in H.
           rewrite lookup_insert_ne in H by congruence. now right. }
    all: repeat match type of E with
      | match ?b with _ => _ end = Some _ => destruct b eqn:?; try discriminate
      end; injection E as <-; cbn in H; try (right; exact H); try (right; eapply D; exact H).
    right. now apply map_filter_lookup_Some in H as [H _].
  Qed.

  (** What once was asked and has stood ever since. *)
  Lemma ever_since_snoc n0 h op k w P :
    ever_since cfg n0 h k w P -> holder (nrun cfg n0 (h ++ [op])) k = Some w -> ever_since cfg n0 (h ++ [op]) k w P.
  Proof.
    intros (h1 & x & a & h2 & -> & HP & Hs) Hh. exists h1, x, a, (h2 ++ [op]). split; [now rewrite <- app_assoc|]. split; [exact HP|].
    intros h3 h4 E. destruct (decide (h4 = [])) as [->|Hn].
    - rewrite app_nil_r in E. subst h3. rewrite <- app_assoc in Hh. exact Hh.
    - destruct h4 as [|y h4] using rev_ind; [done|]. clear IHh4. rewrite app_assoc in E. apply app_inj_tail in E as [E _]. exact (Hs h3 h4 E).
  Qed.
  Lemma ever_since_now n0 (h : list nop) x a k w (P : nstate -> nact -> Prop) :
    P (nrun cfg n0 h) a -> holder (nrun cfg n0 (h ++ [(x, a)])) k = Some w -> ever_since cfg n0 (h ++ [(x, a)]) k w P.
  Proof.
    intros HP Hh. exists h, x, a, []. split; [done|]. split; [exact HP|]. intros h3 h4 E.
    apply symmetry, app_nil in E as [-> _]. exact Hh.
  Qed.
  Lemma ever_since_end n0 h k w P : ever_since cfg n0 h k w P -> holder (nrun cfg n0 h) k = Some w.
  Proof. intros (h1 & x & a & h2 & -> & _ & Hs). apply (Hs h2 []). now rewrite app_nil_r. Qed.
  (** An offer goes when the NFT changes hands. *)
  Lemma offer_stays n op n' r k w : nstep cfg n op = (n', r) -> holder n k = Some w ->
    is_Some (n_price n' !! k) \/ is_Some (n_approved n' !! k) -> holder n' k = Some w.
  Proof.
    intros H Hw Ho. destruct (step_items cfg _ _ _ _ k H) as [->|[(E & _)|(v & _ & [O1 O2] & _)]]; [done|congruence|].
    rewrite O1, O2 in Ho. destruct Ho as [[? ?]|[? ?]]; discriminate.
  Qed.
  Lemma prices_stand n0 h k q : n_price n0 = ∅ -> n_price (nrun cfg n0 h) !! k = Some q ->
    exists w, ever_since cfg n0 h k w (fun _ a => a = NUniq (Signed w) (NPrice k.1 k.2 (Some q))).
  Proof.
    intros H0. induction h as [|op h IH] using rev_ind; [intros H; cbn in H; now rewrite H0, lookup_empty in H|].
    intros H. rewrite nrun_snoc in H. destruct (nstep cfg (nrun cfg n0 h) op) as [n' r] eqn:E. cbn [fst] in H.
    assert (E' : nrun cfg n0 (h ++ [op]) = n') by now rewrite nrun_snoc, E.
    destruct (step_price _ _ _ _ _ _ E H) as [(w & Eo & Hw)|H'].
    - exists w. destruct op as [x a]. cbn [snd] in Eo. apply ever_since_now; [exact Eo|]. unfold nop in E' |- *; rewrite E'. eapply offer_stays; eauto.
    - destruct (IH H') as [w Hs]. exists w. apply ever_since_snoc; [exact Hs|]. rewrite E'.
      eapply offer_stays; eauto. exact (ever_since_end _ _ _ _ _ Hs).
  Qed.
  Lemma approvals_stand n0 h k d : n_approved n0 = ∅ -> n_approved (nrun cfg n0 h) !! k = Some d ->
    exists w, ever_since cfg n0 h k w (fun n a => exists o, a = NUniq o (NApprove k.1 k.2 d) /\
      (o = Root \/ exists b, o = Signed b /\ (b = w \/ admin_of n k.1 = Some b))).
  Proof.
    intros H0. induction h as [|op h IH] using rev_ind; [intros H; cbn in H; now rewrite H0, lookup_empty in H|].
    intros H. rewrite nrun_snoc in H. destruct (nstep cfg (nrun cfg n0 h) op) as [n' r] eqn:E. cbn [fst] in H.
    assert (E' : nrun cfg n0 (h ++ [op]) = n') by now rewrite nrun_snoc, E.
    destruct (step_approved _ _ _ _ _ _ E H) as [(w & o & Eo & Hw & Hb)|H'].
    - exists w. destruct op as [x a]. cbn [snd] in Eo. apply ever_since_now; [eauto|]. unfold nop in E' |- *; rewrite E'. eapply offer_stays; eauto.
    - destruct (IH H') as [w Hs]. exists w. apply ever_since_snoc; [exact Hs|]. rewrite E'.
      eapply offer_stays; eauto. exact (ever_since_end _ _ _ _ _ Hs).
  Qed.
  (** A sale pays the seller. *)
  Lemma sale_pays n x who c i bid n' : nstep cfg n (x, NUniq (Signed who) (NBuy c i bid)) = (n', WDone []) ->
    exists w p chosen, holder n (c, i) = Some w /\ n_price n !! (c, i) = Some (p, chosen) /\ p <= bid /\
      (chosen = None \/ chosen = Some who) /\ holder n' (c, i) = Some who /\
      free_of (w_bank (n_w n')) w = free_of (w_bank (n_w n)) w + p /\
      free_of (w_bank (n_w n')) who = free_of (w_bank (n_w n)) who - p /\ (p = 0 \/ p <= free_of (w_bank (n_w n)) who).
  Proof.
    unfold nstep, holder. cbn [fst snd nexec]. destruct (n_items n !! (c, i)) as [w|]; [|discriminate].
    destruct (n_price n !! (c, i)) as [[p chosen]|]; [|discriminate]. destruct (_ && _) eqn:Hb; [|discriminate].
    destruct (transfer_keep _ _ _ _ _) as [b|] eqn:Et; [|discriminate]. intros [= <-].
    apply andb_prop in Hb as [Hb Hc]. apply andb_prop in Hb as [Hn Hb]. apply negb_true_iff, N.eqb_neq in Hn. apply N.leb_le in Hb.
    exists w, p, chosen. repeat (split; [done|]). split; [|cbn; rewrite lookup_insert; split; [done|]].
    - destruct chosen as [v|]; [right; apply N.eqb_eq in Hc; congruence|now left].
    - destruct (Proofs_Operation3.transfer_keep_spec _ _ _ _ _ _ Et (not_eq_sym Hn)) as (A & B & C & _). rewrite B, C.
      repeat (split; [done|]). destruct A; [now left|right; lia].
  Qed.

  (** * Teams *)
  Lemma step_team n op n' r c t : nstep cfg n op = (n', r) -> n_teams n !! c = Some t ->
    ~ (sets_team c op.2 /\ from_owner t op.2) -> n_teams n' !! c = Some t.
  Proof.
    destruct op as [x [o a|a]]; unfold nstep; cbn [fst snd].
    2: { unfold nworld. destruct (negb _); [intros [= <- <-]; auto|].
         destruct (wstep cfg (handed n) (x, a)) as [w' [ev| |]]; intros [= <- <-]; auto. }
    destruct (nexec cfg x n o a) as [n1|] eqn:E; [|intros [= <- <-]; auto]. intros [= <- <-] Ht Hn.
    assert (Ins : forall c' t', (c' = c -> False) -> <[c' := t']> (n_teams n) !! c = Some t).
    { intros c' t' Hc. rewrite lookup_insert_ne; auto. }
    destruct a; cbn [nexec] in E; unfold owner_or_root, owns in E; cbn [sets_team from_owner] in Hn;
      repeat match type of E with
      | match ?b with _ => _ end = Some _ => destruct b eqn:?; try discriminate
      end; injection E as <-; cbn; try exact Ht.
    all: try (apply Ins; intros ->; congruence).
    - rewrite lookup_delete_ne; [done|]. intros ->. apply Hn. split; [done|]. destruct o as [|who|]; [done| |discriminate].
      rewrite Ht in *. symmetry. now apply N.eqb_eq.
    - apply Ins. intros ->. apply Hn. split; [done|]. assert (t0 = t) as -> by congruence. symmetry. now apply N.eqb_eq.
    - apply Ins. intros ->. now apply Hn.
    - apply Ins. intros ->. apply Hn. split; [done|]. assert (t0 = t) as -> by congruence. symmetry. now apply N.eqb_eq.
  Qed.
  Lemma run_team h : forall n c t, n_teams n !! c = Some t ->
    Forall (fun op => ~ (sets_team c op.2 /\ from_owner t op.2)) h ->
    n_teams (nrun cfg n h) !! c = Some t /\
    (forall i, holder n (c, i) = None -> is_Some (holder (nrun cfg n h) (c, i)) ->
       minted_by (fun who n' => who = t_issuer t \/ has_privilege (w_priv (n_w n')) who CreditAdmin = true) cfg n h (c, i)).
  Proof.
    induction h as [|op h IH] using rev_ind; intros n c t Ht F; [split; [done|intros i E [w Hw]; cbn in Hw; congruence]|].
    apply Forall_app in F as [F1 F2]. apply Forall_inv in F2. destruct (IH n c t Ht F1) as [T Hm].
    rewrite nrun_snoc. destruct (nstep cfg (nrun cfg n h) op) as [n' r] eqn:E. cbn [fst].
    split; [eapply step_team; eauto|]. intros i Hi Hs.
    assert (Old : is_Some (holder (nrun cfg n h) (c, i)) ->
      minted_by (fun who n' => who = t_issuer t \/ has_privilege (w_priv (n_w n')) who CreditAdmin = true) cfg n (h ++ [op]) (c, i)).
    { intros Ho. destruct (Hm i Hi Ho) as (h1 & x & a & h2 & -> & Q). exists h1, x, a, (h2 ++ [op]). split; [now rewrite <- app_assoc|exact Q]. }
    destruct (step_items cfg _ _ _ _ (c, i) E) as [Q|[(Q & Q1 & _ & who & Q2)|(w & Q & _)]].
    - apply Old. now rewrite <- Q.
    - destruct op as [x a]. exists h, x, a, []. split; [done|]. split; [exact Q1|]. exists who. cbn [fst snd] in Q2.
      destruct Q2 as [(to & -> & Ei)|(s & -> & Hp)]; [split; [|eauto]|split; [|eauto]].
      + left. rewrite T in Ei. cbn in Ei. congruence.
      + now right.
    - apply Old. rewrite Q. eauto.
  Qed.

  (** * Collections that bring credit and collections that bring ADSC *)
  Lemma step_worth n op n' r c : Model_Credit.kc_step (jc_c (wc_chain cfg)) <> Model_Credit.U64MAX ->
    nstep cfg n op = (n', r) -> ~ prices_class c op.2 -> worth n c = None -> worth n' c = None.
  Proof.
    intros Hs. destruct op as [x [o a|a]]; unfold nstep; cbn [fst snd].
    - destruct (nexec cfg x n o a) as [n1|] eqn:E; [|intros [= <- <-]; auto]. intros [= <- <-] _. unfold worth.
      enough (w_chain (n_w n1) = w_chain (n_w n)) as -> by done.
      destruct a; cbn [nexec] in E;
      repeat match type of E with
      | match ?b with _ => _ end = Some _ => destruct b eqn:?; try discriminate
      end; injection E as <-; reflexivity.
    - unfold nworld. destruct (negb _); [intros [= <- <-]; auto|].
      destruct (wstep cfg (handed n) (x, a)) as [w' [ev| |]] eqn:E; [|intros [= <- <-]; auto..]. intros [= <- <-] Hn H.
      unfold worth in *. cbn [n_w]. apply step_moved in E as [M _]. unfold chain_moved in M.
      assert (H' : Model_Credit.k_nft_credit (j_c (w_chain (handed n))) !! c = None) by exact H.
      destruct (chain_part cfg (handed n) (x, a)) as [[w1 b]|] eqn:Ep; [|destruct M as [-> _]; exact H'].
      destruct M as [E1 E2]. cbn [fst] in E2. unfold wjstep in E2.
      set (j := jsync (w_chain w1) (w_bank w1)) in E2.
      assert (Hj : Model_Credit.k_nft_credit (j_c j) !! c = None) by (unfold j; rewrite E1; exact H').
      assert (Hy : Proofs_Chain1.synced j) by reflexivity. clearbody j.
      replace (w_chain w') with (jstep (wc_chain cfg) j (wjctx cfg x w1, b)).1 by now rewrite E2.
      refine (Proofs_Chain2.jstep_keeps _ (fun k => Model_Credit.k_nft_credit k !! c = None) j _ Hy _ _ _ Hj).
      + now intros k bk.
      + intros k e _. apply Proofs_Nfts0.kdo_worth; [exact Hs|]. discriminate.
      + intros k o Ho. apply Proofs_Nfts0.kdo_worth; [exact Hs|]. intros o' v Eo. apply Hn.
        unfold Proofs_Chain2.own_step in Ho. cbn [fst snd] in Ho.
        destruct b as [o1 c1|e| | | | | | | | |]; try (now apply elem_of_nil in Ho).
        2: { destruct (staking_only e); [now apply elem_of_nil in Ho|]. apply elem_of_list_singleton in Ho as ->. discriminate. }
        apply elem_of_list_singleton in Ho as ->. cbn [snd] in Eo. injection Eo as <- ->.
        unfold chain_part in Ep. cbn [fst snd] in Ep.
        destruct a as [|o2 c2| |o2 c2| | |o2 c2| |o2 c2| |b2| | |]; try discriminate.
        * destruct o2; try discriminate. destruct c2; discriminate.
        * injection Ep as _ _ ->. reflexivity.
        * destruct c2; discriminate.
        * destruct (Model_Tips.tstep _ _ _) as [t [ev2| |]]; try discriminate. destruct ev2 as [|[] ev2]; discriminate.
        * destruct b2; discriminate.
  Qed.
  Lemma step_staked n op n' r s c i : nstep cfg n op = (n', r) -> staked n' s (c, i) -> staked n s (c, i) \/ stakes_class c op.2.
  Proof.
    destruct op as [x [o a|a]]; unfold nstep; cbn [fst snd].
    - destruct (nexec cfg x n o a) as [n1|] eqn:E; [|intros [= <- <-]; auto]. intros [= <- <-]. unfold staked.
      enough (w_adsc (n_w n1) = w_adsc (n_w n)) as -> by auto.
      destruct a; cbn [nexec] in E;
      repeat match type of E with
      | match ?b with _ => _ end = Some _ => destruct b eqn:?; try discriminate
      end; injection E as <-; reflexivity.
    - unfold nworld. destruct (not_nft a) eqn:Hno; cbn [negb]; [|intros [= <- <-]; auto].
      destruct (wstep cfg (handed n) (x, a)) as [w' [ev| |]] eqn:E; [|intros [= <- <-]; auto..]. intros [= <- <-] H.
      unfold staked in *. cbn [n_w] in H. pose proof (step_moved cfg _ _ _ _ E) as (_ & _ & M & _). unfold adsc_moved in M.
      destruct (adsc_part (x, a)) as [p|] eqn:Ep; [|destruct M as [M _]; rewrite M in H; now left].
      unfold Model_Adsc.ado in M. cbn [fst snd] in M. set (s0 := Model_Adsc.set_a_bank _ _) in M.
      assert (E2 : Model_Adsc.a_nfts s0 = Model_Adsc.a_nfts (w_adsc (n_w n))) by reflexivity. rewrite <- E2. clearbody s0. clear E2.
      destruct a as [| | | | | | |o c'| | |b| | |]; try discriminate.
      + cbn in Ep. injection Ep as <-. unfold Model_Adsc.astep in M.
        destruct (Model_Adsc.aexec _ _ _ _ _) as [[s1 e1]| |] eqn:Ex; [|injection M as M _; rewrite <- M in H; now left..].
        injection M as -> _. apply call_items in Ex. destruct c'; try (destruct Ex as [Ex _]; rewrite Ex in H; now left).
        destruct Ex as (b & -> & _ & Ex). destruct (decide (s = who)) as [->|Hne].
        * destruct (add_items _ _ _ _ _ _ (c, i) Ex) as [N1 _]. rewrite N1 in H. injection H as -> ->. now right.
        * left. unfold Model_Adsc.do_add_nft in Ex. cbn [Model_Adsc.a_nfts Model_Adsc.set_a_stakers] in Ex.
          assert (G : exists u m, Model_Adsc.a_nfts (w_adsc w') = <[who := m]> (Model_Adsc.a_nfts s0) /\ w_adsc w' = u).
          { destruct (Model_Adsc.a_nfts s0 !! who) as [[oc oi]|]; [destruct (_ && _); [discriminate|]; cbn [rbind] in Ex;
              destruct (Model_Adsc.remove_nft _ _ _); [|discriminate]|]; cbn [rbind] in Ex;
              destruct (Model_Adsc.add_nft _ _ _ _ _) in Ex; try discriminate; injection Ex as Ex; rewrite <- Ex; cbn; eauto. }
          destruct G as (u & m & G & _). rewrite G, lookup_insert_ne in H by congruence. exact H.
      + destruct b as [| | | | | | | | | | |e| |]; try discriminate. cbn in Ep. injection Ep as <-. left.
        destruct e; cbn [not_nft] in Hno; try discriminate; cbn [Model_Adsc.aentry] in M.
        * unfold Model_Adsc.on_init in M. destruct (_ <? _); [injection M as M _; rewrite <- M in H; exact H|].
          assert (Ec : Model_Adsc.a_cursor s0 = Model_Adsc.CEmpty \/ Model_Adsc.a_cursor s0 <> Model_Adsc.CEmpty) by (destruct (Model_Adsc.a_cursor s0); auto; right; discriminate).
          destruct Ec as [Ec|Ec]; [unfold Model_Adsc.adsc_reward in M; rewrite Ec in M; injection M as M _; rewrite <- M in H; exact H|].
          apply Proofs_Adsc4.adsc_reward_loop in M as (s1 & l1 & r1 & b1 & El & Ew); [|done].
          assert (G : Model_Adsc.a_nfts s1 = Model_Adsc.a_nfts s0).
          { refine (Proofs_Adsc3.reward_loop_ind (wc_adsc cfg) _ (fun s2 _ => Model_Adsc.a_nfts s2 = Model_Adsc.a_nfts s0) _ _ _ _ _ _ _ _ _ _ _ [] El _); [|auto].
            intros s2 w d s3 v ev' G _ P. destruct (Proofs_Adsc3.pd_rest _ _ _ _ _ P) as (_ & E1 & _ & E2 & _). congruence. }
          rewrite Ew, (proj1 (Proofs_Adsc.fold_count_nfts b1 _)), Proofs_Adsc4.fold_remove_nfts in H. cbn in H. rewrite G in H.
          now destruct (decide (s ∈ r1)).
        * injection M as M _. rewrite <- M in H. unfold Model_Adsc.on_upgrade in H. destruct (Model_Adsc.a_version s0 <? 2); [|exact H].
          now destruct (Model_Adsc.a_ass s0).
        * injection M as M _. rewrite <- M in H. destruct (Model_Adsc.a_ass s0) as [l|]; [|exact H].
          now destruct (Model_Adsc.atransfer _ _ _ _).
  Qed.
  Lemma run_worth n0 h c : Model_Credit.kc_step (jc_c (wc_chain cfg)) <> Model_Credit.U64MAX -> worth n0 c = None ->
    is_Some (worth (nrun cfg n0 h) c) -> Exists (fun op => prices_class c op.2) h.
  Proof.
    intros Hs H0. induction h as [|op h IH] using rev_ind; intros [v Hv]; [cbn in Hv; congruence|].
    rewrite nrun_snoc in Hv. destruct (nstep cfg (nrun cfg n0 h) op) as [n' r] eqn:E. cbn [fst] in Hv. apply Exists_app.
    destruct (worth (nrun cfg n0 h) c) as [v'|] eqn:Ew; [left; apply IH; eauto|right].
    assert (D : prices_class c op.2 \/ ~ prices_class c op.2).
    { unfold prices_class. destruct (op.2) as [|a]; [now right|]. destruct a as [| | |o k| | | | | | | | | |]; try (now right).
      destruct k; try (now right). destruct (decide (class = c)); auto. }
    destruct D as [D|D]; [now constructor|]. rewrite (step_worth _ _ _ _ _ Hs E D Ew) in Hv. discriminate.
  Qed.
  Lemma run_staked n0 h s c i : (forall k, ~ staked n0 s k) -> staked (nrun cfg n0 h) s (c, i) -> Exists (fun op => stakes_class c op.2) h.
  Proof.
    intros H0. induction h as [|op h IH] using rev_ind; intros H; [now destruct (H0 _ H)|].
    rewrite nrun_snoc in H. destruct (nstep cfg (nrun cfg n0 h) op) as [n' r] eqn:E. cbn [fst] in H. apply Exists_app.
    destruct (step_staked _ _ _ _ _ _ _ E H) as [H'|H']; [left; auto|right; now constructor].
  Qed.

  (** ** C162 *)
  Lemma stake_iff n x a s c i :
    worked (nstep cfg n (x, NWorld (WAdsc (Signed a) (Model_Adsc.AAddNft s c i)))).2 = true <->
    has_privilege (w_priv (n_w n)) a CreditAdmin = true /\ is_Some (n_teams n !! c) /\ holder n (c, i) = None /\ wx_deposit x = true /\
    (forall k, staked n s k -> k <> (c, i) /\ is_Some (n_teams n !! k.1) /\ is_Some (holder n k) /\ is_Some (n_meta n !! k)).
  Proof.
    unfold nstep. cbn [fst snd]. unfold nworld. cbn [not_nft negb]. unfold wstep. cbn [fst snd]. unfold wadsc, Model_Adsc.astep, Model_Adsc.aexec.
    set (st := Model_Adsc.set_a_bank (w_adsc (handed n)) (w_bank (handed n))). set (cx := actx cfg x (handed n)).
    assert (U : Model_Adsc.a_uniq st = seen_by_adsc n) by reflexivity.
    assert (Na : Model_Adsc.a_nfts st = Model_Adsc.a_nfts (w_adsc (n_w n))) by reflexivity.
    assert (Ad : Model_Adsc.ax_admin cx a = has_privilege (w_priv (n_w n)) a CreditAdmin) by reflexivity.
    assert (De : Model_Adsc.ax_deposit cx = wx_deposit x) by reflexivity.
    clearbody st cx. unfold Model_Adsc.ensure_admin. rewrite Ad. clear Ad.
    destruct (has_privilege (w_priv (n_w n)) a CreditAdmin) eqn:Ep; cbn [rbind]; [|cbn; split; [discriminate|intros [? _]; discriminate]].
    pose proof (add_nft_iff st cx s c i) as H. rewrite Na, U, De in H. unfold seen_by_adsc in H. cbn [seen_by_adsc Model_Adsc.u_colls Model_Adsc.u_items Model_Adsc.u_meta] in H.
    assert (T : forall c', is_Some (((fun _ : team => tt) <$> n_teams n) !! c') <-> is_Some (n_teams n !! c')).
    { intros c'. rewrite lookup_fmap. destruct (n_teams n !! c'); cbn; split; intros [? ?]; eauto; discriminate. }
    transitivity (exists s', Model_Adsc.do_add_nft st cx s c i = ROk s').
    { destruct (Model_Adsc.do_add_nft st cx s c i); cbn; split; eauto; try discriminate; intros [? ?]; discriminate. }
    rewrite H, T. unfold holder, staked. split.
    - intros (H1 & H2 & H3 & H4). repeat (split; [done|]). intros k Hk. destruct (H4 k Hk) as (? & HT & ?). rewrite T in HT. done.
    - intros (_ & H1 & H2 & H3 & H4). repeat (split; [done|]). intros k Hk. rewrite T. destruct (H4 k Hk) as (? & ? & ?). done.
  Qed.
End histories.
