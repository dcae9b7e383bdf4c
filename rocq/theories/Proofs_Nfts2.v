(** How a step of the chain changes who holds an NFT. *)
From Verif Require Import Base Balances Model_UserPrivileges.
From Verif Require Model_Credit Model_Adsc Proofs_Credit.
From Verif Require Import Model_Chain Model_World Spec_World Spec_World2 Proofs_World5 Model_Nfts Spec_Nfts Proofs_Nfts1.
From stdpp Require Import gmap.
Open Scope N_scope.

Section steps.
  Context (cfg : wcfg).

  (** Who may make an NFT. *)
  Definition maker (n : nstate) (k : nft) (a : nact) : Prop :=
    exists who,
      (exists to, a = NUniq (Signed who) (NMint k.1 k.2 to) /\ t_issuer <$> n_teams n !! k.1 = Some who) \/
      (exists s, a = NWorld (WAdsc (Signed who) (Model_Adsc.AAddNft s k.1 k.2)) /\ has_privilege (w_priv (n_w n)) who CreditAdmin = true).
  Definition off_the_market (n : nstate) (k : nft) : Prop := n_price n !! k = None /\ n_approved n !! k = None.

  Lemma holds_spec n c i who : holds n c i who = true ->
    exists w, n_items n !! (c, i) = Some w /\ (who = w \/ admin_of n c = Some who).
  Proof.
    unfold holds, admin_of. destruct (n_teams n !! c) as [t|]; [|discriminate]. destruct (n_items n !! (c, i)) as [w|]; [|discriminate].
    intros H. exists w. split; [done|]. cbn. apply orb_prop in H as [->%N.eqb_eq|H%N.eqb_eq]; [now left|right; now rewrite H].
  Qed.
  Lemma owner_or_root_spec n o c : owner_or_root n o c = true -> o = Root \/ exists a, o = Signed a /\ owner_of n c = Some a.
  Proof.
    unfold owner_or_root, owns, owner_of. destruct o as [|a|]; [now left|intros H; right; exists a; split; [done|]|discriminate].
    destruct (n_teams n !! c) as [t|]; [|discriminate]. cbn. f_equal. now apply N.eqb_eq.
  Qed.

  Lemma credit_burned x w o c i w' ev : wstep cfg w (x, WCredit o (Model_Credit.KBurnNft c i)) = (w', WDone ev) ->
    exists a v owner, o = Signed a /\ Model_Credit.k_nft_credit (j_c (w_chain w)) !! c = Some v /\
      Model_Credit.k_nft_owner (j_c (w_chain w)) !! (c, i) = Some owner /\
      (owner = a \/ Model_Credit.k_nft_admin (j_c (w_chain w)) !! c = Some a) /\
      Model_Credit.k_nft_owner (j_c (w_chain w')) = delete (c, i) (Model_Credit.k_nft_owner (j_c (w_chain w))).
  Proof.
    intros H. apply step_moved in H as [M _]. unfold chain_moved in M. cbn [chain_part fst snd] in M. destruct M as [_ M].
    unfold wjstep, jstep in M. cbn [fst snd jact_step] in M. unfold csettle, Model_Credit.kstep in M.
    destruct (Model_Credit.kexec _ _ _ _ _) as [c'| |] eqn:E; cbn in M; try discriminate.
    injection M as M _. apply Proofs_Credit.kexec_rest in E as (a & owner & v & -> & Hv & _ & Ho & Ha & R).
    exists a, v, owner. split; [done|]. split; [exact Hv|]. split; [exact Ho|]. split; [exact Ha|].
    rewrite <- M. cbn [j_c]. unfold Proofs_Credit.same_rest in R. rewrite R. reflexivity.
  Qed.

  Lemma world_items n x a n' r k : nworld cfg x n a = (n', r) ->
    holder n' k = holder n k \/
    (holder n k = None /\ mints k (NWorld a) = true /\ worked r = true /\ maker n k (NWorld a)) \/
    (exists w, holder n k = Some w /\ holder n' k = None /\
       (consent n (x, NWorld a) k w \/ stake_ends n n' (x, NWorld a) k)).
  Proof.
    unfold nworld. destruct (not_nft a) eqn:Hno; cbn [negb]; [|intros [= <- <-]; now left].
    destruct (wstep cfg (handed n) (x, a)) as [w' [ev| |]] eqn:E; [|intros [= <- <-]; now left..].
    intros [= <- <-]. unfold holder. cbn [n_items].
    destruct (credit_burn a) eqn:Hc.
    { unfold items_after. rewrite Hc.
      destruct a as [| | |o c| | | | | | | | | |]; try discriminate. destruct c; try discriminate.
      apply credit_burned in E as (a & v & owner & -> & _ & Ho & Ha & ->). cbn [handed w_chain j_c] in *.
      change (Model_Credit.k_nft_owner _) with (n_items n) in Ho |- *.
      destruct (decide (k = (class, item))) as [->|Hn]; [|left; apply lookup_delete_ne; congruence].
      right. right. exists owner. split; [exact Ho|]. split; [apply lookup_delete|]. left. cbn. split; [done|].
      destruct Ha as [->|Ha]; [now left|right]. change (Model_Credit.k_nft_admin _) with (t_admin <$> n_teams n) in Ha.
      unfold admin_of. now rewrite lookup_fmap in Ha. }
    unfold items_after. rewrite Hc. pose proof (step_moved cfg _ _ _ _ E) as (_ & _ & M & _). unfold adsc_moved in M.
    destruct (adsc_part (x, a)) as [c|] eqn:Ep; [|destruct M as [-> _]; now left].
    assert (Ac : actx cfg x (handed n) = Model_Adsc.ACtx (wx_ms x) (offline cfg x (handed n))
               (fun b => has_privilege (w_priv (n_w n)) b CreditAdmin) (wx_deposit x)) by reflexivity.
    cbn [fst] in M. rewrite Ac in M. clear Ac. unfold Model_Adsc.ado in M. cbn [fst snd] in M.
    set (s := Model_Adsc.set_a_bank _ _) in M.
    assert (Es : Model_Adsc.a_uniq s = seen_by_adsc n /\ Model_Adsc.a_nfts s = Model_Adsc.a_nfts (w_adsc (n_w n)) /\
                 Model_Adsc.a_stakers s = Model_Adsc.a_stakers (w_adsc (n_w n))) by (repeat split).
    destruct Es as (E1 & E2 & E3). clearbody s.
    assert (Same : Model_Adsc.a_uniq (w_adsc w') = Model_Adsc.a_uniq s ->
              Model_Adsc.u_items (Model_Adsc.a_uniq (w_adsc w')) !! k = n_items n !! k) by (rewrite E1; now intros ->).
    destruct a as [| | | | | | |o c'| | |b| | |]; try discriminate.
    - cbn in Ep. injection Ep as <-. unfold Model_Adsc.astep in M.
      destruct (Model_Adsc.aexec _ _ _ _ _) as [[s1 e1]| |] eqn:Ex;
        [|injection M as M _; left; apply Same; now rewrite <- M..].
      injection M as -> _. apply call_items in Ex.
      destruct c'; try (destruct Ex as [_ Ex]; left; now apply Same).
      destruct Ex as (a & -> & Ha & Ex). cbn [Model_Adsc.ax_admin] in Ha.
      destruct (add_items _ _ _ _ _ _ k Ex) as (N1 & [Q|[(-> & Q1 & Q2)|(Q1 & Q2 & Q3)]]).
      + left. now rewrite Q, E1.
      + right. left. rewrite E1 in Q1. split; [exact Q1|]. cbn. unfold same_nft. rewrite !N.eqb_refl. split; [done|]. split; [done|].
        exists a. right. eauto.
      + destruct (n_items n !! k) as [w|] eqn:Ew; [|now left].
        right. right. exists w. split; [done|]. split; [done|]. right. rewrite E2 in Q1. exists who. split; [exact Q1|].
        cbn. repeat (split; [done|]). congruence.
    - destruct b as [| | | | | | | | | | |e| |]; try discriminate. cbn in Ep. injection Ep as <-.
      destruct e; cbn [not_nft] in Hno; try discriminate; cbn [Model_Adsc.aentry] in M.
      + destruct (init_items _ _ _ _ _ k M) as [Q|(Q & w & Q1 & Q2 & Q3 & Q4)]; [left; now rewrite Q, E1|].
        destruct (n_items n !! k) as [v|] eqn:Ew; [|now left].
        right. right. exists v. split; [done|]. split; [done|]. right. exists w. rewrite E2 in Q1. rewrite E3 in Q2.
        split; [exact Q1|]. cbn. split; [exact Q2|]. split; [exact Q3|]. intros k' Hk. unfold staked in Hk. cbn in Hk. congruence.
      + injection M as M _. left. apply Same. rewrite <- M. unfold Model_Adsc.on_upgrade. destruct (Model_Adsc.a_version s <? 2); [|reflexivity].
        now destruct (Model_Adsc.a_ass s).
      + injection M as M _. left. apply Same. rewrite <- M. destruct (Model_Adsc.a_ass s) as [l|]; [|reflexivity].
        now destruct (Model_Adsc.atransfer _ _ _ _).
  Qed.

  Lemma step_items n op n' r k : nstep cfg n op = (n', r) ->
    holder n' k = holder n k \/
    (holder n k = None /\ mints k op.2 = true /\ worked r = true /\ maker n k op.2) \/
    (exists w, holder n k = Some w /\ off_the_market n' k /\
       (consent n op k w \/ stake_ends n n' op k)).
  Proof.
    destruct op as [x [o c|a]]; unfold nstep; cbn [fst snd].
    2: { intros H. destruct (world_items _ _ _ _ _ k H) as [Q|[Q|(w & Q1 & Q2 & Q3)]]; [auto|auto|right; right; exists w].
         split; [done|]. split; [|done]. unfold nworld in H. destruct (negb _); [injection H as <- <-; congruence|].
         destruct (wstep cfg (handed n) (x, a)) as [w' [ev| |]]; [|injection H as <- <-; congruence..].
         injection H as <- <-. unfold holder in Q2. cbn [n_items] in Q2.
         split; cbn [n_price n_approved]; apply map_filter_lookup_None; right; intros v _ Hv; cbn in Hv; rewrite Q2 in Hv; now destruct Hv. }
    destruct (nexec cfg x n o c) as [n1|] eqn:E; [|intros [= <- <-]; now left]. intros [= <- <-].
    unfold holder. destruct c; cbn [nexec] in E.
    - destruct (n_teams n !! class); [discriminate|]. destruct o; [injection E as <-; now left|destruct (wx_deposit x); [injection E as <-; now left|discriminate]|discriminate].
    - destruct (owner_or_root n o class) eqn:Ho; [|discriminate]. injection E as <-. cbn [n_items].
      destruct (decide (k.1 = class)) as [Ek|Ek].
      + destruct (n_items n !! k) as [w|] eqn:Ew.
        * right. right. exists w. split; [done|]. split; [|left; cbn; destruct (owner_or_root_spec _ _ _ Ho) as [->|(a & -> & Ho')]; eauto].
          split; cbn [n_price n_approved]; apply map_filter_lookup_None; right; intros v Hv Hf; now cbn in Hf.
        * left. apply map_filter_lookup_None. now left.
      + left. destruct (n_items n !! k) as [w|] eqn:Ew; [apply map_filter_lookup_Some; auto|apply map_filter_lookup_None; now left].
    - destruct o as [|who|]; try discriminate. destruct (n_teams n !! class) as [t|] eqn:Et; [|discriminate].
      destruct (n_items n !! (class, item)) eqn:Ei; [discriminate|]. destruct (_ && _) eqn:Hi; [|discriminate]. injection E as <-.
      cbn [n_items with_items]. destruct (decide (k = (class, item))) as [->|Hn]; [|left; apply lookup_insert_ne; congruence].
      right. left. split; [done|]. cbn. unfold same_nft. rewrite !N.eqb_refl. split; [done|]. split; [done|].
      exists who. left. exists to. split; [done|]. cbn [fst]. rewrite Et. cbn. apply andb_prop in Hi as [Hi _]. f_equal. now apply N.eqb_eq.
    - destruct o as [|who|]; try discriminate. destruct (_ && _) eqn:Hh; [|discriminate]. injection E as <-.
      apply andb_prop in Hh as [Hh _]. apply holds_spec in Hh as (w & Hw & Hp). cbn [n_items unlisted with_items].
      destruct (decide (k = (class, item))) as [->|Hn]; [|left; apply lookup_delete_ne; congruence].
      right. right. exists w. split; [done|]. split; [split; cbn; apply lookup_delete|]. left. cbn. split; [done|]. destruct Hp; auto.
    - destruct o as [|who|]; try discriminate. destruct (n_items n !! (class, item)) as [w|] eqn:Ew; [|discriminate].
      destruct (_ || _) eqn:Hh; [|discriminate]. injection E as <-. cbn [n_items pass_on unlisted with_items].
      destruct (decide (k = (class, item))) as [->|Hn]; [|left; apply lookup_insert_ne; congruence].
      right. right. exists w. split; [done|]. split; [split; cbn; apply lookup_delete|]. left. cbn. split; [done|].
      apply orb_prop in Hh as [Hh|Hh]; [|apply bool_decide_eq_true in Hh; auto].
      apply holds_spec in Hh as (w' & Hw & Hp). rewrite Ew in Hw. injection Hw as <-. destruct Hp; auto.
    - destruct (n_items n !! _); [|discriminate]. destruct (match o with Root => _ | _ => _ end); [|discriminate]. injection E as <-. now left.
    - destruct (match o with Root => _ | _ => _ end); [|discriminate]. injection E as <-. now left.
    - destruct o as [|who|]; try discriminate. destruct (n_teams n !! class); [|discriminate]. destruct (_ =? _); [|discriminate]. injection E as <-. now left.
    - destruct o as [|who|]; try discriminate. destruct (n_teams n !! class); [|discriminate]. injection E as <-. now left.
    - destruct o as [|who|]; try discriminate. destruct (n_teams n !! class); [|discriminate]. destruct (_ =? _); [|discriminate]. injection E as <-. now left.
    - destruct (_ && _); [|discriminate]. injection E as <-. now left.
    - destruct (_ && _); [|discriminate]. injection E as <-. now left.
    - destruct o as [|who|]; try discriminate. destruct (n_items n !! _); [|discriminate]. destruct (_ =? _); [|discriminate]. injection E as <-. now left.
    - destruct o as [|who|]; try discriminate. destruct (n_items n !! (class, item)) as [w|] eqn:Ew; [|discriminate].
      destruct (n_price n !! (class, item)) as [[p chosen]|] eqn:Ep; [|discriminate].
      destruct (_ && _) eqn:Hb; [|discriminate]. destruct (transfer_keep _ _ _ _ _) as [b|] eqn:Et; [|discriminate]. injection E as <-.
      cbn [n_items pass_on unlisted with_items].
      destruct (decide (k = (class, item))) as [->|Hn]; [|left; apply lookup_insert_ne; congruence].
      right. right. exists w. split; [done|]. split; [split; cbn; apply lookup_delete|]. left. cbn. split; [done|].
      exists p, chosen. split; [done|]. apply andb_prop in Hb as [Hb _]. apply andb_prop in Hb as [_ Hb]. now apply N.leb_le.
  Qed.

  (** A burn for credit destroys an NFT that exists. *)
  Lemma step_burn n op n' r k : nstep cfg n op = (n', r) -> burns_for_credit k op.2 = true -> worked r = true ->
    is_Some (holder n k) /\ holder n' k = None /\ is_Some (worth n k.1).
  Proof.
    destruct op as [x [o c|a]]; [discriminate|]. unfold nstep. cbn [fst snd]. unfold nworld.
    intros H Hb Hw. destruct (not_nft a) eqn:Hno; cbn [negb] in H; [|injection H as <- <-; discriminate].
    destruct (wstep cfg (handed n) (x, a)) as [w' [ev| |]] eqn:E; [|injection H as <- <-; discriminate..]. injection H as <- <-.
    destruct a as [| | |o c| | | | | | | | | |]; try discriminate. destruct c; try discriminate.
    cbn in Hb. unfold same_nft in Hb. apply andb_prop in Hb as [->%N.eqb_eq ->%N.eqb_eq]. destruct k as [c i]. cbn [fst snd] in *.
    apply credit_burned in E as (a & v & owner & -> & Hv & Ho & Ha & E). cbn [handed w_chain j_c] in Ho, E, Hv.
    change (Model_Credit.k_nft_owner _) with (n_items n) in Ho, E at 2.
    change (Model_Credit.k_nft_credit _) with (Model_Credit.k_nft_credit (j_c (w_chain (n_w n)))) in Hv.
    unfold holder, worth. cbn [n_items items_after credit_burn]. rewrite Ho, E, lookup_delete, Hv. eauto.
  Qed.

  Lemma minted_once h : forall n k,
    times cfg (burns_for_credit k) n h + exists_ (nrun cfg n h) k <= times cfg (mints k) n h + exists_ n k.
  Proof.
    induction h as [|op h IH]; intros n k; [cbn; lia|]. cbn [times nrun].
    destruct (nstep cfg n op) as [n' r] eqn:E. cbn [fst snd].
    specialize (IH n' k). enough ((if burns_for_credit k op.2 && worked r then 1 else 0) + exists_ n' k <=
      (if mints k op.2 && worked r then 1 else 0) + exists_ n k) by lia.
    unfold exists_. destruct (burns_for_credit k op.2 && worked r) eqn:B.
    - apply andb_prop in B as [B1 B2]. destruct (step_burn _ _ _ _ k E B1 B2) as ([w ->] & -> & _). lia.
    - destruct (step_items _ _ _ _ k E) as [->|[(-> & -> & -> & _)|(w & -> & _)]]; cbn [andb].
      + destruct (holder n k); lia.
      + destruct (holder n' k); lia.
      + destruct (holder n' k); lia.
  Qed.
End steps.
