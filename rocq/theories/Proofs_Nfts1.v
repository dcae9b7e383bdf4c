(** How the adsc pallet changes NFTs and stakes. *)
From Verif Require Import Base Balances Model_Adsc Spec_Adsc Proofs_Adsc Proofs_Adsc2 Proofs_Adsc3 Proofs_Adsc4.
From stdpp Require Import gmap.
Open Scope N_scope.

Local Notation items s k := (u_items (a_uniq s) !! k).

Lemma loop_removed cfg x n : forall l counter s last s' last' rem sub evs,
  reward_loop cfg x n l counter s last = (s', last', rem, sub, evs) -> forall w, w ∈ rem -> (w, 0) ∈ l.
Proof.
  induction l as [|[a p] l IH]; intros counter s last s' last' rem sub evs H w Hw; cbn [reward_loop] in H.
  - injection H as <- <- <- <- <-. now apply elem_of_nil in Hw.
  - destruct (negb _); [right; eapply IH; eauto|].
    destruct (if p =? 0 then (s, []) else _) as [s1 ev1].
    assert (One : forall v, v ∈ (if p =? 0 then [a] else []) -> (v, 0) ∈ (a, p) :: l).
    { intros v Hv. destruct (N.eqb_spec p 0) as [->|]; [|now apply elem_of_nil in Hv].
      apply elem_of_list_singleton in Hv as ->. left. }
    destruct (_ =? n); [injection H as <- <- <- <- <-; now apply One|].
    destruct (reward_loop cfg x n l (add32 counter 1) s1 _) as [[[[s2 l2] r2] b2] e2] eqn:El.
    injection H as <- <- <- <- <-. apply elem_of_app in Hw as [Hw|Hw]; [now apply One|]. right. eapply IH; eauto.
Qed.
Lemma fold_remove_items l : forall s k,
  items (fold_left remove_staker l s) k = items s k \/
  (items (fold_left remove_staker l s) k = None /\ exists w, w ∈ l /\ a_nfts s !! w = Some k).
Proof.
  induction l as [|a l IH]; intros s k; [now left|]. cbn [fold_left].
  assert (One : items (remove_staker s a) k = items s k \/ items (remove_staker s a) k = None /\ a_nfts s !! a = Some k).
  { unfold remove_staker. cbn [a_nfts set_a_stakers]. destruct (a_nfts s !! a) as [[c i]|] eqn:E; [|now left].
    cbn [a_uniq set_a_nfts set_a_stakers]. destruct (remove_nft (a_uniq s) c i) as [u|] eqn:Er; [|now left].
    cbn [a_uniq set_a_uniq]. rewrite (remove_nft_items _ _ _ _ _ Er). destruct (decide (k = (c, i))) as [->|]; auto. }
  destruct (IH (remove_staker s a) k) as [->|(-> & w & Hw & Hn)].
  - destruct One as [->|[-> Ha]]; [now left|]. right. split; [done|]. exists a. split; [left|done].
  - right. split; [done|]. rewrite remove_staker_nfts in Hn. destruct (decide (w = a)); [discriminate|].
    exists w. split; [now right|done].
Qed.
Lemma fold_count_gone l : forall s w, a_stakers s !! w = None -> a_stakers (fold_left count_down l s) !! w = None.
Proof.
  induction l as [|a l IH]; intros s w H; [exact H|]. cbn [fold_left]. apply IH. unfold count_down. cbn [a_stakers set_a_stakers].
  destruct (decide (a = w)) as [->|Hn]; [now rewrite lookup_alter, H|now rewrite lookup_alter_ne].
Qed.

(** A block. *)
Lemma init_items cfg s x s' evs k : on_init cfg s x = (s', evs) ->
  items s' k = items s k \/
  (items s' k = None /\ exists w, a_nfts s !! w = Some k /\ a_stakers s !! w = Some 0 /\
     a_stakers s' !! w = None /\ a_nfts s' !! w = None).
Proof.
  unfold on_init. destruct (_ <? _); [intros [= <- <-]; now left|]. intros H.
  assert (Ec : a_cursor s = CEmpty \/ a_cursor s <> CEmpty) by (destruct (a_cursor s); auto; right; discriminate).
  destruct Ec as [Ec|Ec]; [unfold adsc_reward in H; rewrite Ec in H; injection H as <- <-; now left|].
  apply adsc_reward_loop in H as (s1 & l1 & r1 & b1 & El & ->); [|done].
  assert (G : a_nfts s1 = a_nfts s /\ a_uniq s1 = a_uniq s).
  { refine (reward_loop_ind cfg x (fun s2 _ => a_nfts s2 = a_nfts s /\ a_uniq s2 = a_uniq s) _ _ _ _ _ _ _ _ _ _ _ [] El _); [|auto].
    intros s2 w d s3 v ev [G1 G2] _ P. destruct (pd_rest _ _ _ _ _ P) as (_ & E1 & _ & E2 & _). split; congruence. }
  destruct G as [G1 G2]. destruct (fold_count_nfts b1 (fold_left remove_staker r1 (set_a_cursor s1 l1))) as [E1 E2]. rewrite E1, E2.
  destruct (fold_remove_items r1 (set_a_cursor s1 l1) k) as [->|(-> & w & Hw & Hn)]; [left; cbn; now rewrite G2|].
  right. split; [done|]. cbn [a_nfts set_a_cursor] in Hn. exists w. rewrite <- G1. split; [done|].
  pose proof (loop_removed _ _ _ _ _ _ _ _ _ _ _ _ El w Hw) as Hl. apply iter_elem in Hl as [Hl _]. split; [done|].
  split; [|now rewrite fold_remove_nfts, decide_True].
  apply fold_count_gone. rewrite fold_remove_stakers. now rewrite decide_True.
Qed.

(** A new NFT for a staker. *)
Lemma add_items s x who class item s' k : do_add_nft s x who class item = ROk s' ->
  a_nfts s' !! who = Some (class, item) /\
  (items s' k = items s k \/
   (k = (class, item) /\ items s k = None /\ items s' k = Some who) \/
   (a_nfts s !! who = Some k /\ k <> (class, item) /\ items s' k = None)).
Proof.
  unfold do_add_nft. cbn [a_nfts a_uniq set_a_stakers]. intros H.
  assert (Add : forall u u', add_nft x u class item who = Some u' ->
            (k = (class, item) /\ u_items u !! k = None /\ u_items u' !! k = Some who) \/ (k <> (class, item) /\ u_items u' !! k = u_items u !! k)).
  { intros u u'. unfold add_nft. destruct (u_colls u !! class); [|discriminate]. destruct (u_items u !! (class, item)) eqn:Ei; [discriminate|].
    destruct (ax_deposit x); [|discriminate]. intros [= <-]. cbn [u_items].
    destruct (decide (k = (class, item))) as [->|Hn]; [left; rewrite lookup_insert; auto|right; rewrite lookup_insert_ne by congruence; auto]. }
  destruct (a_nfts s !! who) as [[oc oi]|] eqn:E; cbn [rbind] in H.
  - destruct ((oc =? class) && (oi =? item)) eqn:Es; [discriminate|]. cbn [rbind] in H.
    destruct (remove_nft (a_uniq s) oc oi) as [u|] eqn:Er; [|discriminate].
    cbn [rbind a_nfts a_uniq set_a_uniq set_a_nfts set_a_stakers] in H.
    destruct (add_nft x u class item who) as [u'|] eqn:Ea; [|discriminate]. injection H as <-.
    cbn [a_nfts a_uniq set_a_uniq set_a_nfts]. split; [apply lookup_insert|].
    assert (Ne : (oc, oi) <> (class, item)) by (intros [= -> ->]; now rewrite !N.eqb_refl in Es).
    pose proof (remove_nft_items _ _ _ _ k Er) as R.
    destruct (Add u u' Ea) as [(-> & A & B)|(Hn & B)].
    + rewrite decide_False in R by congruence. right. left. rewrite <- R. auto.
    + destruct (decide (k = (oc, oi))) as [->|]; [right; right|left]; rewrite B, R; auto.
  - cbn [rbind a_nfts a_uniq set_a_uniq set_a_nfts set_a_stakers] in H.
    destruct (add_nft x (a_uniq s) class item who) as [u'|] eqn:Ea; [|discriminate]. injection H as <-.
    cbn [a_nfts a_uniq set_a_uniq set_a_nfts]. split; [apply lookup_insert|].
    destruct (Add _ u' Ea) as [(-> & A & B)|(Hn & B)]; [right; left; auto|left; auto].
Qed.
(** Exactly when a stake with an NFT can be made. *)
Lemma add_nft_iff s x who class item :
  (exists s', do_add_nft s x who class item = ROk s') <->
  (is_Some (u_colls (a_uniq s) !! class) /\ items s (class, item) = None /\ ax_deposit x = true /\
   (forall k, a_nfts s !! who = Some k -> k <> (class, item) /\ is_Some (u_colls (a_uniq s) !! k.1) /\ is_Some (items s k) /\ is_Some (u_meta (a_uniq s) !! k))).
Proof.
  unfold do_add_nft. cbn [a_nfts a_uniq set_a_stakers].
  assert (Add : forall u, (exists u', add_nft x u class item who = Some u') <->
            is_Some (u_colls u !! class) /\ u_items u !! (class, item) = None /\ ax_deposit x = true).
  { intros u. unfold add_nft. split.
    - intros [u' H]. destruct (u_colls u !! class); [|discriminate]. destruct (u_items u !! _); [discriminate|].
      destruct (ax_deposit x); [|discriminate]. eauto.
    - intros ([t Et] & Ei & Ed). rewrite Et, Ei, Ed. eauto. }
  destruct (a_nfts s !! who) as [[oc oi]|] eqn:E.
  - destruct ((oc =? class) && (oi =? item)) eqn:Es; cbn [rbind].
    { split; [intros [? H]; discriminate|]. intros (_ & _ & _ & H). destruct (H _ eq_refl) as [Hn _]. destruct Hn.
      apply andb_prop in Es as [->%N.eqb_eq ->%N.eqb_eq]. reflexivity. }
    assert (Ne : (oc, oi) <> (class, item)) by (intros [= -> ->]; now rewrite !N.eqb_refl in Es).
    destruct (remove_nft (a_uniq s) oc oi) as [u|] eqn:Er; cbn [rbind a_nfts a_uniq set_a_uniq set_a_nfts set_a_stakers].
    + pose proof (remove_nft_items _ _ _ _ (class, item) Er) as R. rewrite decide_False in R by congruence.
      unfold remove_nft in Er. destruct (u_colls (a_uniq s) !! oc) as [t1|] eqn:E1; [|discriminate].
      destruct (items s (oc, oi)) as [t2|] eqn:E2; [|discriminate]. destruct (u_meta (a_uniq s) !! (oc, oi)) as [t3|] eqn:E3; [|discriminate].
      injection Er as Er. assert (Ec : u_colls u = u_colls (a_uniq s)) by (subst u; reflexivity).
      rewrite <- R, <- Ec. split.
      * intros [s' H]. destruct (add_nft x u class item who) as [u'|] eqn:Ea; [|discriminate].
        destruct (proj1 (Add u) (ex_intro _ _ Ea)) as (A1 & A2 & A3). repeat (split; [done|]).
        intros k [= <-]. cbn [fst]. rewrite Ec, E1. split; [done|]. eauto.
      * intros (A1 & A2 & A3 & _). destruct (proj2 (Add u) (conj A1 (conj A2 A3))) as [u' ->]. eauto.
    + split; [intros [? H]; discriminate|]. intros (_ & _ & _ & H). destruct (H _ eq_refl) as (_ & [t1 E1] & [t2 E2] & [t3 E3]).
      cbn [fst] in E1. unfold remove_nft in Er. now rewrite E1, E2, E3 in Er.
  - cbn [rbind a_nfts a_uniq set_a_uniq set_a_nfts set_a_stakers]. split.
    + intros [s' H]. destruct (add_nft x (a_uniq s) class item who) as [u'|] eqn:Ea; [|discriminate].
      destruct (proj1 (Add _) (ex_intro _ _ Ea)) as (A1 & A2 & A3). repeat (split; [done|]). discriminate.
    + intros (A1 & A2 & A3 & _). destruct (proj2 (Add (a_uniq s)) (conj A1 (conj A2 A3))) as [u' ->]. eauto.
Qed.

(** The other calls and hooks. *)
Lemma call_items cfg s x o c s' evs : aexec cfg s x o c = ROk (s', evs) ->
  match c with
  | AAddNft who class item => exists a, o = Signed a /\ ax_admin x a = true /\ do_add_nft s x who class item = ROk s'
  | _ => a_nfts s' = a_nfts s /\ a_uniq s' = a_uniq s
  end.
Proof.
  intros E. destruct c; cbn [aexec] in E.
  2: { unfold ensure_admin in E. destruct o; try discriminate. destruct (ax_admin x who0) eqn:Ha; try discriminate. cbn [rbind] in E.
       destruct (do_add_nft s x who class item) as [s2| |] eqn:Ed; try discriminate. cbn [rbind] in E. injection E as <- <-. eauto. }
  all: unfold ensure_admin, do_bridge_burn, do_bridge_mint, do_swap, add_pool, rbind in E;
    break_match;
    repeat match goal with
    | H : ROk _ = ROk _ |- _ => injection H as <- <- || injection H as <-
    end; auto.
Qed.
