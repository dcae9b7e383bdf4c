(** When a payout goes through, and what it leaves (C67, C68). *)
From Verif Require Import Base Balances Proofs_Balances Model_Micropayment Spec_Micropayment
  Proofs_Micropayment Proofs_Micropayment2 Proofs_Micropayment3 Proofs_Micropayment4.
From stdpp Require Import gmap.
Open Scope N_scope.

Section proofs.
  Variable cfg : mcfg.
  Variable verify : N -> list N -> list N -> bool.

  Lemma acct_of_delete b who x : acct_of (Bank (delete who (accts b)) x) who = acct0.
  Proof. unfold acct_of. simpl. now rewrite lookup_delete. Qed.
  Lemma acct_of_insert m who x a : acct_of (Bank (<[who := a]> m) x) who = a.
  Proof. unfold acct_of. simpl. now rewrite lookup_insert. Qed.

  (** The account and the destroyed money after a payout, and whether it goes through. *)
  Lemma payout_iff s who a :
    money (m_bank s) + a < two128 -> m_burn cfg <= 100 ->
    (exists s', deposit_into_account cfg s who a = ROk s') <-> payable cfg (m_bank s) who a.
  Proof.
    intros Hm Hp. unfold deposit_into_account, payable. fold (fee_of cfg a).
    assert (Hfee : fee_of cfg a <= a) by (apply frac_mul_le; [discriminate|exact Hp]).
    unfold withdraw. destruct (N.eqb_spec (fee_of cfg a) 0) as [Hz|Hz].
    { split; eauto. }
    pose proof (free_le_money (m_bank s) who) as Hfm. unfold free_of in Hfm.
    unfold deposit_creating. destruct (N.eqb_spec a 0); [lia|].
    set (ac := acct_of (m_bank s) who) in *.
    destruct (is_new ac && (a <? m_ed cfg)) eqn:En.
    { apply andb_true_iff in En as [E1 E2]. unfold is_new in E1.
      rewrite !andb_true_iff, !N.eqb_eq in E1. apply N.ltb_lt in E2. destruct E1 as [[E1 E3] E4].
      change (acct_of (Bank (accts (m_bank s)) (lost (m_bank s) + a)) who) with ac.
      rewrite E1. destruct (N.ltb_spec 0 (fee_of cfg a)); [|lia].
      split; [intros [? ?]; discriminate|]. intros [?|[_ [?|[? ?]]]]; lia. }
    destruct (N.leb_spec two128 (free ac + a)); [lia|].
    unfold put. simpl.
    destruct ((free ac + a <? m_ed cfg) && (rsv ac =? 0)) eqn:Ed.
    { apply andb_true_iff in Ed as [E1 E2]. apply N.ltb_lt in E1. apply N.eqb_eq in E2.
      rewrite acct_of_delete. simpl.
      destruct (N.ltb_spec 0 (fee_of cfg a)); [|lia].
      split; [intros [? ?]; discriminate|]. intros [?|[_ [?|[? ?]]]]; lia. }
    rewrite acct_of_insert. simpl.
    destruct (N.ltb_spec (free ac + a) (fee_of cfg a)); [lia|].
    apply andb_false_iff in Ed. rewrite N.ltb_ge, N.eqb_neq in Ed.
    destruct (N.ltb_spec (free ac + a - fee_of cfg a) (m_ed cfg)) as [H1|H1];
      destruct (N.leb_spec (m_ed cfg) (free ac + a)) as [H2|H2]; simpl;
      try (destruct (N.ltb_spec (free ac + a - fee_of cfg a) (frz ac)));
      (split; [intros [? ?]; first [discriminate|right; lia]
              |intros [?|[? [?|[? ?]]]]; first [lia|eauto]]).
  Qed.

  Lemma payout_value s who a s' :
    money (m_bank s) + a < two128 -> m_burn cfg <= 100 ->
    deposit_into_account cfg s who a = ROk s' ->
    exists dust,
      free_of (m_bank s') who + fee_of cfg a + dust = free_of (m_bank s) who + a /\
      lost (m_bank s') = lost (m_bank s) + dust /\
      (dust = 0 \/ dust < m_ed cfg /\ fee_of cfg a = 0) /\
      m_slashed s' = m_slashed s + fee_of cfg a.
  Proof.
    intros Hm Hp. unfold deposit_into_account. fold (fee_of cfg a).
    assert (Hfee : fee_of cfg a <= a) by (apply frac_mul_le; [discriminate|exact Hp]).
    pose proof (free_le_money (m_bank s) who) as Hfm. unfold free_of in *.
    unfold withdraw. destruct (N.eqb_spec (fee_of cfg a) 0) as [Hz|Hz].
    { intros [= <-]. simpl. rewrite Hz. unfold deposit_creating.
      destruct (N.eqb_spec a 0) as [->|Ha]. { exists 0. lia. }
      set (ac := acct_of (m_bank s) who) in *.
      destruct (is_new ac && (a <? m_ed cfg)) eqn:En.
      { apply andb_true_iff in En as [_ E2]. apply N.ltb_lt in E2.
        change (acct_of (Bank (accts (m_bank s)) (lost (m_bank s) + a)) who) with ac. simpl.
        exists a. lia. }
      destruct (N.leb_spec two128 (free ac + a)); [lia|].
      unfold put. simpl. destruct ((free ac + a <? m_ed cfg) && (rsv ac =? 0)) eqn:Ed.
      - apply andb_true_iff in Ed as [E1 _]. apply N.ltb_lt in E1.
        rewrite acct_of_delete. simpl. exists (free ac + a). lia.
      - rewrite acct_of_insert. simpl. exists 0. lia. }
    unfold deposit_creating. destruct (N.eqb_spec a 0); [lia|].
    set (ac := acct_of (m_bank s) who) in *.
    destruct (is_new ac && (a <? m_ed cfg)) eqn:En.
    { apply andb_true_iff in En as [E1 E2]. unfold is_new in E1.
      rewrite !andb_true_iff, !N.eqb_eq in E1. destruct E1 as [[E1 E3] E4].
      change (acct_of (Bank (accts (m_bank s)) (lost (m_bank s) + a)) who) with ac.
      rewrite E1. destruct (N.ltb_spec 0 (fee_of cfg a)); [discriminate|lia]. }
    destruct (N.leb_spec two128 (free ac + a)); [lia|].
    unfold put. simpl.
    destruct ((free ac + a <? m_ed cfg) && (rsv ac =? 0)) eqn:Ed.
    { rewrite acct_of_delete. simpl.
      destruct (N.ltb_spec 0 (fee_of cfg a)); [discriminate|lia]. }
    rewrite acct_of_insert. simpl.
    destruct (N.ltb_spec (free ac + a) (fee_of cfg a)); [lia|].
    destruct ((free ac + a - fee_of cfg a <? m_ed cfg) && (m_ed cfg <=? free ac + a)) eqn:Ek; [discriminate|].
    destruct (N.ltb_spec (free ac + a - fee_of cfg a) (frz ac)); [discriminate|].
    intros [= <-]. simpl.
    destruct ((free ac + a - fee_of cfg a <? m_ed cfg) && (rsv ac =? 0)) eqn:E2.
    - exfalso. apply andb_true_iff in E2 as [E2 E3]. rewrite E2 in Ek. rewrite E3 in Ed.
      simpl in Ek. apply N.leb_gt in Ek. apply N.ltb_lt in Ek. rewrite Ek in Ed. discriminate.
    - rewrite acct_of_insert. simpl. exists 0. lia.
  Qed.

  Lemma close_view s x client server ch who acc :
    m_chan s !! (client, server) = Some ch ->
    ((who = server /\ acc = client) \/
     (who = client /\ acc = server /\ m_chan s !! (server, client) = None /\
      (c_expiration ch < x_now x \/ 1 <= x_offline x (c_server ch)))) ->
    mexec cfg verify s x who (MClose acc) =
    (r <-? refund_and_close cfg s (x_now x) client server ch ; ROk (fst r, [snd r])).
  Proof.
    intros Hch [[-> ->]|(-> & -> & Hno & Hw)]; simpl; unfold close_channel, chan_get.
    - now rewrite Hch.
    - rewrite Hno, Hch.
      assert (E : (c_expiration ch <? x_now x) || (1 <=? x_offline x (c_server ch)) = true).
      { apply orb_true_iff. rewrite N.ltb_lt, N.leb_le. done. }
      now rewrite E.
  Qed.

  (** Who may close: the server at any time; the client after expiry or when the
      server has been offline, if the server holds no channel towards it. *)
  Lemma close_iff s x client server ch who acc :
    all_money s < two128 -> m_burn cfg <= 100 ->
    m_chan s !! (client, server) = Some ch ->
    ((who = server /\ acc = client) \/
     (who = client /\ acc = server /\ m_chan s !! (server, client) = None /\
      (c_expiration ch < x_now x \/ 1 <= x_offline x (c_server ch)))) ->
    (exists s', mstep cfg verify s x who (MClose acc) = (s', ROk [ChannelClosed client server (x_now x)])) <->
    payable cfg (m_bank s) client (c_balance ch).
  Proof.
    intros Hf Hp Hch Hw. rewrite all_money_eq in Hf.
    pose proof (chan_le_sum s _ _ Hch) as Hcs.
    unfold mstep. rewrite (close_view s x client server ch who acc Hch Hw).
    unfold refund_and_close.
    pose proof (payout_iff (total_sub s client (c_balance ch)) client (c_balance ch)) as P.
    simpl in P. specialize (P ltac:(lia) Hp). rewrite <- P.
    destruct (deposit_into_account _ _ _ _) as [s1| |]; simpl; split; intros [s' H]; try discriminate; eauto.
  Qed.

  Lemma close_value s x client server ch who acc s' ev :
    all_money s < two128 -> m_burn cfg <= 100 ->
    m_chan s !! (client, server) = Some ch ->
    ((who = server /\ acc = client) \/
     (who = client /\ acc = server /\ m_chan s !! (server, client) = None)) ->
    mstep cfg verify s x who (MClose acc) = (s', ROk ev) ->
    exists dust,
      free_of (m_bank s') client + fee_of cfg (c_balance ch) + dust =
        free_of (m_bank s) client + c_balance ch /\
      lost (m_bank s') = lost (m_bank s) + dust /\
      (dust = 0 \/ dust < m_ed cfg /\ fee_of cfg (c_balance ch) = 0) /\
      m_slashed s' = m_slashed s + fee_of cfg (c_balance ch).
  Proof.
    intros Hf Hp Hch Hw Hs. rewrite all_money_eq in Hf.
    pose proof (chan_le_sum s _ _ Hch) as Hcs.
    assert (E : mexec cfg verify s x who (MClose acc) =
      (r <-? refund_and_close cfg s (x_now x) client server ch ; ROk (fst r, [snd r]))).
    { apply close_view; [done|]. destruct Hw as [?|(-> & -> & Hno)]; [now left|right].
      split_and!; try done.
      unfold mstep in Hs. simpl in Hs. unfold close_channel, chan_get in Hs. rewrite Hno, Hch in Hs.
      destruct (_ || _) eqn:E; [|discriminate].
      apply orb_true_iff in E. rewrite N.ltb_lt, N.leb_le in E. done. }
    unfold mstep in Hs. rewrite E in Hs. unfold refund_and_close in Hs.
    pose proof (payout_value (total_sub s client (c_balance ch)) client (c_balance ch)) as P.
    simpl in P.
    destruct (deposit_into_account _ _ _ _) as [s1| |]; simpl in Hs; try discriminate.
    injection Hs as <- <-. simpl. apply P; [lia|done|done].
  Qed.
End proofs.
