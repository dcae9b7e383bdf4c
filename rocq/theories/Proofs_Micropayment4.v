(** Proofs about the micropayment model, continued: opening, topping up, claim
    liveness, and the closing of all expired channels. *)
From Verif Require Import Base Balances Proofs_Balances Model_Micropayment Spec_Micropayment
  Proofs_Micropayment Proofs_Micropayment2 Proofs_Micropayment3.
From stdpp Require Import gmap.
Open Scope N_scope.

Section proofs.
  Variable cfg : mcfg.
  Variable verify : N -> list N -> list N -> bool.
  Notation mstep := (mstep cfg verify).

  (** A withdrawal that keeps the account alive: when it works and what it does. *)
  Lemma withdraw_keep_spec ed b who v b' :
    v <> 0 -> ed <= free_of b who -> 
    withdraw ed true b who v = Some b' ->
    v <= free_of b who /\ ed <= free_of b who - v /\ frz (acct_of b who) <= free_of b who - v /\
    acct_of b' who = Acct (free_of b who - v) (rsv (acct_of b who)) (frz (acct_of b who)) /\
    (forall w, w <> who -> acct_of b' w = acct_of b w).
  Proof.
    intros Hv He Hw.
    assert (Hne : forall w, w <> who -> acct_of b' w = acct_of b w)
      by (intros w Hn; eapply withdraw_ne; eauto).
    unfold withdraw, free_of in *.
    destruct (N.eqb_spec v 0); [done|].
    destruct (N.ltb_spec (free (acct_of b who)) v); [discriminate|].
    destruct (N.ltb_spec (free (acct_of b who) - v) ed).
    { destruct (N.leb_spec ed (free (acct_of b who))); [simpl in Hw; discriminate|lia]. }
    simpl in Hw. destruct (N.ltb_spec (free (acct_of b who) - v) (frz (acct_of b who))); [discriminate|].
    simplify_eq. repeat split; auto. apply put_acct_eq. simpl. lia.
  Qed.

  Lemma withdraw_keep_ok ed b who v :
    v <= free_of b who -> ed <= free_of b who - v -> frz (acct_of b who) <= free_of b who - v ->
    exists b', withdraw ed true b who v = Some b'.
  Proof.
    unfold withdraw, free_of. intros H1 H2 H3.
    destruct (v =? 0); [eauto|].
    destruct (N.ltb_spec (free (acct_of b who)) v); [lia|].
    destruct (N.ltb_spec (free (acct_of b who) - v) ed); [lia|]. simpl.
    destruct (N.ltb_spec (free (acct_of b who) - v) (frz (acct_of b who))); [lia|]. eauto.
  Qed.

  Lemma open_effect s x client server a d s' ev :
    a <> 0 -> m_ed cfg <= free_of (m_bank s) client ->
    mstep s x client (MOpen server a d) = (s', ROk ev) ->
    client <> server /\ m_chan s !! (client, server) = None /\
    m_chan s' = <[(client, server) := Chan client server a (nonce_get s client server) (x_now x)
                     ((x_now x + d / m_secs cfg) mod 2 ^ 32)]> (m_chan s) /\
    a <= free_of (m_bank s) client /\
    free_of (m_bank s') client = free_of (m_bank s) client - a /\
    m_ed cfg <= free_of (m_bank s') client /\
    frz (acct_of (m_bank s) client) <= free_of (m_bank s') client /\
    (forall w, w <> client -> acct_of (m_bank s') w = acct_of (m_bank s) w) /\
    m_nonce s' = m_nonce s /\ m_sess s' = m_sess s /\ m_slashed s' = m_slashed s.
  Proof.
    intros Ha He Hs. unfold Model_Micropayment.mstep in Hs; simpl in Hs.
    unfold open_channel, chan_get, take_from_account in Hs.
    destruct (m_chan s !! (client, server)) eqn:Ec; [discriminate|].
    destruct (N.eqb_spec client server); [discriminate|].
    destruct (withdraw _ _ _ _ _) as [b|] eqn:Ew; [|discriminate]. simplify_eq. simpl.
    apply withdraw_keep_spec in Ew as (W1 & W2 & W3 & W4 & W5); [|done|done].
    assert (Hfr : free_of b client = free_of (m_bank s) client - a) by (unfold free_of at 1; now rewrite W4).
    rewrite Hfr. repeat split; auto.
  Qed.

  Lemma open_ok s x client server a d :
    m_chan s !! (client, server) = None -> client <> server ->
    a <= free_of (m_bank s) client -> m_ed cfg <= free_of (m_bank s) client - a ->
    frz (acct_of (m_bank s) client) <= free_of (m_bank s) client - a ->
    exists s' ev, mstep s x client (MOpen server a d) = (s', ROk ev).
  Proof.
    intros Hc Hn Ha He Hf. unfold Model_Micropayment.mstep; simpl.
    unfold open_channel, chan_get, take_from_account. rewrite Hc.
    destruct (N.eqb_spec client server); [done|].
    destruct (withdraw_keep_ok (m_ed cfg) (m_bank s) client a Ha He Hf) as [b ->]. eauto.
  Qed.

  Lemma add_effect s x client server a s' ev :
    a <> 0 -> m_ed cfg <= free_of (m_bank s) client -> all_money s < two128 ->
    mstep s x client (MAdd server a) = (s', ROk ev) ->
    exists ch, m_chan s !! (client, server) = Some ch /\
    m_chan s' = <[(client, server) := Chan (c_client ch) (c_server ch) (c_balance ch + a)
                     (c_nonce ch) (c_opened ch) (c_expiration ch)]> (m_chan s) /\
    a <= free_of (m_bank s) client /\
    free_of (m_bank s') client = free_of (m_bank s) client - a /\
    m_ed cfg <= free_of (m_bank s') client /\
    (forall w, w <> client -> acct_of (m_bank s') w = acct_of (m_bank s) w) /\
    m_nonce s' = m_nonce s /\ m_sess s' = m_sess s /\ m_slashed s' = m_slashed s.
  Proof.
    intros Ha He Hf Hs. unfold Model_Micropayment.mstep in Hs; simpl in Hs.
    unfold add_balance, chan_get, take_from_account in Hs.
    destruct (m_chan s !! (client, server)) as [ch|] eqn:Ec; [|discriminate].
    destruct (withdraw _ _ _ _ _) as [b|] eqn:Ew; [|discriminate]. simplify_eq. simpl.
    exists ch. split; [done|].
    rewrite all_money_eq in Hf. pose proof (chan_le_sum s _ _ Ec).
    pose proof (withdraw_money _ _ _ _ _ _ Ew).
    rewrite add128_small by lia.
    apply withdraw_keep_spec in Ew as (W1 & W2 & W3 & W4 & W5); [|done|done].
    assert (Hfr : free_of b client = free_of (m_bank s) client - a) by (unfold free_of at 1; now rewrite W4).
    rewrite Hfr. repeat split; auto.
  Qed.

  Lemma add_ok s x client server a ch :
    m_chan s !! (client, server) = Some ch ->
    a <= free_of (m_bank s) client -> m_ed cfg <= free_of (m_bank s) client - a ->
    frz (acct_of (m_bank s) client) <= free_of (m_bank s) client - a ->
    exists s' ev, mstep s x client (MAdd server a) = (s', ROk ev).
  Proof.
    intros Hc Ha He Hf. unfold Model_Micropayment.mstep; simpl.
    unfold add_balance, chan_get, take_from_account. rewrite Hc.
    destruct (withdraw_keep_ok (m_ed cfg) (m_bank s) client a Ha He Hf) as [b ->]. eauto.
  Qed.

  Lemma claim_ok s x client server k a sg ch :
    fits s -> m_burn cfg <= 100 ->
    m_chan s !! (client, server) = Some ch ->
    x_now x <= c_expiration ch ->
    (m_sess s !! (client, server) = None \/
     exists last, m_sess s !! (client, server) = Some last /\ k = (last + 1) mod 2 ^ 32) ->
    verify client (voucher_bytes server (c_nonce ch) k a) sg = true ->
    a <= c_balance ch ->
    m_ed cfg <= free_of (m_bank s) server -> frz (acct_of (m_bank s) server) <= free_of (m_bank s) server ->
    exists s', mstep s x server (MClaim client k a sg) = (s', ROk [ClaimPayment client server a]).
  Proof.
    intros Hf Hp Hch Hexp Hses Hver Hle Hal Hfr.
    unfold fits in Hf. rewrite all_money_eq in Hf. pose proof (chan_le_sum s _ _ Hch).
    assert (Hfee : fee_of cfg a <= a) by (apply frac_mul_le; [discriminate|exact Hp]).
    unfold Model_Micropayment.mstep; simpl. unfold claim_payment, chan_get. rewrite Hch.
    destruct (N.ltb_spec (c_expiration ch) (x_now x)); [lia|].
    assert (E : match m_sess s !! (client, server) with
                | Some k0 => negb (k =? add32 k0 1) | None => false end = false).
    { destruct Hses as [->|(last & -> & ->)]; [done|]. apply negb_false_iff, N.eqb_refl. }
    rewrite E, Hver. simpl.
    destruct (N.ltb_spec (c_balance ch) a); [lia|].
    match goal with |- context [deposit_into_account cfg ?t server a] =>
      destruct (deposit_into_ok cfg t server a) as [s1 E1] end; simpl; [lia|done|tauto|lia|lia|].
    rewrite E1. simpl. eauto.
  Qed.

  (** Closing by the client: same effect as by the server. *)
  Lemma client_close_effect s x client server ch s' ev :
    fits s -> m_burn cfg <= 100 ->
    m_chan s !! (server, client) = None ->
    m_chan s !! (client, server) = Some ch ->
    m_ed cfg <= c_balance ch \/ m_ed cfg <= free_of (m_bank s) client ->
    mstep s x client (MClose server) = (s', ROk ev) ->
    free_of (m_bank s') client = free_of (m_bank s) client + c_balance ch - fee_of cfg (c_balance ch) /\
    m_slashed s' = m_slashed s + fee_of cfg (c_balance ch) /\
    (forall w, w <> client -> acct_of (m_bank s') w = acct_of (m_bank s) w) /\
    m_chan s' = delete (client, server) (m_chan s) /\
    m_sess s' = delete (client, server) (m_sess s) /\
    m_nonce s' = <[(client, server) := add64 (nonce_get s client server) 1]> (m_nonce s) /\
    ev = [ChannelClosed client server (x_now x)].
  Proof.
    intros Hf Hp Hno Hch Hal Hs. unfold fits in Hf. rewrite all_money_eq in Hf.
    pose proof (chan_le_sum s _ _ Hch) as Hcs.
    unfold Model_Micropayment.mstep in Hs. simpl in Hs. unfold close_channel, chan_get in Hs.
    rewrite Hno, Hch in Hs. destruct (_ || _); [|discriminate].
    destruct (refund_and_close cfg s (x_now x) client server ch) as [r| |] eqn:E; simpl in Hs; try discriminate.
    simplify_eq. apply refund_inv in E as (s1 & E & ->). simpl.
    apply deposit_into_effect in E as E'; [|simpl; lia|exact Hp|exact Hal].
    destruct E' as (H1 & H2 & H3). simpl in H1, H2, H3.
    apply deposit_into_account_inv in E as (b & _ & ->). simpl in *.
    split; [unfold free_of at 1; rewrite H1; done|]. repeat split; auto.
  Qed.

  Lemma client_close_ok s x client server ch :
    fits s -> m_burn cfg <= 100 ->
    m_chan s !! (server, client) = None ->
    m_chan s !! (client, server) = Some ch ->
    c_expiration ch < x_now x \/ 1 <= x_offline x (c_server ch) ->
    m_ed cfg <= free_of (m_bank s) client -> frz (acct_of (m_bank s) client) <= free_of (m_bank s) client ->
    exists s', mstep s x client (MClose server) = (s', ROk [ChannelClosed client server (x_now x)]).
  Proof.
    intros Hf Hp Hno Hch Hw He Hfr. unfold fits in Hf. rewrite all_money_eq in Hf.
    pose proof (chan_le_sum s _ _ Hch) as Hcs.
    assert (Hfee : fee_of cfg (c_balance ch) <= c_balance ch) by (apply frac_mul_le; [discriminate|exact Hp]).
    unfold Model_Micropayment.mstep; simpl. unfold close_channel, chan_get. rewrite Hno, Hch.
    assert (E : (c_expiration ch <? x_now x) || (1 <=? x_offline x (c_server ch)) = true).
    { apply orb_true_iff. rewrite N.ltb_lt, N.leb_le. done. }
    rewrite E. unfold refund_and_close.
    destruct (deposit_into_ok cfg (total_sub s client (c_balance ch)) client (c_balance ch)) as [s1 E1];
      simpl; [lia|done|tauto|lia|lia|].
    rewrite E1. simpl. eauto.
  Qed.

  (** close_expired_channels: which channels remain. *)

  Lemma close_loop_gone now client l : forall s ev s' ev',
    close_loop cfg s now client l ev = ROk (s', ev') ->
    (forall k ch, In (k, ch) l -> k.1 = client) ->
    (forall k, (forall ch, In (k, ch) l -> now <= c_expiration ch) -> m_chan s' !! k = m_chan s !! k) /\
    (forall k ch, In (k, ch) l -> c_expiration ch < now -> m_chan s' !! k = None) /\
    (forall k, m_chan s !! k = None -> m_chan s' !! k = None).
  Proof.
    induction l as [|[k0 ch0] l IH]; intros s ev s' ev' Hl Hin; simpl in Hl.
    { simplify_eq. split; [done|]. split; [intros k ch []|done]. }
    assert (Hk0 : k0.1 = client) by (apply (Hin k0 ch0); now left).
    assert (Hin' : forall k ch, In (k, ch) l -> k.1 = client) by (intros k ch H; apply (Hin k ch); now right).
    assert (Ek0 : (client, k0.2) = k0) by (destruct k0; simpl in *; now subst).
    destruct (N.ltb_spec (c_expiration ch0) now) as [He|He].
    - destruct (refund_and_close cfg s now client k0.2 ch0) as [r| |] eqn:E; simpl in Hl; try discriminate.
      apply refund_inv in E as (s1 & E & ->). simpl in Hl.
      apply deposit_into_account_inv in E as (b & _ & ->).
      apply IH in Hl as (I1 & I2 & I3); [|done]. simpl in *. rewrite Ek0 in *.
      split; [|split].
      + intros k Hk. rewrite I1 by (intros ch H; apply Hk; now right).
        rewrite lookup_delete_ne; [done|]. intros <-.
        specialize (Hk ch0 (or_introl eq_refl)). lia.
      + intros k ch [[= <- <-]|H] Hc; [|eauto]. apply I3. apply lookup_delete.
      + intros k Hk. apply I3. destruct (decide (k0 = k)) as [<-|]; [apply lookup_delete|now rewrite lookup_delete_ne].
    - apply IH in Hl as (I1 & I2 & I3); [|done].
      split; [|split].
      + intros k Hk. apply I1. intros ch H. apply Hk. now right.
      + intros k ch [[= <- <-]|H] Hc; [lia|eauto].
      + done.
  Qed.

  Lemma close_expired_effect s x client s' ev :
    mstep s x client MCloseExpired = (s', ROk ev) ->
    forall c v, m_chan s' !! (c, v) =
      match m_chan s !! (c, v) with
      | Some ch => if (c =? client) && (c_expiration ch <? x_now x) then None else Some ch
      | None => None
      end.
  Proof.
    intros Hs c v. unfold Model_Micropayment.mstep in Hs; simpl in Hs.
    unfold close_expired_channels in Hs.
    destruct (close_loop _ _ _ _ _ _) as [[s1 ev1]| |] eqn:E; try discriminate. simplify_eq.
    apply close_loop_gone in E as (I1 & I2 & I3).
    2:{ intros k ch H. now apply channels_of_spec in H. }
    destruct (m_chan s !! (c, v)) as [ch|] eqn:Ec; [|now apply I3].
    destruct (N.eqb_spec c client) as [->|Hn]; simpl.
    - destruct (N.ltb_spec (c_expiration ch) (x_now x)).
      + apply (I2 _ ch); [|done]. now apply channels_of_spec.
      + rewrite I1; [done|]. intros ch' H'. apply channels_of_spec in H' as [_ H']. congruence.
    - rewrite I1; [done|]. intros ch' H'. apply channels_of_spec in H' as [H' _]. simpl in H'. congruence.
  Qed.
End proofs.
