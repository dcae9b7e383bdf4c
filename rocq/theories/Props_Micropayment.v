(** Properties C01-C10 and C67-C69 (pallets/micropayment). *)
From Verif Require Import Base Balances Proofs_Balances Model_Micropayment Spec_Micropayment
  Proofs_Micropayment Proofs_Micropayment2 Proofs_Micropayment3
  Proofs_Micropayment4 Proofs_Micropayment5.
From stdpp Require Import gmap.
Open Scope N_scope.

(** A concrete world used by the examples: existential deposit 5, burn 10%,
    accounts 1 and 2 with 1000 each, and a "signature" that repeats the message. *)
Definition xcfg : mcfg := MCfg 5 5 10 (fun k => k).
Definition xverify (c : N) (msg sg : list N) : bool := bool_decide (msg = sg).
Definition xbank : bank := Bank {[ 1 := Acct 1000 0 0; 2 := Acct 1000 50 0 ]} 0.
Definition xctx (now : N) : mctx := MCtx now (fun _ => 0).
Definition xsign (v n k a : N) : list N := voucher_bytes v n k a.
Definition xhist : list mop :=
  [ (xctx 10, 1, MOpen 2 100 5000);
    (xctx 11, 1, MAdd 2 40);
    (xctx 12, 2, MClaim 1 7 30 (xsign 2 0 7 30));
    (xctx 13, 2, MClaim 1 8 20 (xsign 2 0 8 20)) ].
Definition xstate : mstate := mrun xcfg xverify (minit xbank) xhist.

(** C01. Money in accounts, channels, fees and named dust is constant over
    every history. *)
Theorem C01_conservation :
  forall cfg verify b h,
    money b < two128 ->
    all_money (mrun cfg verify (minit b) h) = all_money (minit b).
Proof.
  intros cfg verify b h Hm. apply conservation. unfold fits. now rewrite all_money_init.
Qed.
Example C01_example :
  money xbank < two128 /\ all_money xstate = 2050 /\ sum_channels xstate = 90 /\
  m_slashed xstate = 5.
Proof. vm_compute. auto. Qed.
Print Assumptions C01_conservation.

(** C01, second half: what is destroyed is at most two existential deposits per
    emitted event (dust of the two ends of a transfer). *)
Theorem C01_loss_bound :
  forall cfg verify b h,
    money b < two128 ->
    let s := mrun cfg verify (minit b) h in
    lost b <= lost (m_bank s) <=
    lost b + 2 * m_ed cfg * N.of_nat (length (mevents cfg verify (minit b) h)).
Proof.
  intros cfg verify b h Hm. replace (2 * m_ed cfg) with (m_ed cfg + m_ed cfg) by lia.
  exact (run_lost cfg verify h (minit b)
    ltac:(unfold fits; now rewrite all_money_init)).
Qed.
Example C01_loss_example :
  (* client 1 has 8, locks 3 (below the existential deposit 5)... and is emptied *)
  let b := Bank {[ 1 := Acct 8 0 0; 2 := Acct 1000 0 0 ]} 0 in
  let s := mrun xcfg xverify (minit b) [ (xctx 1, 1, MOpen 2 3 5) ] in
  free_of (m_bank s) 1 = 5 /\ lost (m_bank s) = 0.
Proof. vm_compute. auto. Qed.
Print Assumptions C01_loss_bound.

(** C02. The recorded total is the sum of the client's open channels. *)
Theorem C02_totals :
  forall cfg verify b h client,
    money b < two128 ->
    recorded_total (mrun cfg verify (minit b) h) client =
    sum_channels_of (mrun cfg verify (minit b) h) client.
Proof.
  intros cfg verify b h client Hm. apply totals_run; [|apply totals_init].
  unfold fits. now rewrite all_money_init.
Qed.
Example C02_example :
  recorded_total xstate 1 = 90 /\ sum_channels_of xstate 1 = 90 /\ recorded_total xstate 2 = 0.
Proof. vm_compute. auto. Qed.
Print Assumptions C02_totals.

(** C03. Two payments for the same client, server, channel nonce and session are
    at least 2^32 operations apart. *)
Theorem C03_no_replay :
  forall cfg verify b h1 o1 h2 o2 client server nonce session,
    session < two32 ->
    let s1 := mrun cfg verify (minit b) h1 in
    let s2 := mrun cfg verify (minit b) (h1 ++ o1 :: h2) in
    pays cfg verify s1 o1 client server nonce session ->
    pays cfg verify s2 o2 client server nonce session ->
    two32 <= N.of_nat (S (length h2)).
Proof.
  intros cfg verify b h1 o1 h2 o2 c v n k Hk s1 s2 H1 H2. unfold s2 in H2.
  rewrite mrun_app in H2. exact (no_replay cfg verify b h1 o1 h2 o2 c v n k Hk H1 H2).
Qed.
(** The hypotheses are met: a claim pays; the same voucher is refused next. *)
Example C03_example :
  let s := mrun xcfg xverify (minit xbank) (take 2 xhist) in
  pays xcfg xverify s (xctx 12, 2, MClaim 1 7 30 (xsign 2 0 7 30)) 1 2 0 7 /\
  snd (mstep xcfg xverify xstate (xctx 14) 2 (MClaim 1 7 30 (xsign 2 0 7 30))) = RErr SessionError.
Proof.
  split; [|vm_compute; reflexivity].
  exists 30, (xsign 2 0 7 30), (Chan 1 2 140 0 10 1010). vm_compute. auto.
Qed.
Print Assumptions C03_no_replay.

(** C04. An account's free balance grows only when one of its own channels is
    closed (refund), when somebody transfers to it, or when the account itself claims with a signature that
    verifies under the client's key for exactly (this account, the channel's
    nonce, this session, this amount). *)
Theorem C04_signature_needed :
  forall cfg verify s x caller call account,
    let r := mstep cfg verify s x caller call in
    free_of (m_bank s) account < free_of (m_bank (fst r)) account ->
    exists ev, snd r = ROk ev /\
    ((exists server, In (ChannelClosed account server (x_now x)) ev) \/
     (exists amount, call = MTransfer account amount) \/
     (caller = account /\ exists client session amount sig ch,
        call = MClaim client session amount sig /\
        In (ClaimPayment client account amount) ev /\
        m_chan s !! (client, account) = Some ch /\
        verify client (voucher_bytes account (c_nonce ch) session amount) sig = true)).
Proof. exact mstep_credit. Qed.
Example C04_example :
  let s := mrun xcfg xverify (minit xbank) (take 2 xhist) in
  let r := mstep xcfg xverify s (xctx 12) 2 (MClaim 1 7 30 (xsign 2 0 7 30)) in
  free_of (m_bank s) 2 = 1000 /\ free_of (m_bank (fst r)) 2 = 1027 /\
  snd (mstep xcfg xverify s (xctx 12) 2 (MClaim 1 7 31 (xsign 2 0 7 30))) = RErr InvalidSignature.
Proof. vm_compute. auto. Qed.
Print Assumptions C04_signature_needed.

(** C05. Successive paid claims of one channel use consecutive sessions. *)
Theorem C05_consecutive_sessions :
  forall cfg verify s o1 h o2 client server n1 k1 n2 k2,
    pays cfg verify s o1 client server n1 k1 ->
    (forall a, ~ In (ClaimPayment client server a) (mevents cfg verify (mdo cfg verify s o1) h)) ->
    (forall t, ~ In (ChannelClosed client server t) (mevents cfg verify (mdo cfg verify s o1) h)) ->
    pays cfg verify (mrun cfg verify s (o1 :: h)) o2 client server n2 k2 ->
    k2 = (k1 + 1) mod 2 ^ 32 /\ n2 = n1.
Proof. exact consecutive. Qed.
Example C05_example :
  let s := mrun xcfg xverify (minit xbank) (take 2 xhist) in
  pays xcfg xverify s (xctx 12, 2, MClaim 1 7 30 (xsign 2 0 7 30)) 1 2 0 7 /\
  pays xcfg xverify (mrun xcfg xverify (minit xbank) (take 3 xhist))
       (xctx 13, 2, MClaim 1 8 20 (xsign 2 0 8 20)) 1 2 0 8.
Proof.
  split.
  - exists 30, (xsign 2 0 7 30), (Chan 1 2 140 0 10 1010). vm_compute. auto.
  - exists 20, (xsign 2 0 8 20), (Chan 1 2 110 0 10 1010). vm_compute. auto.
Qed.
Print Assumptions C05_consecutive_sessions.

(** C06. All the ways in which a channel entry can change in one operation. *)
Theorem C06_channel_authority :
  forall cfg verify s x caller call client server,
    let s' := fst (mstep cfg verify s x caller call) in
    m_chan s' !! (client, server) <> m_chan s !! (client, server) ->
    (* opened by the client *)
    (caller = client /\ exists a d, call = MOpen server a d /\ m_chan s !! (client, server) = None) \/
    (* topped up by the client *)
    (caller = client /\ exists a ch ch', call = MAdd server a /\
       m_chan s !! (client, server) = Some ch /\ m_chan s' !! (client, server) = Some ch' /\
       c_balance ch' = add128 (c_balance ch) a) \/
    (* paid out to the server against a voucher, before expiry *)
    (caller = server /\ exists k a sg ch ch', call = MClaim client k a sg /\
       m_chan s !! (client, server) = Some ch /\ m_chan s' !! (client, server) = Some ch' /\
       x_now x <= c_expiration ch /\ a <= c_balance ch /\ c_balance ch' = c_balance ch - a /\
       verify client (voucher_bytes server (c_nonce ch) k a) sg = true) \/
    (* closed: by the server at any time, by a server claim after expiry, by the
       client after expiry, or by the client when the server is offline *)
    (exists ch, m_chan s !! (client, server) = Some ch /\ m_chan s' !! (client, server) = None /\
       ((caller = server /\ call = MClose client) \/
        (caller = server /\ (exists k a sg, call = MClaim client k a sg) /\ c_expiration ch < x_now x) \/
        (caller = client /\ (call = MCloseExpired \/ call = MClose server) /\ c_expiration ch < x_now x) \/
        (caller = client /\ call = MClose server /\ 1 <= x_offline x (c_server ch)))).
Proof. exact mstep_chan_frame. Qed.
Example C06_example :
  (* before expiry, server online: the client cannot close; later it can *)
  snd (mstep xcfg xverify xstate (xctx 1010) 1 (MClose 2)) = RErr UnexpiredChannelCannotBeClosedBySender /\
  snd (mstep xcfg xverify xstate (xctx 1011) 1 (MClose 2)) = ROk [ChannelClosed 1 2 1011] /\
  snd (mstep xcfg xverify xstate (xctx 1011) 1 MCloseExpired) = ROk [ChannelClosed 1 2 1011] /\
  snd (mstep xcfg xverify xstate (xctx 20) 2 (MClose 1)) = ROk [ChannelClosed 1 2 20].
Proof. vm_compute. auto. Qed.
Print Assumptions C06_channel_authority.

(** C06, stored ends: in every reachable state a channel's stored server and
    client are its key, so the offline test above is about the right server. *)
Theorem C06_stored_ends :
  forall cfg verify b h client server ch,
    m_chan (mrun cfg verify (minit b) h) !! (client, server) = Some ch ->
    c_client ch = client /\ c_server ch = server.
Proof.
  intros cfg verify b h c v ch H. destruct (nonces_run cfg verify b h) as (H1 & _).
  apply H1 in H. tauto.
Qed.
Example C06_stored_example : m_chan xstate !! (1, 2) = Some (Chan 1 2 90 0 10 1010).
Proof. vm_compute. reflexivity. Qed.
Print Assumptions C06_stored_ends.

(** C07. For every channel: balance plus what the events say was paid equals
    what the events say was locked since it was opened. *)
Theorem C07_books :
  forall cfg verify b h client server,
    money b < two128 ->
    match channel_book client server (mevents cfg verify (minit b) h),
          m_chan (mrun cfg verify (minit b) h) !! (client, server) with
    | None, None => True
    | Some (locked, paid), Some ch => c_balance ch + paid = locked
    | _, _ => False
    end.
Proof. exact books. Qed.
Example C07_example :
  channel_book 1 2 (mevents xcfg xverify (minit xbank) xhist) = Some (140, 50).
Proof. vm_compute. reflexivity. Qed.
Print Assumptions C07_books.

(** C08 is false: a voucher above the balance pays nothing and leaves the channel
    open, because the error returned after the payment undoes it. *)
Theorem C08_overclaim_refuted :
  exists cfg verify s x client server session amount sig ch,
    (exists b h, s = mrun cfg verify (minit b) h) /\
    m_chan s !! (client, server) = Some ch /\
    x_now x <= c_expiration ch /\ 0 < c_balance ch < amount /\
    verify client (voucher_bytes server (c_nonce ch) session amount) sig = true /\
    let s' := fst (mstep cfg verify s x server (MClaim client session amount sig)) in
    free_of (m_bank s') server = free_of (m_bank s) server /\
    m_chan s' !! (client, server) = Some ch.
Proof.
  exists xcfg, xverify, xstate, (xctx 20), 1, 2, 9, 91, (xsign 2 0 9 91), (Chan 1 2 90 0 10 1010).
  split; [exists xbank, xhist; reflexivity|]. vm_compute. repeat split; discriminate.
Qed.
Print Assumptions C08_overclaim_refuted.

(** What the code does instead, for every state and voucher. *)
Theorem C08_overclaim_is_noop :
  forall cfg verify s x server client session amount sig ch,
    m_chan s !! (client, server) = Some ch ->
    x_now x <= c_expiration ch -> c_balance ch < amount ->
    fst (mstep cfg verify s x server (MClaim client session amount sig)) = s /\
    exists e, snd (mstep cfg verify s x server (MClaim client session amount sig)) = RErr e.
Proof. exact claim_over. Qed.
Example C08_example :
  snd (mstep xcfg xverify xstate (xctx 20) 2 (MClaim 1 9 91 (xsign 2 0 9 91))) = RErr NotEnoughBalance.
Proof. vm_compute. reflexivity. Qed.
Print Assumptions C08_overclaim_is_noop.

(** C09. Exact effect of a close by the server, when the channel balance reaches
    the existential deposit or the client's account is alive. *)
Theorem C09_close_effect :
  forall cfg verify s x client server ch s' ev,
    all_money s < two128 -> m_burn cfg <= 100 ->
    m_chan s !! (client, server) = Some ch ->
    m_ed cfg <= c_balance ch \/ m_ed cfg <= free_of (m_bank s) client ->
    mstep cfg verify s x server (MClose client) = (s', ROk ev) ->
    free_of (m_bank s') client = free_of (m_bank s) client + c_balance ch - fee_of cfg (c_balance ch) /\
    m_slashed s' = m_slashed s + fee_of cfg (c_balance ch) /\
    (forall w, w <> client -> acct_of (m_bank s') w = acct_of (m_bank s) w) /\
    m_chan s' = delete (client, server) (m_chan s) /\
    m_sess s' = delete (client, server) (m_sess s) /\
    m_nonce s' = <[(client, server) := add64 (nonce_get s client server) 1]> (m_nonce s) /\
    ev = [ChannelClosed client server (x_now x)].
Proof. exact server_close_effect. Qed.
Example C09_example :
  let r := mstep xcfg xverify xstate (xctx 20) 2 (MClose 1) in
  free_of (m_bank xstate) 1 = 860 /\ free_of (m_bank (fst r)) 1 = 941 /\
  m_slashed (fst r) = 14 /\ nonce_get (fst r) 1 2 = 1.
Proof. vm_compute. auto. Qed.
Print Assumptions C09_close_effect.

(** C09, liveness: the close succeeds when the client's account ends above the
    existential deposit and its locks. *)
Theorem C09_close_succeeds :
  forall cfg verify s x client server ch,
    all_money s < two128 -> m_burn cfg <= 100 ->
    m_chan s !! (client, server) = Some ch ->
    m_ed cfg <= c_balance ch \/ m_ed cfg <= free_of (m_bank s) client ->
    m_ed cfg <= free_of (m_bank s) client + c_balance ch - fee_of cfg (c_balance ch) ->
    frz (acct_of (m_bank s) client) <= free_of (m_bank s) client + c_balance ch - fee_of cfg (c_balance ch) ->
    exists s', mstep cfg verify s x server (MClose client) =
               (s', ROk [ChannelClosed client server (x_now x)]).
Proof. exact server_close_ok. Qed.
Example C09_succeeds_example :
  m_ed xcfg <= free_of (m_bank xstate) 1 /\ frz (acct_of (m_bank xstate) 1) = 0 /\
  all_money xstate < two128.
Proof. vm_compute. repeat split; discriminate. Qed.
Print Assumptions C09_close_succeeds.

(** C09, claims: exact effect of a paid claim. *)
Theorem C09_claim_effect :
  forall cfg verify s x client server k a sg ch s',
    all_money s < two128 -> m_burn cfg <= 100 ->
    m_chan s !! (client, server) = Some ch ->
    m_ed cfg <= a \/ m_ed cfg <= free_of (m_bank s) server ->
    mstep cfg verify s x server (MClaim client k a sg) = (s', ROk [ClaimPayment client server a]) ->
    free_of (m_bank s') server = free_of (m_bank s) server + a - fee_of cfg a /\
    m_slashed s' = m_slashed s + fee_of cfg a /\
    (forall w, w <> server -> acct_of (m_bank s') w = acct_of (m_bank s) w) /\
    m_chan s' = <[(client, server) := Chan (c_client ch) (c_server ch) (c_balance ch - a)
                    (c_nonce ch) (c_opened ch) (c_expiration ch)]> (m_chan s) /\
    a <= c_balance ch /\
    m_sess s' !! (client, server) = Some k /\ m_nonce s' = m_nonce s.
Proof. exact claim_effect. Qed.
Example C09_claim_example :
  let r := mstep xcfg xverify xstate (xctx 20) 2 (MClaim 1 9 45 (xsign 2 0 9 45)) in
  snd r = ROk [ClaimPayment 1 2 45] /\ free_of (m_bank (fst r)) 2 = free_of (m_bank xstate) 2 + 41 /\
  m_slashed (fst r) = 9.
Proof. vm_compute. auto. Qed.
Print Assumptions C09_claim_effect.

(** C09, for a close by the client (when no channel exists in the other
    direction, which would be closed instead). *)
Theorem C09_client_close_effect :
  forall cfg verify s x client server ch s' ev,
    all_money s < two128 -> m_burn cfg <= 100 ->
    m_chan s !! (server, client) = None ->
    m_chan s !! (client, server) = Some ch ->
    m_ed cfg <= c_balance ch \/ m_ed cfg <= free_of (m_bank s) client ->
    mstep cfg verify s x client (MClose server) = (s', ROk ev) ->
    free_of (m_bank s') client = free_of (m_bank s) client + c_balance ch - fee_of cfg (c_balance ch) /\
    m_slashed s' = m_slashed s + fee_of cfg (c_balance ch) /\
    (forall w, w <> client -> acct_of (m_bank s') w = acct_of (m_bank s) w) /\
    m_chan s' = delete (client, server) (m_chan s) /\
    m_sess s' = delete (client, server) (m_sess s) /\
    m_nonce s' = <[(client, server) := add64 (nonce_get s client server) 1]> (m_nonce s) /\
    ev = [ChannelClosed client server (x_now x)].
Proof. exact client_close_effect. Qed.
Theorem C09_client_close_succeeds :
  forall cfg verify s x client server ch,
    all_money s < two128 -> m_burn cfg <= 100 ->
    m_chan s !! (server, client) = None ->
    m_chan s !! (client, server) = Some ch ->
    c_expiration ch < x_now x \/ 1 <= x_offline x (c_server ch) ->
    m_ed cfg <= free_of (m_bank s) client -> frz (acct_of (m_bank s) client) <= free_of (m_bank s) client ->
    exists s', mstep cfg verify s x client (MClose server) =
               (s', ROk [ChannelClosed client server (x_now x)]).
Proof. exact client_close_ok. Qed.
Example C09_client_example :
  m_chan xstate !! (2, 1) = None /\
  free_of (m_bank (fst (mstep xcfg xverify xstate (xctx 1011) 1 (MClose 2)))) 1 = 941 /\
  snd (mstep xcfg xverify xstate (MCtx 20 (fun _ => 1)) 1 (MClose 2)) = ROk [ChannelClosed 1 2 20].
Proof. vm_compute. auto. Qed.
Print Assumptions C09_client_close_effect.
Print Assumptions C09_client_close_succeeds.

(** C09, liveness of claims: a valid voucher within the balance is paid. *)
Theorem C09_claim_succeeds :
  forall cfg verify s x client server k a sg ch,
    all_money s < two128 -> m_burn cfg <= 100 ->
    m_chan s !! (client, server) = Some ch ->
    x_now x <= c_expiration ch ->
    (m_sess s !! (client, server) = None \/
     exists last, m_sess s !! (client, server) = Some last /\ k = (last + 1) mod 2 ^ 32) ->
    verify client (voucher_bytes server (c_nonce ch) k a) sg = true ->
    a <= c_balance ch ->
    m_ed cfg <= free_of (m_bank s) server -> frz (acct_of (m_bank s) server) <= free_of (m_bank s) server ->
    exists s', mstep cfg verify s x server (MClaim client k a sg) =
               (s', ROk [ClaimPayment client server a]).
Proof. exact claim_ok. Qed.
Example C09_claim_succeeds_example :
  snd (mstep xcfg xverify xstate (xctx 1010) 2 (MClaim 1 9 90 (xsign 2 0 9 90))) = ROk [ClaimPayment 1 2 90].
Proof. vm_compute. reflexivity. Qed.
Print Assumptions C09_claim_succeeds.

(** C09, closing all expired channels: exactly the caller's expired channels go. *)
Theorem C09_close_expired_effect :
  forall cfg verify s x client s' ev,
    mstep cfg verify s x client MCloseExpired = (s', ROk ev) ->
    forall c v, m_chan s' !! (c, v) =
      match m_chan s !! (c, v) with
      | Some ch => if (c =? client) && (c_expiration ch <? x_now x) then None else Some ch
      | None => None
      end.
Proof. exact close_expired_effect. Qed.
Example C09_close_expired_example :
  let b := Bank {[ 1 := Acct 1000 0 0 ]} 0 in
  let s := mrun xcfg xverify (minit b)
             [ (xctx 10, 1, MOpen 2 100 50); (xctx 10, 1, MOpen 3 100 500); (xctx 10, 1, MOpen 4 100 50) ] in
  snd (mstep xcfg xverify s (xctx 21) 1 MCloseExpired) = ROk [ChannelClosed 1 2 21; ChannelClosed 1 4 21].
Proof. vm_compute. reflexivity. Qed.
Print Assumptions C09_close_expired_effect.

(** C10. The signed bytes determine the voucher. *)
Theorem C10_voucher_bytes_injective :
  forall server nonce session amount server' nonce' session' amount',
    server < 2 ^ 256 -> server' < 2 ^ 256 -> nonce < 2 ^ 64 -> nonce' < 2 ^ 64 ->
    session < 2 ^ 32 -> session' < 2 ^ 32 -> amount < 2 ^ 128 -> amount' < 2 ^ 128 ->
    voucher_bytes server nonce session amount = voucher_bytes server' nonce' session' amount' ->
    server = server' /\ nonce = nonce' /\ session = session' /\ amount = amount'.
Proof. exact voucher_bytes_inj. Qed.
Example C10_example :
  length (voucher_bytes 1 2 3 4) = 60%nat /\
  drop 32 (voucher_bytes 7 2 3 258) =
  [0;0;0;0;0;0;0;2; 0;0;0;3; 2;1;0;0;0;0;0;0;0;0;0;0;0;0;0;0].
Proof. vm_compute. auto. Qed.
Print Assumptions C10_voucher_bytes_injective.

(** C67 is false: a close does not return the full remaining balance; the client
    pays the burn fee on its own refund. *)
Theorem C67_full_refund_refuted :
  exists cfg verify s x client server ch s' ev,
    (exists b h, s = mrun cfg verify (minit b) h) /\
    m_chan s !! (client, server) = Some ch /\
    mstep cfg verify s x server (MClose client) = (s', ROk ev) /\
    free_of (m_bank s') client < free_of (m_bank s) client + c_balance ch.
Proof.
  exists xcfg, xverify, xstate, (xctx 20), 1, 2, (Chan 1 2 90 0 10 1010).
  exists (fst (mstep xcfg xverify xstate (xctx 20) 2 (MClose 1))), [ChannelClosed 1 2 20].
  split; [exists xbank, xhist; reflexivity|].
  split; [vm_compute; reflexivity|].
  split; [|vm_compute; reflexivity].
  rewrite (surjective_pairing (mstep _ _ _ _ _ _)) at 1. now f_equal.
Qed.
Print Assumptions C67_full_refund_refuted.

(** C67, what holds: the burn fee is all the client ever loses by a close, except
    that a balance too small to keep an account alive is destroyed, and then no fee
    is taken. *)
Theorem C67_refund_partial :
  forall cfg verify s x client server ch who acc s' ev,
    all_money s < two128 -> m_burn cfg <= 100 ->
    m_chan s !! (client, server) = Some ch ->
    ((who = server /\ acc = client) \/
     (who = client /\ acc = server /\ m_chan s !! (server, client) = None)) ->
    mstep cfg verify s x who (MClose acc) = (s', ROk ev) ->
    exists dust,
      free_of (m_bank s') client + fee_of cfg (c_balance ch) + dust =
        free_of (m_bank s) client + c_balance ch /\
      lost (m_bank s') = lost (m_bank s) + dust /\
      (dust = 0 \/ dust < m_ed cfg /\ fee_of cfg (c_balance ch) = 0) /\
      m_slashed s' = m_slashed s + fee_of cfg (c_balance ch).
Proof. exact close_value. Qed.
Example C67_example :
  let r := mstep xcfg xverify xstate (xctx 20) 2 (MClose 1) in
  free_of (m_bank (fst r)) 1 + 9 + 0 = free_of (m_bank xstate) 1 + 90 /\
  fee_of xcfg 90 = 9 /\ m_slashed (fst r) = m_slashed xstate + 9.
Proof. vm_compute. auto. Qed.
Print Assumptions C67_refund_partial.

(** C68 is false: a channel can become impossible to close. The client emptied
    its account after opening, the channel balance is below the existential
    deposit, and the fee on the refund cannot be withdrawn, so every close fails. *)
Definition xcfg50 : mcfg := MCfg 50 5 10 (fun k => k).
Definition xstuck : mstate :=
  mrun xcfg50 xverify (minit (Bank {[ 1 := Acct 100 0 0; 2 := Acct 1000 0 0 ]} 0))
    [ (xctx 10, 1, MOpen 2 30 5000); (xctx 11, 1, MTransfer 2 70) ].
Theorem C68_close_always_possible_refuted :
  exists cfg verify s client server ch,
    (exists b h, s = mrun cfg verify (minit b) h) /\
    m_chan s !! (client, server) = Some ch /\ 0 < c_balance ch /\
    (forall x, snd (mstep cfg verify s x server (MClose client)) = RErr WithdrawFailed) /\
    (forall x, c_expiration ch < x_now x ->
       snd (mstep cfg verify s x client (MClose server)) = RErr WithdrawFailed).
Proof.
  exists xcfg50, xverify, xstuck, 1, 2, (Chan 1 2 30 0 10 1010).
  split; [unfold xstuck; eauto|].
  split; [vm_compute; reflexivity|]. split; [vm_compute; reflexivity|].
  split.
  - intros x. vm_compute. reflexivity.
  - intros x Hx. unfold mstep, mexec, close_channel.
    replace (chan_get xstuck 2 1) with (@None chan) by (vm_compute; reflexivity).
    replace (chan_get xstuck 1 2) with (Some (Chan 1 2 30 0 10 1010)) by (vm_compute; reflexivity).
    cbn [c_expiration] in *. apply N.ltb_lt in Hx. rewrite Hx. vm_compute. reflexivity.
Qed.
Print Assumptions C68_close_always_possible_refuted.

(** C68, what holds: the server (at any time) and the client (once the channel has
    expired or the server has been offline, and no channel leads back) can close it
    exactly if the refund is payable: no fee is due, or the client's account keeps
    its locked money and the existential deposit. *)
Theorem C68_close_partial :
  forall cfg verify s x client server ch who acc,
    all_money s < two128 -> m_burn cfg <= 100 ->
    m_chan s !! (client, server) = Some ch ->
    ((who = server /\ acc = client) \/
     (who = client /\ acc = server /\ m_chan s !! (server, client) = None /\
      (c_expiration ch < x_now x \/ 1 <= x_offline x (c_server ch)))) ->
    (exists s', mstep cfg verify s x who (MClose acc) =
                (s', ROk [ChannelClosed client server (x_now x)])) <->
    payable cfg (m_bank s) client (c_balance ch).
Proof. exact close_iff. Qed.
Example C68_example :
  payable xcfg (m_bank xstate) 1 90 /\ ~ payable xcfg50 (m_bank xstuck) 1 30.
Proof.
  unfold payable. vm_compute. split.
  - right. split; [discriminate|]. left. discriminate.
  - intros [H|[_ [H|[_ H]]]]; [discriminate H|now apply H|now apply H].
Qed.
Print Assumptions C68_close_partial.

(** C69. Opening a channel: exact effect, and when it succeeds. *)
Theorem C69_open_effect :
  forall cfg verify s x client server a d s' ev,
    a <> 0 -> m_ed cfg <= free_of (m_bank s) client ->
    mstep cfg verify s x client (MOpen server a d) = (s', ROk ev) ->
    client <> server /\ m_chan s !! (client, server) = None /\
    m_chan s' = <[(client, server) := Chan client server a (nonce_get s client server) (x_now x)
                     ((x_now x + d / m_secs cfg) mod 2 ^ 32)]> (m_chan s) /\
    a <= free_of (m_bank s) client /\
    free_of (m_bank s') client = free_of (m_bank s) client - a /\
    m_ed cfg <= free_of (m_bank s') client /\
    frz (acct_of (m_bank s) client) <= free_of (m_bank s') client /\
    (forall w, w <> client -> acct_of (m_bank s') w = acct_of (m_bank s) w) /\
    m_nonce s' = m_nonce s /\ m_sess s' = m_sess s /\ m_slashed s' = m_slashed s.
Proof. exact open_effect. Qed.
Theorem C69_open_succeeds :
  forall cfg verify s x client server a d,
    m_chan s !! (client, server) = None -> client <> server ->
    a <= free_of (m_bank s) client -> m_ed cfg <= free_of (m_bank s) client - a ->
    frz (acct_of (m_bank s) client) <= free_of (m_bank s) client - a ->
    exists s' ev, mstep cfg verify s x client (MOpen server a d) = (s', ROk ev).
Proof. exact open_ok. Qed.
(** C69. Topping up: exact effect, and when it succeeds. *)
Theorem C69_add_effect :
  forall cfg verify s x client server a s' ev,
    a <> 0 -> m_ed cfg <= free_of (m_bank s) client -> all_money s < two128 ->
    mstep cfg verify s x client (MAdd server a) = (s', ROk ev) ->
    exists ch, m_chan s !! (client, server) = Some ch /\
    m_chan s' = <[(client, server) := Chan (c_client ch) (c_server ch) (c_balance ch + a)
                     (c_nonce ch) (c_opened ch) (c_expiration ch)]> (m_chan s) /\
    a <= free_of (m_bank s) client /\
    free_of (m_bank s') client = free_of (m_bank s) client - a /\
    m_ed cfg <= free_of (m_bank s') client /\
    (forall w, w <> client -> acct_of (m_bank s') w = acct_of (m_bank s) w) /\
    m_nonce s' = m_nonce s /\ m_sess s' = m_sess s /\ m_slashed s' = m_slashed s.
Proof. exact add_effect. Qed.
Theorem C69_add_succeeds :
  forall cfg verify s x client server a ch,
    m_chan s !! (client, server) = Some ch ->
    a <= free_of (m_bank s) client -> m_ed cfg <= free_of (m_bank s) client - a ->
    frz (acct_of (m_bank s) client) <= free_of (m_bank s) client - a ->
    exists s' ev, mstep cfg verify s x client (MAdd server a) = (s', ROk ev).
Proof. exact add_ok. Qed.
Example C69_example :
  snd (mstep xcfg xverify (minit xbank) (xctx 10) 1 (MOpen 2 995 23)) = ROk [ChannelOpened 1 2 995 0 10 14] /\
  snd (mstep xcfg xverify (minit xbank) (xctx 10) 1 (MOpen 2 996 23)) = RErr NotEnoughBalance /\
  snd (mstep xcfg xverify (minit xbank) (xctx 10) 1 (MOpen 1 10 23)) = RErr SameChannelEnds /\
  snd (mstep xcfg xverify xstate (xctx 10) 1 (MAdd 2 855)) = ROk [BalanceAdded 1 2 855 10].
Proof. vm_compute. auto. Qed.
Print Assumptions C69_open_effect.
Print Assumptions C69_open_succeeds.
Print Assumptions C69_add_effect.
Print Assumptions C69_add_succeeds.
