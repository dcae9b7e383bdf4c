(** Proofs about the micropayment model, continued: exact effects, losses,
    voucher bytes. *)
From Verif Require Import Base Balances Proofs_Balances Model_Micropayment Spec_Micropayment
  Proofs_Micropayment Proofs_Micropayment2.
From stdpp Require Import gmap.
Open Scope N_scope.

(** ** Bytes *)
Lemma be_bytes_length k x : length (be_bytes k x) = k.
Proof.
  revert x. induction k as [|k IH]; intros x; simpl; [done|].
  rewrite app_length, IH. simpl. lia.
Qed.
Lemma le_bytes_length k x : length (le_bytes k x) = k.
Proof. revert x. induction k as [|k IH]; intros x; simpl; [done|]. now rewrite IH. Qed.

Lemma pow256_succ k : 256 ^ N.of_nat (S k) = 256 * 256 ^ N.of_nat k.
Proof. rewrite Nat2N.inj_succ, N.pow_succ_r'. reflexivity. Qed.

Lemma be_bytes_inj k : forall x y,
  x < 256 ^ N.of_nat k -> y < 256 ^ N.of_nat k -> be_bytes k x = be_bytes k y -> x = y.
Proof.
  induction k as [|k IH]; intros x y Hx Hy H.
  - change (256 ^ N.of_nat 0) with 1 in *. lia.
  - rewrite pow256_succ in Hx, Hy. simpl in H. apply app_inj_tail in H as [H1 H2].
    apply IH in H1.
    + rewrite (N.div_mod x 256), (N.div_mod y 256) by lia. now rewrite H1, H2.
    + apply N.div_lt_upper_bound; lia.
    + apply N.div_lt_upper_bound; lia.
Qed.
Lemma le_bytes_inj k : forall x y,
  x < 256 ^ N.of_nat k -> y < 256 ^ N.of_nat k -> le_bytes k x = le_bytes k y -> x = y.
Proof.
  induction k as [|k IH]; intros x y Hx Hy H.
  - change (256 ^ N.of_nat 0) with 1 in *. lia.
  - rewrite pow256_succ in Hx, Hy. simpl in H. injection H as H2 H1.
    apply IH in H1.
    + rewrite (N.div_mod x 256), (N.div_mod y 256) by lia. now rewrite H1, H2.
    + apply N.div_lt_upper_bound; lia.
    + apply N.div_lt_upper_bound; lia.
Qed.

Lemma app_inj_len {A} (a b c d : list A) :
  length a = length c -> a ++ b = c ++ d -> a = c /\ b = d.
Proof. intros Hl He. apply app_inj_1 in He; auto. Qed.

Lemma voucher_bytes_inj v n k a v' n' k' a' :
  v < 2 ^ 256 -> v' < 2 ^ 256 -> n < two64 -> n' < two64 ->
  k < two32 -> k' < two32 -> a < two128 -> a' < two128 ->
  voucher_bytes v n k a = voucher_bytes v' n' k' a' ->
  v = v' /\ n = n' /\ k = k' /\ a = a'.
Proof.
  unfold voucher_bytes. intros Hv Hv' Hn Hn' Hk Hk' Ha Ha' H.
  apply app_inj_len in H as [H1 H]; [|now rewrite !be_bytes_length].
  apply app_inj_len in H as [H2 H]; [|now rewrite !be_bytes_length].
  apply app_inj_len in H as [H3 H4]; [|now rewrite !be_bytes_length].
  split; [|split; [|split]].
  - apply (be_bytes_inj 32); assumption.
  - apply (be_bytes_inj 8); assumption.
  - apply (be_bytes_inj 4); assumption.
  - apply (le_bytes_inj 16); assumption.
Qed.

Section proofs.
  Variable cfg : mcfg.
  Variable verify : N -> list N -> list N -> bool.
  Notation mexec := (mexec cfg verify).
  Notation mstep := (mstep cfg verify).
  Notation mdo := (mdo cfg verify).
  Notation mrun := (mrun cfg verify).
  Notation mevents := (mevents cfg verify).
  Notation atom := (atom cfg verify).
  Notation atoms := (atoms cfg verify).
  Notation deposit_into_account := (deposit_into_account cfg).

  (** ** Claims above the balance *)
  Lemma claim_over s x server client k a sg ch :
    m_chan s !! (client, server) = Some ch ->
    x_now x <= c_expiration ch -> c_balance ch < a ->
    fst (mstep s x server (MClaim client k a sg)) = s /\
    exists e, snd (mstep s x server (MClaim client k a sg)) = RErr e.
  Proof.
    intros Hch He Hb. unfold Model_Micropayment.mstep. simpl. unfold claim_payment, chan_get.
    rewrite Hch.
    destruct (N.ltb_spec (c_expiration ch) (x_now x)); [lia|].
    destruct (match m_sess s !! (client, server) with Some _ => _ | None => _ end); [simpl; eauto|].
    destruct (verify _ _ _); [|simpl; eauto]. simpl.
    destruct (N.ltb_spec (c_balance ch) a); [|lia].
    unfold Model_Micropayment.deposit_into_account.
    destruct (withdraw _ _ _ _ _); simpl; eauto.
  Qed.

  (** ** Where free balances can grow *)
  Lemma withdraw_free_le ed k b who v b' w :
    withdraw ed k b who v = Some b' -> free_of b' w <= free_of b w.
  Proof.
    unfold withdraw. destruct (v =? 0); [now intros [= ->]|].
    destruct (_ <? _); [discriminate|]. destruct (k && _ && _); [discriminate|].
    destruct (_ <? _); [discriminate|]. intros [= <-].
    etransitivity; [apply put_free_le|]. simpl. unfold free_of.
    destruct (N.eqb_spec w who) as [->|]; [|done]. lia.
  Qed.

  Lemma deposit_free_le ed b who v w :
    w <> who -> free_of (deposit_creating ed b who v) w = free_of b w.
  Proof. intros H. unfold free_of. now rewrite deposit_ne. Qed.

  Lemma deposit_into_free s who a s' w :
    deposit_into_account s who a = ROk s' -> w <> who -> free_of (m_bank s') w = free_of (m_bank s) w.
  Proof.
    intros (b & Hw & ->)%deposit_into_account_inv Hn. simpl. unfold free_of.
    rewrite (withdraw_ne _ _ _ _ _ _ w Hw Hn). now rewrite deposit_ne.
  Qed.

  Lemma atom_credit x caller call s e s' w :
    atom x caller call s e s' ->
    free_of (m_bank s) w < free_of (m_bank s') w ->
    (exists v ch, m_chan s !! (w, v) = Some ch /\ e = ChannelClosed w v (x_now x)) \/
    (exists a, call = MTransfer w a) \/
    (caller = w /\ exists c k a sg ch, call = MClaim c k a sg /\ e = ClaimPayment c w a /\
       m_chan s !! (c, w) = Some ch /\
       verify c (voucher_bytes w (c_nonce ch) k a) sg = true).
  Proof.
    intros Ha Hlt.
    destruct Ha as [v' a d b Hcall Hn Hne2 Hw|v' a ch b Hcall Hch Hw
                   |c' v' ch s1 Hch Hwho Hd|c' k a sg ch s1 Hcall Hch Hexp Hs Hv Hle Hd|dst a b Hcall Ht0]; simpl in *.
    - pose proof (withdraw_free_le _ _ _ _ _ _ w Hw). lia.
    - pose proof (withdraw_free_le _ _ _ _ _ _ w Hw). lia.
    - destruct (N.eq_dec w c') as [->|Hn].
      + left. eauto.
      + rewrite (deposit_into_free _ _ _ _ w Hd Hn) in Hlt. simpl in Hlt. lia.
    - destruct (N.eq_dec w caller) as [->|Hn].
      + right; right. split; [done|]. exists c', k, a, sg, ch. auto.
      + rewrite (deposit_into_free _ _ _ _ w Hd Hn) in Hlt. simpl in Hlt. lia.
    - destruct (N.eq_dec w dst) as [->|Hn]; [eauto|].
      pose proof (transfer_allow_free_le _ _ _ _ _ _ w Ht0 Hn). lia.
  Qed.

  Lemma atoms_credit x caller call s ev s' w :
    atoms x caller call s ev s' ->
    (call = MCloseExpired \/ exists e, ev = [e]) ->
    free_of (m_bank s) w < free_of (m_bank s') w ->
    (exists v, In (ChannelClosed w v (x_now x)) ev) \/
    (exists a, call = MTransfer w a) \/
    (caller = w /\ exists c k a sg ch, call = MClaim c k a sg /\ In (ClaimPayment c w a) ev /\
       m_chan s !! (c, w) = Some ch /\
       verify c (voucher_bytes w (c_nonce ch) k a) sg = true).
  Proof.
    intros Ha [->|[e ->]] Hlt.
    - left. revert Hlt. remember MCloseExpired as call eqn:Ecall. induction Ha; subst; [lia|].
      intros Hlt.
      destruct (N.lt_ge_cases (free_of (m_bank s) w) (free_of (m_bank s1) w)) as [H1|H1].
      + apply (atom_credit _ _ _ _ _ _ w) in H; [|done].
        destruct H as [(v & ch & _ & ->)|[(a & ?)|(_ & c & k & a & sg & ch & Hc & _)]]; [|discriminate|discriminate].
        exists v. now left.
      + destruct IHHa as [v Hv]; [lia|]. exists v. now right.
    - inversion Ha as [|? ? s1 ? ? H1 H2]; subst. inversion H2; subst.
      apply (atom_credit _ _ _ _ _ _ w) in H1; [|done].
      destruct H1 as [(v & ch & _ & ->)|[(a & ->)|(-> & c & k & a & sg & ch & -> & -> & Hc & Hv)]].
      + left. exists v. now left.
      + right; left. eauto.
      + right; right. split; [done|]. exists c, k, a, sg, ch. split; [done|]. split; [now left|done].
  Qed.

  Lemma mstep_credit s x caller call w :
    let s' := fst (mstep s x caller call) in
    free_of (m_bank s) w < free_of (m_bank s') w ->
    exists ev, snd (mstep s x caller call) = ROk ev /\
    ((exists v, In (ChannelClosed w v (x_now x)) ev) \/
     (exists a, call = MTransfer w a) \/
     (caller = w /\ exists c k a sg ch, call = MClaim c k a sg /\ In (ClaimPayment c w a) ev /\
        m_chan s !! (c, w) = Some ch /\
        verify c (voucher_bytes w (c_nonce ch) k a) sg = true)).
  Proof.
    intros s' Hlt. subst s'.
    destruct (mstep_cases cfg verify s x caller call) as [[E _]|(ev & s' & E & Ha & Hone)].
    { rewrite E in Hlt. lia. }
    rewrite E in *. simpl in *. exists ev. split; [done|]. eapply atoms_credit; eauto.
  Qed.

  (** ** Losses *)
  Lemma withdraw_lost ed k b who v b' :
    withdraw ed k b who v = Some b' ->
    lost b <= lost b' /\ (lost b' <> lost b -> lost b' < lost b + ed).
  Proof.
    unfold withdraw. destruct (v =? 0); [intros [= ->]; lia|].
    destruct (_ <? _); [discriminate|]. destruct (k && _ && _); [discriminate|].
    destruct (_ <? _); [discriminate|]. intros [= <-].
    match goal with |- context [put ?e ?b ?w ?a] => pose proof (put_lost e b w a) end.
    simpl in *. lia.
  Qed.

  (** When a deposit is lost, the account ends up empty. *)
  Lemma deposit_lost_dead ed b who v :
    money b + v < two128 ->
    lost (deposit_creating ed b who v) <> lost b ->
    free_of (deposit_creating ed b who v) who = 0.
  Proof.
    intros Hm. unfold deposit_creating, free_of. destruct (v =? 0); [congruence|].
    destruct (is_new (acct_of b who) && (v <? ed)) eqn:E.
    { apply andb_true_iff in E as [E1 _]. unfold is_new in E1.
      rewrite !andb_true_iff, !N.eqb_eq in E1. unfold acct_of in *. simpl. tauto. }
    destruct (N.leb_spec two128 (free (acct_of b who) + v)) as [Ho|].
    { pose proof (free_le_money b who). unfold free_of in *. lia. }
    clear E. unfold put, acct_of. destruct (_ && _); simpl; [|congruence].
    now rewrite lookup_delete.
  Qed.

  Lemma deposit_into_lost s who a s' :
    money (m_bank s) + a < two128 ->
    deposit_into_account s who a = ROk s' ->
    lost (m_bank s) <= lost (m_bank s') /\
    (lost (m_bank s') <> lost (m_bank s) -> lost (m_bank s') < lost (m_bank s) + m_ed cfg).
  Proof.
    intros Hm (b & Hw & ->)%deposit_into_account_inv. simpl.
    destruct (deposit_lost (m_ed cfg) (m_bank s) who a Hm) as [D1 D2].
    destruct (N.eq_dec (lost (deposit_creating (m_ed cfg) (m_bank s) who a)) (lost (m_bank s))) as [E|Hn].
    - apply withdraw_lost in Hw. rewrite E in Hw. lia.
    - pose proof (deposit_lost_dead _ _ _ _ Hm Hn) as Hz.
      unfold withdraw in Hw. unfold free_of in Hz. rewrite Hz in Hw.
      destruct (N.eqb_spec (fee_of cfg a) 0); [simplify_eq; lia|].
      destruct (N.ltb_spec 0 (fee_of cfg a)); [discriminate|lia].
  Qed.

  Lemma atom_lost x caller call s e s' :
    fits s -> atom x caller call s e s' ->
    lost (m_bank s) <= lost (m_bank s') /\
    (lost (m_bank s') <> lost (m_bank s) -> lost (m_bank s') < lost (m_bank s) + (m_ed cfg + m_ed cfg)).
  Proof.
    intros Hf Ha. unfold fits in Hf. rewrite all_money_eq in Hf.
    destruct Ha as [v' a d b Hcall Hn Hne2 Hw|v' a ch b Hcall Hch Hw
                   |c' v' ch s1 Hch Hwho Hd|c' k a sg ch s1 Hcall Hch Hexp Hs Hv Hle Hd|dst a b Hcall Ht0]; simpl in *.
    - apply withdraw_lost in Hw. lia.
    - apply withdraw_lost in Hw. lia.
    - pose proof (chan_le_sum s _ _ Hch). apply deposit_into_lost in Hd; simpl in *; lia.
    - pose proof (chan_le_sum s _ _ Hch). apply deposit_into_lost in Hd; simpl in *; lia.
    - apply transfer_allow_lost in Ht0. lia.
  Qed.

  Lemma atoms_lost x caller call s ev s' :
    atoms x caller call s ev s' -> fits s ->
    lost (m_bank s) <= lost (m_bank s') <= lost (m_bank s) + (m_ed cfg + m_ed cfg) * N.of_nat (length ev).
  Proof.
    induction 1 as [|s e s1 ev s2 H H0 IH]; intros Hf; [simpl; lia|].
    pose proof (atom_lost _ _ _ _ _ _ Hf H) as [L1 L2].
    assert (fits s1) as Hf1 by (unfold fits; now rewrite (atom_money cfg verify _ _ _ _ _ _ Hf H)).
    specialize (IH Hf1).
    change (length (e :: ev)) with (S (length ev)). rewrite Nat2N.inj_succ.
    destruct (N.eq_dec (lost (m_bank s1)) (lost (m_bank s))); nia.
  Qed.

  Lemma run_lost h : forall s, fits s ->
    lost (m_bank s) <= lost (m_bank (mrun s h)) <=
    lost (m_bank s) + (m_ed cfg + m_ed cfg) * N.of_nat (length (mevents s h)).
  Proof.
    induction h as [|[[x caller] call] h IH]; intros s Hf; simpl; [lia|].
    rewrite app_length, Nat2N.inj_add.
    destruct (mstep_cases cfg verify s x caller call) as [[E Hn]|(ev & s' & E & Ha & _)].
    - assert (Hd : mdo s (x, caller, call) = s) by (unfold Model_Micropayment.mdo; exact E).
      rewrite Hd. specialize (IH s Hf). nia.
    - assert (Hd : mdo s (x, caller, call) = s') by (unfold Model_Micropayment.mdo; simpl; now rewrite E).
      rewrite Hd, E. simpl.
      pose proof (atoms_lost _ _ _ _ _ _ Ha Hf) as L.
      assert (fits s') as Hf'.
      { pose proof (fits_run cfg verify s [(x, caller, call)] Hf) as F. simpl in F. now rewrite Hd in F. }
      specialize (IH s' Hf'). nia.
  Qed.

  (** ** Exact effect of a refund *)
  Lemma deposit_into_effect s who a s' :
    money (m_bank s) + a < two128 -> m_burn cfg <= 100 ->
    m_ed cfg <= a \/ m_ed cfg <= free_of (m_bank s) who ->
    deposit_into_account s who a = ROk s' ->
    acct_of (m_bank s') who =
      Acct (free_of (m_bank s) who + a - fee_of cfg a) (rsv (acct_of (m_bank s) who))
           (frz (acct_of (m_bank s) who)) /\
    m_ed cfg <= free_of (m_bank s) who + a - fee_of cfg a /\
    (forall w, w <> who -> acct_of (m_bank s') w = acct_of (m_bank s) w).
  Proof.
    intros Hm Hp Hal Hd. apply deposit_into_account_inv in Hd as (b & Hw & ->). simpl.
    pose proof (deposit_eq (m_ed cfg) (m_bank s) who a Hm) as D.
    rewrite D in Hw || idtac.
    assert (Hfee : fee_of cfg a <= a) by (apply frac_mul_le; [discriminate|exact Hp]).
    assert (D' : acct_of (deposit_creating (m_ed cfg) (m_bank s) who a) who =
       Acct (free_of (m_bank s) who + a) (rsv (acct_of (m_bank s) who)) (frz (acct_of (m_bank s) who))).
    { apply D; destruct Hal; lia || tauto. }
    split; [|split].
    - unfold withdraw in Hw. rewrite D' in Hw. simpl in Hw.
      destruct (N.eqb_spec (fee_of cfg a) 0) as [Hz|Hz].
      { simplify_eq. rewrite D'. f_equal. lia. }
      destruct (_ <? _); [discriminate|].
      destruct (N.ltb_spec (free_of (m_bank s) who + a - fee_of cfg a) (m_ed cfg)) as [H1|H1].
      { destruct (N.leb_spec (m_ed cfg) (free_of (m_bank s) who + a)); [simpl in Hw; discriminate|lia]. }
      simpl in Hw. destruct (_ <? _); [discriminate|]. simplify_eq.
      rewrite put_acct_eq; [done|]. simpl. lia.
    - unfold withdraw in Hw. rewrite D' in Hw. simpl in Hw.
      destruct (N.eqb_spec (fee_of cfg a) 0) as [Hz|Hz]; [lia|].
      destruct (_ <? _); [discriminate|].
      destruct (N.ltb_spec (free_of (m_bank s) who + a - fee_of cfg a) (m_ed cfg)) as [H1|H1]; [|done].
      destruct (N.leb_spec (m_ed cfg) (free_of (m_bank s) who + a)); [simpl in Hw; discriminate|lia].
    - intros w Hn. rewrite (withdraw_ne _ _ _ _ _ _ w Hw Hn). now apply deposit_ne.
  Qed.

  (** A deposit that leaves the account above the existential deposit and its
      locks succeeds. *)
  Lemma deposit_into_ok s who a :
    money (m_bank s) + a < two128 -> m_burn cfg <= 100 ->
    m_ed cfg <= a \/ m_ed cfg <= free_of (m_bank s) who ->
    m_ed cfg <= free_of (m_bank s) who + a - fee_of cfg a ->
    frz (acct_of (m_bank s) who) <= free_of (m_bank s) who + a - fee_of cfg a ->
    exists s', deposit_into_account s who a = ROk s'.
  Proof.
    intros Hm Hp Hal He Hf. unfold Model_Micropayment.deposit_into_account. fold (fee_of cfg a).
    assert (Hfee : fee_of cfg a <= a) by (apply frac_mul_le; [discriminate|exact Hp]).
    assert (D' : acct_of (deposit_creating (m_ed cfg) (m_bank s) who a) who =
       Acct (free_of (m_bank s) who + a) (rsv (acct_of (m_bank s) who)) (frz (acct_of (m_bank s) who))).
    { apply deposit_eq; [done| |]; destruct Hal; lia || tauto. }
    unfold withdraw. rewrite D'. simpl.
    destruct (_ =? 0); [eauto|].
    destruct (N.ltb_spec (free_of (m_bank s) who + a) (fee_of cfg a)); [lia|].
    destruct (N.ltb_spec (free_of (m_bank s) who + a - fee_of cfg a) (m_ed cfg)); [lia|]. simpl.
    destruct (N.ltb_spec (free_of (m_bank s) who + a - fee_of cfg a) (frz (acct_of (m_bank s) who))); [lia|].
    eauto.
  Qed.

  (** Closing by the server: everything that changes. *)
  Lemma server_close_effect s x c v ch s' ev :
    fits s -> m_burn cfg <= 100 ->
    m_chan s !! (c, v) = Some ch ->
    m_ed cfg <= c_balance ch \/ m_ed cfg <= free_of (m_bank s) c ->
    mstep s x v (MClose c) = (s', ROk ev) ->
    free_of (m_bank s') c = free_of (m_bank s) c + c_balance ch - fee_of cfg (c_balance ch) /\
    m_slashed s' = m_slashed s + fee_of cfg (c_balance ch) /\
    (forall w, w <> c -> acct_of (m_bank s') w = acct_of (m_bank s) w) /\
    m_chan s' = delete (c, v) (m_chan s) /\
    m_sess s' = delete (c, v) (m_sess s) /\
    m_nonce s' = <[(c, v) := add64 (nonce_get s c v) 1]> (m_nonce s) /\
    ev = [ChannelClosed c v (x_now x)].
  Proof.
    intros Hf Hp Hch Hal Hs. unfold fits in Hf. rewrite all_money_eq in Hf.
    pose proof (chan_le_sum s _ _ Hch) as Hcs.
    unfold Model_Micropayment.mstep in Hs. simpl in Hs. unfold close_channel, chan_get in Hs.
    rewrite Hch in Hs.
    destruct (refund_and_close cfg s (x_now x) c v ch) as [r| |] eqn:E; simpl in Hs; try discriminate.
    simplify_eq. apply refund_inv in E as (s1 & E & ->). simpl.
    apply deposit_into_effect in E as E'; [|simpl; lia|exact Hp|exact Hal].
    destruct E' as (H1 & H2 & H3). simpl in H1, H2, H3.
    apply deposit_into_account_inv in E as (b & _ & ->). simpl in *.
    split; [unfold free_of at 1; rewrite H1; done|]. repeat split; auto.
  Qed.

  Lemma server_close_ok s x c v ch :
    fits s -> m_burn cfg <= 100 ->
    m_chan s !! (c, v) = Some ch ->
    m_ed cfg <= c_balance ch \/ m_ed cfg <= free_of (m_bank s) c ->
    m_ed cfg <= free_of (m_bank s) c + c_balance ch - fee_of cfg (c_balance ch) ->
    frz (acct_of (m_bank s) c) <= free_of (m_bank s) c + c_balance ch - fee_of cfg (c_balance ch) ->
    exists s', mstep s x v (MClose c) = (s', ROk [ChannelClosed c v (x_now x)]).
  Proof.
    intros Hf Hp Hch Hal He Hfr. unfold fits in Hf. rewrite all_money_eq in Hf.
    pose proof (chan_le_sum s _ _ Hch) as Hcs.
    unfold Model_Micropayment.mstep; simpl. unfold close_channel, chan_get. rewrite Hch.
    unfold refund_and_close.
    destruct (deposit_into_ok (total_sub s c (c_balance ch)) c (c_balance ch)) as [s1 E];
      [simpl; lia|done|done|done|done|].
    rewrite E. simpl. eauto.
  Qed.

  (** A paid claim: everything that changes. *)
  Lemma claim_effect s x c v k a sg ch s' :
    fits s -> m_burn cfg <= 100 ->
    m_chan s !! (c, v) = Some ch ->
    m_ed cfg <= a \/ m_ed cfg <= free_of (m_bank s) v ->
    mstep s x v (MClaim c k a sg) = (s', ROk [ClaimPayment c v a]) ->
    free_of (m_bank s') v = free_of (m_bank s) v + a - fee_of cfg a /\
    m_slashed s' = m_slashed s + fee_of cfg a /\
    (forall w, w <> v -> acct_of (m_bank s') w = acct_of (m_bank s) w) /\
    m_chan s' = <[(c, v) := Chan (c_client ch) (c_server ch) (c_balance ch - a) (c_nonce ch)
                              (c_opened ch) (c_expiration ch)]> (m_chan s) /\
    a <= c_balance ch /\
    m_sess s' !! (c, v) = Some k /\ m_nonce s' = m_nonce s.
  Proof.
    intros Hf Hp Hch Hal Hs. unfold fits in Hf. rewrite all_money_eq in Hf.
    pose proof (chan_le_sum s _ _ Hch) as Hcs.
    apply mstep_ok in Hs as [Ha _].
    inversion Ha as [|? ? s1 ? ? H1 H2]; subst. inversion H2; subst.
    inversion H1 as [| | |c' k' a' sg' ch' s1' Hcall Hch' Hexp Hse Hv Hle Hd|]; subst.
    simplify_eq.
    apply deposit_into_effect in Hd as E'; [|simpl; lia|exact Hp|exact Hal].
    destruct E' as (E1 & E2 & E3). simpl in E1, E2, E3.
    apply deposit_into_account_inv in Hd as (b & _ & ->). simpl in *.
    split; [unfold free_of at 1; rewrite E1; done|]. repeat split; auto.
    now rewrite lookup_insert.
  Qed.
End proofs.
