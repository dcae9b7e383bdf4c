(** Proofs about the micropayment model. *)
From Verif Require Import Base Balances Proofs_Balances Model_Micropayment Spec_Micropayment.
From stdpp Require Import gmap.
Open Scope N_scope.

Section proofs.
  Variable cfg : mcfg.
  Variable verify : N -> list N -> list N -> bool.
  Notation mexec := (mexec cfg verify).
  Notation mstep := (mstep cfg verify).
  Notation mdo := (mdo cfg verify).
  Notation mrun := (mrun cfg verify).
  Notation mevents := (mevents cfg verify).
  Notation pays := (pays cfg verify).
  Notation deposit_into_account := (deposit_into_account cfg).
  Notation refund_and_close := (refund_and_close cfg).

  (** One elementary change, with the event that reports it and the condition
      under which the caller may cause it. *)
  Inductive atom (x : mctx) (caller : N) (call : mcall) (s : mstate) : mevent -> mstate -> Prop :=
  | AOpen v a d b :
      call = MOpen v a d ->
      m_chan s !! (caller, v) = None -> caller <> v ->
      withdraw (m_ed cfg) true (m_bank s) caller a = Some b ->
      atom x caller call s
        (ChannelOpened caller v a (nonce_get s caller v) (x_now x) (add32 (x_now x) (d / m_secs cfg)))
        (total_add (MState b
           (<[(caller, v) := Chan caller v a (nonce_get s caller v) (x_now x)
                               (add32 (x_now x) (d / m_secs cfg))]> (m_chan s))
           (m_nonce s) (m_sess s) (m_total s) (m_slashed s)) caller a)
  | AAdd v a ch b :
      call = MAdd v a ->
      m_chan s !! (caller, v) = Some ch ->
      withdraw (m_ed cfg) true (m_bank s) caller a = Some b ->
      atom x caller call s (BalanceAdded caller v a (x_now x))
        (total_add (MState b
           (<[(caller, v) := Chan (c_client ch) (c_server ch) (add128 (c_balance ch) a)
                               (c_nonce ch) (c_opened ch) (c_expiration ch)]> (m_chan s))
           (m_nonce s) (m_sess s) (m_total s) (m_slashed s)) caller a)
  | AClose c v ch s' :
      m_chan s !! (c, v) = Some ch ->
      (caller = v /\ call = MClose c) \/
      (caller = v /\ (exists k a sg, call = MClaim c k a sg) /\ c_expiration ch < x_now x) \/
      (caller = c /\ (call = MCloseExpired \/ call = MClose v) /\ c_expiration ch < x_now x) \/
      (caller = c /\ call = MClose v /\ 1 <= x_offline x (c_server ch)) ->
      deposit_into_account (total_sub s c (c_balance ch)) c (c_balance ch) = ROk s' ->
      atom x caller call s (ChannelClosed c v (x_now x)) (close_rec s' c v)
  | APay c k a sg ch s' :
      call = MClaim c k a sg ->
      m_chan s !! (c, caller) = Some ch ->
      x_now x <= c_expiration ch ->
      (forall last, m_sess s !! (c, caller) = Some last -> k = add32 last 1) ->
      verify c (voucher_bytes caller (c_nonce ch) k a) sg = true ->
      a <= c_balance ch ->
      deposit_into_account
        (total_sub (MState (m_bank s)
           (<[(c, caller) := Chan (c_client ch) (c_server ch) (c_balance ch - a)
                               (c_nonce ch) (c_opened ch) (c_expiration ch)]> (m_chan s))
           (m_nonce s) (<[(c, caller) := k]> (m_sess s)) (m_total s) (m_slashed s)) c a)
        caller a = ROk s' ->
      atom x caller call s (ClaimPayment c caller a) s'
  | ATransfer dst a b :
      call = MTransfer dst a ->
      transfer_allow (m_ed cfg) (m_bank s) caller dst a = Some b ->
      atom x caller call s (Transfer caller dst a)
        (MState b (m_chan s) (m_nonce s) (m_sess s) (m_total s) (m_slashed s)).

  Inductive atoms (x : mctx) (caller : N) (call : mcall)
    : mstate -> list mevent -> mstate -> Prop :=
  | ANil s : atoms x caller call s [] s
  | ACons s e s1 ev s2 :
      atom x caller call s e s1 -> atoms x caller call s1 ev s2 ->
      atoms x caller call s (e :: ev) s2.

  Lemma atoms_one x caller call s e s' :
    atom x caller call s e s' -> atoms x caller call s [e] s'.
  Proof. intros H. eapply ACons; [exact H|constructor]. Qed.

  Lemma deposit_into_account_inv s who a s' :
    deposit_into_account s who a = ROk s' ->
    exists b, withdraw (m_ed cfg) true (deposit_creating (m_ed cfg) (m_bank s) who a) who
                (fee_of cfg a) = Some b /\
              s' = MState b (m_chan s) (m_nonce s) (m_sess s) (m_total s)
                     (m_slashed s + fee_of cfg a).
  Proof.
    unfold Model_Micropayment.deposit_into_account. fold (fee_of cfg a).
    destruct (withdraw _ _ _ _ _) as [b|] eqn:E; [|discriminate].
    intros [= <-]. eauto.
  Qed.

  Lemma refund_inv s now c v ch r :
    refund_and_close s now c v ch = ROk r ->
    exists s', deposit_into_account (total_sub s c (c_balance ch)) c (c_balance ch) = ROk s' /\
               r = (close_rec s' c v, ChannelClosed c v now).
  Proof.
    unfold Model_Micropayment.refund_and_close, rbind.
    destruct (Model_Micropayment.deposit_into_account _ _ _ _) as [s'| |]; try discriminate.
    intros [= <-]. eauto.
  Qed.

  Lemma close_loop_atoms x client l : forall s ev s' ev',
    (forall k ch, In (k, ch) l -> k.1 = client /\ m_chan s !! k = Some ch) ->
    NoDup (l.*1) ->
    close_loop cfg s (x_now x) client l ev = ROk (s', ev') ->
    exists ev2, ev' = ev ++ ev2 /\ atoms x client MCloseExpired s ev2 s'.
  Proof.
    induction l as [|[k ch] l IH]; intros s ev s' ev' Hin Hnd Hl; simpl in Hl.
    { simplify_eq. exists []. split; [now rewrite app_nil_r|constructor]. }
    destruct (Hin k ch) as [Hk Hch]; [now left|].
    apply NoDup_cons in Hnd as [Hn Hnd].
    destruct (N.ltb_spec (c_expiration ch) (x_now x)) as [He|He].
    - destruct (Model_Micropayment.refund_and_close cfg s (x_now x) client k.2 ch)
        as [r| |] eqn:E; simpl in Hl; try discriminate.
      apply refund_inv in E as (s1 & E & ->). simpl in Hl.
      assert (Hkk : k = (client, k.2)) by (destruct k; simpl in *; now subst).
      apply deposit_into_account_inv in E as E'. destruct E' as (b & _ & Es1).
      edestruct (IH (close_rec s1 client k.2)) as (ev2 & -> & Hat); [| |exact Hl|].
      + intros k2 ch2 Hin2. destruct (Hin k2 ch2) as [H1 H2]; [now right|].
        split; [done|]. rewrite Es1. simpl.
        rewrite lookup_delete_ne; [exact H2|].
        intros Hc. apply Hn. apply elem_of_list_fmap. exists (k2, ch2).
        split; [simpl; congruence|]. now apply elem_of_list_In.
      + done.
      + exists (ChannelClosed client k.2 (x_now x) :: ev2). split.
        { now rewrite <- app_assoc. }
        eapply ACons; [|exact Hat].
        eapply AClose; [rewrite <- Hkk; exact Hch| |exact E]. simpl. tauto.
    - eapply IH; [|done|exact Hl]. intros k2 ch2 H2. apply Hin. now right.
  Qed.

  Lemma channels_of_spec s client k ch :
    In (k, ch) (channels_of cfg s client) <-> k.1 = client /\ m_chan s !! k = Some ch.
  Proof.
    unfold channels_of. rewrite <- elem_of_list_In, ksort_perm.
    rewrite elem_of_list_filter, elem_of_map_to_list. reflexivity.
  Qed.

  Lemma NoDup_fmap_filter {A B} (f : A -> B) (P : A -> Prop) `{!forall a, Decision (P a)} l :
    NoDup (f <$> l) -> NoDup (f <$> filter P l).
  Proof.
    induction l as [|a l IH]; [done|].
    rewrite fmap_cons, NoDup_cons. intros [Hn Hd]. rewrite filter_cons.
    destruct (decide (P a)); [|auto]. rewrite fmap_cons, NoDup_cons. split; [|auto].
    intros [b [Hb Hin]]%elem_of_list_fmap. apply elem_of_list_filter in Hin as [_ Hin].
    apply Hn, elem_of_list_fmap. eauto.
  Qed.

  Lemma channels_of_nodup s client : NoDup ((channels_of cfg s client).*1).
  Proof.
    unfold channels_of. rewrite ksort_perm.
    apply NoDup_fmap_filter. apply NoDup_fst_map_to_list.
  Qed.

  Lemma mexec_atoms s x caller c s' ev :
    mexec s x caller c = ROk (s', ev) ->
    atoms x caller c s ev s' /\ (c = MCloseExpired \/ exists e, ev = [e]).
  Proof.
    destruct c as [v a d|acc| |v a|c k a sg|dst a]; simpl.
    - unfold open_channel, chan_get, take_from_account.
      destruct (m_chan s !! (caller, v)) eqn:Ec; [discriminate|].
      destruct (N.eqb_spec caller v); [discriminate|].
      destruct (withdraw _ _ _ _ _) eqn:Ew; [|discriminate].
      intros [= <- <-]. split; [|eauto]. apply atoms_one. eapply AOpen; eauto.
    - unfold close_channel, chan_get.
      destruct (m_chan s !! (acc, caller)) as [ch|] eqn:Ec.
      + destruct (Model_Micropayment.refund_and_close cfg s (x_now x) acc caller ch) as [r| |] eqn:E;
          simpl; try discriminate.
        intros [= <- <-]. split; [|eauto]. apply refund_inv in E as (s1 & E & ->). simpl.
        apply atoms_one. eapply AClose; eauto.
      + destruct (m_chan s !! (caller, acc)) as [ch|] eqn:Ec2; [|discriminate].
        destruct (_ || _) eqn:Eo; [|discriminate].
        destruct (Model_Micropayment.refund_and_close cfg s (x_now x) caller acc ch) as [r| |] eqn:E;
          simpl; try discriminate.
        intros [= <- <-]. split; [|eauto]. apply refund_inv in E as (s1 & E & ->). simpl.
        apply atoms_one. eapply AClose; eauto.
        apply orb_true_iff in Eo as [Eo|Eo]; [apply N.ltb_lt in Eo|apply N.leb_le in Eo]; tauto.
    - unfold close_expired_channels. intros H.
      eapply close_loop_atoms in H as (ev2 & -> & H); [auto| |].
      + intros k ch Hin. now apply channels_of_spec in Hin.
      + apply channels_of_nodup.
    - unfold add_balance, chan_get, take_from_account.
      destruct (m_chan s !! (caller, v)) eqn:Ec; [|discriminate].
      destruct (withdraw _ _ _ _ _) eqn:Ew; [|discriminate].
      intros [= <- <-]. split; [|eauto]. apply atoms_one. eapply AAdd; eauto.
    - unfold claim_payment, chan_get.
      destruct (m_chan s !! (c, caller)) as [ch|] eqn:Ec; [|discriminate].
      destruct (N.ltb_spec (c_expiration ch) (x_now x)) as [He|He].
      + destruct (Model_Micropayment.refund_and_close cfg s (x_now x) c caller ch) as [r| |] eqn:E;
          simpl; try discriminate.
        intros [= <- <-]. split; [|eauto]. apply refund_inv in E as (s1 & E & ->). simpl.
        apply atoms_one. eapply AClose; eauto 10.
      + destruct (match m_sess s !! (c, caller) with Some _ => _ | None => _ end) eqn:Es;
          [discriminate|].
        destruct (verify _ _ _) eqn:Ev; [|discriminate]. simpl.
        destruct (N.ltb_spec (c_balance ch) a) as [Hb|Hb].
        { destruct (Model_Micropayment.deposit_into_account _ _ _ _); discriminate. }
        destruct (Model_Micropayment.deposit_into_account _ _ _ _) as [s3| |] eqn:Ed;
          simpl; try discriminate.
        intros [= <- <-]. split; [|eauto]. apply atoms_one. eapply APay; eauto.
        intros last Hl. rewrite Hl in Es. apply negb_false_iff, N.eqb_eq in Es. done.
    - unfold transfer_call. destruct (transfer_allow _ _ _ _ _) eqn:Et; [|discriminate].
      intros [= <- <-]. split; [|eauto]. apply atoms_one. eapply ATransfer; eauto.
  Qed.

  (** Generic facts about a step. *)
  Lemma mstep_cases s x caller c :
    (fst (mstep s x caller c) = s /\ (forall ev, snd (mstep s x caller c) <> ROk ev)) \/
    exists ev s', mstep s x caller c = (s', ROk ev) /\ atoms x caller c s ev s' /\
                  (c = MCloseExpired \/ exists e, ev = [e]).
  Proof.
    unfold Model_Micropayment.mstep.
    destruct (Model_Micropayment.mexec cfg verify s x caller c) as [[s' ev]|e|] eqn:E; simpl.
    - right. exists ev, s'. split; [done|]. now apply mexec_atoms.
    - left. split; [done|discriminate].
    - left. split; [done|discriminate].
  Qed.

  Lemma mstep_ok s x caller c s' ev :
    mstep s x caller c = (s', ROk ev) ->
    atoms x caller c s ev s' /\ (c = MCloseExpired \/ exists e, ev = [e]).
  Proof.
    intros H. destruct (mstep_cases s x caller c) as [[_ Hn]|(ev' & s2 & E & Ha)].
    - rewrite H in Hn. simpl in Hn. now destruct (Hn ev).
    - rewrite H in E. now simplify_eq.
  Qed.

  (** An invariant of all elementary changes holds along all histories. *)
  Lemma atoms_inv (P : mstate -> Prop) :
    (forall x caller call s e s', P s -> atom x caller call s e s' -> P s') ->
    forall x caller call s ev s', P s -> atoms x caller call s ev s' -> P s'.
  Proof. intros HP x caller call s ev s' H0 H. induction H; eauto. Qed.

  Lemma mdo_inv (P : mstate -> Prop) :
    (forall x caller call s e s', P s -> atom x caller call s e s' -> P s') ->
    forall s o, P s -> P (mdo s o).
  Proof.
    intros HP s [[x caller] c] H0. unfold Model_Micropayment.mdo. simpl.
    destruct (mstep_cases s x caller c) as [[-> _]|(ev & s' & -> & Ha & _)]; [done|].
    simpl. eapply atoms_inv; eauto.
  Qed.

  Lemma mrun_inv (P : mstate -> Prop) :
    (forall x caller call s e s', P s -> atom x caller call s e s' -> P s') ->
    forall h s, P s -> P (mrun s h).
  Proof.
    intros HP h. induction h as [|o h IH]; intros s H0; simpl; [done|].
    apply IH. now apply mdo_inv.
  Qed.

  Lemma mrun_app s h1 h2 : mrun s (h1 ++ h2) = mrun (mrun s h1) h2.
  Proof. unfold Model_Micropayment.mrun. apply fold_left_app. Qed.

  (** ** Money *)
  Lemma all_money_eq s :
    all_money s = money (m_bank s) + sum_channels s + m_slashed s.
  Proof. unfold all_money, money. lia. Qed.

  Lemma deposit_into_account_money s who a s' :
    deposit_into_account s who a = ROk s' ->
    money (m_bank s') + m_slashed s' = money (m_bank s) + m_slashed s + a.
  Proof.
    intros (b & Hw & ->)%deposit_into_account_inv. simpl.
    apply withdraw_money in Hw. rewrite deposit_money in Hw. lia.
  Qed.

  Definition fits (s : mstate) : Prop := all_money s < two128.

  Lemma atom_money x caller call s e s' :
    fits s -> atom x caller call s e s' -> all_money s' = all_money s.
  Proof.
    unfold fits. rewrite !all_money_eq. intros Hf [].
    - unfold sum_channels; simpl. rewrite msum_insert by done. simpl.
      apply withdraw_money in H2. unfold sum_channels in *. lia.
    - unfold sum_channels; simpl.
      pose proof (msum_insert_over (fun _ ch => c_balance ch) _ _ _
         (Chan (c_client ch) (c_server ch) (add128 (c_balance ch) a)
               (c_nonce ch) (c_opened ch) (c_expiration ch)) H0) as E. simpl in E.
      apply withdraw_money in H1.
      assert (add128 (c_balance ch) a = c_balance ch + a) as Ea.
      { apply add128_small.
        pose proof (msum_le (fun _ ch => c_balance ch) _ _ _ H0) as E2.
        simpl in E2. unfold sum_channels in Hf. lia. }
      rewrite Ea in E |- *. unfold sum_channels in *. lia.
    - apply deposit_into_account_inv in H1 as Hi. destruct Hi as (b & _ & Es).
      apply deposit_into_account_money in H1. simpl in H1.
      assert (m_chan s'0 = m_chan s) as Ec by (now rewrite Es).
      unfold sum_channels; simpl. rewrite Ec.
      rewrite (msum_delete _ _ _ _ H). lia.
    - apply deposit_into_account_inv in H5 as Hi. destruct Hi as (b & _ & Es).
      apply deposit_into_account_money in H5. simpl in H5.
      assert (m_chan s'0 = <[(c, caller):=Chan (c_client ch) (c_server ch) (c_balance ch - a)
                (c_nonce ch) (c_opened ch) (c_expiration ch)]> (m_chan s)) as Ec by (now rewrite Es).
      unfold sum_channels in *. rewrite Ec.
      pose proof (msum_insert_over (fun _ ch => c_balance ch) _ _ _
         (Chan (c_client ch) (c_server ch) (c_balance ch - a)
               (c_nonce ch) (c_opened ch) (c_expiration ch)) H0) as E. simpl in E. lia.
    - apply transfer_allow_money in H0. unfold sum_channels in *. simpl in *. lia.
  Qed.

  Lemma conservation s h : fits s -> all_money (mrun s h) = all_money s.
  Proof.
    intros Hf.
    assert (all_money (mrun s h) = all_money s /\ fits (mrun s h)) as [? _]; [|done].
    apply (mrun_inv (fun t => all_money t = all_money s /\ fits t)); [|done].
    intros x caller call t e t' [E Hft] Ha.
    pose proof (atom_money _ _ _ _ _ _ Hft Ha). unfold fits in *. split; congruence.
  Qed.

  Lemma fits_run s h : fits s -> fits (mrun s h).
  Proof. intros Hf. unfold fits. now rewrite conservation. Qed.

  Lemma all_money_init b : all_money (minit b) = money b.
  Proof. rewrite all_money_eq. unfold minit, sum_channels. simpl. rewrite msum_empty. lia. Qed.

  (** ** Recorded totals *)
  Lemma sum_of_insert_new s k ch c :
    m_chan s !! k = None ->
    msum (fun (k : N * N) ch => if k.1 =? c then c_balance ch else 0) (<[k := ch]> (m_chan s)) =
    (if k.1 =? c then c_balance ch else 0) + sum_channels_of s c.
  Proof. intros H. now rewrite msum_insert. Qed.

  Lemma sum_of_le s c : sum_channels_of s c <= sum_channels s.
  Proof.
    unfold sum_channels_of, sum_channels. generalize (m_chan s). intros m.
    induction m as [|k ch m Hk IH] using map_ind.
    - now rewrite !msum_empty.
    - rewrite !msum_insert by done. destruct (_ =? _); lia.
  Qed.

  Definition totals_ok (s : mstate) : Prop :=
    forall c, recorded_total s c = sum_channels_of s c.

  Lemma total_sub_recorded s c x c' :
    recorded_total (total_sub s c x) c' =
    if c' =? c then recorded_total s c' - x else recorded_total s c'.
  Proof.
    unfold recorded_total, total_sub; simpl.
    destruct (N.eqb_spec c' c) as [->|Hn].
    - destruct (N.ltb_spec x (default 0 (m_total s !! c))).
      + now rewrite lookup_insert.
      + rewrite lookup_delete. simpl. lia.
    - destruct (_ <? _); [now rewrite lookup_insert_ne by congruence|now rewrite lookup_delete_ne by congruence].
  Qed.

  Lemma total_add_recorded s c x c' :
    recorded_total (total_add s c x) c' =
    if c' =? c then add128 (recorded_total s c') x else recorded_total s c'.
  Proof.
    unfold recorded_total, total_add; simpl.
    destruct (N.eqb_spec c' c) as [->|Hn].
    - now rewrite lookup_insert.
    - now rewrite lookup_insert_ne by congruence.
  Qed.

  Lemma sum_of_over s k ch ch' c :
    m_chan s !! k = Some ch ->
    (if k.1 =? c then c_balance ch else 0) +
    msum (fun (k : N * N) ch => if k.1 =? c then c_balance ch else 0) (<[k := ch']> (m_chan s)) =
    (if k.1 =? c then c_balance ch' else 0) + sum_channels_of s c.
  Proof.
    intros H. exact (msum_insert_over (fun (k : N * N) ch => if k.1 =? c then c_balance ch else 0)
                       _ _ _ ch' H).
  Qed.

  Lemma sum_of_delete s k ch c :
    m_chan s !! k = Some ch ->
    sum_channels_of s c = (if k.1 =? c then c_balance ch else 0) +
    msum (fun (k : N * N) ch => if k.1 =? c then c_balance ch else 0) (delete k (m_chan s)).
  Proof.
    intros H. exact (msum_delete (fun (k : N * N) ch => if k.1 =? c then c_balance ch else 0)
                       _ _ _ H).
  Qed.

  Lemma chan_le_sum s k ch : m_chan s !! k = Some ch -> c_balance ch <= sum_channels s.
  Proof. intros H. exact (msum_le (fun _ ch => c_balance ch) _ _ _ H). Qed.

  Lemma atom_totals x caller call s e s' :
    fits s -> totals_ok s -> atom x caller call s e s' -> totals_ok s'.
  Proof.
    intros Hf Ht Ha c'. pose proof (Ht c') as Hc.
    unfold fits in Hf. rewrite all_money_eq in Hf. pose proof (sum_of_le s c') as Hle.
    destruct Ha as [v a d b Hcall Hn Hne Hw|v a ch b Hcall Hch Hw
                   |c v ch s1 Hch Hwho Hd|c k a sg ch s1 Hcall Hch Hexp Hs Hv Hb Hd|dst a b Hcall Ht0].
    - apply withdraw_money in Hw.
      rewrite total_add_recorded. unfold recorded_total in *. simpl.
      unfold sum_channels_of at 1. simpl. rewrite sum_of_insert_new by done. simpl.
      rewrite (N.eqb_sym c' caller). destruct (N.eqb_spec caller c') as [->|]; [|lia].
      rewrite add128_small; lia.
    - apply withdraw_money in Hw. pose proof (chan_le_sum _ _ _ Hch).
      rewrite total_add_recorded. unfold recorded_total in *. simpl.
      unfold sum_channels_of at 1. simpl.
      pose proof (sum_of_over s _ _ (Chan (c_client ch) (c_server ch) (add128 (c_balance ch) a)
               (c_nonce ch) (c_opened ch) (c_expiration ch)) c' Hch) as E. simpl in E.
      rewrite (N.eqb_sym c' caller). destruct (N.eqb_spec caller c') as [->|]; [|lia].
      rewrite (add128_small (c_balance ch)) in * by lia. rewrite add128_small by lia. lia.
    - apply deposit_into_account_inv in Hd as (b & _ & ->).
      pose proof (total_sub_recorded s c (c_balance ch) c') as R.
      unfold recorded_total in *. simpl in *. rewrite R.
      pose proof (sum_of_delete s _ _ c' Hch) as E. simpl in E.
      unfold sum_channels_of at 1. simpl.
      rewrite (N.eqb_sym c' c). destruct (N.eqb_spec c c') as [->|]; lia.
    - apply deposit_into_account_inv in Hd as (b & _ & ->).
      pose proof (total_sub_recorded s c a c') as R.
      unfold recorded_total in *. simpl in *. rewrite R.
      pose proof (sum_of_over s _ _ (Chan (c_client ch) (c_server ch) (c_balance ch - a)
               (c_nonce ch) (c_opened ch) (c_expiration ch)) c' Hch) as E. simpl in E.
      unfold sum_channels_of at 1. simpl.
      rewrite (N.eqb_sym c' c). destruct (N.eqb_spec c c') as [->|]; lia.
    - exact Hc.
  Qed.

  Lemma totals_run s h : fits s -> totals_ok s -> totals_ok (mrun s h).
  Proof.
    intros Hf Ht.
    assert (totals_ok (mrun s h) /\ fits (mrun s h)) as [? _]; [|done].
    apply (mrun_inv (fun t => totals_ok t /\ fits t)); [|done].
    intros x caller call t e t' [E Hft] Ha. split; [eapply atom_totals; eauto|].
    unfold fits. rewrite (atom_money _ _ _ _ _ _ Hft Ha). exact Hft.
  Qed.

  Lemma totals_init b : totals_ok (minit b).
  Proof. intros c. unfold recorded_total, sum_channels_of, minit; simpl. now rewrite msum_empty. Qed.

  (** ** Per-pair view: channel nonce, pair nonce, session *)
  Definition view (s : mstate) (c v : N) : option N * N * option N :=
    (c_nonce <$> m_chan s !! (c, v), nonce_get s c v, m_sess s !! (c, v)).

  Lemma pair_dec (c v c' v' : N) : {(c, v) = (c', v')} + {(c, v) <> (c', v')}.
  Proof. apply decide, _. Qed.

  Lemma atom_view x caller call s e s' c v :
    atom x caller call s e s' ->
    (view s' c v = view s c v /\
       (forall a, e <> ClaimPayment c v a) /\ (forall t, e <> ChannelClosed c v t) /\
       (forall a n t u, e <> ChannelOpened c v a n t u)) \/
    (m_chan s !! (c, v) = None /\ (exists a n t u, e = ChannelOpened c v a n t u) /\
       view s' c v = (Some (nonce_get s c v), nonce_get s c v, m_sess s !! (c, v))) \/
    (exists n k a sg, e = ClaimPayment c v a /\ call = MClaim c k a sg /\ caller = v /\
       c_nonce <$> m_chan s !! (c, v) = Some n /\
       (forall last, m_sess s !! (c, v) = Some last -> k = add32 last 1) /\
       view s' c v = (Some n, nonce_get s c v, Some k)) \/
    (exists t, e = ChannelClosed c v t /\ is_Some (m_chan s !! (c, v)) /\
       view s' c v = (None, add64 (nonce_get s c v) 1, None)).
  Proof.
    intros Ha. unfold view, nonce_get.
    destruct Ha as [v' a d b Hcall Hn Hne Hw|v' a ch b Hcall Hch Hw
                   |c' v' ch s1 Hch Hwho Hd|c' k a sg ch s1 Hcall Hch Hexp Hs Hv Hb Hd|dst a b Hcall Ht0]; simpl.
    - destruct (pair_dec c v caller v') as [[= -> ->]|Hneq].
      + right; left. rewrite lookup_insert. simpl. repeat split; eauto 10.
      + left. rewrite lookup_insert_ne by congruence. repeat split; congruence.
    - destruct (pair_dec c v caller v') as [[= -> ->]|Hneq].
      + left. rewrite lookup_insert, Hch. simpl. repeat split; congruence.
      + left. rewrite lookup_insert_ne by congruence. repeat split; congruence.
    - apply deposit_into_account_inv in Hd as (b & _ & ->). simpl.
      unfold nonce_get; simpl.
      destruct (pair_dec c v c' v') as [[= -> ->]|Hneq].
      + right; right; right. rewrite !lookup_delete, lookup_insert, Hch. simpl. eauto.
      + left. rewrite !lookup_delete_ne, lookup_insert_ne by congruence. repeat split; congruence.
    - apply deposit_into_account_inv in Hd as (b & _ & ->). simpl.
      destruct (pair_dec c v c' caller) as [[= -> ->]|Hneq].
      + right; right; left. rewrite !lookup_insert, Hch. simpl.
        exists (c_nonce ch), k, a, sg. repeat split; auto.
      + left. rewrite !lookup_insert_ne by congruence. repeat split; congruence.
    - left. repeat split; congruence.
  Qed.

  (** One whole operation, seen from one pair. *)
  Definition step_view (s s' : mstate) (ev : list mevent) (caller : N) (call : mcall) (c v : N) : Prop :=
    (view s' c v = view s c v /\
       (forall a, ~ In (ClaimPayment c v a) ev) /\ (forall t, ~ In (ChannelClosed c v t) ev)) \/
    (m_chan s !! (c, v) = None /\
       view s' c v = (Some (nonce_get s c v), nonce_get s c v, m_sess s !! (c, v))) \/
    (exists n k a sg, ev = [ClaimPayment c v a] /\ call = MClaim c k a sg /\ caller = v /\
       c_nonce <$> m_chan s !! (c, v) = Some n /\
       (forall last, m_sess s !! (c, v) = Some last -> k = add32 last 1) /\
       view s' c v = (Some n, nonce_get s c v, Some k)) \/
    ((exists t, In (ChannelClosed c v t) ev) /\ is_Some (m_chan s !! (c, v)) /\
       view s' c v = (None, add64 (nonce_get s c v) 1, None)).

  Lemma close_atoms_view x caller s ev s' c v :
    atoms x caller MCloseExpired s ev s' ->
    (view s' c v = view s c v /\
       (forall a, ~ In (ClaimPayment c v a) ev) /\ (forall t, ~ In (ChannelClosed c v t) ev)) \/
    ((exists t, In (ChannelClosed c v t) ev) /\ is_Some (m_chan s !! (c, v)) /\
       view s' c v = (None, add64 (nonce_get s c v) 1, None)).
  Proof.
    intros H. remember MCloseExpired as call eqn:Ecall. induction H; subst.
    - left. simpl. tauto.
    - pose proof H as Hcopy. apply (atom_view _ _ _ _ _ _ c v) in H as
        [(Hv & Hn1 & Hn2 & Hn3)|[(Hc & (a & n & t & u & ->) & Hv)|[(n & k & a & sg & He & Hcl & _)|(t & -> & Hc & Hv)]]].
      + destruct IHatoms as [(E & N1 & N2)|((t & Ht) & Hs & E)].
        * left. rewrite E. split; [done|]. simpl.
          split; intros z [Hz|Hz]; [now apply (Hn1 z)|now apply (N1 z)|now apply (Hn2 z)|now apply (N2 z)].
        * right. split; [exists t; now right|].
          assert (Hn : nonce_get s c v = nonce_get s1 c v) by (unfold view in Hv; congruence).
          rewrite Hn. split; [|done].
          unfold view in Hv.
          assert (E2 : c_nonce <$> m_chan s1 !! (c, v) = c_nonce <$> m_chan s !! (c, v)) by congruence.
          destruct Hs as [ch Hs]. rewrite Hs in E2. destruct (m_chan s !! (c, v)); [eauto|discriminate].
      + exfalso. inversion Hcopy; subst; congruence.
      + discriminate.
      + right. split; [exists t; now left|]. split; [done|].
        destruct IHatoms as [(E & N1 & N2)|(_ & [ch Hs] & E)].
        * now rewrite E.
        * unfold view in Hv. rewrite Hs in Hv. discriminate.
  Qed.

  Lemma mstep_view s x caller call s' ev c v :
    mstep s x caller call = (s', ROk ev) -> step_view s s' ev caller call c v.
  Proof.
    intros H. apply mstep_ok in H as [Ha [->|[e ->]]].
    - apply (close_atoms_view _ _ _ _ _ c v) in Ha. unfold step_view. tauto.
    - inversion Ha as [|? ? s1 ? ? H1 H2]; subst. inversion H2; subst.
      unfold step_view.
      apply (atom_view _ _ _ _ _ _ c v) in H1 as
        [(Hv & Hn1 & Hn2 & Hn3)|[(Hc & He & Hv)|[(n & k & a & sg & -> & H1)|(t & -> & Hc & Hv)]]].
      + left. simpl. repeat split; [done| |]; intros z [Hz|[]]; [now apply (Hn1 z)|now apply (Hn2 z)].
      + right; left. done.
      + right; right; left. exists n, k, a, sg. tauto.
      + right; right; right. simpl. eauto.
  Qed.

End proofs.
