(** What every credit operation may do to the credit records and histories. *)
From Verif Require Import Base Balances Proofs_Arith Model_UserPrivileges Model_Credit Spec_Credit.
From stdpp Require Import gmap.
Open Scope N_scope.

Lemma rbind_ok {E A B} (m : res E A) (k : A -> res E B) b :
  rbind m k = ROk b -> exists a, m = ROk a /\ k a = ROk b.
Proof. destruct m; cbn; intros H; try discriminate. eauto. Qed.
Lemma ensure_ok {E} b (e : E) u : ensure b e = ROk u -> b = true.
Proof. destruct b; [done|discriminate]. Qed.

Ltac inv_bind H :=
  let a := fresh "a" in let Ha := fresh "Ha" in
  apply rbind_ok in H as (a & Ha & H).

Lemma level_of_band score : level_of score = band score.
Proof.
  unfold level_of, band.
  pose proof (N.div_mod score 100 ltac:(lia)) as H. pose proof (N.mod_lt score 100 ltac:(lia)) as Hm.
  generalize dependent (score / 100). generalize dependent (score mod 100). intros r Hr q ->.
  repeat match goal with |- context [?a <=? ?b] => destruct (N.leb_spec a b) end; lia.
Qed.

(** All records carry the right level. *)
Definition levels_ok (s : kstate) : Prop := forall who d, k_uc s !! who = Some d -> level_ok d.

(** Records and histories. *)
Notation book := (gmap N cdata * gmap N (list (N * cdata)))%type.
Definition cr (s : kstate) : book := (k_uc s, k_hist s).

(** The histories after recording [d] for [who] in [era]. *)
Definition recorded (m : gmap N (list (N * cdata))) (who era : N) (d : cdata) : gmap N (list (N * cdata)) :=
  match last (default [] (m !! who)) with
  | None => m
  | Some (e, _) =>
      <[who := if e =? era then take (length (default [] (m !! who)) - 1) (default [] (m !! who)) ++ [(era, d)]
               else default [] (m !! who) ++ [(era, d)]]> m
  end.

(** One change to the books made in era [era] on behalf of [who]; [P] is what is
    known about levels before. *)
Inductive touch (P : Prop) (era who : N) : book -> book -> Prop :=
| touch_set u h d d' :
    u !! who = Some d -> (P -> level_ok d') ->
    touch P era who (u, h) (<[who := d']> u, recorded h who era d')
| touch_new u h d :
    u !! who = None -> (P -> level_ok d) ->
    touch P era who (u, h) (<[who := d]> u, h)
| touch_del u h : touch P era who (u, h) (delete who u, delete who h)
| touch_init u h d :
    u !! who = Some d ->
    touch P era who (u, h) (u, <[who := [(era, d)]]> h).

(** Only records and histories change. *)
Definition same_rest (s s' : kstate) : Prop := s' = set_k_hist (set_k_uc s (k_uc s')) (k_hist s').
Lemma same_rest_refl s : same_rest s s.
Proof. now destruct s. Qed.
Lemma same_rest_trans s1 s2 s3 : same_rest s1 s2 -> same_rest s2 s3 -> same_rest s1 s3.
Proof. unfold same_rest. intros H1 H2. rewrite H2, H1. reflexivity. Qed.

Definition moves (P : Prop) (era who : N) (s s' : kstate) : Prop :=
  rtc (touch P era who) (cr s) (cr s') /\ same_rest s s'.
Lemma moves_refl P era who s : moves P era who s s.
Proof. split; [apply rtc_refl|apply same_rest_refl]. Qed.
Lemma moves_trans P era who s1 s2 s3 : moves P era who s1 s2 -> moves P era who s2 s3 -> moves P era who s1 s3.
Proof. intros [] []. split; [eapply rtc_transitive|eapply same_rest_trans]; eassumption. Qed.

Lemma set_hist_id s : set_k_hist s (k_hist s) = s.
Proof. now destruct s. Qed.

Lemma update_history_eq s who era d :
  k_uc s !! who = Some d ->
  update_history s who era = ROk (set_k_hist s (recorded (k_hist s) who era d)).
Proof.
  intros Hd. unfold update_history, recorded. rewrite Hd. unfold hist_of.
  destruct (last _) as [[e dl]|]; [reflexivity|]. now rewrite set_hist_id.
Qed.
Lemma update_history_none s who era : k_uc s !! who = None -> update_history s who era = RPanic.
Proof. intros Hd. unfold update_history. now rewrite Hd. Qed.

(** The common pattern "store the record, then update the history". *)
Lemma update_history_moves (P : Prop) s who era d d' s' :
  k_uc s !! who = Some d -> (P -> level_ok d') ->
  update_history (set_k_uc s (<[who := d']> (k_uc s))) who era = ROk s' ->
  moves P era who s s'.
Proof.
  intros Hd Hl H. rewrite (update_history_eq _ who era d') in H by (cbn; apply lookup_insert).
  injection H as <-. split; [|reflexivity]. apply rtc_once. eapply touch_set; eassumption.
Qed.

Lemma update_level_ok d c : level_ok (cd_update d c).
Proof. unfold level_ok, cd_update. cbn. apply level_of_band. Qed.
Lemma new_level_ok camp c : level_ok (cd_new camp c).
Proof. unfold level_ok, cd_new. cbn. apply level_of_band. Qed.

Section proofs.
  Context (cfg : kcfg).
  Notation now_era x := (era_of cfg (kx_now x)).

  Lemma slash_moves P s x who sc s' :
    slash_credit cfg s x who sc = ROk s' -> moves P (now_era x) who s s'.
  Proof.
    unfold slash_credit. destruct (_ =? U64MAX).
    { intros H. injection H as <-. split; [|reflexivity]. apply rtc_once, touch_del. }
    destruct (k_uc s !! who) as [d|] eqn:Hd.
    - apply update_history_moves with (d := d); [done|]. intros _. apply update_level_ok.
    - rewrite update_history_none by done. discriminate.
  Qed.

  Lemma slash_offline_moves P s x who s' :
    slash_offline cfg s x who = ROk s' -> moves P (now_era x) who s s'.
  Proof.
    unfold slash_offline. destruct (offline_slash_due s x who).
    - apply slash_moves.
    - intros H. injection H as <-. apply moves_refl.
  Qed.

  Lemma do_switch_moves (P : Prop) s who old era p :
    (P -> level_ok old) -> is_Some (k_uc s !! who) ->
    do_switch s who old era = ROk p -> moves P era who s p.1.
  Proof.
    intros Hl [d Hd]. unfold do_switch.
    destruct (k_noswitch s !! who); [intros H; injection H as <-; apply moves_refl|].
    destruct (k_switch s !! cd_camp old) as [id|]; [|intros H; injection H as <-; apply moves_refl].
    intros H. inv_bind H. injection H as <-. cbn [fst].
    eapply update_history_moves; [exact Hd| |exact Ha].
    intros Hok. specialize (Hl Hok). destruct (_ =? id); exact Hl.
  Qed.

  Lemma do_add_moves (P : Prop) s x who d s' :
    (P -> level_ok d) -> do_add_credit cfg s x who d = ROk s' -> moves P (now_era x) who s s'.
  Proof.
    intros Hl. unfold do_add_credit. destruct (k_uc s !! who) as [d0|] eqn:Hd.
    - destruct (hist_of _ who) as [|p r] eqn:Eh.
      + intros H. injection H as <-. split; [|reflexivity]. apply rtc_once.
        change (hist_of (set_k_uc s (<[who:=d]> (k_uc s))) who) with (default [] (k_hist s !! who)) in Eh.
        pose proof (touch_set P (now_era x) who (k_uc s) (k_hist s) d0 d Hd Hl) as T.
        unfold recorded in T. rewrite Eh in T. exact T.
      + apply update_history_moves with (d := d0); done.
    - intros H. injection H as <-. split; [|reflexivity]. apply rtc_once. now apply touch_new.
  Qed.

  Lemma update_credit_moves P s x who c s1 s' :
    update_credit s who c = (s1, true) -> update_history s1 who (now_era x) = ROk s' ->
    moves P (now_era x) who s s'.
  Proof.
    unfold update_credit. destruct (k_uc s !! who) as [d|] eqn:Hd; [|intros H; discriminate].
    intros H1 H2. injection H1 as <-. eapply update_history_moves; [exact Hd| |exact H2].
    intros _. apply update_level_ok.
  Qed.
  Lemma update_credit_false s who c s1 : update_credit s who c = (s1, false) -> s1 = s.
  Proof. unfold update_credit. destruct (k_uc s !! who); intros H; [discriminate|]. now injection H. Qed.

  Lemma unstaking_moves P s x who s' :
    unstaking_slash cfg s x who = ROk s' ->
    moves P (now_era x) who (set_k_ustake s (delete who (k_ustake s))) s'.
  Proof.
    unfold unstaking_slash. destruct (k_ustake s !! who); [|discriminate].
    destruct (k_uc s !! who) as [d|] eqn:Ed; [|discriminate]. cbv zeta. intros H.
    eapply (update_history_moves P); [exact Ed| |exact H]. intros _. apply new_level_ok.
  Qed.

  (** After a slash the user still has credit, unless the slash removed it. *)
  Lemma slash_offline_uc s x who s' d :
    k_uc s !! who = Some d -> kc_step cfg <> U64MAX ->
    slash_offline cfg s x who = ROk s' ->
    exists d', k_uc s' !! who = Some d' /\
      (d' = d \/ d' = cd_update d (cd_credit d - kc_step cfg)).
  Proof.
    intros Hd Hstep. unfold slash_offline. destruct (offline_slash_due s x who).
    - unfold slash_credit. change (default (kc_step cfg) None) with (kc_step cfg).
      destruct (N.eqb_spec (kc_step cfg) U64MAX); [contradiction|].
      rewrite Hd. erewrite update_history_eq by (cbn; apply lookup_insert).
      intros H. injection H as <-. cbn [k_uc set_k_uc set_k_hist]. rewrite lookup_insert. eauto.
    - intros H. injection H as <-. eauto.
  Qed.

  Lemma get_reward_moves s x who from to s' r (P := levels_ok s) :
    kc_step cfg <> U64MAX ->
    get_reward cfg s x who from to = ROk (s', r) -> moves P (now_era x) who s s'.
  Proof.
    intros Hstep. unfold get_reward.
    destruct ((to <? from) || (era_of cfg (kx_now x) <=? to)); [intros H; injection H as <- <-; apply moves_refl|].
    destruct (k_uc s !! who) as [d|] eqn:Hd; [|intros H; injection H as <- <-; apply moves_refl].
    destruct (cd_eras d =? 0); [intros H; injection H as <- <-; apply moves_refl|].
    intros H.
    set (s1 := match hist_of s who with [] => init_history s who d (now_era x) | _ => s end) in *.
    assert (T1 : moves P (now_era x) who s s1).
    { subst s1. destruct (hist_of s who); [|apply moves_refl]. split; [|reflexivity].
      apply rtc_once. now apply touch_init. }
    assert (U1 : k_uc s1 !! who = Some d) by (subst s1; destruct (hist_of s who); exact Hd).
    inv_bind H. rename a into s2.
    pose proof (slash_offline_moves P _ _ _ _ Ha) as T2.
    destruct (slash_offline_uc _ _ _ _ _ U1 Hstep Ha) as (d2 & U2 & Hd2).
    destruct (hist_of s2 who) as [|[e0 d0] r0] eqn:Eh.
    { injection H as <- <-. eapply moves_trans; eassumption. }
    cbv zeta in H.
    destruct (negb _ && _); [injection H as <- <-; eapply moves_trans; eassumption|].
    inv_bind H. rename a into s3.
    assert (T3 : moves P (now_era x) who s2 s3).
    { destruct ((from =? _) || (cd_camp d <=? 6)).
      - inv_bind Ha0. injection Ha0 as <-.
        eapply (do_switch_moves P); [| |exact Ha1].
        + intros HP. exact (HP who d Hd).
        + eauto.
      - injection Ha0 as <-. apply moves_refl. }
    destruct (get_credit_map _ _ _ _) as [[|p m]|]; [..|discriminate].
    - injection H as <- <-. eapply moves_trans; [exact T1|]. eapply moves_trans; eassumption.
    - inv_bind H. injection H as <- <-. eapply moves_trans; [exact T1|]. eapply moves_trans; eassumption.
  Qed.

  (** What a successful call does besides records and histories. *)
  Lemma kexec_rest s x o c s' :
    kexec cfg s x o c = ROk s' ->
    match c with
    | KUpdateSetting st => o = Root /\ s' = update_setting s st
    | KForceHistory _ _ | KAddData _ _ => o = Root /\ same_rest s s'
    | KBurnForCredit score =>
        exists a b, o = Signed a /\
          withdraw (kc_ed cfg) true (k_bank s) a (smul128 (k_dpr_per_credit s) (w32 score)) = Some b /\
          same_rest (burn_record cfg (set_k_bank s (deposit_creating (kc_ed cfg) b (kc_treasury cfg)
             (smul128 (k_dpr_per_credit s) (w32 score)))) x (smul128 (k_dpr_per_credit s) (w32 score))) s'
    | KBurnNft class item =>
        exists a owner v, o = Signed a /\ k_nft_credit s !! class = Some v /\
          add64 (default 0 (k_from_nft s !! a)) v <= kc_maxburn cfg /\
          k_nft_owner s !! (class, item) = Some owner /\
          (owner = a \/ k_nft_admin s !! class = Some a) /\
          same_rest (set_k_from_nft (set_k_nft_owner s (delete (class, item) (k_nft_owner s)))
                       (<[a := add64 (default 0 (k_from_nft s !! a)) v]> (k_from_nft s))) s'
    | KExternalData _ _ => exists a, o = Signed a /\ kx_priv x a CreditAdmin = true /\ same_rest s s'
    | KUnstakingSlash who =>
        exists a, o = Signed a /\ kx_priv x a CreditAdmin = true /\
          same_rest (set_k_ustake s (delete who (k_ustake s))) s'
    | KSetPrice p =>
        exists a, o = Signed a /\ kx_priv x a OracleWorker = true /\ p <> 0 /\
          (forall rate old, k_rate s = Some rate -> k_price s = Some old ->
             p <= old + frac_mul rate 100 old /\ old <= p + frac_mul rate 100 old) /\
          s' = set_k_prices s (k_prices s ++ [p])
    | KNftClassCredit class v =>
        exists a, o = Signed a /\ kx_priv x a CreditAdmin = true /\
          s' = set_k_nft_credit s (<[class := v]> (k_nft_credit s))
    | KSetNftSum who v =>
        exists a, o = Signed a /\ kx_priv x a CreditAdmin = true /\
          s' = set_k_from_nft s (<[who := v]> (k_from_nft s))
    | KSetSwitch old new =>
        exists a m, o = Signed a /\ kx_priv x a CreditAdmin = true /\ s' = set_k_switch s m
    | KSetNoSwitch l =>
        exists a m, o = Signed a /\ kx_priv x a CreditAdmin = true /\ s' = set_k_noswitch s m
    | KSetBalances l => exists a, o = Signed a /\ kx_priv x a CreditAdmin = true /\ s' = set_k_balances s l
    | KSetUsdtBalances l =>
        exists a, o = Signed a /\ kx_priv x a CreditAdmin = true /\ s' = set_k_usdt_balances s l
    | KSetDefaultId id => exists a, o = Signed a /\ kx_priv x a CreditAdmin = true /\ s' = set_k_default_id s id
    | KSetStaking l => exists a m, o = Signed a /\ kx_priv x a CreditAdmin = true /\ s' = set_k_ustake s m
    | KSetRate r => exists a, o = Signed a /\ kx_priv x a CreditAdmin = true /\ s' = set_k_rate s (Some r)
    | KUnsetStaking who =>
        exists a, o = Signed a /\ kx_priv x a CreditAdmin = true /\
          s' = set_k_stakebal s (delete who (k_stakebal s))
    | KSetMaintain _ | KUnsetMaintain _ =>
        exists a m, o = Signed a /\ kx_priv x a DeviceAdmin = true /\ s' = set_k_maintain s m
    | KSetDprPerCredit v => o = Root /\ s' = set_k_dpr_per_credit s v
    end.
  Proof.
    assert (Hroot : forall u, ensure_root_k o = ROk u -> o = Root) by (destruct o; [done|discriminate..]).
    assert (Hsig : forall a, ensure_signed_k o = ROk a -> o = Signed a).
    { destruct o; intros ? H; try discriminate. now injection H as <-. }
    assert (Hadm : forall a, ensure_admin x o = ROk a -> o = Signed a /\ kx_priv x a CreditAdmin = true).
    { intros a H. unfold ensure_admin in H. inv_bind H. inv_bind H. injection H as <-.
      apply ensure_ok in Ha0. split; [now apply Hsig|done]. }
    assert (Hdev : forall a, ensure_device_admin x o = ROk a -> o = Signed a /\ kx_priv x a DeviceAdmin = true).
    { intros a H. unfold ensure_device_admin in H. inv_bind H. inv_bind H. injection H as <-.
      apply ensure_ok in Ha0. split; [now apply Hsig|done]. }
    assert (Hset : set_k_maintain s (k_maintain s) = s) by now destruct s.
    destruct c; cbn [kexec]; intros H.
    - inv_bind H. injection H as <-. eauto.
    - unfold force_history in H. inv_bind H. destruct (k_hist s !! who); [|discriminate].
      destruct (restamp _ _); [|discriminate]. injection H as <-. split; [eauto|]. reflexivity.
    - inv_bind H. inv_bind H. split; [eauto|].
      apply (do_add_moves False) in H; [|tauto]. apply H.
    - unfold burn_for_credit in H. inv_bind H. destruct (k_uc s !! a) as [d|]; [|discriminate].
      cbv zeta in H. destruct (_ <? _); [discriminate|].
      destruct (withdraw _ _ _ _ _) as [b|] eqn:Ew; [|discriminate].
      destruct (update_credit _ a _) as [s2 ok] eqn:Eu. inv_bind H. injection H as <-.
      exists a, b. split; [eauto|]. split; [done|].
      set (s1 := set_k_bank s _) in *.
      assert (R : same_rest s1 a0).
      { destruct ok.
        - eapply (update_credit_moves False); eassumption.
        - apply update_credit_false in Eu as ->. unfold update_history in Ha0.
          destruct (k_uc s1 !! a); [|discriminate]. destruct (last _) as [[]|]; injection Ha0 as <-;
            [reflexivity|apply same_rest_refl]. }
      unfold same_rest in *. rewrite R. reflexivity.
    - inv_bind H. injection H as <-. apply Hadm in Ha as []. eauto.
    - inv_bind H. injection H as <-. apply Hadm in Ha as []. eauto.
    - unfold burn_nft in H. inv_bind H. destruct (k_nft_credit s !! class) as [v|] eqn:Ev; [|discriminate].
      cbv zeta in H. inv_bind H. destruct (k_nft_owner s !! _) as [owner|] eqn:Eo; [|discriminate].
      inv_bind H. inv_bind H. injection H as <-.
      apply ensure_ok in Ha0, Ha1. apply N.leb_le in Ha0.
      exists a, owner, v. split; [eauto|]. split; [done|]. split; [done|]. split; [done|].
      split. { apply orb_true_iff in Ha1 as [E|E]; [left; now apply N.eqb_eq|right; now eapply bool_decide_eq_true_1]. }
      unfold by_burn_nft in Ha2. destruct (update_credit _ a _) as [s2 ok] eqn:Eu.
      destruct ok; [|discriminate].
      pose proof (update_credit_moves False _ _ _ _ _ _ Eu Ha2) as [_ T].
      unfold same_rest in *. rewrite T. reflexivity.
    - inv_bind H. inv_bind H. injection H as <-. apply Hadm in Ha as []. eauto.
    - inv_bind H. injection H as <-. apply Hadm in Ha as []. eauto.
    - inv_bind H. injection H as <-. apply Hadm in Ha as []. eauto.
    - inv_bind H. injection H as <-. apply Hadm in Ha as []. eauto.
    - inv_bind H. injection H as <-. apply Hadm in Ha as []. eauto.
    - inv_bind H. injection H as <-. apply Hadm in Ha as []. eauto.
    - inv_bind H. apply Hadm in Ha as [? ?]. exists a. split; [done|]. split; [done|].
      apply (unstaking_moves False) in H. apply H.
    - inv_bind H. inv_bind H. apply Hadm in Ha as [? ?]. exists a. split; [done|]. split; [done|].
      apply (do_add_moves False) in H; [|tauto]. apply H.
    - inv_bind H. injection H as <-. apply Hadm in Ha as []. eauto.
    - unfold submit_price in H. inv_bind H. inv_bind H. inv_bind H. inv_bind H. injection H as <-.
      apply ensure_ok in Ha, Ha1. apply negb_true_iff, N.eqb_neq in Ha.
      exists a0. split; [eauto|]. split; [done|]. split; [done|]. split; [|done].
      intros rate old Er Eo. rewrite Er, Eo in Ha2. apply ensure_ok, N.leb_le in Ha2.
      destruct (N.ltb_spec old price); lia.
    - inv_bind H. injection H as <-. apply Hadm in Ha as []. eauto.
    - inv_bind H. injection H as <-. apply Hdev in Ha as [].
      destruct (bool_decide _); [exists a, (k_maintain s)|exists a, (k_maintain s ++ [who])]; eauto.
    - inv_bind H. injection H as <-. apply Hdev in Ha as [].
      destruct (list_find _ _) as [[i ?]|].
      + exists a, (take i (k_maintain s) ++ drop (S i) (k_maintain s)). eauto.
      + exists a, (k_maintain s). eauto.
    - inv_bind H. injection H as <-. eauto.
  Qed.

  (** The same for entry points and hooks. *)
  Lemma kentry_rest s x e s' r :
    kc_step cfg <> U64MAX ->
    kentry_exec cfg s x e = ROk (s', r) ->
    match e with
    | KEvmUpdate _ _ _ _ | KSlash _ _ | KGetReward _ _ _ | KTip _ _ | KInitHistory _ => same_rest s s'
    | KTraffic who =>
        s' = s \/ same_rest (set_k_last_era s (delete who (k_last_era s))) s' \/
        same_rest (set_k_last_ts s (<[who := kx_secs x]> (k_last_ts s))) s' \/
        same_rest (set_k_last_era (set_k_last_ts s (<[who := kx_secs x]> (k_last_ts s)))
                     (delete who (k_last_era s))) s'
    | KAddOrUpdate who gap _ =>
        same_rest (set_k_ustake s (<[who := add64 (default 0 (k_ustake s !! who)) gap]> (k_ustake s))) s'
    | KStakingBalance who usdt dpr => s' = set_staking_balance s who usdt dpr
    | KUnstaking who => same_rest (set_k_ustake s (delete who (k_ustake s))) s'
    | KBurnRecord v => s' = burn_record cfg s x v
    | KInitialize => s' = on_initialize cfg s x
    | KFinalize => s' = set_price s
    | KUpgrade => s' = on_upgrade cfg s x
    | KNftSet class item owner => exists m, s' = set_k_nft_owner s m
    | KNftAdmin class a => s' = set_k_nft_admin s (<[class := a]> (k_nft_admin s))
    end.
  Proof.
    intros Hstep. destruct e; cbn [kentry_exec]; intros H.
    - inv_bind H. injection H as <- _. destruct a as [s1 b]. cbn [fst].
      unfold evm_update in Ha. destruct (negb _); [injection Ha as <- _; apply same_rest_refl|].
      destruct (kx_e2d x user); [|injection Ha as <- _; apply same_rest_refl].
      destruct add.
      + destruct (k_uc s !! n) as [d|]; [|injection Ha as <- _; apply same_rest_refl].
        inv_bind Ha. injection Ha as <- _.
        eapply (do_add_moves False); [tauto|eassumption].
      + inv_bind Ha. injection Ha as <- _. eapply (slash_moves False). eassumption.
    - inv_bind H. injection H as <- _. eapply (slash_moves False). eassumption.
    - inv_bind H. injection H as <- _. destruct a as [s1 q]. cbn [fst].
      eapply get_reward_moves; eassumption.
    - inv_bind H. injection H as <- _. unfold by_traffic in Ha.
      destruct (kx_onboard x who); [|injection Ha as <-; now left].
      destruct (update_interval _ _ _ _ _) as [n0 used].
      destruct (_ <=? n0); [|injection Ha as <-; now left].
      destruct (update_credit _ who _) as [s1 ok] eqn:Eu.
      inv_bind Ha. injection Ha as <-.
      assert (R : if ok then same_rest (set_k_last_ts s (<[who := kx_secs x]> (k_last_ts s))) a0 else a0 = s).
      { destruct ok.
        - unfold update_credit in Eu. destruct (k_uc s !! who) as [d|] eqn:Ed; [|discriminate].
          injection Eu as <-.
          eapply (update_history_moves False); [exact Ed|tauto|exact Ha0].
        - apply update_credit_false in Eu as ->. now injection Ha0. }
      destruct ok, used.
      + right. right. right. unfold same_rest in *. rewrite R. reflexivity.
      + right. right. left. exact R.
      + right. left. rewrite R. reflexivity.
      + now left.
    - inv_bind H. injection H as <- _. unfold by_tip in Ha.
      destruct (kx_onboard x who); [|injection Ha as <-; apply same_rest_refl].
      destruct (update_credit _ who _) as [s1 ok] eqn:Eu. destruct ok.
      + eapply (update_credit_moves False); eassumption.
      + apply update_credit_false in Eu as ->. injection Ha as <-. apply same_rest_refl.
    - unfold init_delegator_history in H. destruct (k_uc s !! who); injection H as <- _;
        [reflexivity|apply same_rest_refl].
    - inv_bind H. injection H as <- _. unfold add_or_update in Ha. cbv zeta in Ha. inv_bind Ha.
      injection Ha as <-.
      apply (do_add_moves False) in Ha0 as [_ Ha0]; [|tauto].
      unfold same_rest in *. rewrite Ha0. reflexivity.
    - injection H as <- _. reflexivity.
    - inv_bind H. injection H as <- _.
      apply (unstaking_moves False) in Ha. apply Ha.
    - now injection H as <- _.
    - now injection H as <- _.
    - now injection H as <- _.
    - now injection H as <- _.
    - injection H as <- _. eauto.
    - now injection H as <- _.
  Qed.

  Lemma update_setting_credit s st : k_uc (update_setting s st) = k_uc s /\ k_hist (update_setting s st) = k_hist s.
  Proof. done. Qed.
  Lemma fold_setting_credit l s :
    k_uc (fold_left update_setting l s) = k_uc s /\ k_hist (fold_left update_setting l s) = k_hist s.
  Proof. revert s. induction l as [|st l IH]; intros s; [done|]. cbn [fold_left]. apply (IH (update_setting s st)). Qed.
  Lemma on_initialize_credit s x : k_uc (on_initialize cfg s x) = k_uc s /\ k_hist (on_initialize cfg s x) = k_hist s.
  Proof.
    unfold on_initialize. destruct (_ =? 0); [|done]. destruct (_ =? 0); [done|]. cbv zeta.
    destruct (_ && _ && _); [|done]. generalize (sub_genesis_apy ((era_of cfg (kx_now x) - k_change_era s) / 180)).
    intros l. apply fold_setting_credit.
  Qed.
  Lemma upgrade_fold_credit l1 l2 s v (t := set_k_version (fold_left update_setting l2 (fold_left update_setting l1 s)) v) :
    k_uc t = k_uc s /\ k_hist t = k_hist s.
  Proof.
    subst t. cbn [k_uc k_hist set_k_version].
    destruct (fold_setting_credit l2 (fold_left update_setting l1 s)) as [E1 E2].
    rewrite E1, E2. apply fold_setting_credit.
  Qed.
  Lemma on_upgrade_credit s x : k_uc (on_upgrade cfg s x) = k_uc s /\ k_hist (on_upgrade cfg s x) = k_hist s.
  Proof.
    unfold on_upgrade. destruct (_ =? 4); [|done]. apply upgrade_fold_credit.
  Qed.
  Lemma set_price_credit s : k_uc (set_price s) = k_uc s /\ k_hist (set_price s) = k_hist s.
  Proof. unfold set_price. destruct (k_prices s); done. Qed.

  Ltac open_all :=
    repeat match goal with
           | H : _ /\ _ |- _ => destruct H
           | H : exists _, _ |- _ => destruct H
           end; subst.

  (** A step touches the records and histories of at most one user. *)
  Lemma kdo_touches s op :
    kc_step cfg <> U64MAX ->
    (exists who, rtc (touch (levels_ok s) (now_era (fst op)) who) (cr s) (cr (kdo cfg s op))) \/
    (exists who e h h', snd op = inl (Root, KForceHistory who e) /\ k_hist s !! who = Some h /\
       restamp h e = Some h' /\ kdo cfg s op = set_k_hist s (<[who := h']> (k_hist s))).
  Proof.
    intros Hstep. destruct op as [x [[o c]|e]]; unfold kdo; cbn [fst snd].
    - unfold kstep. destruct (kexec cfg s x o c) as [s'|er|] eqn:E; cbn [fst].
      2,3: left; exists 0; apply rtc_refl.
      destruct c; try (left; exists 0; apply kexec_rest in E; open_all; apply rtc_refl).
      + (* force *) right. cbn [kexec] in E. unfold force_history in E. inv_bind E.
        destruct (k_hist s !! who) as [h|] eqn:Eh; [|discriminate].
        destruct (restamp h era) as [h'|] eqn:Er; [|discriminate]. injection E as <-.
        exists who, era, h, h'. destruct o; try discriminate. auto.
      + (* add data *) left. cbn [kexec] in E. inv_bind E. inv_bind E.
        exists who. eapply do_add_moves; [|exact E]. intros _. unfold check_credit_data in Ha0. inv_bind Ha0.
        apply ensure_ok, N.eqb_eq in Ha1. unfold level_ok. now rewrite <- level_of_band.
      + (* burn for credit *) left. cbn [kexec] in E. unfold burn_for_credit in E. inv_bind E.
        destruct (k_uc s !! a) as [d|] eqn:Ed; [|discriminate]. cbv zeta in E.
        destruct (_ <? _); [discriminate|]. destruct (withdraw _ _ _ _ _); [|discriminate].
        destruct (update_credit _ a _) as [s2 ok] eqn:Eu. inv_bind E. injection E as <-.
        destruct ok; [|exfalso; unfold update_credit in Eu; cbn [k_uc set_k_bank] in Eu; rewrite Ed in Eu; discriminate].
        exists a. eapply (update_credit_moves (levels_ok s)) in Ha0; [|exact Eu]. apply Ha0.
      + (* burn nft *) left. cbn [kexec] in E. unfold burn_nft in E. inv_bind E.
        destruct (k_nft_credit s !! class) as [v|]; [|discriminate]. cbv zeta in E. inv_bind E.
        destruct (k_nft_owner s !! _); [|discriminate]. inv_bind E. inv_bind E. injection E as <-.
        unfold by_burn_nft in Ha2.
        destruct (update_credit (set_k_nft_owner _ _) a _) as [s2 ok] eqn:Eu. destruct ok; [|discriminate].
        exists a. eapply (update_credit_moves (levels_ok s)) in Ha2; [|exact Eu]. apply Ha2.
      + (* unstaking *) left. cbn [kexec] in E. inv_bind E. exists who.
        apply (unstaking_moves (levels_ok s)) in E. apply E.
      + (* external *) left. cbn [kexec] in E. inv_bind E. inv_bind E.
        exists who. eapply do_add_moves; [|exact E]. intros _. unfold check_credit_data in Ha0. inv_bind Ha0.
        apply ensure_ok, N.eqb_eq in Ha1. unfold level_ok. now rewrite <- level_of_band.
    - left. unfold kentry_step. destruct (kentry_exec cfg s x e) as [[s' r]|er|] eqn:E; cbn [fst].
      2,3: exists 0; apply rtc_refl.
      destruct e; cbn [kentry_exec] in E.
      + inv_bind E. injection E as <- _. destruct a as [s1 b]. cbn [fst].
        unfold evm_update in Ha. destruct (negb _); [injection Ha as <- _; exists 0; apply rtc_refl|].
        destruct (kx_e2d x user) as [w|]; [|injection Ha as <- _; exists 0; apply rtc_refl].
        exists w. destruct add.
        * destruct (k_uc s !! w) as [d|]; [|injection Ha as <- _; apply rtc_refl].
          inv_bind Ha. injection Ha as <- _. eapply do_add_moves; [|exact Ha0]. intros _. apply update_level_ok.
        * inv_bind Ha. injection Ha as <- _. eapply slash_moves. eassumption.
      + inv_bind E. injection E as <- _. exists who. eapply slash_moves. eassumption.
      + inv_bind E. injection E as <- _. destruct a as [s1 q]. cbn [fst]. exists who.
        eapply get_reward_moves; eassumption.
      + inv_bind E. injection E as <- _. exists who. unfold by_traffic in Ha.
        destruct (kx_onboard x who); [|injection Ha as <-; apply rtc_refl].
        destruct (update_interval _ _ _ _ _) as [n0 used].
        destruct (_ <=? n0); [|injection Ha as <-; apply rtc_refl].
        destruct (update_credit _ who _) as [s1 ok] eqn:Eu.
        inv_bind Ha. injection Ha as <-.
        assert (R : rtc (touch (levels_ok s) (now_era x) who) (cr s) (cr a0)).
        { destruct ok.
          - unfold update_credit in Eu. destruct (k_uc s !! who) as [d|] eqn:Ed; [|discriminate].
            injection Eu as <-.
            eapply (update_history_moves (levels_ok s) (set_k_last_ts s (<[who := kx_secs x]> (k_last_ts s))));
              [exact Ed| |exact Ha0]. intros _. apply update_level_ok.
          - apply update_credit_false in Eu as ->. injection Ha0 as <-. apply rtc_refl. }
        destruct used; exact R.
      + inv_bind E. injection E as <- _. exists who. unfold by_tip in Ha.
        destruct (kx_onboard x who); [|injection Ha as <-; apply rtc_refl].
        destruct (update_credit _ who _) as [s1 ok] eqn:Eu. destruct ok.
        * eapply update_credit_moves; eassumption.
        * apply update_credit_false in Eu as ->. injection Ha as <-. apply rtc_refl.
      + unfold init_delegator_history in E. destruct (k_uc s !! who) as [d|] eqn:Ed; injection E as <- _.
        * exists who. apply rtc_once. now apply touch_init.
        * exists who. apply rtc_refl.
      + inv_bind E. injection E as <- _. exists who. unfold add_or_update in Ha. cbv zeta in Ha. inv_bind Ha.
        injection Ha as <-. eapply (do_add_moves (levels_ok s)) in Ha0; [apply Ha0|].
        intros _. destruct (k_uc s !! who); [apply update_level_ok|apply new_level_ok].
      + injection E as <- _. exists 0. apply rtc_refl.
      + inv_bind E. injection E as <- _. exists who. apply (unstaking_moves (levels_ok s)) in Ha. apply Ha.
      + injection E as <- _. exists 0. apply rtc_refl.
      + injection E as <- _. exists 0. unfold cr. destruct (on_initialize_credit s x) as [-> ->]. apply rtc_refl.
      + injection E as <- _. exists 0. unfold cr. destruct (set_price_credit s) as [-> ->]. apply rtc_refl.
      + injection E as <- _. exists 0. unfold cr. destruct (on_upgrade_credit s x) as [-> ->]. apply rtc_refl.
      + injection E as <- _. exists 0. apply rtc_refl.
      + injection E as <- _. exists 0. apply rtc_refl.
  Qed.
End proofs.
