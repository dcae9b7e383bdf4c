(** Delegators, referrals and what each step does to them. *)
From Verif Require Import Base Balances Model_StakingLedger Model_Staking Spec_Staking
  Proofs_Arith Proofs_StakingLedger Proofs_Staking.
From stdpp Require Import gmap sorting.
Open Scope N_scope.

(** ** Elementary changes *)
Inductive dlab :=
| DMisc | DCursor | DCand | DDeleg (x : kctx) (d : N) (vs : list N) | DUndel (era d : N)
| DPaid (x : kctx) (d : N) (r : drec) (got : option N) | DRef (who ref : N) | DUnref (who : N).

(** What pay_delegator does to a record. *)
Definition paid_rec (era d : N) (r : drec) (k : dels) : dels :=
  if dr_on r then set_d_recs k (<[d := DRec (dr_vals r) (Some era) (dr_on r)]> (d_recs k))
  else set_d_count (set_d_recs k (delete d (d_recs k))) (ssub (d_count k) 1).

Inductive dmove : dels -> dlab -> dels -> Prop :=
| dm_misc k k' : d_recs k' = d_recs k -> d_cand k' = d_cand k -> d_count k' = d_count k ->
    d_active k' = d_active k -> d_ref k' = d_ref k -> d_refc k' = d_refc k ->
    d_cursor k' = d_cursor k -> d_per k' = d_per k -> dmove k DMisc k'
| dm_cursor k k' : d_recs k' = d_recs k -> d_cand k' = d_cand k -> d_count k' = d_count k ->
    d_active k' = d_active k -> d_ref k' = d_ref k -> d_refc k' = d_refc k -> dmove k DCursor k'
| dm_cand k k' : d_recs k' = d_recs k -> (forall v, cd_dels (cand_of k' v) = cd_dels (cand_of k v)) ->
    d_count k' = d_count k -> d_active k' = d_active k -> d_ref k' = d_ref k -> d_refc k' = d_refc k ->
    d_cursor k' = d_cursor k -> d_per k' = d_per k -> dmove k DCand k'
| dm_deleg k x d vs k' : do_delegate x k d vs = ROk k' -> dmove k (DDeleg x d vs) k'
| dm_undel k era d : dmove k (DUndel era d) (undelegate era k d)
| dm_paid k x d r o : d_recs k !! d = Some r -> default (kx_era x) (dr_since r) <> kx_era x ->
    dmove k (DPaid x d r o) (paid_rec (kx_era x) d r k)
| dm_ref k who ref k' : set_referer k who ref = ROk k' -> dmove k (DRef who ref) k'
| dm_unref k who : dmove k (DUnref who) (unset_referer k who).

Inductive dpath : dels -> list dlab -> dels -> Prop :=
| dp_nil k : dpath k [] k
| dp_cons k l k1 ls k' : dmove k l k1 -> dpath k1 ls k' -> dpath k (l :: ls) k'.
Lemma dpath_one k l k' : dmove k l k' -> dpath k [l] k'.
Proof. intros. econstructor; [eauto|constructor]. Qed.
Lemma dpath_app k a k1 b k2 : dpath k a k1 -> dpath k1 b k2 -> dpath k (a ++ b) k2.
Proof. induction 1; intros; [auto|]. cbn. econstructor; eauto. Qed.

(** Every label names the surroundings of its step and fits its kind. *)
Inductive kind := KdJoin | KdInit | KdOther.
Definition kind_of (op : kop) : kind :=
  match op with KInit _ => KdInit | _ => if joins op then KdJoin else KdOther end.
Definition dlab_ok (x : option kctx * kind) (l : dlab) : Prop :=
  match l with
  | DDeleg y _ _ => x = (Some y, KdJoin)
  | DPaid y _ _ _ => x = (Some y, KdInit)
  | DUndel _ _ => x.2 = KdOther
  | DCursor => x.2 = KdInit
  | DCand => x.1 = None
  | _ => True
  end.
Definition lab_asks (l : dlab) : list kev :=
  match l with
  | DPaid x d r o => KAsk d (default (kx_era x) (dr_since r)) (sub32 (kx_era x) 1) ::
                     match o with Some g => [KMint MDelegator d g] | None => [] end
  | _ => []
  end.
Definition is_ask (e : kev) : bool := match e with KAsk _ _ _ | KMint MDelegator _ _ => true | _ => false end.
Definition ask_part (ev : list kev) : list kev := List.filter is_ask ev.
Lemma ask_part_app a b : ask_part (a ++ b) = ask_part a ++ ask_part b.
Proof. apply List.filter_app. Qed.

(** Changes that may add an entry. *)
Definition grows (l : dlab) : nat := match l with DDeleg _ _ _ | DRef _ _ => 1 | _ => 0 end.
Definition growth (ls : list dlab) : nat := list_sum (map grows ls).

(** The changes a step makes and the questions it asks; at most [n] additions. *)
Definition explains (n : nat) (x : option kctx * kind) (k k' : dels) (ev : list kev) : Prop :=
  exists ls, dpath k ls k' /\ Forall (dlab_ok x) ls /\ ask_part ev = concat (map lab_asks ls) /\ (growth ls <= n)%nat.
Lemma explains_nil n x k ev : ask_part ev = [] -> explains n x k k ev.
Proof. intros H. exists []. repeat split; [constructor|constructor|auto|cbn; lia]. Qed.
Lemma explains_one n x k l k' ev : dmove k l k' -> dlab_ok x l -> ask_part ev = lab_asks l -> (grows l <= n)%nat -> explains n x k k' ev.
Proof. intros H1 H2 H3 H4. exists [l]. split; [now apply dpath_one|]. split; [now constructor|]. cbn. rewrite app_nil_r. split; [auto|lia]. Qed.
Lemma explains_app n x k k1 k2 a b : explains 0 x k k1 a -> explains n x k1 k2 b -> explains n x k k2 (a ++ b).
Proof.
  intros (l1 & P1 & F1 & A1 & G1) (l2 & P2 & F2 & A2 & G2). exists (l1 ++ l2).
  split; [eapply dpath_app; eauto|]. split; [now apply Forall_app|].
  rewrite ask_part_app, A1, A2, map_app, concat_app. split; [auto|].
  unfold growth in *. rewrite map_app, list_sum_app. lia.
Qed.
Lemma explains_misc n x k k' ev :
  d_recs k' = d_recs k -> d_cand k' = d_cand k -> d_count k' = d_count k ->
  d_active k' = d_active k -> d_ref k' = d_ref k -> d_refc k' = d_refc k ->
  d_cursor k' = d_cursor k -> d_per k' = d_per k -> ask_part ev = [] -> explains n x k k' ev.
Proof. intros. eapply explains_one; [apply dm_misc; eauto|exact I|auto|cbn; lia]. Qed.
Lemma explains_more x k k' ev : explains 0 x k k' ev -> explains 1 x k k' ev.
Proof. intros (ls & P & F & A & G). exists ls. repeat split; auto. Qed.

Section model.
  Context (cfg : kcfg).
  Local Notation ed := (kc_ed cfg).

  (** ** Parts that leave [k_del] alone *)
  Lemma update_ledger_del x s c l : k_del (update_ledger cfg x s c l) = k_del s.
  Proof. unfold update_ledger, set_lock. now destruct (_ =? 0). Qed.
  Lemma do_slash_del x s st v pay s' pay' got ev :
    do_slash cfg x s st v pay = (s', pay', got, ev) -> k_del s' = k_del s /\ ask_part ev = [].
  Proof.
    unfold do_slash. destruct (_ !! st) as [c|]; [|intros H; now injection H as <- _ _ <-].
    destruct (_ !! c); [|intros H; now injection H as <- _ _ <-].
    destruct (slash_ledger _ _ _). destruct (_ =? 0); [intros H; now injection H as <- _ _ <-|].
    destruct (cslash _ _ _ _ _) as [[? ?] ?]. intros H. injection H as <- _ _ <-. now rewrite update_ledger_del.
  Qed.
  Lemma credit_fold_del x x0 l : forall s,
    explains 0 (x0, KdOther) (k_del s) (k_del (fold_left (credit_slash x) l s)) [].
  Proof.
    induction l as [|d l IH]; intros s; cbn; [now apply explains_nil|].
    change (@nil kev) with (@nil kev ++ []). eapply explains_app; [|apply IH].
    unfold credit_slash. destruct (kx_pass x d); [now apply explains_nil|].
    eapply explains_one; [apply dm_undel|reflexivity|reflexivity|auto].
  Qed.
  Lemma credit_map l : ask_part (map KCreditSlash l) = [].
  Proof. induction l; auto. Qed.
  Lemma apply_slash_del x x0 s u s' ev :
    apply_slash cfg x s u = (s', ev) -> explains 0 (x0, KdOther) (k_del s) (k_del s') ev.
  Proof.
    unfold apply_slash. destruct (do_slash _ _ _ _ _ _) as [[[s1 p1] g1] e1] eqn:E.
    intros H. injection H as <- <-. apply do_slash_del in E as [<- A].
    cbn [k_del set_k_bank]. destruct (credit_fold_del x x0 (u_others u) s1) as (ls & P & F & G & J).
    exists ls. split; [auto|]. split; [auto|]. split; [now rewrite ask_part_app, A, credit_map, <- G|auto].
  Qed.
  Lemma apply_list_del x x0 : forall l s s' ev,
    apply_list cfg x l s = (s', ev) -> explains 0 (x0, KdOther) (k_del s) (k_del s') ev.
  Proof.
    induction l as [|u l IH]; intros s s' ev H; cbn in H; [injection H as <- <-; now apply explains_nil|].
    destruct (apply_slash cfg x s u) as [s1 e1] eqn:E1.
    destruct (apply_list cfg x l s1) as [s2 e2] eqn:E2. injection H as <- <-.
    eapply explains_app; [eapply apply_slash_del; eauto|eauto].
  Qed.
  Lemma apply_eras_del x x0 : forall n era s s' ev,
    apply_eras cfg x n era s = (s', ev) -> explains 0 (x0, KdOther) (k_del s) (k_del s') ev.
  Proof.
    induction n as [|n IH]; intros era s s' ev H; cbn [apply_eras] in H; [injection H as <- <-; now apply explains_nil|].
    cbn zeta in H. destruct (apply_list cfg x _ _) as [s1 e1] eqn:E1.
    destruct (apply_eras cfg x n (era + 1) s1) as [s2 e2] eqn:E2. injection H as <- <-.
    eapply explains_app; [exact (apply_list_del _ _ _ _ _ _ E1)|eauto].
  Qed.
  Lemma start_session_del x x0 s i s' ev :
    start_session cfg x s i = (s', ev) -> explains 0 (x0, KdOther) (k_del s) (k_del s') ev.
  Proof.
    unfold start_session. destruct (e_start _ !! _); [|intros H; injection H as <- <-; now apply explains_nil].
    destruct (_ <=? _); [|intros H; injection H as <- <-; now apply explains_nil].
    unfold start_era, apply_unapplied. cbn zeta. cbn [k_stk set_k_era set_k_stk s_first set_s_in_era].
    destruct (s_first (k_stk s)); [|intros H; injection H as <- <-; now apply explains_nil].
    destruct (apply_eras _ _ _ _ _) as [s1 e1] eqn:E. intros H. injection H as <- <-.
    exact (apply_eras_del _ x0 _ _ _ _ _ E).
  Qed.
  Lemma compute_del x s st f ex era w now s' u ev :
    compute_slash x s st f ex era w now = (s', u, ev) -> k_del s' = k_del s /\ ask_part ev = [].
  Proof.
    unfold compute_slash. destruct (_ =? 0).
    { intros H. injection H as <- _ <-. split; [|auto]. unfold kick_out. destruct (fetch_spans _ _ _).
      destruct (era_span _ _); [|auto]. destruct (_ =? _); [|auto]. now destruct (kick _ _ _ _ _ _ _) as [[[? ?] ?] ?]. }
    destruct (_ <=? _); [intros H; now injection H as <- _ <-|].
    destruct (fetch_spans _ _ _). destruct (update_span _ _ _ _ _ _) as [[[[[? ?] ?] ?] ?] t].
    destruct (if bool_decide _ then _ else _) as [[[? ?] ?] ?]. intros H. injection H as <- _ <-. split; [auto|]. now destruct t.
  Qed.
  Lemma on_offence_del x x0 s os i s' ev :
    on_offence cfg x s os i = (s', ev) -> explains 0 (x0, KdOther) (k_del s) (k_del s') ev.
  Proof.
    unfold on_offence. destruct (e_act (k_era s)) as [[a b]|]; [|intros H; injection H as <- <-; now apply explains_nil].
    destruct (slash_era _ _ _) as [era|]; [|intros H; injection H as <- <-; now apply explains_nil].
    cbn zeta.
    set (s0 := set_k_stk s _). change (k_del s) with (k_del s0).
    enough (G : forall os s0 ev0 s' ev', fold_left (offender1 cfg x era (ssub a (kc_bonding cfg)) a) os (s0, ev0) = (s', ev') ->
      exists e, ev' = ev0 ++ e /\ explains 0 (x0, KdOther) (k_del s0) (k_del s') e).
    { intros H. destruct (G _ _ _ _ _ H) as (e & -> & E). exact E. }
    clear. induction os as [|o os IH]; intros s ev0 s' ev' H; cbn [fold_left] in H.
    { injection H as <- <-. exists []. rewrite app_nil_r. split; [auto|now apply explains_nil]. }
    destruct (offender1 _ _ _ _ _ _ o) as [s1 e1] eqn:E1 in H.
    destruct (IH _ _ _ _ H) as (e & -> & E).
    assert (S1 : exists e', e1 = ev0 ++ e' /\ explains 0 (x0, KdOther) (k_del s) (k_del s1) e').
    { clear - E1. destruct o as [[[st0 ex] reps] frac]. cbn [offender1] in E1.
      destruct (bool_decide _); [injection E1 as <- <-; exists []; rewrite app_nil_r; split; [auto|now apply explains_nil]|].
      destruct (compute_slash _ _ _ _ _ _ _ _) as [[s3 u] e3] eqn:E3. apply compute_del in E3 as [D3 A3].
      destruct u as [u|]; [|injection E1 as <- <-; exists e3; split; [auto|]; rewrite D3; now apply explains_nil].
      destruct (_ =? 0).
      - destruct (apply_slash _ _ _ _) as [s4 e4] eqn:E4. injection E1 as <- <-.
        exists (e3 ++ e4). split; [auto|]. rewrite <- D3. eapply explains_app; [now apply explains_nil|eapply apply_slash_del; eauto].
      - injection E1 as <- <-. exists e3. split; [auto|]. cbn. rewrite D3. now apply explains_nil. }
    destruct S1 as (e' & -> & S1). exists (e' ++ e). rewrite app_assoc. split; [auto|]. eapply explains_app; eauto.
  Qed.
  Lemma payout_del x s st v s' ev :
    validator_payout cfg x s st v = (s', ev) -> k_del s' = k_del s /\ ask_part ev = [].
  Proof.
    unfold validator_payout. destruct (default PStaked _).
    - destruct (_ !! st) as [c|]; [|intros H; now injection H as <- <-].
      destruct (_ !! c); [|intros H; now injection H as <- <-].
      destruct (mint_existing _ _ _ _). intros H; injection H as <- <-. now rewrite update_ledger_del.
    - destruct (mint_existing _ _ _ _). intros H; now injection H as <- <-.
    - destruct (_ !! st) as [c|]; [|intros H; now injection H as <- <-].
      destruct (Model_Operation.mint _ _ _ _). intros H; now injection H as <- <-.
    - destruct (Model_Operation.mint _ _ _ _). intros H; now injection H as <- <-.
  Qed.
  Lemma pay_each_del x pts po : forall vs s t s' t' ev,
    pay_each cfg x pts po vs s t = (s', t', ev) -> k_del s' = k_del s /\ ask_part ev = [].
  Proof.
    induction vs as [|v vs IH]; intros s t s' t' ev H; cbn [pay_each] in H; [now injection H as <- _ <-|].
    destruct (_ =? 0); [now apply IH in H|].
    destruct (validator_payout _ _ _ _ _) as [s1 e1] eqn:E1.
    destruct (pay_each _ _ _ _ _ _ _) as [[s2 t2] e2] eqn:E2 in H. injection H as <- _ <-.
    apply payout_del in E1 as [A1 B1]. apply IH in E2 as [A2 B2]. split; [congruence|]. now rewrite ask_part_app, B1, B2.
  Qed.
  Lemma end_session_del x x0 s i s' ev :
    end_session cfg x s i = (s', ev) -> explains 0 (x0, KdOther) (k_del s) (k_del s') ev.
  Proof.
    unfold end_session. destruct (e_act (k_era s)) as [[i0 st]|]; [|intros H; injection H as <- <-; now apply explains_nil].
    destruct (e_start _ !! _); [|intros H; injection H as <- <-; now apply explains_nil].
    destruct (_ && _); [|intros H; injection H as <- <-; now apply explains_nil].
    unfold pay_validators. destruct (_ =? 0); [intros H; injection H as <- <-; now apply explains_nil|]. cbn zeta.
    destruct (pay_each _ _ _ _ _ _ _) as [[s1 t] e1] eqn:E. intros H. injection H as <- <-.
    apply pay_each_del in E as [A B]. cbn. rewrite A. now apply explains_misc.
  Qed.
  Lemma new_session_del s i s' ev :
    new_session cfg s i = (s', ev) -> explains 0 (None, KdOther) (k_del s) (k_del s') ev.
  Proof.
    assert (G : forall s0, k_del s0 = k_del s -> new_era cfg s0 i = (s', ev) -> explains 0 (None, KdOther) (k_del s) (k_del s') ev).
    { intros s0 <- H. unfold new_era in H. cbn zeta in H. set (e2 := if _ <=? _ then _ else _) in H.
      set (er := match e_cur _ with Some e => _ | None => 0 end) in *.
      destruct (elect cfg (set_k_era s0 e2) er) as [s1 o] eqn:E.
      assert (K : explains 0 (None, KdOther) (k_del s0) (k_del s1) []).
      { unfold elect in E. cbn zeta in E. destruct (_ <? _); [injection E as <- _; now apply explains_nil|].
        injection E as <- _. cbn [k_del set_k_era set_k_del].
        eapply explains_one; [apply dm_cand; auto|reflexivity|reflexivity|auto].
        intros v. unfold cand_of. cbn [d_cand set_d_cand].
        generalize (map (fun r : N * N * N => r.1.1) (take (N.to_nat (p_count (k_par s0))) (rsort (map (rank_of (k_del s0)) (List.filter (trusted (k_par s0)) (validators_in_order cfg (k_stk s0))))))).
        intros l. cbn. generalize (d_cand (k_del s0)). clear.
        induction l as [|a l IH]; intros m; cbn [fold_left]; [auto|]. rewrite IH.
        destruct (decide (a = v)) as [->|Hn]; [now rewrite lookup_insert|now rewrite lookup_insert_ne]. }
      destruct o as [l|]; injection H as <- <-; [|exact K].
      destruct K as (ls & P & F & A & G0). exists ls. auto. }
    unfold new_session. destruct (e_cur (k_era s)); [|now apply G].
    destruct (e_force (k_era s)).
    - destruct (_ <=? _); [now apply G|intros H; injection H as <- <-; now apply explains_nil].
    - now apply G.
    - intros H; injection H as <- <-; now apply explains_nil.
    - now apply G.
  Qed.

  (** ** Paying delegators *)
  Lemma pay_delegator_del x s d r pool s' p ev :
    d_recs (k_del s) !! d = Some r ->
    pay_delegator cfg x s d r pool = (s', p, ev) ->
    explains 0 (Some x, KdInit) (k_del s) (k_del s') ev /\ d_cursor (k_del s') = d_cursor (k_del s) /\
    (forall d', d' <> d -> d_recs (k_del s') !! d' = d_recs (k_del s) !! d').
  Proof.
    intros Hr. unfold pay_delegator. destruct (N.eqb_spec (default (kx_era x) (dr_since r)) (kx_era x)) as [E|E].
    { intros H. injection H as <- _ <-. split; [now apply explains_nil|]. auto. }
    assert (M : forall o, dmove (k_del s) (DPaid x d r o) (paid_rec (kx_era x) d r (k_del s))) by now constructor.
    assert (K : d_cursor (paid_rec (kx_era x) d r (k_del s)) = d_cursor (k_del s) /\
      forall d', d' <> d -> d_recs (paid_rec (kx_era x) d r (k_del s)) !! d' = d_recs (k_del s) !! d').
    { unfold paid_rec. destruct (dr_on r); cbn; (split; [auto|]); intros d' Hn; [apply lookup_insert_ne|apply lookup_delete_ne]; congruence. }
    destruct (kx_reward x d _ _); [destruct (Model_Operation.mint _ _ _ _)|]; intros H; injection H as <- _ <-;
      (split; [|exact K]); [eapply (explains_one _ _ _ _ _ _ (M (Some _)))|apply (explains_one _ _ _ _ _ _ (M None))]; first [reflexivity|auto].
  Qed.
  Lemma pay_referer_del s d r pool s' p ev :
    pay_referer cfg s d r pool = (s', p, ev) -> k_del s' = k_del s /\ ask_part ev = [].
  Proof.
    unfold pay_referer. destruct (d_ref _ !! d); [|intros H; now injection H as <- _ <-].
    destruct (bonus_rate _); [|intros H; now injection H as <- _ <-].
    destruct (Model_Operation.mint _ _ _ _); intros H; now injection H as <- _ <-.
  Qed.
  Lemma pay_loop_del x : forall n l s pool last ct s' p' la' c' ev,
    NoDup l.*1 -> (forall d r, (d, r) ∈ l -> d_recs (k_del s) !! d = Some r) ->
    pay_loop cfg x n l s pool last ct = (s', p', la', c', ev) ->
    explains 0 (Some x, KdInit) (k_del s) (k_del s') ev.
  Proof.
    induction n as [|n IH]; intros [|[d r] l] s pool last ct s' p' la' c' ev Nd Hl H; cbn [pay_loop] in H;
      try (injection H as <- _ _ _ <-; now apply explains_nil).
    destruct (pay_delegator cfg x s d r pool) as [[s1 q] e1] eqn:E1.
    apply pay_delegator_del in E1 as (A1 & _ & B1); [|apply Hl; left].
    destruct (_ =? 0); [now injection H as <- _ _ _ <-|].
    destruct (pay_referer cfg s1 d q _) as [[s2 q2] e2] eqn:E2. apply pay_referer_del in E2 as [A2 B2].
    destruct (_ =? 0).
    { injection H as <- _ _ _ <-. eapply explains_app; [exact A1|]. rewrite A2. now apply explains_nil. }
    destruct (pay_loop _ _ _ _ _ _ _) as [[[[s3 p3] l3] c3] e3] eqn:E3 in H.
    injection H as <- _ _ _ <-. eapply explains_app; [exact A1|]. apply (explains_app _ _ _ (k_del s2)); [rewrite A2; now apply explains_nil|]. cbn in Nd. apply NoDup_cons in Nd as [Nd1 Nd2].
    eapply IH; [exact Nd2| |exact E3].
    intros d' r' Hin. rewrite A2, B1; [apply Hl; now right|].
    intros ->. apply Nd1. apply elem_of_list_fmap. now exists (d, r').
  Qed.
  Lemma delegators_elem k c d r :
    (d, r) ∈ delegators_from cfg k c <-> beyond c (kc_dkey cfg d) = true /\ d_recs k !! d = Some r.
  Proof. unfold delegators_from. rewrite elem_of_list_filter, merge_sort_Permutation, elem_of_map_to_list. cbn. tauto. Qed.
  Lemma nodup_fst_filter {B} (P : N * B -> Prop) `{forall x, Decision (P x)} (l : list (N * B)) :
    NoDup l.*1 -> NoDup (filter P l).*1.
  Proof.
    induction l as [|[a p] l IH]; [auto|]. rewrite fmap_cons. intros H1. inversion H1 as [|? ? H2 H3]; subst.
    rewrite filter_cons. case_decide; [|now apply IH]. rewrite fmap_cons. constructor; [|now apply IH].
    intros Hin. apply H2. apply elem_of_list_fmap in Hin as (q & E & Hq).
    apply elem_of_list_filter in Hq as [_ Hq]. apply elem_of_list_fmap. eauto.
  Qed.
  Lemma delegators_nodup k c : NoDup (delegators_from cfg k c).*1.
  Proof. unfold delegators_from. apply nodup_fst_filter. rewrite merge_sort_Permutation. apply NoDup_fst_map_to_list. Qed.

  Lemma init_del x s s' ev :
    on_initialize cfg x s = ROk (s', ev) -> explains 0 (Some x, KdInit) (k_del s) (k_del s') ev.
  Proof.
    unfold on_initialize. destruct (0 <? _); [|intros H; injection H as <- <-; now apply explains_nil].
    destruct (_ =? 0).
    { destruct (_ =? 0); [discriminate|]. intros H. injection H as <- <-. eapply explains_one; [apply dm_cursor; auto|reflexivity|reflexivity|auto]. }
    unfold pay_delegators. destruct (_ =? 0); [intros H; injection H as <- <-; now apply explains_nil|].
    destruct (pay_loop _ _ _ _ _ _ _) as [[[[s1 p1] l1] c1] e1] eqn:E. intros H. injection H as <- <-.
    apply pay_loop_del in E; [|apply delegators_nodup|intros d r H; now apply delegators_elem in H].
    rewrite <- (app_nil_r e1). eapply explains_app; [exact E|]. cbn. destruct (_ =? _); (eapply explains_one; [apply dm_cursor; auto|reflexivity|reflexivity|auto]).
  Qed.

  (** ** Calls *)
  Lemma delegate_any_del x s d k :
    delegate_any cfg x s d = ROk k -> exists v, v ∈ s_valid (k_stk s) /\ dmove (k_del s) (DDeleg x d [v]) k.
  Proof.
    unfold delegate_any. intros H. inv_bind H. destruct (_ !! _) as [v|] eqn:Ev; [|discriminate].
    exists v. split; [|now constructor]. apply elem_of_list_lookup_2 in Ev.
    unfold validators_in_order in Ev. rewrite merge_sort_Permutation in Ev. now apply elem_of_elements in Ev.
  Qed.
  Lemma call_del x s o c s' ev :
    dispatch cfg x s o c = ROk (s', ev) -> explains 1 (Some x, if is_join c then KdJoin else KdOther) (k_del s) (k_del s') ev.
  Proof.
    intros H.
    assert (stk : forall s1, k_del s1 = k_del s -> explains 1 (Some x, if is_join c then KdJoin else KdOther) (k_del s) (k_del s1) []).
    { intros s1 ->. now apply explains_nil. }
    assert (kill : forall st0 n s1, unstake cfg x s st0 n = ROk s1 -> k_del s1 = k_del s).
    { intros st0 n s1 E. unfold unstake in E. inv_bind E. now injection E as <-. }
    destruct c; cbn [dispatch] in H; unfold admin, controlled, signed, root, quiet, with_par, with_del, with_stk in H;
      try (destruct o; try discriminate H; []);
      repeat match type of H with rbind (ensure _ _) _ = _ => inv_bind H end;
      try (injection H as <- <-; now apply explains_nil);
      try (injection H as <- <-; now apply explains_misc);
      try (destruct (s_ledger _ !! _); [|discriminate]; injection H as <- <-; now apply explains_nil).
    - unfold staking_delegate in H. inv_bind H. inv_bind H.
      destruct (kx_level x who); [|discriminate]. inv_bind H.
      destruct (kx_dpr x who !! N.to_nat level); [|discriminate].
      destruct (kx_dpr x who !! N.to_nat n); [|discriminate].
      destruct (transfer_keep _ _ _ _ _); [|discriminate]. inv_bind H.
      injection H as <- <-. apply delegate_any_del in E3 as (v1 & _ & E3).
      cbn [k_del set_k_del] in E3 |- *. set (k1 := set_d_bal _ _) in E3.
      assert (M : explains 0 (Some x, KdJoin) (k_del s) k1 []) by now apply explains_misc.
      match goal with |- explains _ _ _ _ ?ev => apply (explains_app _ _ _ _ _ [] ev M) end.
      eapply explains_one; [exact E3|reflexivity|reflexivity|auto].
    - unfold usdt_delegate in H. inv_bind H. inv_bind H. destruct v as [cur rest].
      destruct (0 <? _); [inv_bind H|]; injection H as <- <-; [|now apply explains_nil].
      apply delegate_any_del in E2 as (v1 & _ & E2). eapply explains_one; [exact E2|reflexivity|reflexivity|auto].
    - inv_bind H. injection H as <- <-. apply stk. unfold bond in E.
      repeat match type of E with rbind (ensure _ _) _ = _ => inv_bind E end.
      injection E as <-. now rewrite update_ledger_del.
    - inv_bind H. injection H as <- <-. apply stk. unfold bond_extra in E.
      destruct (s_bonded (k_stk s) !! who) as [c|]; [|discriminate].
      destruct (s_ledger (k_stk s) !! c) as [l|]; [|discriminate].
      destruct (_ <? _); [now injection E as <-|].
      inv_bind E. injection E as <-. now rewrite update_ledger_del.
    - unfold unbond in H. destruct (s_ledger (k_stk s) !! who) as [l|]; [|discriminate].
      inv_bind H. destruct (_ =? 0); [injection H as <- <-; now apply explains_nil|].
      match type of H with context [let '(_, _) := ?e in _] => destruct e end. injection H as <- <-.
      rewrite update_ledger_del. now apply explains_nil.
    - unfold withdraw_unbonded in H. destruct (s_ledger (k_stk s) !! who) as [l0|]; [|discriminate].
      destruct (bool_decide _ && _) in H.
      + inv_bind H. injection H as <- <-. rewrite (kill _ _ _ E). apply explains_nil. now destruct (_ <? _).
      + injection H as <- <-. rewrite update_ledger_del. apply explains_nil. now destruct (_ <? _).
    - inv_bind H. injection H as <- <-. now apply explains_nil.
    - inv_bind H. injection H as <- <-. apply stk. eauto.
    - inv_bind H. injection H as <- <-. now apply explains_nil.
    - inv_bind H. injection H as <- <-. apply stk. unfold do_rebond in E.
      destruct (s_ledger (k_stk s) !! who) as [l|]; [|discriminate].
      inv_bind E. inv_bind E. injection E as <-. now rewrite update_ledger_del.
    - destruct (e_cur (k_era s)); injection H as <- <-; now apply explains_nil.
    - inv_bind H. injection H as <- <-. apply stk. eauto.
    - inv_bind H. injection H as <- <-. unfold delegate in E. repeat match type of E with rbind (ensure _ _) _ = _ => inv_bind E end.
      eapply explains_one; [now apply dm_deleg; eauto|reflexivity|reflexivity|auto].
    - injection H as <- <-. eapply explains_one; [apply dm_undel|reflexivity|reflexivity|cbn; lia].
    - injection H as <- <-.
      assert (G : forall l s, explains 0 (Some x, KdOther) (k_del s) (k_del (fold_left undelegate_in l s)) []).
      { clear. induction l as [|d l IH]; intros s; cbn; [now apply explains_nil|].
        change (@nil kev) with (@nil kev ++ []). eapply explains_app; [|apply IH].
        eapply explains_one; [apply dm_undel|reflexivity|reflexivity|cbn; lia]. }
      destruct (G l s) as (ls & P & F & A & J). exists ls. split; [auto|]. split; [auto|]. split; [now rewrite credit_map, <- A|lia].
    - unfold compensate in H. inv_bind H. destruct (Model_Operation.mint _ _ _ _). injection H as <- <-. now apply explains_misc.
    - inv_bind H. injection H as <- <-. eapply explains_one; [now apply dm_ref; eauto|exact I|reflexivity|cbn; lia].
    - injection H as <- <-. eapply explains_one; [apply dm_unref|exact I|reflexivity|cbn; lia].
    - unfold npow_mint in H. inv_bind H. destruct (Model_Operation.mint _ _ _ _). injection H as <- <-. now apply explains_misc.
    - unfold validator_burn in H. destruct (s_ledger (k_stk s) !! who) as [l|]; [|discriminate].
      cbn zeta in H. destruct (slash_ledger v ed l) as [l' am].
      destruct (cslash _ _ _ _ _) as [[b g] m]. injection H as <- <-.
      rewrite update_ledger_del. now apply explains_nil.
    - injection H as <- <-. eapply explains_one; [apply dm_undel|reflexivity|reflexivity|cbn; lia].
  Qed.

  Lemma step_del s op s' out :
    kstep cfg s op = (s', out) -> explains 1 (ctx_of op, kind_of op) (k_del s) (k_del s') (events [out]).
  Proof.
    intros H.
    assert (N1 : forall ev, events [KDone ev] = ev) by (intros ev; unfold events; cbn; apply app_nil_r).
    assert (set : forall r, settle s r = (s', out) -> (forall s1 ev, r = ROk (s1, ev) -> explains 1 (ctx_of op, kind_of op) (k_del s) (k_del s1) ev) ->
      explains 1 (ctx_of op, kind_of op) (k_del s) (k_del s') (events [out])).
    { intros [[s1 ev]|e|] E G; injection E as <- <-; [rewrite N1; now apply G|now apply explains_nil|now apply explains_nil]. }
    destruct op as [x o c|x| |i|x i|x i|a|x os i|b]; cbn [kstep ctx_of] in *.
    - eapply set; [exact H|]. apply call_del.
    - eapply set; [exact H|]. intros s1 ev E. now apply explains_more, init_del.
    - injection H as <- <-. unfold on_finalize. destruct (e_act _) as [[? []]|]; now apply explains_nil.
    - eapply set; [exact H|]. intros s1 ev [= E]. apply explains_more. eapply new_session_del; eauto.
    - eapply set; [exact H|]. intros s1 ev [= E]. apply explains_more. eapply start_session_del; eauto.
    - eapply set; [exact H|]. intros s1 ev [= E]. apply explains_more. eapply end_session_del; eauto.
    - injection H as <- <-. unfold note_author. destruct (e_act _) as [[? ?]|]; [|now apply explains_nil].
      destruct (default _ _). now apply explains_nil.
    - eapply set; [exact H|]. intros s1 ev [= E]. apply explains_more. eapply on_offence_del; eauto.
    - injection H as <- <-. now apply explains_nil.
  Qed.
End model.
