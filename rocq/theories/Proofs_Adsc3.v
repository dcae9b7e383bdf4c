(** The daily pass reaches everybody; halving; NFT stakes; supply. *)
From Verif Require Import Base Balances Proofs_Balances Model_Adsc Spec_Adsc Proofs_Adsc Proofs_Adsc2.
From stdpp Require Import gmap sorting.
Open Scope N_scope.

(** * Payment amounts *)
Lemma perbill_of_le p q : perbill_of p q <= PERBILL.
Proof.
  unfold perbill_of. destruct (N.eqb_spec q 0); cbn [orb]; [lia|].
  destruct (N.ltb_spec q p); [lia|]. set (f := N.max 1 _).
  assert (Hf : f <> 0) by (unfold f; lia).
  assert (H1 : p / f <= q / f) by (apply N.div_le_mono; lia).
  destruct (N.eq_dec (q / f) 0) as [E|E].
  - rewrite E. destruct (p / f * PERBILL); cbn; lia.
  - apply N.div_le_upper_bound; [exact E|]. nia.
Qed.

Record paid (s : astate) (who d : N) (s' : astate) (v : N) : Prop := {
  pd_v : v = frac_mul (perbill_of d (a_period s)) PERBILL (a_base s);
  pd_ass : exists l l', a_ass s = Some l /\ amint l who v = Some l' /\ a_ass s' = Some l';
  pd_minted : a_minted s' = add128 (a_minted s) v;
  pd_half : if a_target s <=? a_minted s'
            then a_base s' = a_base s / 2 /\ a_target s' = sadd128 (a_target s) INIT_TARGET
            else a_base s' = a_base s /\ a_target s' = a_target s;
  pd_rest : same_rest s s';
}.
Lemma pay_paid s who d s' v : pay_reward s who d = Some (s', v) -> paid s who d s' v.
Proof.
  intros H. pose proof (pay_reward_rest _ _ _ _ _ H) as Hr. unfold pay_reward in H.
  destruct (a_ass s) as [l|] eqn:El; [|discriminate].
  destruct (amint l who _) as [l'|] eqn:Em; [|discriminate]. injection H as Hs Hv.
  rewrite Hv in *. cbn [a_minted set_a_minted] in Hs.
  split; [auto| | | |exact Hr].
  - exists l, l'. repeat split; auto. subst s'. destruct (_ <=? _); reflexivity.
  - subst s'. destruct (_ <=? _); reflexivity.
  - subst s'. destruct (N.leb_spec (a_target s) (add128 (a_minted s) v)) as [Hl|Hl].
    + cbn [a_minted set_a_base set_a_target set_a_minted set_a_ass]. apply N.leb_le in Hl. rewrite Hl. auto.
    + cbn [a_minted set_a_minted]. apply N.leb_gt in Hl. rewrite Hl. auto.
Qed.
Lemma paid_le s who d s' v : paid s who d s' v -> v <= a_base s /\ a_base s' <= a_base s.
Proof.
  intros P. split.
  - rewrite (pd_v _ _ _ _ _ P). apply frac_mul_le; [discriminate|apply perbill_of_le].
  - pose proof (pd_half _ _ _ _ _ P) as H. destruct (_ <=? _); destruct H as [-> _]; [|lia].
    apply N.div_le_upper_bound; lia.
Qed.

(** The loop, payment by payment: an invariant of payments is one of the loop. *)
Lemma reward_loop_ind cfg x (I : astate -> list aev -> Prop) :
  (forall s w d s' v evs, I s evs -> d <> 0 -> paid s w d s' v -> I s' (evs ++ [EReward w v])) ->
  forall bnum l counter s d s' last rem sub evs acc,
    reward_loop cfg x bnum l counter s d = (s', last, rem, sub, evs) -> I s acc -> I s' (acc ++ evs).
Proof.
  intros HI bnum. induction l as [|[a p] l IH]; intros counter s d s' last rem sub evs acc H HS; cbn [reward_loop] in H.
  - injection H as <- <- <- <- <-. now rewrite app_nil_r.
  - destruct (negb _); [eapply IH; eauto|].
    destruct (if p =? 0 then (s, []) else _) as [s1 ev1] eqn:Ep.
    assert (H1 : I s1 (acc ++ ev1)).
    { destruct (N.eqb_spec p 0); [injection Ep as <- <-; now rewrite app_nil_r|].
      destruct (pay_reward s a p) as [[s2 v]|] eqn:Er; injection Ep as <- <-; [|now rewrite app_nil_r].
      eapply HI; eauto. now apply pay_paid in Er. }
    destruct (_ =? bnum); [injection H as <- <- <- <- <-; exact H1|].
    destruct (reward_loop cfg x bnum l (add32 counter 1) s1 _) as [[[[s2 l2] r2] b2] e2] eqn:El.
    injection H as <- <- <- <- <-. rewrite app_assoc. eapply IH; eauto.
Qed.

(** A block of the pass, seen from the fields that payments change. *)
Lemma adsc_reward_ind cfg x (I : astate -> list aev -> Prop) s s' evs :
  (forall s w d s' v evs, I s evs -> d <> 0 -> paid s w d s' v -> I s' (evs ++ [EReward w v])) ->
  (forall s s' evs, pass_same s s' -> I s evs -> I s' evs) ->
  (forall s c evs, I s evs -> I (set_a_cursor s c) evs) ->
  adsc_reward cfg s x = (s', evs) -> I s [] -> I s' evs.
Proof.
  intros HI Hp Hc H HS. unfold adsc_reward in H. destruct (a_cursor s); [injection H as <- <-; exact HS|..];
  match type of H with context [reward_loop ?c ?x ?b ?l ?n ?s ?d] =>
    destruct (reward_loop c x b l n s d) as [[[[s1 l1] r1] b1] e1] eqn:El end;
  injection H as <- <-;
  (eapply Hp; [apply fold_count_same|]; eapply Hp; [apply fold_remove_same|]; apply Hc;
   change e1 with ([] ++ e1); eapply reward_loop_ind; eauto).
Qed.

(** * Halving *)
Definition halved (s : astate) : Prop :=
  a_base s = INIT_REWARD / 2 ^ (a_minted s / INIT_TARGET) /\
  a_target s = INIT_TARGET * (a_minted s / INIT_TARGET + 1) /\ a_minted s <= 73 * INIT_TARGET.
Definition amt (evs : list aev) : N := lsum (reward_amounts (map (fun e => (0, e)) evs)).
Lemma amounts_time t evs : reward_amounts (map (fun e => (t, e)) evs) = reward_amounts (map (fun e => (0, e)) evs).
Proof.
  induction evs as [|e l IH]; [reflexivity|]. unfold reward_amounts in *. cbn [map omap list_omap fst snd]. rewrite IH. reflexivity.
Qed.
Lemma amt_app a b : amt (a ++ b) = amt a + amt b.
Proof. unfold amt, reward_amounts. rewrite map_app, omap_app, lsum_app. reflexivity. Qed.

Lemma base_bound k : k <= 73 ->
  INIT_TARGET * k + (INIT_TARGET - 1) + INIT_REWARD / 2 ^ k <= 73 * INIT_TARGET \/ k = 72 \/ k = 73.
Proof.
  intros Hk. destruct (N.eq_dec k 72); [auto|]. destruct (N.eq_dec k 73); [auto|]. left.
  assert (Hb : INIT_REWARD / 2 ^ k <= INIT_REWARD).
  { apply N.div_le_upper_bound; [apply N.pow_nonzero; discriminate|].
    assert (1 <= 2 ^ k) by (apply N.neq_0_lt_0 in n || idtac; pose proof (N.pow_nonzero 2 k ltac:(discriminate)); lia). nia. }
  revert Hb. generalize (INIT_REWARD / 2 ^ k). intros q Hb.
  change INIT_REWARD with 8235000000000000000000 in Hb.
  change INIT_TARGET with 10000000000000000000000000000. lia.
Qed.

Lemma pay_halved s w d s' v :
  halved s -> paid s w d s' v -> halved s' /\ a_minted s' = a_minted s + v.
Proof.
  intros (Hb & Ht & Hm) P. pose proof (paid_le _ _ _ _ _ P) as [Hv _].
  pose proof (pd_minted _ _ _ _ _ P) as Em. pose proof (pd_half _ _ _ _ _ P) as Eh.
  set (T := INIT_TARGET) in *. set (k := a_minted s / T) in *.
  assert (HT : T <> 0) by discriminate.
  assert (Hk : k <= 73).
  { unfold k. apply N.div_le_upper_bound; [exact HT|]. lia. }
  pose proof (N.div_mod (a_minted s) T HT) as Hdm. fold k in Hdm.
  pose proof (N.mod_lt (a_minted s) T HT) as Hlt.
  assert (Hvb : v <= INIT_REWARD / 2 ^ k) by (rewrite <- Hb; exact Hv).
  assert (HvT : v < T).
  { eapply N.le_lt_trans; [exact Hvb|]. eapply N.le_lt_trans with INIT_REWARD; [|reflexivity].
    apply N.div_le_upper_bound; [apply N.pow_nonzero; discriminate|].
    pose proof (N.pow_nonzero 2 k ltac:(discriminate)). nia. }
  assert (Hm' : a_minted s + v <= 73 * T).
  { destruct (base_bound k Hk) as [H|[H|H]].
    - fold T in H. revert H Hvb. generalize (INIT_REWARD / 2 ^ k). intros q H Hvb. lia.
    - rewrite H in Hvb. assert (Hv1 : v <= 1) by (etransitivity; [exact Hvb|]; vm_compute; discriminate).
      rewrite H in Hdm. lia.
    - rewrite H in Hvb. assert (Hv0 : v <= 0) by (etransitivity; [exact Hvb|]; vm_compute; discriminate). lia. }
  assert (Em' : a_minted s' = a_minted s + v).
  { rewrite Em. apply N.mod_small. eapply N.le_lt_trans; [exact Hm'|]. vm_compute. reflexivity. }
  split; [|exact Em'].
  rewrite Ht in Eh. unfold halved. fold T. destruct (N.leb_spec (T * (k + 1)) (a_minted s')) as [H|H].
  - assert (Ek : a_minted s' / T = k + 1).
    { symmetry. apply N.div_unique with (a_minted s' - T * (k + 1)); lia. }
    rewrite Ek. destruct Eh as [-> ->]. split; [|split].
    + rewrite Hb, N.div_div by (try apply N.pow_nonzero; discriminate).
      f_equal. rewrite N.add_1_r, N.pow_succ_r'. lia.
    + unfold sadd128. rewrite N.min_l; [lia|].
      assert (T * 75 <= two128 - 1) by (vm_compute; discriminate). assert (k + 2 <= 75) by lia.
      transitivity (T * (k + 2)); [lia|]. nia.
    + lia.
  - assert (Ek : a_minted s' / T = k).
    { symmetry. assert (G1 : T * k <= a_minted s') by (pose proof (N.mul_div_le (a_minted s) T HT) as G; fold k in G; rewrite Em'; revert G; generalize (T * k); intros z G; lia).
      assert (G2 : a_minted s' < T * k + T) by (rewrite N.mul_add_distr_l, N.mul_1_r in H; exact H).
      clear - G1 G2. apply N.div_unique with (a_minted s' - T * k); revert G1 G2; generalize (T * k); intros z G1 G2; lia. }
    rewrite Ek. destruct Eh as [-> ->]. split; [exact Hb|]. split; [lia|]. lia.
Qed.
Lemma block_halved cfg s x s' evs :
  adsc_reward cfg s x = (s', evs) -> halved s -> halved s' /\ a_minted s' = a_minted s + amt evs.
Proof.
  intros H HS.
  apply (adsc_reward_ind cfg x (fun s1 ev => halved s1 /\ a_minted s1 = a_minted s + amt ev) s s' evs); auto.
  - intros s1 w d s2 v ev [H1 H2] _ P. destruct (pay_halved _ _ _ _ _ H1 P) as [H3 H4]. split; [exact H3|].
    rewrite amt_app, H4, H2. change (amt [EReward w v]) with (v + 0). lia.
  - intros s1 s2 ev (_ & _ & _ & _ & _ & E1 & E2 & E3 & _) [H1 H2]. unfold halved. rewrite E1, E2, E3. auto.
  - split; [exact HS|]. change (amt []) with 0. lia.
Qed.
Lemma call_tuning cfg s x o c s' r :
  astep cfg s x o c = (s', r) -> no_tuning (x, inl (o, c)) ->
  a_base s' = a_base s /\ a_target s' = a_target s /\ a_minted s' = a_minted s.
Proof.
  unfold astep, no_tuning. cbn [snd]. destruct (aexec cfg s x o c) as [[s1 evs]|e|] eqn:E; intros H Hn; injection H as <- <-; auto.
  destruct c; try contradiction; cbn [aexec] in E;
    unfold ensure_admin, do_add_nft, do_bridge_burn, do_bridge_mint, do_swap, add_pool, rbind in E;
    break_match;
    repeat match goal with
    | H : ROk _ = ROk _ |- _ => injection H as <- <- || injection H as <-
    end; cbn; auto.
Qed.
Lemma entry_tuning cfg s x e s' evs :
  e <> AInitialize -> aentry cfg s x e = (s', evs) ->
  a_base s' = a_base s /\ a_target s' = a_target s /\ a_minted s' = a_minted s.
Proof.
  intros Hne H. destruct e; try congruence; cbn [aentry] in H; unfold on_upgrade, add_pool in H;
    injection H as <- <-; repeat (match goal with |- context [match ?x with _ => _ end] => destruct x end); auto.
Qed.
Lemma run_halved cfg : forall h s,
  halved s -> Forall no_tuning h ->
  halved (fst (arun cfg s h)) /\
  a_minted (fst (arun cfg s h)) = a_minted s + lsum (reward_amounts (snd (arun cfg s h))).
Proof.
  induction h as [|op r IH]; intros s HS Hn; [cbn; split; [done|lia]|].
  apply Forall_cons in Hn as [Hn0 Hn]. cbn [arun].
  destruct (ado cfg s op) as [s1 evs] eqn:E.
  assert (H1 : halved s1 /\ a_minted s1 = a_minted s + lsum (reward_amounts (map (fun e => (ax_time op.1, e)) evs))).
  { rewrite amounts_time. fold (amt evs). pose proof (ado_cases _ _ _ _ _ E) as [[_ E1]|(Hb & _ & _ & _ & E4 & _)].
    - unfold on_init in E1. destruct (_ <? _).
      + injection E1 as -> ->. split; [exact HS|]. cbn [a_minted set_a_bnum set_a_cursor set_a_day].
        change (amt []) with 0. lia.
      + symmetry in E1. eapply block_halved; eauto.
    - unfold amt. rewrite amounts_none by done. cbn [lsum].
      assert (Hs : a_base s1 = a_base s /\ a_target s1 = a_target s /\ a_minted s1 = a_minted s).
      { destruct op as [x [[o c]|e]]; unfold ado in E; cbn [fst snd] in E.
        - destruct (astep cfg s x o c) as [s3 r3] eqn:Ec. injection E as <- _. eapply call_tuning; eauto.
        - eapply entry_tuning; [|exact E]. intros ->. discriminate. }
      destruct Hs as (E1 & E2 & E3). unfold halved. rewrite E1, E2, E3. split; [exact HS|lia]. }
  destruct H1 as [H1 H2]. specialize (IH s1 H1 Hn). destruct (arun cfg s1 r) as [s2 out] eqn:Er.
  cbn [fst snd] in *. destruct IH as [I1 I2]. split; [exact I1|].
  unfold reward_amounts in *. rewrite omap_app, lsum_app, I2, H2. lia.
Qed.
