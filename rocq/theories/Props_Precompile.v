(** Properties C36-C38, C75 and C76 (pallets/precompile-credit, precompile set). *)
From Verif Require Import Base Balances Model_UserPrivileges Model_Credit Model_Precompile
  Spec_Credit Spec_Precompile Proofs_Credit Proofs_Credit2 Proofs_Credit3 Proofs_Credit4 Proofs_Precompile.
From stdpp Require Import gmap.
Open Scope N_scope.

(** Example: EVM address 700 may change credit, 501 is bound to account 1 (150
    points), 502 is not bound, 503 is bound to account 3, which has no credit. *)
Definition ycfg : kcfg := KCfg 5 10 5 100 1 50 99.
Definition ypc : pcfg := PCfg 100 200.
Definition yx : kctx :=
  KCtx 42 210 (fun _ => None) (fun _ => 0)
    (fun e => if e =? 501 then Some 1 else if e =? 503 then Some 3 else None)
    (fun _ _ => false) (fun a _ => a =? 700).
Definition ys : kstate :=
  krun ycfg (kinit (Bank ∅ 0) [] [(1, CData 4 150 1 0 0 1 270); (2, CData 4 205 2 9 0 2 270)])
    [(yx, inr (KInitHistory 1))].

(** C36, what is needed: a call that changes anything has one of the two update
    selectors and 68 bytes of input, is neither static nor carries value, and
    comes from an authorised address. *)
Theorem C36_needs :
  forall cfg pc s x h,
    is_bytes (h_input h) -> fst (precompile_step cfg pc s x h) <> s -> may_update x h.
Proof.
  intros cfg pc s x h Hb. unfold precompile_step.
  destruct (credit_execute cfg pc s x h) as [[s' out]| |] eqn:E; cbn; try congruence.
  eapply credit_execute_changes; eauto.
Qed.
Print Assumptions C36_needs.
Example C36_needs_example :
  let h := Handle 1030 700 0 false (add_data 501 7 []) 1000 in
  score_of (fst (precompile_step ycfg ypc ys yx h)) 1 = Some 157 /\
  snd (precompile_step ycfg ypc ys yx h) = ROk [] /\
  snd (precompile_step ycfg ypc ys yx (Handle 1030 700 0 true (add_data 501 7 []) 1000)) = RErr PRevert /\
  snd (precompile_step ycfg ypc ys yx (Handle 1030 700 1 false (add_data 501 7 []) 1000)) = RErr PRevert /\
  snd (precompile_step ycfg ypc ys yx (Handle 1030 700 0 false (take 67 (add_data 501 7 [])) 1000)) = RErr PError /\
  snd (precompile_step ycfg ypc ys yx (Handle 1030 700 0 false (add_data 501 7 []) 399)) = RErr POutOfGas.
Proof. vm_compute. repeat split. Qed.

(** C36, what an authorised update does: adding raises the score of the account
    bound to the address by the amount (up to the largest score), subtracting
    lowers it (down to zero); nobody else's record, history or balance changes. *)
Theorem C36_effect :
  forall cfg pc s x h user amount rest (add : bool) who d,
    h_input h = (if add then add_data user amount rest else slash_data user amount rest) ->
    may_update x h -> user < 2 ^ 160 -> amount < 2 ^ 64 - 1 ->
    (if add then w64 (pc_read pc * 2 + pc_write pc) else w64 (pc_read pc * 4 + pc_write pc * 2)) <= h_gas h ->
    kx_e2d x user = Some who -> k_uc s !! who = Some d ->
    let s' := fst (precompile_step cfg pc s x h) in
    snd (precompile_step cfg pc s x h) = ROk [] /\
    score_of s' who = Some (if add then N.min (cd_credit d + amount) (2 ^ 64 - 1) else cd_credit d - amount) /\
    k_bank s' = k_bank s /\
    forall w, w <> who -> k_uc s' !! w = k_uc s !! w /\ k_hist s' !! w = k_hist s !! w.
Proof.
  intros cfg pc s x h user amount rest add who d Hi (_ & _ & Hs & Hv & Hp) Hu Ha Hg He Hd.
  assert (H64 : 2 ^ 64 - 1 < 2 ^ 64) by reflexivity.
  assert (Ha' : amount < 2 ^ 256).
  { apply N.lt_trans with (2 ^ 64 - 1); [exact Ha|reflexivity]. }
  rewrite (update_by_data cfg pc s x h user amount rest add) by auto.
  rewrite (N.mod_small amount) by (apply N.lt_trans with (2 ^ 64 - 1); assumption).
  unfold evm_update. rewrite Hp, He. cbn [negb]. destruct add.
  - rewrite Hd. destruct (do_add_some cfg s x who d (cd_update d (sadd64 (cd_credit d) amount)) Hd) as [s1 E].
    rewrite E. cbn [rbind fst snd]. destruct (do_add_score _ _ _ _ _ _ _ Hd E) as (Euc & Hh & Hb).
    split; [done|]. split; [|split; [done|]].
    + unfold score_of. rewrite Euc, lookup_insert. reflexivity.
    + intros w Hw. split; [|now apply Hh]. rewrite Euc. now rewrite lookup_insert_ne by congruence.
  - rewrite (slash_eq _ _ _ _ _ d Hd).
    2: { change (default (kc_step cfg) (Some amount)) with amount. unfold U64MAX. intros ->. now apply N.lt_irrefl in Ha. }
    change (default (kc_step cfg) (Some amount)) with amount. cbn [rbind fst snd].
    split; [done|]. split; [|split; [done|]].
    + unfold score_of. cbn [k_uc set_k_uc set_k_hist]. rewrite lookup_insert. reflexivity.
    + intros w Hw. cbn [k_uc k_hist set_k_uc set_k_hist]. rewrite lookup_insert_ne by congruence. split; [done|].
      now apply recorded_other.
Qed.
Print Assumptions C36_effect.
Example C36_effect_example :
  let h := Handle 1030 700 0 false (slash_data 501 20 [1; 2]) 1000 in
  may_update yx h /\ kx_e2d yx 501 = Some 1 /\ score_of ys 1 = Some 150 /\
  score_of (fst (precompile_step ycfg ypc ys yx h)) 1 = Some 130 /\
  k_uc (fst (precompile_step ycfg ypc ys yx h)) !! 2 = k_uc ys !! 2.
Proof.
  cbv zeta. split; [|vm_compute; repeat split].
  unfold may_update, update_selector. vm_compute. repeat split; auto.
Qed.

(** C36, reading: a query returns the score of the bound account as 32 bytes,
    zero if there is none, from any caller, also in a static call. *)
Theorem C36_query :
  forall cfg pc s x h user rest,
    h_input h = get_data user rest -> user < 2 ^ 160 -> h_value h = 0 -> w64 (pc_read pc * 2) <= h_gas h ->
    precompile_step cfg pc s x h =
      (s, ROk (bytes_of 32 (match kx_e2d x user with Some who => default 0 (score_of s who) | None => 0 end))).
Proof.
  intros cfg pc s x h user rest Hi Hu Hv Hg. unfold precompile_step, credit_execute.
  assert (Hl : (36 <= length (h_input h))%nat) by (rewrite Hi; unfold get_data; rewrite data_len_get; lia).
  replace (length (h_input h) <? BASIC_LEN)%nat with false by (symmetry; apply Nat.ltb_ge; exact Hl).
  replace (be (array_ref (h_input h) 0 4)) with SEL_GET by (rewrite Hi; symmetry; now apply data_selector).
  change (SEL_GET =? SEL_GET) with true. cbv iota.
  unfold get_score, check_len, check_modifier, record_cost.
  replace (length (h_input h) <? BASIC_LEN)%nat with false by (symmetry; apply Nat.ltb_ge; exact Hl).
  rewrite Hv, andb_false_r. cbn [rbind andb]. change (0 <? 0) with false. cbn [rbind].
  replace (h_gas h <? w64 (pc_read pc * 2)) with false by (symmetry; now apply N.ltb_ge). cbn [rbind].
  rewrite to_be_bytes_of. unfold BASIC_LEN. cbn [Nat.sub].
  replace (be (array_ref (h_input h) 16 20)) with user by (rewrite Hi; symmetry; now apply data_user).
  unfold evm_score, credit_score, score_of. destruct (kx_e2d x user); reflexivity.
Qed.
Print Assumptions C36_query.
Example C36_query_example :
  snd (precompile_step ycfg ypc ys yx (Handle 1030 5 0 true (get_data 501 []) 200)) =
    ROk (repeat 0 31 ++ [150]) /\
  snd (precompile_step ycfg ypc ys yx (Handle 1030 5 0 true (get_data 503 []) 200)) = ROk (repeat 0 32).
Proof. vm_compute. repeat split. Qed.

(** C37 is false: success is reported to an unauthorised caller, for an address
    bound to no account, and for an account without credit; nothing changed. *)
Theorem C37_silent_failure_refuted :
  exists cfg pc s x h1 h2 h3,
    kx_evm_priv x (h_caller h1) EvmCreditOperation = false /\ h_input h1 = add_data 501 7 [] /\
    precompile_step cfg pc s x h1 = (s, ROk []) /\
    h_input h2 = add_data 502 7 [] /\ kx_e2d x 502 = None /\ precompile_step cfg pc s x h2 = (s, ROk []) /\
    h_input h3 = add_data 503 7 [] /\ kx_e2d x 503 = Some 3 /\ score_of s 3 = None /\
    precompile_step cfg pc s x h3 = (s, ROk []).
Proof.
  exists ycfg, ypc, ys, yx, (Handle 1030 5 0 false (add_data 501 7 []) 1000),
    (Handle 1030 700 0 false (add_data 502 7 []) 1000), (Handle 1030 700 0 false (add_data 503 7 []) 1000).
  vm_compute. repeat split.
Qed.
Print Assumptions C37_silent_failure_refuted.
(** What does hold: a reported success of an update either changed the score as
    asked, or the caller is not authorised, or the address is not bound, or its
    account has no credit; in these cases nothing changed. Amounts
    from 2^64 - 1 are the subject of C76. Missing: that the caller is told. *)
Theorem C37_silent_failure_partial :
  forall cfg pc s x h user amount rest (add : bool) s' out,
    h_input h = (if add then add_data user amount rest else slash_data user amount rest) ->
    user < 2 ^ 160 -> amount < 2 ^ 64 - 1 ->
    precompile_step cfg pc s x h = (s', ROk out) ->
    (exists who c, kx_e2d x user = Some who /\ score_of s who = Some c /\
       kx_evm_priv x (h_caller h) EvmCreditOperation = true /\
       score_of s' who = Some (if add then N.min (c + amount) (2 ^ 64 - 1) else c - amount)) \/
    (s' = s /\
      (kx_evm_priv x (h_caller h) EvmCreditOperation = false \/ kx_e2d x user = None \/
       exists who, kx_e2d x user = Some who /\ score_of s who = None)).
Proof.
  intros cfg pc s x h user amount rest add s' out Hi Hu Ha H.
  destruct (update_success cfg pc s x h user amount rest add s' out Hi H) as (Hs & Hv & Hg).
  assert (Ha64 : amount < 2 ^ 64) by (apply N.lt_trans with (2 ^ 64 - 1); [exact Ha|reflexivity]).
  assert (Ha' : amount < 2 ^ 256) by (apply N.lt_trans with (2 ^ 64); [exact Ha64|reflexivity]).
  rewrite (update_by_data cfg pc s x h user amount rest add), (N.mod_small amount) in H by auto.
  unfold evm_update in H. destruct (kx_evm_priv x (h_caller h) EvmCreditOperation) eqn:Hp; cbn [negb] in H.
  2: { injection H as <- _. right. auto. }
  destruct (kx_e2d x user) as [who|] eqn:He.
  2: { injection H as <- _. right. auto. }
  destruct (k_uc s !! who) as [d|] eqn:Hd.
  - left. exists who, (cd_credit d). split; [done|]. split; [unfold score_of; now rewrite Hd|]. split; [done|].
    destruct add.
    + destruct (do_add_some cfg s x who d (cd_update d (sadd64 (cd_credit d) amount)) Hd) as [s1 E].
      rewrite E in H. cbn [rbind] in H. injection H as <- _.
      destruct (do_add_score _ _ _ _ _ _ _ Hd E) as (Euc & _). unfold score_of. now rewrite Euc, lookup_insert.
    + rewrite (slash_eq _ _ _ _ _ d Hd) in H.
      2: { change (default (kc_step cfg) (Some amount)) with amount. unfold U64MAX. intros ->. now apply N.lt_irrefl in Ha. }
      change (default (kc_step cfg) (Some amount)) with amount in H. cbn [rbind] in H. injection H as <- _.
      unfold score_of. cbn [k_uc set_k_uc set_k_hist]. now rewrite lookup_insert.
  - right. assert (Hn : score_of s who = None) by (unfold score_of; now rewrite Hd).
    destruct add.
    + injection H as <- _. eauto 6.
    + rewrite slash_none in H; [discriminate|done|].
      change (default (kc_step cfg) (Some amount)) with amount. unfold U64MAX. intros ->. now apply N.lt_irrefl in Ha.
Qed.
Print Assumptions C37_silent_failure_partial.
Example C37_example :
  snd (precompile_step ycfg ypc ys yx (Handle 1030 700 0 false (add_data 501 7 []) 1000)) = ROk [].
Proof. vm_compute. reflexivity. Qed.

(** C38 is false: the credit precompile itself is run at address 1030, which is
    not reported. *)
Theorem C38_advertised_refuted :
  exists a, set_execute a = Some CreditDispatch /\ is_precompile a = false.
Proof. exists 1030. vm_compute. split; reflexivity. Qed.
Print Assumptions C38_advertised_refuted.
(** What does hold: every other address that is run is reported; and every
    reported address other than 10 is run. Missing: 1030. *)
Theorem C38_advertised_partial :
  forall a,
    (set_execute a <> None /\ a <> 1030 <-> is_precompile a = true /\ a <> 10) /\
    (set_execute a = Some CreditDispatch <-> a = 1030).
Proof.
  intros a.
  assert (C : a ∈ [1; 2; 3; 4; 5; 6; 7; 8; 9; 10; 1024; 1025; 1026; 1027; 1028; 1029; 1030] \/
              (set_execute a = None /\ is_precompile a = false /\ a <> 1030)).
  { unfold set_execute, is_precompile, used_addresses. cbn [existsb].
    repeat match goal with |- context [a =? ?n] =>
      destruct (N.eqb_spec a n); [subst a; left; repeat first [apply elem_of_list_here | apply elem_of_list_further]|] end.
    right. auto. }
  destruct C as [C|(E1 & E2 & E3)].
  - repeat (apply elem_of_cons in C as [->|C]);
      [vm_compute; intuition congruence..|now apply elem_of_nil in C].
  - rewrite E1, E2. intuition congruence.
Qed.
Print Assumptions C38_advertised_partial.
Example C38_example : set_execute 5 = Some Modexp /\ is_precompile 5 = true /\ is_precompile 10 = true /\ set_execute 10 = None.
Proof. vm_compute. repeat split. Qed.

(** C75 is false: a contract reached from an authorised address delegates its
    call to the precompile, which then sees the authorised address as caller. *)
Theorem C75_delegated_privilege_refuted :
  exists cfg pc s x f input gas,
    kx_evm_priv x (fr_self f) EvmCreditOperation = false /\
    score_of s 1 = Some 150 /\
    score_of (fst (evm_call cfg pc s x f DelegateCall 1030 input gas)) 1 = Some 1150.
Proof.
  exists ycfg, ypc, ys, yx, (Frame 666 700 0 false), (add_data 501 1000 []), 1000. vm_compute. repeat split.
Qed.
Print Assumptions C75_delegated_privilege_refuted.
(** What does hold: by any of the other three kinds of calls only an authorised
    contract changes anything; by a delegated call, only one whose own caller is
    authorised. Missing: refusing delegated calls. *)
Theorem C75_delegated_privilege_partial :
  forall cfg pc s x f k code input gas,
    is_bytes input -> fst (evm_call cfg pc s x f k code input gas) <> s ->
    code = 1030 /\ fr_static f = false /\
    match k with
    | Call v | CallCode v => v = 0 /\ kx_evm_priv x (fr_self f) EvmCreditOperation = true
    | DelegateCall => fr_value f = 0 /\ kx_evm_priv x (fr_caller f) EvmCreditOperation = true
    | StaticCall => False
    end.
Proof.
  intros cfg pc s x f k code input gas Hb. unfold evm_call.
  destruct (set_execute code) as [p|] eqn:Es; [|intros Hne; now destruct Hne].
  destruct p; try (intros Hne; now destruct Hne).
  apply (proj2 (C38_advertised_partial code)) in Es as ->.
  destruct (precompile_step cfg pc s x (reach f k 1030 input gas)) as [s' r] eqn:E. cbn [fst]. intros Hne.
  assert (M : may_update x (reach f k 1030 input gas)).
  { apply (C36_needs cfg pc s); [destruct k; exact Hb|]. rewrite E. exact Hne. }
  destruct M as (_ & _ & Hs & Hv & Hp). destruct k; cbn in *; try discriminate; repeat split; auto.
Qed.
Print Assumptions C75_delegated_privilege_partial.
Example C75_example :
  score_of (fst (evm_call ycfg ypc ys yx (Frame 700 5 3 false) (Call 0) 1030 (add_data 501 7 []) 1000)) 1 = Some 157 /\
  fst (evm_call ycfg ypc ys yx (Frame 666 700 0 false) (Call 0) 1030 (add_data 501 7 []) 1000) = ys.
Proof. vm_compute. repeat split. Qed.

(** C76 is false: only the low 64 bits of the amount count, success is reported. *)
Theorem C76_amount_truncated_refuted :
  exists cfg pc s x h,
    may_update x h /\ h_input h = add_data 501 (2 ^ 64 + 1) [] /\ kx_e2d x 501 = Some 1 /\
    score_of s 1 = Some 150 /\
    score_of (fst (precompile_step cfg pc s x h)) 1 = Some 151 /\ snd (precompile_step cfg pc s x h) = ROk [].
Proof.
  exists ycfg, ypc, ys, yx, (Handle 1030 700 0 false (add_data 501 (2 ^ 64 + 1) []) 1000).
  split; [|vm_compute; repeat split].
  unfold may_update, update_selector. vm_compute. repeat split; auto.
Qed.
Print Assumptions C76_amount_truncated_refuted.
(** What does hold: the effect is that of the amount modulo 2^64; if that is the
    largest 64-bit number, a subtraction removes the record altogether instead
    of leaving zero points. Missing: the upper 192 bits. *)
Theorem C76_amount_truncated_partial :
  forall cfg pc s x h user amount rest (add : bool) who d,
    h_input h = (if add then add_data user amount rest else slash_data user amount rest) ->
    may_update x h -> user < 2 ^ 160 -> amount < 2 ^ 256 ->
    (if add then w64 (pc_read pc * 2 + pc_write pc) else w64 (pc_read pc * 4 + pc_write pc * 2)) <= h_gas h ->
    kx_e2d x user = Some who -> k_uc s !! who = Some d ->
    let low := amount mod 2 ^ 64 in
    snd (precompile_step cfg pc s x h) = ROk [] /\
    score_of (fst (precompile_step cfg pc s x h)) who =
      if add then Some (N.min (cd_credit d + low) (2 ^ 64 - 1))
      else if low =? 2 ^ 64 - 1 then None else Some (cd_credit d - low).
Proof.
  intros cfg pc s x h user amount rest add who d Hi (_ & _ & Hs & Hv & Hp) Hu Ha Hg He Hd.
  rewrite (update_by_data cfg pc s x h user amount rest add) by auto.
  generalize (amount mod 2 ^ 64). intros low. cbv zeta.
  unfold evm_update. rewrite Hp, He. cbn [negb]. destruct add.
  - rewrite Hd. destruct (do_add_some cfg s x who d (cd_update d (sadd64 (cd_credit d) low)) Hd) as [s1 E].
    rewrite E. cbn [rbind fst snd]. destruct (do_add_score _ _ _ _ _ _ _ Hd E) as (Euc & Hh & Hb).
    split; [done|]. unfold score_of. rewrite Euc, lookup_insert. reflexivity.
  - destruct (N.eqb_spec low (2 ^ 64 - 1)) as [->|Hn].
    + change (2 ^ 64 - 1) with U64MAX. rewrite slash_all. cbn [rbind fst snd]. split; [done|].
      unfold score_of. cbn [k_uc set_k_uc set_k_hist]. now rewrite lookup_delete.
    + rewrite (slash_eq _ _ _ _ _ d Hd).
      2: { change (default (kc_step cfg) (Some low)) with low. exact Hn. }
      change (default (kc_step cfg) (Some low)) with low. cbn [rbind fst snd]. split; [done|].
      unfold score_of. cbn [k_uc set_k_uc set_k_hist]. now rewrite lookup_insert.
Qed.
Print Assumptions C76_amount_truncated_partial.
Example C76_example :
  let h a := Handle 1030 700 0 false (slash_data 501 a []) 1000 in
  score_of (fst (precompile_step ycfg ypc ys yx (h (2 ^ 64)))) 1 = Some 150 /\
  score_of (fst (precompile_step ycfg ypc ys yx (h (2 ^ 64 - 1)))) 1 = None /\
  score_of (fst (precompile_step ycfg ypc ys yx (h (2 ^ 64 - 2)))) 1 = Some 0.
Proof. vm_compute. repeat split. Qed.
