(** C179-C181: signed transactions. *)
From Verif Require Import Base Balances Model_Extrinsic Spec_Extrinsic Proofs_Extrinsic.
From stdpp Require Import gmap.
From Coq Require Import ZifyBool Lia.
Open Scope N_scope.

(** ** The chain of the examples: transfers, a fee of 5, an existential deposit of 10; a signature is
    the payload and the signer, so that it proves nothing else. *)
Definition xxcall : Type := N * N.
Definition xxsig : Type := payload xxcall * N.
Definition era_eqb (a b : era) : bool :=
  match a, b with Immortal, Immortal => true | Mortal p q, Mortal p' q' => (p =? p') && (q =? q') | _, _ => false end.
Definition xxverify (p : payload xxcall) (sg : xxsig) (who : N) : bool :=
  let q := sg.1 in
  ((p_call p).1 =? (p_call q).1) && ((p_call p).2 =? (p_call q).2) && era_eqb (p_era p) (p_era q) && (p_nonce p =? p_nonce q) &&
  (p_tip p =? p_tip q) && (p_spec p =? p_spec q) && (p_txv p =? p_txv q) && (p_genesis p =? p_genesis q) &&
  (p_birth p =? p_birth q) && (sg.2 =? who).
Definition xxcharge (b : bank) (who : N) (c : xxcall) (tip : N) : option bank := withdraw 10 true b who (5 + tip).
Definition changes (b b' : bank) (a : N) : list ev :=
  match accts b !! a, accts b' !! a with Some _, None => [Killed a] | None, Some _ => [Created a] | _, _ => [] end.
Definition xxexec (b : bank) (who : N) (c : xxcall) : bank * list ev :=
  match transfer_allow 10 b who c.1 c.2 with
  | Some b' => (b', changes b b' who ++ changes b b' c.1)
  | None => (b, [])
  end.
Notation xxapply := (Model_Extrinsic.apply xxverify xxcharge xxexec).
Notation xxrun := (run xxverify xxcharge xxexec).
Lemma xx_only sg who : proves_only xxverify sg who (sg.1).
Proof.
  intros p' H. unfold xxverify in H. rewrite !andb_true_iff in H.
  destruct H as [[[[[[[[[A B] C] D] E] F] G] I] J] _]. destruct p' as [[c1 c2] e n t s v g h], (sg.1) as [[c1' c2'] e' n' t' s' v' g' h'].
  cbn in *. assert (e = e') by (destruct e, e'; cbn in C; try discriminate; [reflexivity|f_equal; lia]). subst. repeat f_equal; lia.
Qed.
(** Account 1 has 1000, account 3 has 5000; genesis hash 70. *)
Definition xxb : bank := Bank {[1 := Acct 1000 0 0; 3 := Acct 5000 0 0]} 0.
Definition xx0 : sys bank := start 70 {[1 := 0; 3 := 0]} 76 22 xxb.
Definition xxpay (d v : N) (e : era) (n bh : N) : payload xxcall := Payload (d, v) e n 0 76 22 70 bh.
(** Signed by [who]. *)
Definition xxtx (who d v : N) (e : era) (n bh : N) : xt xxcall xxsig := Xt who (xxpay d v e n bh, who) (d, v) e n 0.

(** ** C179 *)
(** While the account lives and its nonce has not gone round, a transaction that took effect is refused
    for ever, and so is any other with its nonce. *)
Theorem C179_partial : forall (State Call Sig : Type) verify charge exec
  (s s' s'' : sys State) (x y : xt Call Sig) (log1 log2 : list ev) l,
  Model_Extrinsic.apply verify charge exec s x = Some (s', log1) -> run verify charge exec s' l = (s'', log2) ->
  x_nonce x < 2 ^ 32 -> ~ In (Killed (x_who x)) (log1 ++ log2) -> raised (x_who x) (log1 ++ log2) < 2 ^ 32 ->
  x_who y = x_who x -> x_nonce y = x_nonce x ->
  Model_Extrinsic.apply verify charge exec s'' y = None.
Proof.
  intros State Call Sig verify charge exec s s' s'' x y log1 log2 l A R L K C W E.
  destruct (Model_Extrinsic.apply verify charge exec s'' y) as [[s3 log3]|] eqn:B; [|reflexivity]. exfalso.
  destruct (later_nonce _ _ _ _ _ _ _ _ _ _ _ _ _ A R B W L K) as [G V]. rewrite E in V.
  change (2 ^ 32) with two32 in *. destruct (N.lt_ge_cases (x_nonce x + raised (x_who x) (log1 ++ log2)) two32) as [Q|Q].
  - rewrite N.mod_small in V by exact Q. lia.
  - rewrite <- (N.mod_unique _ two32 1 (x_nonce x + raised (x_who x) (log1 ++ log2) - two32)) in V; lia.
Qed.
Print Assumptions C179_partial.
(** And transactions of one account take effect in the order of their nonces. *)
Theorem C179_order_partial : forall (State Call Sig : Type) verify charge exec
  (s s' s'' s3 : sys State) (x y : xt Call Sig) (log1 log2 log3 : list ev) l,
  Model_Extrinsic.apply verify charge exec s x = Some (s', log1) -> run verify charge exec s' l = (s'', log2) ->
  Model_Extrinsic.apply verify charge exec s'' y = Some (s3, log3) ->
  x_who y = x_who x -> ~ In (Killed (x_who x)) (log1 ++ log2) -> x_nonce x + raised (x_who x) (log1 ++ log2) < 2 ^ 32 ->
  x_nonce x < x_nonce y.
Proof.
  intros State Call Sig verify charge exec s s' s'' s3 x y log1 log2 log3 l A R B W K C. change (2 ^ 32) with two32 in *.
  destruct (later_nonce _ _ _ _ _ _ _ _ _ _ _ _ _ A R B W ltac:(lia) K) as [G V]. rewrite N.mod_small in V by exact C. lia.
Qed.
Print Assumptions C179_order_partial.
Example C179_partial_nonvacuous : exists s1 s2 s3 log1 log2 log3,
  xxapply xx0 (xxtx 1 2 100 Immortal 0 70) = Some (s1, log1) /\
  xxrun s1 [SBlock 71; SApply (xxtx 3 1 50 Immortal 0 70)] = (s2, log2) /\
  ~ In (Killed 1) (log1 ++ log2) /\ raised 1 (log1 ++ log2) = 1 /\
  xxapply s2 (xxtx 1 2 100 Immortal 0 70) = None /\
  xxapply s2 (xxtx 1 2 100 Immortal 1 70) = Some (s3, log3).
Proof.
  do 6 eexists. split; [vm_compute; reflexivity|]. split; [vm_compute; reflexivity|].
  split; [vm_compute; intuition discriminate|]. split; [vm_compute; reflexivity|]. split; vm_compute; reflexivity.
Qed.

(** The nonce of an account that has been emptied starts again at zero: account 1 signs once, gives
    everything away and is removed; later account 3 pays it; anybody submits the old transaction again and it
    takes effect again. *)
Definition xxdrain : xt xxcall xxsig := xxtx 1 2 990 Immortal 0 70.
Theorem C179_refuted : exists (s1 s2 s3 : sys bank) log1 log2 log3 l,
  xxapply xx0 xxdrain = Some (s1, log1) /\ xxrun s1 l = (s2, log2) /\ xxapply s2 xxdrain = Some (s3, log3) /\
  Forall (fun t => match t with SApply x => x_who x = 3 | SBlock _ => True | _ => False end) l /\
  free_of (state xx0) 2 = 0 /\ free_of (state s1) 2 = 990 /\ free_of (state s2) 2 = 990 /\ free_of (state s3) 2 = 1980.
Proof.
  do 6 eexists. exists [SBlock 71; SBlock 72; SApply (xxtx 3 1 1200 Immortal 0 70)].
  split; [vm_compute; reflexivity|]. split; [vm_compute; reflexivity|]. split; [vm_compute; reflexivity|].
  split; [repeat constructor|]. vm_compute. repeat split.
Qed.
Print Assumptions C179_refuted.

(** ** C180 *)
(** A signature serves only for what was signed: this call, nonce, tip and era, on the chain with this
    genesis block, under these versions of the runtime. *)
Theorem C180_scope : forall (State Call Sig : Type) verify charge exec genesis m sp tv st l (s s' : sys State) log log'
  (x : xt Call Sig) p,
  run verify charge exec (start genesis m sp tv st) l = (s, log) ->
  proves_only verify (x_sig x) (x_who x) p ->
  Model_Extrinsic.apply verify charge exec s x = Some (s', log') ->
  x_call x = p_call p /\ x_nonce x = p_nonce p /\ x_tip x = p_tip p /\ x_era x = p_era p /\
  genesis = p_genesis p /\ spec s = p_spec p /\ txv s = p_txv p.
Proof.
  intros State Call Sig verify charge exec genesis m sp tv st l s s' log log' x p R O A.
  apply apply_inv in A as (bh & ? & ? & ? & Hb & V & _). apply O in V. subst p. cbn.
  apply start_run in R as (I1 & I2 & I3).
  assert (Z : is_Some (hashes s !! 0)). { apply I3. rewrite I1. cbn. lia. }
  destruct Z as [h Z]. pose proof (I2 _ _ Z) as Q. cbn in Q. injection Q as ->. rewrite Z. now repeat split.
Qed.
Print Assumptions C180_scope.
(** And in time: the block after which it was signed must be one of this chain, and the transaction is
    refused once the period has passed since that block, or 2401 blocks. *)
Theorem C180_period : forall (State Call Sig : Type) verify charge exec genesis m sp tv st l (s s' : sys State) log log'
  (x : xt Call Sig) p period phase,
  run verify charge exec (start genesis m sp tv st) l = (s, log) -> NoDup (history genesis l) ->
  proves_only verify (x_sig x) (x_who x) p -> p_era p = Mortal period phase -> 0 < period ->
  Model_Extrinsic.apply verify charge exec s x = Some (s', log') ->
  exists b, history genesis l !! b = Some (p_birth p) /\
    (forall b', history genesis l !! b' = Some (p_birth p) -> b' = b) /\
    N.of_nat b < number s < N.of_nat b + period /\ (b = 0%nat \/ number s <= N.of_nat b + 2401).
Proof.
  intros State Call Sig verify charge exec genesis m sp tv st l s s' log log' x p period phase R ND O E P A.
  apply apply_inv in A as (bh & ? & ? & ? & Hb & V & _). apply O in V. subst p. cbn [p_era p_birth] in *.
  apply start_run in R as (I1 & I2 & I3). pose proof (I2 _ _ Hb) as Q.
  assert (Z : is_Some (hashes s !! birth (x_era x) (number s))) by (exists bh; exact Hb). apply I3 in Z as [Z1 Z2].
  exists (N.to_nat (birth (x_era x) (number s))). split; [exact Q|]. rewrite E in *. split.
  - intros b' B'. exact (NoDup_lookup _ _ _ _ ND B' Q).
  - pose proof (birth_window period phase (number s) P Z1). unfold BLOCK_HASH_COUNT in Z2. rewrite N2Nat.id. lia.
Qed.
Print Assumptions C180_period.
(** Signed after block 1, hash 71, for 4 blocks: taken in block 4, not in block 5; not on a chain with another
    block 1, another genesis or another version. *)
Definition xxm : xt xxcall xxsig := xxtx 1 2 100 (Mortal 4 1) 0 71.
Definition xxok {A} (o : option A) : bool := match o with Some _ => true | None => false end.
Example C180_nonvacuous :
  proves_only xxverify (x_sig xxm) 1 (xxpay 2 100 (Mortal 4 1) 0 71) /\
  xxok (xxapply (xxrun xx0 [SBlock 71]).1 xxm) = true /\
  xxok (xxapply (xxrun xx0 [SBlock 71; SBlock 72; SBlock 73]).1 xxm) = true /\
  xxok (xxapply (xxrun xx0 [SBlock 71; SBlock 72; SBlock 73; SBlock 74]).1 xxm) = false /\
  xxok (xxapply (xxrun xx0 [SBlock 61; SBlock 72; SBlock 73]).1 xxm) = false /\
  xxok (xxapply (xxrun xx0 [SBlock 71; SUpgrade 77 22]).1 xxm) = false /\
  xxok (xxapply (xxrun (start 60 {[1 := 0]} 76 22 xxb) [SBlock 71]).1 xxm) = false.
Proof. split; [exact (xx_only (xxpay 2 100 (Mortal 4 1) 0 71, 1) 1)|]. vm_compute. repeat split. Qed.

(** ** C181 *)
(** What an offchain worker signs can be made in every block, and is taken in that block and each of the
    2046 that follow: as long as runtime and nonce are the same and the fee can be paid. *)
Theorem C181_taken : forall (State Call Sig : Type) verify charge exec (sign : payload Call -> Sig)
  genesis m sp tv st l0 l (s s2 : sys State) log0 log who call nonce,
  run verify charge exec (start genesis m sp tv st) l0 = (s, log0) ->
  run verify charge exec s l = (s2, log) ->
  (forall p, verify p (sign p) who = true) -> who <> 0 ->
  exists x : xt Call Sig, create_signed sign s who call nonce = Some x /\ x_who x = who /\ x_call x = call /\ x_nonce x = nonce /\
    (number s2 < number s + 2047 -> spec s2 = spec s -> txv s2 = txv s -> default 0 (nonces s2 !! who) = nonce ->
     is_Some (charge (state s2) who call 0) -> is_Some (Model_Extrinsic.apply verify charge exec s2 x)).
Proof.
  intros State Call Sig verify charge exec sign genesis m sp tv st l0 l s s2 log0 log who call nonce R0 R V W.
  apply start_run in R0. pose proof (run_hinv _ _ _ l _ _ _ _ R0 R) as (J1 & J2 & J3). destruct R0 as (I1 & I2 & I3).
  rewrite app_length in J1. assert (P : 1 <= number s) by (rewrite I1; cbn; lia).
  assert (B : birth (mortal 2048 (number s - 1)) (number s) = number s - 1) by (apply birth_2048; lia).
  assert (H : is_Some (hashes s !! (number s - 1))). { apply I3. unfold BLOCK_HASH_COUNT. lia. }
  destruct H as [h H]. unfold create_signed. rewrite period_2048. unfold payload_of. rewrite B, H. cbn [mbind option_bind].
  eexists. split; [reflexivity|]. do 3 (split; [reflexivity|]). intros T Es Et En [st' C].
  unfold Model_Extrinsic.apply, payload_of. cbn [x_call x_era x_nonce x_tip x_who x_sig].
  rewrite (birth_2048 (number s - 1) (number s2)) by lia.
  assert (H2 : is_Some (hashes s2 !! (number s - 1))). { apply J3. unfold BLOCK_HASH_COUNT. lia. }
  destruct H2 as [h2 H2]. assert (h2 = h).
  { apply J2 in H2. apply I2 in H. rewrite (lookup_app_l_Some _ _ _ _ H) in H2. congruence. }
  assert (G : hashes s2 !! 0 = hashes s !! 0).
  { assert (G1 : is_Some (hashes s !! 0)) by (apply I3; lia). assert (G2 : is_Some (hashes s2 !! 0)) by (apply J3; lia).
    destruct G1 as [g1 G1], G2 as [g2 G2]. rewrite G1, G2. apply I2 in G1. apply J2 in G2.
    rewrite (lookup_app_l_Some _ _ _ _ G1) in G2. congruence. }
  subst h2. rewrite H2, G, Es, Et. cbn [mbind option_bind]. rewrite V. cbn [negb].
  replace (who =? 0) with false by lia. rewrite En, N.eqb_refl. cbn [negb]. rewrite C. cbn [mbind option_bind].
  destruct (exec st' who call). now eexists.
Qed.
Print Assumptions C181_taken.
(** Made in block 1; taken in block 2047, not in block 2049. *)
Example C181_taken_nonvacuous :
  match create_signed (fun p => (p, 1)) xx0 1 (2, 100) 0 with
  | Some x => xxok (xxapply (xxrun xx0 (map (fun k => SBlock (N.of_nat k)) (seq 100 2046))).1 x) = true /\
              xxok (xxapply (xxrun xx0 (map (fun k => SBlock (N.of_nat k)) (seq 100 2048))).1 x) = false
  | None => False
  end.
Proof. vm_compute. repeat split. Qed.
