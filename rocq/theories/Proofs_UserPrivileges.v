(** Proofs about privileges. *)
From Verif Require Import Base Model_UserPrivileges Spec_UserPrivileges.
From stdpp Require Import gmap.
From Coq Require Import Lia.
Open Scope N_scope.

Lemma pbit_index p : pbit p = 2 ^ pindex p.
Proof. destruct p; reflexivity. Qed.

Lemma pindex_inj p q : pindex p = pindex q -> p = q.
Proof. destruct p, q; simpl; congruence. Qed.

Lemma pbit_testbit p n : N.testbit (pbit p) n = (pindex p =? n).
Proof. rewrite pbit_index. apply N.pow2_bits_eqb. Qed.

Lemma contains_testbit w p : contains w p = N.testbit w (pindex p).
Proof.
  unfold contains. destruct (N.eqb_spec (N.land w (pbit p)) (pbit p)) as [E|E].
  - symmetry. apply (f_equal (fun x => N.testbit x (pindex p))) in E.
    rewrite N.land_spec, pbit_testbit, N.eqb_refl, andb_true_r in E. first [exact E | now symmetry].
  - destruct (N.testbit w (pindex p)) eqn:T; [|reflexivity].
    exfalso. apply E. apply N.bits_inj. intros n. rewrite N.land_spec, pbit_testbit.
    destruct (N.eqb_spec (pindex p) n) as [<-|]; [now rewrite T|apply andb_false_r].
Qed.

Lemma contains_add old p q :
  contains (add_flag old p) q =
  bool_decide (q = p) || match old with Some w => contains w q | None => false end.
Proof.
  rewrite contains_testbit. destruct old as [w|]; simpl.
  - rewrite N.lor_spec, pbit_testbit, <- contains_testbit.
    destruct (N.eqb_spec (pindex p) (pindex q)) as [E|E].
    + apply pindex_inj in E. subst. rewrite bool_decide_true by reflexivity. apply orb_true_r.
    + rewrite bool_decide_false by congruence. now rewrite orb_false_r.
  - rewrite pbit_testbit, orb_false_r.
    destruct (N.eqb_spec (pindex p) (pindex q)) as [E|E].
    + apply pindex_inj in E. subst. now rewrite bool_decide_true.
    + rewrite bool_decide_false; [reflexivity|congruence].
Qed.

Lemma contains_remove w p q :
  contains (remove_flag w p) q = negb (bool_decide (q = p)) && contains w q.
Proof.
  rewrite !contains_testbit. unfold remove_flag. rewrite N.ldiff_spec, pbit_testbit.
  destruct (N.eqb_spec (pindex p) (pindex q)) as [E|E].
  - apply pindex_inj in E. subst. rewrite bool_decide_true by reflexivity. apply andb_false_r.
  - rewrite bool_decide_false by congruence. now rewrite andb_true_r.
Qed.

(** The model answers as the relations say. *)
Definition agrees (s : ustate) (h : holds) : Prop :=
  (forall a p, has_privilege s a p = acc_holds h a p) /\
  (forall a p, has_evm_privilege s a p = evm_holds h a p).

Definition lookup_has (m : gmap N N) (a : N) (p : privilege) : bool :=
  match m !! a with None => false | Some w => contains w p end.

Lemma lh_add m who p a q :
  lookup_has (<[who := add_flag (m !! who) p]> m) a q = rel_add (lookup_has m) who p a q.
Proof.
  unfold lookup_has, rel_add. destruct (decide (a = who)) as [->|Ha].
  - rewrite lookup_insert, contains_add. destruct (decide (q = p)) as [->|Hq].
    + now rewrite !bool_decide_true.
    + rewrite !bool_decide_false by (first [exact Hq | now intros []]). reflexivity.
  - rewrite lookup_insert_ne by congruence.
    rewrite bool_decide_false by now intros []. reflexivity.
Qed.

Lemma lh_remove m who w p a q :
  m !! who = Some w ->
  lookup_has (<[who := remove_flag w p]> m) a q = rel_remove (lookup_has m) who p a q.
Proof.
  intros Hw. unfold lookup_has, rel_remove. destruct (decide (a = who)) as [->|Ha].
  - rewrite lookup_insert, contains_remove, Hw. destruct (decide (q = p)) as [->|Hq].
    + now rewrite !bool_decide_true.
    + rewrite !bool_decide_false by (first [exact Hq | now intros []]). reflexivity.
  - rewrite lookup_insert_ne by congruence.
    rewrite bool_decide_false by now intros []. reflexivity.
Qed.

Lemma lh_remove_none m who p a q :
  m !! who = None -> lookup_has m a q = rel_remove (lookup_has m) who p a q.
Proof.
  intros Hw. unfold lookup_has, rel_remove.
  destruct (decide (a = who /\ q = p)) as [[-> ->]|Hn].
  - now rewrite bool_decide_true, Hw.
  - now rewrite bool_decide_false.
Qed.

Lemma lh_clear m who a q :
  lookup_has (delete who m) a q = rel_clear (lookup_has m) who a q.
Proof.
  unfold lookup_has, rel_clear. destruct (decide (a = who)) as [->|Ha].
  - now rewrite lookup_delete, bool_decide_true.
  - rewrite lookup_delete_ne by congruence. now rewrite bool_decide_false.
Qed.

Lemma rel_add_ext r r' who p a q :
  (forall a p, r a p = r' a p) -> rel_add r who p a q = rel_add r' who p a q.
Proof. intros E. unfold rel_add. now rewrite E. Qed.
Lemma rel_remove_ext r r' who p a q :
  (forall a p, r a p = r' a p) -> rel_remove r who p a q = rel_remove r' who p a q.
Proof. intros E. unfold rel_remove. now rewrite E. Qed.
Lemma rel_clear_ext r r' who a q :
  (forall a p, r a p = r' a p) -> rel_clear r who a q = rel_clear r' who a q.
Proof. intros E. unfold rel_clear. now rewrite E. Qed.

Lemma step_agrees s h o c :
  agrees s h -> agrees (fst (ustep s o c)) (spec_call h o c).
Proof.
  intros [HA HE].
  assert (HA' : forall a p, lookup_has (u_user s) a p = acc_holds h a p) by exact HA.
  assert (HE' : forall a p, lookup_has (u_evm s) a p = evm_holds h a p) by exact HE.
  destruct c as [who p|who p|who|who p|who p|who]; unfold ustep; cbn [uexec spec_call].
  - unfold set_user_privilege. destruct o; cbn; [|split; assumption..].
    split; intros a q; [|apply HE].
    change (lookup_has (<[who:=add_flag (u_user s !! who) p]> (u_user s)) a q
            = rel_add (acc_holds h) who p a q).
    rewrite lh_add. now apply rel_add_ext.
  - unfold unset_user_privilege. destruct o; cbn; [|split; assumption..].
    destruct (u_user s !! who) as [w|] eqn:Ew; cbn; (split; intros a q; [|apply HE]).
    + change (lookup_has (<[who:=remove_flag w p]> (u_user s)) a q
              = rel_remove (acc_holds h) who p a q).
      rewrite (lh_remove _ _ _ _ _ _ Ew). now apply rel_remove_ext.
    + change (lookup_has (u_user s) a q = rel_remove (acc_holds h) who p a q).
      rewrite (lh_remove_none _ _ p _ _ Ew). now apply rel_remove_ext.
  - unfold clear_user_privilege. destruct o; cbn; [|split; assumption..].
    split; intros a q; [|apply HE].
    change (lookup_has (delete who (u_user s)) a q = rel_clear (acc_holds h) who a q).
    rewrite lh_clear. now apply rel_clear_ext.
  - unfold set_evm_privilege. destruct o as [|sd|]; cbn; [split; assumption| |split; assumption].
    rewrite <- HA. destruct (has_privilege s sd EvmAddressSetter); cbn; [|split; assumption].
    split; intros a q; [apply HA|].
    change (lookup_has (<[who:=add_flag (u_evm s !! who) p]> (u_evm s)) a q
            = rel_add (evm_holds h) who p a q).
    rewrite lh_add. now apply rel_add_ext.
  - unfold unset_evm_privilege. destruct o as [|sd|]; cbn; [split; assumption| |split; assumption].
    rewrite <- HA. destruct (has_privilege s sd EvmAddressSetter); cbn; [|split; assumption].
    destruct (u_evm s !! who) as [w|] eqn:Ew; cbn; (split; intros a q; [apply HA|]).
    + change (lookup_has (<[who:=remove_flag w p]> (u_evm s)) a q
              = rel_remove (evm_holds h) who p a q).
      rewrite (lh_remove _ _ _ _ _ _ Ew). now apply rel_remove_ext.
    + change (lookup_has (u_evm s) a q = rel_remove (evm_holds h) who p a q).
      rewrite (lh_remove_none _ _ p _ _ Ew). now apply rel_remove_ext.
  - unfold clear_evm_privilege. destruct o as [|sd|]; cbn; [split; assumption| |split; assumption].
    rewrite <- HA. destruct (has_privilege s sd EvmAddressSetter); cbn; [|split; assumption].
    split; intros a q; [apply HA|].
    change (lookup_has (delete who (u_evm s)) a q = rel_clear (evm_holds h) who a q).
    rewrite lh_clear. now apply rel_clear_ext.
Qed.

Lemma run_agrees l : forall s h,
  agrees s h -> agrees (urun s l) (fold_left (fun h x => spec_call h x.1 x.2) l h).
Proof.
  induction l as [|x l IH]; intros s h H; [exact H|].
  cbn. apply IH. now apply step_agrees.
Qed.

Lemma init_agrees : agrees uinit nobody.
Proof. split; reflexivity. Qed.

(** When a call succeeds, and what it then answers. *)
Lemma user_call_result s o c :
  match c with
  | USetUser who p => o = Root -> exists s', ustep s o c = (s', ROk (UserPrivilegeSet who p))
  | UUnsetUser who p =>
      o = Root -> u_user s !! who <> None ->
      exists s', ustep s o c = (s', ROk (UserPrivilegeUnSet who p))
  | UClearUser who => o = Root -> exists s', ustep s o c = (s', ROk (UserPrivilegeClear who))
  | _ => True
  end.
Proof.
  destruct c; try exact I.
  - intros ->. eexists. reflexivity.
  - intros -> H. unfold ustep. cbn. unfold unset_user_privilege. cbn.
    destruct (u_user s !! who); [|congruence]. eexists. reflexivity.
  - intros ->. eexists. reflexivity.
Qed.

(** Who may change what. *)
Lemma user_change_root s o c a p :
  has_privilege (fst (ustep s o c)) a p <> has_privilege s a p ->
  o = Root /\ (c = USetUser a p \/ c = UUnsetUser a p \/ c = UClearUser a) /\
  is_ok (snd (ustep s o c)) = true.
Proof.
  assert (H0 : agrees s (Holds (has_privilege s) (has_evm_privilege s))) by (split; reflexivity).
  pose proof (step_agrees _ _ o c H0) as [HA _]. rewrite HA. clear HA H0.
  destruct c as [who q|who q|who|who q|who q|who]; cbn -[ustep].
  - destruct o; cbn -[ustep]; try congruence. unfold rel_add.
    case_bool_decide as D; [|congruence]. destruct D as [-> ->]. intros _.
    repeat split; auto.
  - destruct o; cbn -[ustep]; try congruence. unfold rel_remove.
    case_bool_decide as D; [|congruence]. destruct D as [-> ->]. intros Hne.
    repeat split; auto. unfold ustep; cbn. unfold unset_user_privilege; cbn.
    unfold has_privilege in Hne. destruct (u_user s !! who) eqn:EW; [reflexivity|]; rewrite ?EW in Hne; congruence.
  - destruct o; cbn -[ustep]; try congruence. unfold rel_clear.
    case_bool_decide as D; [|congruence]. subst. intros _. repeat split; auto.
  - destruct o as [|sd|]; [cbn -[ustep]; congruence| |cbn -[ustep]; congruence].
    destruct (has_privilege s sd EvmAddressSetter); cbn -[ustep]; congruence.
  - destruct o as [|sd|]; [cbn -[ustep]; congruence| |cbn -[ustep]; congruence].
    destruct (has_privilege s sd EvmAddressSetter); cbn -[ustep]; congruence.
  - destruct o as [|sd|]; [cbn -[ustep]; congruence| |cbn -[ustep]; congruence].
    destruct (has_privilege s sd EvmAddressSetter); cbn -[ustep]; congruence.
Qed.

Lemma evm_change_setter s o c a p :
  has_evm_privilege (fst (ustep s o c)) a p <> has_evm_privilege s a p ->
  (exists who, o = Signed who /\ has_privilege s who EvmAddressSetter = true) /\
  (c = USetEvm a p \/ c = UUnsetEvm a p \/ c = UClearEvm a) /\
  is_ok (snd (ustep s o c)) = true.
Proof.
  assert (H0 : agrees s (Holds (has_privilege s) (has_evm_privilege s))) by (split; reflexivity).
  pose proof (step_agrees _ _ o c H0) as [_ HE]. rewrite HE. clear HE H0.
  destruct c as [who q|who q|who|who q|who q|who]; cbn -[ustep].
  - destruct o; cbn -[ustep]; congruence.
  - destruct o; cbn -[ustep]; congruence.
  - destruct o; cbn -[ustep]; congruence.
  - destruct o as [|sd|]; [cbn -[ustep]; congruence| |cbn -[ustep]; congruence].
    destruct (has_privilege s sd EvmAddressSetter) eqn:E; cbn -[ustep]; [|congruence].
    unfold rel_add. case_bool_decide as D; [|congruence]. destruct D as [-> ->]. intros _.
    split; [eauto|]. split; auto.
    unfold ustep; cbn. unfold set_evm_privilege; cbn. now rewrite E.
  - destruct o as [|sd|]; [cbn -[ustep]; congruence| |cbn -[ustep]; congruence].
    destruct (has_privilege s sd EvmAddressSetter) eqn:E; cbn -[ustep]; [|congruence].
    unfold rel_remove. case_bool_decide as D; [|congruence]. destruct D as [-> ->]. intros Hne.
    split; [eauto|]. split; auto.
    unfold ustep; cbn. unfold unset_evm_privilege; cbn. rewrite E. cbn.
    unfold has_evm_privilege in Hne. destruct (u_evm s !! who) eqn:EW; [reflexivity|]; rewrite ?EW in Hne; congruence.
  - destruct o as [|sd|]; [cbn -[ustep]; congruence| |cbn -[ustep]; congruence].
    destruct (has_privilege s sd EvmAddressSetter) eqn:E; cbn -[ustep]; [|congruence].
    unfold rel_clear. case_bool_decide as D; [|congruence]. subst. intros _.
    split; [eauto|]. split; auto.
    unfold ustep; cbn. unfold clear_evm_privilege; cbn. now rewrite E.
Qed.

(** Codec. *)
Lemma le_word_bytes n w : le_word (le_bytes n w) = w mod 256 ^ N.of_nat n.
Proof.
  revert w. induction n as [|n IH]; intros w.
  - simpl. now rewrite N.mod_1_r.
  - rewrite Nat2N.inj_succ, N.pow_succ_r'. cbn [le_bytes le_word]. rewrite IH.
    rewrite (N.mod_mul_r w 256) by (try apply N.pow_nonzero; discriminate). lia.
Qed.
Lemma le_bytes_length n w : length (le_bytes n w) = n.
Proof. revert w. induction n; simpl; auto. Qed.

Lemma land_all_bits w : N.land w all_bits = w <-> w < 4096.
Proof.
  change all_bits with (N.ones 12). rewrite N.land_ones. change (2 ^ 12) with 4096. split.
  - intros <-. apply N.mod_lt. discriminate.
  - intros H. now apply N.mod_small.
Qed.

Lemma lt4096_bits w : w < 4096 <-> (forall n, 12 <= n -> N.testbit w n = false).
Proof.
  split.
  - intros H n Hn. destruct (N.eq_dec w 0) as [->|Hz]; [apply N.bits_0|].
    apply N.bits_above_log2. apply (N.lt_le_trans _ 12); [|exact Hn].
    apply N.log2_lt_pow2; [lia|exact H].
  - intros H. change 4096 with (2 ^ 12).
    destruct (N.eq_dec w 0) as [->|Hz]; [reflexivity|].
    apply N.log2_lt_pow2; [lia|]. destruct (N.lt_ge_cases (N.log2 w) 12) as [|Hge]; auto.
    specialize (H _ Hge). rewrite N.bit_log2 in H by exact Hz. discriminate.
Qed.

Lemma codec_roundtrip w rest :
  w < 4096 -> decode_privileges (encode_privileges w ++ rest) = Some (w, rest).
Proof.
  intros H. unfold decode_privileges, encode_privileges.
  rewrite app_length, le_bytes_length.
  destruct (Nat.ltb_spec (8 + length rest) 8); [lia|].
  rewrite take_app_alt by (now rewrite le_bytes_length).
  rewrite drop_app_alt by (now rewrite le_bytes_length).
  rewrite le_word_bytes. change (256 ^ N.of_nat 8) with two64.
  rewrite N.mod_small by (unfold two64; lia).
  apply land_all_bits in H. rewrite H. now rewrite N.eqb_refl.
Qed.

Lemma codec_rejects bs :
  decode_privileges bs = None <->
  (length bs < 8)%nat \/ exists n, 12 <= n /\ N.testbit (le_word (take 8 bs)) n = true.
Proof.
  unfold decode_privileges. destruct (Nat.ltb_spec (length bs) 8) as [L|L].
  { split; auto. }
  cbv zeta. destruct (N.eqb_spec (N.land (le_word (take 8 bs)) all_bits) (le_word (take 8 bs))) as [E|E].
  - split; [discriminate|]. intros [H|[n [Hn Ht]]]; [lia|].
    apply land_all_bits in E. rewrite lt4096_bits in E. rewrite (E n Hn) in Ht. discriminate.
  - split; [|reflexivity]. intros _. right.
    rewrite land_all_bits in E.
    set (w := le_word (take 8 bs)) in *.
    exists (N.log2 w). assert (w <> 0) by lia. split.
    + apply N.nlt_ge. intros Hlt. apply E. change 4096 with (2^12). apply N.log2_lt_pow2; lia.
    + now apply N.bit_log2.
Qed.

Lemma codec_decode_word bs w rest :
  decode_privileges bs = Some (w, rest) ->
  w = le_word (take 8 bs) /\ rest = drop 8 bs /\ w < 4096.
Proof.
  unfold decode_privileges. destruct (Nat.ltb_spec (length bs) 8) as [L|L]; [discriminate|].
  cbv zeta. destruct (N.eqb_spec (N.land (le_word (take 8 bs)) all_bits) (le_word (take 8 bs))) as [E|E];
    [|discriminate].
  intros [= <- <-]. split; [reflexivity|]. split; [reflexivity|]. now apply land_all_bits.
Qed.

Lemma words_ext w w' :
  w < 4096 -> w' < 4096 -> (forall p, in_word w p <-> in_word w' p) -> w = w'.
Proof.
  intros Hw Hw' H. apply N.bits_inj. intros n.
  rewrite lt4096_bits in Hw, Hw'.
  destruct (N.lt_ge_cases n 12) as [Hn|Hn]; [|now rewrite Hw, Hw'].
  assert (Hp : exists p, pindex p = n).
  { assert (n = 0 \/ n = 1 \/ n = 2 \/ n = 3 \/ n = 4 \/ n = 5 \/ n = 6 \/ n = 7 \/ n = 8 \/
            n = 9 \/ n = 10 \/ n = 11) as D by lia.
    destruct D as [->|[->|[->|[->|[->|[->|[->|[->|[->|[->|[->| ->]]]]]]]]]]].
    all: first [now exists LockerMember|now exists ReleaseSetter|now exists EvmAddressSetter
      |now exists EvmCreditOperation|now exists NpowMint|now exists CreditAdmin|now exists TipPayer
      |now exists BridgeAdmin|now exists OracleWorker|now exists DeviceAdmin
      |now exists BlackListAdmin|now exists AdstAdmin]. }
  destruct Hp as [p <-]. specialize (H p). unfold in_word in H.
  destruct (N.testbit w (pindex p)), (N.testbit w' (pindex p)); auto.
  - symmetry. now apply H.
  - now apply H.
Qed.

(** Stored words only have declared bits. *)
Definition words_ok (s : ustate) : Prop :=
  (forall a w, u_user s !! a = Some w -> w < 4096) /\
  (forall a w, u_evm s !! a = Some w -> w < 4096).

Lemma add_flag_ok old p :
  (forall w, old = Some w -> w < 4096) -> add_flag old p < 4096.
Proof.
  intros H. apply lt4096_bits. intros n Hn.
  assert (Hp : N.testbit (pbit p) n = false).
  { rewrite pbit_testbit. apply N.eqb_neq. destruct p; cbn; lia. }
  destruct old as [w|]; cbn [add_flag]; [|exact Hp].
  rewrite N.lor_spec, Hp, orb_false_r. specialize (H w eq_refl).
  rewrite lt4096_bits in H. now apply H.
Qed.
Lemma remove_flag_ok w p : w < 4096 -> remove_flag w p < 4096.
Proof.
  rewrite !lt4096_bits. intros H n Hn. unfold remove_flag.
  rewrite N.ldiff_spec, H by exact Hn. reflexivity.
Qed.

Lemma insert_ok (m : gmap N N) k v :
  (forall a w, m !! a = Some w -> w < 4096) -> v < 4096 ->
  forall a w, <[k := v]> m !! a = Some w -> w < 4096.
Proof.
  intros H Hv a w. destruct (decide (k = a)) as [->|].
  - rewrite lookup_insert. congruence.
  - rewrite lookup_insert_ne by congruence. apply H.
Qed.
Lemma delete_ok (m : gmap N N) k :
  (forall a w, m !! a = Some w -> w < 4096) ->
  forall a w, delete k m !! a = Some w -> w < 4096.
Proof. intros H a w. rewrite lookup_delete_Some. intros [_ E]. eauto. Qed.

Lemma step_words s o c : words_ok s -> words_ok (fst (ustep s o c)).
Proof.
  intros H. pose proof H as [HU HE]. unfold ustep.
  destruct c as [who p|who p|who|who p|who p|who]; cbn [uexec].
  - unfold set_user_privilege. destruct o; try exact H. split; cbn; [|exact HE].
    apply insert_ok; auto. apply add_flag_ok. intros w. apply HU.
  - unfold unset_user_privilege. destruct o; try exact H. cbn.
    destruct (u_user s !! who) eqn:E; [|exact H]. split; cbn; [|exact HE].
    apply insert_ok; auto. apply remove_flag_ok. eauto.
  - unfold clear_user_privilege. destruct o; try exact H. split; cbn; [|exact HE].
    now apply delete_ok.
  - unfold set_evm_privilege. destruct o; try exact H. cbn.
    destruct (has_privilege _ _ _); [|exact H]. split; cbn; [exact HU|].
    apply insert_ok; auto. apply add_flag_ok. intros w. apply HE.
  - unfold unset_evm_privilege. destruct o; try exact H. cbn.
    destruct (has_privilege _ _ _); [|exact H]. cbn.
    destruct (u_evm s !! who) eqn:E; [|exact H]. split; cbn; [exact HU|].
    apply insert_ok; auto. apply remove_flag_ok. eauto.
  - unfold clear_evm_privilege. destruct o; try exact H. cbn.
    destruct (has_privilege _ _ _); [|exact H]. split; cbn; [exact HU|].
    now apply delete_ok.
Qed.

Lemma run_words l : forall s, words_ok s -> words_ok (urun s l).
Proof.
  induction l as [|x l IH]; intros s H; [exact H|]. cbn. apply IH. now apply step_words.
Qed.

Lemma privilege_codec p rest :
  decode_privilege (encode_privilege p ++ rest) = Some (p, rest).
Proof. destruct p; reflexivity. Qed.

Lemma privilege_decode_inv bs p rest :
  decode_privilege bs = Some (p, rest) -> bs = encode_privilege p ++ rest.
Proof.
  destruct bs as [|b r]; [discriminate|]. unfold decode_privilege.
  repeat match goal with
  | |- context [b =? ?k] =>
      destruct (N.eqb_spec b k) as [->|]; [cbn; intros H; injection H as <- <-; reflexivity|]
  end.
  cbn. discriminate.
Qed.

(** Migration. *)
Lemma lockers_fold ls : forall m who,
  In who ls -> fold_left (fun m l => grant_only m l LockerMember) ls m !! who = Some (pbit LockerMember).
Proof.
  assert (Hout : forall ls (m : gmap N N) who, m !! who = Some (pbit LockerMember) ->
    fold_left (fun m l => grant_only m l LockerMember) ls m !! who = Some (pbit LockerMember)).
  { clear. induction ls as [|l ls IH]; intros m who H; [exact H|]. cbn -[pbit]. apply IH.
    unfold grant_only. destruct (decide (l = who)) as [->|].
    - apply lookup_insert.
    - now rewrite lookup_insert_ne. }
  induction ls as [|l ls IH]; intros m who; [intros []|].
  intros [->|Hin]; cbn -[pbit].
  - apply Hout. apply lookup_insert.
  - now apply IH.
Qed.
Lemma lockers_fold_out ls : forall m who,
  ~ In who ls -> fold_left (fun m l => grant_only m l LockerMember) ls m !! who = m !! who.
Proof.
  induction ls as [|l ls IH]; intros m who Hn; [reflexivity|]. cbn -[pbit].
  rewrite IH by (intros C; apply Hn; now right). unfold grant_only.
  rewrite lookup_insert_ne; [reflexivity|]. intros ->. apply Hn. now left.
Qed.

Lemma contains_self p : contains (pbit p) p = true.
Proof. destruct p; reflexivity. Qed.

(** First step, when the release setter is not also a locker. *)
Lemma migration1 s old who p :
  u_version s = None ->
  (forall w, old_release_setter old = Some w -> ~ In w (default [] (old_lockers old))) ->
  had_role1 old who p -> has_privilege (on_runtime_upgrade s old) who p = true.
Proof.
  intros Hv Hd Hr. unfold on_runtime_upgrade. rewrite Hv. unfold has_privilege. cbn [u_user].
  destruct Hr as [[-> [ls [Hl Hin]]]|[-> Hs]].
  - rewrite Hl. cbn [default]. unfold grant_opt.
    destruct (old_release_setter old) as [w|] eqn:Ew.
    + unfold grant_only at 1. rewrite lookup_insert_ne.
      * rewrite Hl in Hd. cbn. rewrite lockers_fold by exact Hin. reflexivity.
      * intros ->. rewrite Hl in Hd. exact (Hd _ eq_refl Hin).
    + cbn. rewrite lockers_fold by exact Hin. reflexivity.
  - rewrite Hs. cbn [grant_opt]. unfold grant_only at 1. rewrite lookup_insert. reflexivity.
Qed.

Lemma migration2 s old who p :
  u_version s = Some V1_0_0 ->
  (forall w w', old_tip_payer old = Some w -> old_credit_admin old = Some w' -> w <> w') ->
  had_role2 old who p -> has_privilege (on_runtime_upgrade s old) who p = true.
Proof.
  intros Hv Hd Hr. unfold on_runtime_upgrade. rewrite Hv. unfold has_privilege. cbn [u_user].
  destruct Hr as [[-> Hs]|[-> Hs]]; rewrite Hs.
  - cbn [grant_opt]. destruct (old_credit_admin old) as [w|] eqn:Ew; cbn [grant_opt].
    + unfold grant_only at 1. rewrite lookup_insert_ne by (intros ->; exact (Hd _ _ Hs eq_refl eq_refl)).
      unfold grant_only. rewrite lookup_insert. reflexivity.
    + unfold grant_only. rewrite lookup_insert. reflexivity.
  - cbn [grant_opt]. unfold grant_only at 1. rewrite lookup_insert. reflexivity.
Qed.

(** Accounts not named by the old storage keep what they have. *)
Lemma migration_frame s old who p :
  ~ In who (default [] (old_lockers old)) -> old_release_setter old <> Some who ->
  old_tip_payer old <> Some who -> old_credit_admin old <> Some who ->
  has_privilege (on_runtime_upgrade s old) who p = has_privilege s who p.
Proof.
  intros H1 H2 H3 H4.
  assert (G : forall m o q, o <> Some who -> grant_opt m o q !! who = m !! who).
  { intros m [w|] q Hw; cbn; [|reflexivity]. unfold grant_only.
    rewrite lookup_insert_ne; [reflexivity|]. congruence. }
  unfold has_privilege, on_runtime_upgrade.
  destruct (u_version s) as [[|]|]; cbn [u_user]; rewrite ?G by assumption; try reflexivity.
  now rewrite lockers_fold_out.
Qed.
