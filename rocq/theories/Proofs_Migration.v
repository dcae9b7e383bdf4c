(** Proofs about the node migration. *)
From Verif Require Import Base Model_Migration Spec_Migration.
From stdpp Require Import gmap.
From Coq Require Import Lia.
Open Scope N_scope.

Lemma little_dec l : forall x, little l x -> le_val l = x.
Proof.
  induction l as [|b r IH]; intros x H; cbn in *; [done|].
  destruct H as (_ & y & -> & H). by rewrite (IH _ H).
Qed.
Lemma little_enc k : forall x, x < 256 ^ N.of_nat k -> little (le_enc k x) x.
Proof.
  induction k as [|k IH]; intros x H; cbn [le_enc little].
  { change (256 ^ N.of_nat 0) with 1 in H. lia. }
  rewrite Nat2N.inj_succ, N.pow_succ_r' in H.
  pose proof (N.div_mod x 256) as D. pose proof (N.mod_lt x 256) as M.
  split; [unfold byte; lia|]. exists (x / 256). split; [lia|]. apply IH. apply N.div_lt_upper_bound; lia.
Qed.
Lemma le_enc_length k : forall x, length (le_enc k x) = k.
Proof. induction k; intros x; cbn; auto. Qed.
Lemma little_bytes l : forall x, little l x -> Forall byte l.
Proof. induction l as [|b r IH]; intros x H; cbn in *; [constructor|]. destruct H as (Hb & y & _ & H). constructor; eauto. Qed.
Lemma little_bound l : forall x, little l x -> x < 256 ^ N.of_nat (length l).
Proof.
  induction l as [|b r IH]; intros x H; cbn [little length] in *; [by subst|].
  destruct H as (Hb & y & -> & H). apply IH in H. rewrite Nat2N.inj_succ, N.pow_succ_r'. unfold byte in Hb. lia.
Qed.
Lemma little_dec_self l : Forall byte l -> little l (le_val l).
Proof.
  induction 1 as [|b r Hb _ IH]; cbn; [done|]. split; [exact Hb|]. by exists (le_val r).
Qed.

Lemma read_app k a r : length a = k -> read k (a ++ r) = Some (a, r).
Proof.
  intros <-. unfold read. rewrite app_length.
  destruct (Nat.leb_spec (length a) (length a + length r)); [|lia]. by rewrite take_app, drop_app.
Qed.
Lemma read_some k l a r : read k l = Some (a, r) -> l = a ++ r /\ length a = k.
Proof.
  unfold read. destruct (Nat.leb_spec k (length l)); [|discriminate]. intros [= <- <-].
  split; [by rewrite take_drop|]. by rewrite take_length_le.
Qed.

(** Lengths. *)
Lemma compact_enc_is n : n < 2 ^ 32 -> is_length (compact_enc n) n.
Proof.
  intros H. unfold compact_enc, is_length.
  destruct (N.ltb_spec n 64) as [H1|H1].
  { left. split; [done|]. split; [lia|]. cbn [little]. split; [unfold byte; lia|]. exists 0. split; [lia|reflexivity]. }
  destruct (N.ltb_spec n 16384) as [H2|H2].
  { right; left. split; [apply le_enc_length|]. split; [lia|]. apply little_enc. change (256 ^ N.of_nat 2) with 65536. lia. }
  destruct (N.ltb_spec n 1073741824) as [H3|H3].
  { right; right; left. split; [apply le_enc_length|]. split; [lia|]. apply little_enc. change (256 ^ N.of_nat 4) with 4294967296. lia. }
  right; right; right. eexists. split; [reflexivity|]. split; [apply le_enc_length|]. split; [lia|].
  apply little_enc. exact H.
Qed.
Lemma compact_dec_is h n r : is_length h n -> compact_dec (h ++ r) = Some (n, r).
Proof.
  intros [(L & B & H)|[(L & B & H)|[(L & B & H)|(t & -> & L & B & H)]]].
  - destruct h as [|p [|]]; try discriminate L. cbn [little] in H. destruct H as (Hp & y & E & ->).
    cbn [app compact_dec]. replace p with (0 + n * 4) by lia.
    rewrite N.mod_add by lia. change (0 mod 4) with 0. cbv iota beta.
    rewrite N.div_add by lia. do 2 f_equal.
  - destruct h as [|p t]; [discriminate L|]. pose proof (little_dec _ _ H) as D.
    cbn [little] in H. destruct H as (Hp & y & E & H).
    assert (M : p mod 4 = 1).
    { replace p with (1 + (n - 64 * y) * 4) by lia. rewrite N.mod_add by lia. reflexivity. }
    cbn [app compact_dec]. rewrite M. cbv iota beta. rewrite read_app by (cbn in L; lia). cbn [mbind option_bind].
    rewrite D. replace ((4 * n + 1) / 4) with n.
    2:{ replace (4 * n + 1) with (1 + n * 4) by lia. rewrite N.div_add by lia. reflexivity. }
    cbv zeta. destruct (N.ltb_spec 63 n), (N.leb_spec n 16383); cbn; try reflexivity; lia.
  - destruct h as [|p t]; [discriminate L|]. pose proof (little_dec _ _ H) as D.
    cbn [little] in H. destruct H as (Hp & y & E & H).
    assert (M : p mod 4 = 2).
    { replace p with (2 + (n - 64 * y) * 4) by lia. rewrite N.mod_add by lia. reflexivity. }
    cbn [app compact_dec]. rewrite M. cbv iota beta. rewrite read_app by (cbn in L; lia). cbn [mbind option_bind].
    rewrite D. replace ((4 * n + 2) / 4) with n.
    2:{ replace (4 * n + 2) with (2 + n * 4) by lia. rewrite N.div_add by lia. reflexivity. }
    cbv zeta. destruct (N.ltb_spec 16383 n), (N.leb_spec n 1073741823); cbn; try reflexivity; lia.
  - cbn [app compact_dec]. change (3 mod 4) with 3. change (3 / 4) with 0. cbv iota beta.
    change (0 =? 0) with true. cbv iota.
    rewrite read_app by exact L. cbn [mbind option_bind]. rewrite (little_dec _ _ H). cbv zeta.
    destruct (N.ltb_spec 1073741823 n); [reflexivity|lia].
Qed.
(** Decoding consumes at least one byte. *)
Lemma compact_dec_shrinks l n r : compact_dec l = Some (n, r) -> (length r < length l)%nat.
Proof.
  destruct l as [|p t]; [discriminate|]. cbn [compact_dec length].
  assert (G : forall k b r', read k t = Some (b, r') -> (length r' < S (length t))%nat).
  { intros k b r' E. apply read_some in E as [-> _]. rewrite app_length. lia. }
  destruct (p mod 4) as [|q]; [intros [= <- <-]; lia|].
  destruct q as [q|q|]; [| |].
  - destruct (p / 4 =? 0); [|discriminate]. cbn [mbind option_bind].
    destruct (read 4 t) as [[b r']|] eqn:E; [|discriminate]. cbn. destruct (_ <? _); [|discriminate]. intros [= <- <-]. eauto.
  - destruct q as [q|q|].
    1,2: (destruct (p / 4 =? 0); [|discriminate]; cbn [mbind option_bind];
      destruct (read 4 t) as [[b r']|] eqn:E; [|discriminate]; cbn; destruct (_ <? _); [|discriminate]; intros [= <- <-]; eauto).
    cbn [mbind option_bind]. destruct (read 3 t) as [[b r']|] eqn:E; [|discriminate]. cbn.
    destruct (_ && _); [|discriminate]. intros [= <- <-]. eauto.
  - cbn [mbind option_bind]. destruct (read 1 t) as [[b r']|] eqn:E; [|discriminate]. cbn.
    destruct (_ && _); [|discriminate]. intros [= <- <-]. eauto.
Qed.

Lemma vec_enc_is v : Forall byte v -> N.of_nat (length v) < 2 ^ 32 -> is_string (bytes_enc v) v.
Proof. intros Hb Hl. exists (compact_enc (N.of_nat (length v))). split; [reflexivity|]. split; [by apply compact_enc_is|exact Hb]. Qed.
Lemma vec_dec_is l v r : is_string l v -> bytes_dec (l ++ r) = Some (v, r).
Proof.
  intros (h & -> & Hl & _). unfold bytes_dec. rewrite <- app_assoc, (compact_dec_is h _ (v ++ r) Hl). cbn [mbind option_bind].
  apply read_app. by rewrite Nat2N.id.
Qed.
Lemma string_length l v : is_string l v -> N.of_nat (length v) < 2 ^ 32 /\ Forall byte v.
Proof.
  intros (h & _ & Hl & Hb). split; [|exact Hb].
  destruct Hl as [(_ & B & _)|[(_ & B & _)|[(_ & B & _)|(_ & _ & _ & B & _)]]]; lia.
Qed.

Lemma old_dec_is l a ip c e : is_old l a ip c e -> old_dec l = Some (OldNode a ip c e).
Proof.
  intros (i & cc & ee & -> & La & _ & Hi & Hc & Le & He). unfold old_dec.
  rewrite read_app by exact La. cbn [mbind option_bind].
  rewrite (vec_dec_is i ip _ Hi). cbn [mbind option_bind].
  rewrite (vec_dec_is cc c _ Hc). cbn [mbind option_bind].
  rewrite <- (app_nil_r ee), read_app by exact Le. cbn. by rewrite (little_dec _ _ He).
Qed.
Lemma new_dec_is l a c e : is_new l a c e -> new_dec l = Some (NewNode a c e).
Proof.
  intros (cc & ee & -> & La & _ & Hc & Le & He). unfold new_dec.
  rewrite read_app by exact La. cbn [mbind option_bind].
  rewrite (vec_dec_is cc c _ Hc). cbn [mbind option_bind].
  rewrite <- (app_nil_r ee), read_app by exact Le. cbn. by rewrite (little_dec _ _ He).
Qed.
Lemma new_enc_is a c e : length a = 32%nat -> Forall byte a -> Forall byte c -> N.of_nat (length c) < 2 ^ 32 ->
  e < 2 ^ 32 -> is_new (new_enc (NewNode a c e)) a c e.
Proof.
  intros La Ha Hc Lc He. exists (bytes_enc c), (le_enc 4 e). split; [reflexivity|]. split; [exact La|]. split; [exact Ha|].
  split; [by apply vec_enc_is|]. split; [apply le_enc_length|]. apply little_enc. exact He.
Qed.
(** A record of the new form is never taken for one of the old form. *)
Lemma new_not_old l a c e : is_new l a c e -> old_dec l = None.
Proof.
  intros (cc & ee & -> & La & _ & Hc & Le & He). unfold old_dec.
  rewrite read_app by exact La. cbn [mbind option_bind].
  rewrite (vec_dec_is cc c _ Hc). cbn [mbind option_bind]. unfold bytes_dec.
  destruct (compact_dec ee) as [[n r]|] eqn:E; cbn [mbind option_bind]; [|reflexivity].
  apply compact_dec_shrinks in E.
  destruct (read (N.to_nat n) r) as [[v r']|] eqn:E2; cbn [mbind option_bind]; [|reflexivity].
  apply read_some in E2 as [-> _]. unfold read. rewrite app_length in E.
  destruct (Nat.leb_spec 4 (length r')); [lia|reflexivity].
Qed.

Lemma translate_old l a ip c e : is_old l a ip c e -> is_new (translate l) a c e.
Proof.
  intros H. unfold translate. rewrite (old_dec_is _ _ _ _ _ H).
  destruct H as (i & cc & ee & _ & La & Ha & _ & Hc & Le & He). cbn [o_acct o_country o_expire].
  destruct (string_length _ _ Hc) as [Lc Hb].
  apply new_enc_is; try assumption. apply little_bound in He. rewrite Le in He. exact He.
Qed.
Lemma translate_new l a c e : is_new l a c e -> translate l = l.
Proof. intros H. unfold translate. by rewrite (new_not_old _ _ _ _ H). Qed.
