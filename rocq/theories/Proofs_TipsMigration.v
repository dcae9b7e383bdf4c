(** Proofs about the migration of tips. *)
From Verif Require Import Base Model_Migration Model_TipsMigration Spec_Migration Spec_TipsMigration Proofs_Migration.
From stdpp Require Import gmap.
From Coq Require Import Lia.
Open Scope N_scope.

Lemma int_dec_is k l x r : is_int k l x -> int_dec k (l ++ r) = Some (x, r).
Proof. intros [L H]. unfold int_dec. rewrite read_app by exact L. cbn. by rewrite (little_dec _ _ H). Qed.
Lemma entry_dec_is k l e r : is_entry k l e -> entry_dec k (l ++ r) = Some (e, r).
Proof.
  intros (v & -> & [La _] & Hv). unfold entry_dec. rewrite <- app_assoc, read_app by exact La. cbn [mbind option_bind].
  rewrite (int_dec_is _ _ _ _ Hv). cbn. by destruct e.
Qed.
Lemma opt_dec_is {A} (P : list N -> A -> Prop) d l o r :
  (forall l x r, P l x -> d (l ++ r) = Some (x, r)) -> is_option P l o -> opt_dec d (l ++ r) = Some (o, r).
Proof.
  intros D H. destruct o as [x|]; cbn in H.
  - destruct H as (l' & -> & H). cbn. by rewrite (D _ _ r H).
  - by subst.
Qed.
Lemma entries_dec_is k ls es r : Forall2 (is_entry k) ls es -> entries_dec k (length es) (concat ls ++ r) = Some (es, r).
Proof.
  induction 1 as [|l e ls es H _ IH]; [reflexivity|]. cbn [concat length entries_dec].
  rewrite <- app_assoc, (entry_dec_is _ _ _ _ H). cbn [mbind option_bind]. by rewrite IH.
Qed.
Lemma items_dec_is k l es r : is_list k l es -> items_dec k (l ++ r) = Some (es, r).
Proof.
  intros (h & ls & -> & Hl & H). unfold items_dec. rewrite <- app_assoc, (compact_dec_is h _ _ Hl). cbn [mbind option_bind].
  rewrite Nat2N.id. by apply entries_dec_is.
Qed.
Lemma items_dec_end k l es : is_list k l es -> items_dec k l = Some (es, []).
Proof. intros H. rewrite <- (app_nil_r l). by apply items_dec_is. Qed.

Lemma is_int_bound k l x : is_int k l x -> x < 256 ^ N.of_nat k.
Proof. intros [L H]. rewrite <- L. by apply little_bound. Qed.
Lemma int_enc_is k x : x < 256 ^ N.of_nat k -> is_int k (le_enc k x) x.
Proof. intros H. split; [apply le_enc_length|]. by apply little_enc. Qed.
Lemma is_length_bound h n : is_length h n -> n < 2 ^ 32.
Proof. intros [(_ & B & _)|[(_ & B & _)|[(_ & B & _)|(_ & _ & _ & B & _)]]]; lia. Qed.
Lemma items_enc_is k l es : is_list k l es -> is_list k (items_enc k es) es.
Proof.
  intros (h & ls & _ & Hl & H). exists (compact_enc (N.of_nat (length es))), (map (fun e => e.1 ++ le_enc k e.2) es).
  split; [reflexivity|]. split; [apply compact_enc_is; by eapply is_length_bound|].
  clear Hl. induction H as [|l' e ls' es' He _ IH]; cbn [map]; constructor; [|exact IH].
  destruct He as (v & _ & Ha & Hv). exists (le_enc k e.2). split; [reflexivity|]. split; [exact Ha|].
  apply int_enc_is. by eapply is_int_bound.
Qed.
Lemma items_enc_nil k : is_list k (items_enc k []) [].
Proof. exists [0], []. split; [reflexivity|]. split; [|constructor]. left. split; [reflexivity|]. split; [reflexivity|]. cbn. split; [reflexivity|]. exists 0. split; reflexivity. Qed.
Lemma opt_enc_is l o : is_option (is_int 4) l o -> is_option (is_int 4) (opt_enc o) o.
Proof.
  destruct o as [x|]; cbn; [|reflexivity]. intros (r & _ & H). exists (le_enc 4 x). split; [reflexivity|].
  apply int_enc_is. by eapply is_int_bound.
Qed.

Lemma old_dec_is l reason who finder closes tips :
  is_old_tip l reason who finder closes tips -> old_dec l = Some (OldTip reason who finder closes tips).
Proof.
  intros (f & c & t & -> & [Lr _] & [Lw _] & Hf & Hc & Ht). unfold old_dec.
  rewrite read_app by exact Lr. cbn [mbind option_bind]. rewrite read_app by exact Lw. cbn [mbind option_bind].
  rewrite (opt_dec_is (is_entry 16) _ f finder _ (fun l x r H => entry_dec_is 16 l x r H) Hf). cbn [mbind option_bind].
  rewrite (opt_dec_is (is_int 4) _ c closes _ (fun l x r H => int_dec_is 4 l x r H) Hc). cbn [mbind option_bind].
  by rewrite (items_dec_end _ _ _ Ht).
Qed.
Lemma new_dec_is l reason who finder deposit closes tips fee credits :
  is_new_tip l reason who finder deposit closes tips fee credits ->
  new_dec l = Some (NewTip reason who finder deposit closes tips fee credits).
Proof.
  intros (d & c & t & b & k & -> & [Lr _] & [Lw _] & [Lf _] & Hd & Hc & Ht & Hb & Hk). unfold new_dec.
  rewrite read_app by exact Lr. cbn [mbind option_bind]. rewrite read_app by exact Lw. cbn [mbind option_bind].
  rewrite read_app by exact Lf. cbn [mbind option_bind].
  rewrite (int_dec_is _ _ _ _ Hd). cbn [mbind option_bind].
  rewrite (opt_dec_is (is_int 4) _ c closes _ (fun l x r H => int_dec_is 4 l x r H) Hc). cbn [mbind option_bind].
  rewrite (items_dec_is _ _ _ _ Ht). cbn [mbind option_bind]. unfold is_bool in Hb. subst b.
  destruct fee; cbn [app flag_dec mbind option_bind]; by rewrite (items_dec_end _ _ _ Hk).
Qed.
Lemma zero_is : is_account zero_account.
Proof. split; [reflexivity|]. repeat constructor. Qed.
Lemma translate_old l reason who finder closes tips : is_old_tip l reason who finder closes tips ->
  is_new_tip (translate l) reason who (default zero_account (fst <$> finder)) (default 0 (snd <$> finder))
    closes tips (bool_decide (is_Some finder)) [].
Proof.
  intros H. unfold translate. rewrite (old_dec_is _ _ _ _ _ _ H).
  destruct H as (f & c & t & _ & Hr & Hw & Hf & Hc & Ht). unfold convert. cbn [q_finder q_reason q_who q_closes q_tips].
  destruct finder as [[a d]|]; cbn [fmap option_fmap option_map default fst snd].
  - destruct Hf as (r & _ & v & _ & Ha & Hv). cbn [fst snd] in Ha, Hv.
    exists (le_enc 16 d), (opt_enc closes), (items_enc 16 tips), [1], (items_enc 8 []).
    split; [reflexivity|]. do 3 (split; [assumption|]). split; [apply int_enc_is; by eapply is_int_bound|].
    split; [by eapply opt_enc_is|]. split; [by eapply items_enc_is|]. split; [reflexivity|]. apply items_enc_nil.
  - exists (le_enc 16 0), (opt_enc closes), (items_enc 16 tips), [0], (items_enc 8 []).
    split; [reflexivity|]. do 2 (split; [assumption|]). split; [exact zero_is|]. split; [apply int_enc_is; reflexivity|].
    split; [by eapply opt_enc_is|]. split; [by eapply items_enc_is|]. split; [reflexivity|]. apply items_enc_nil.
Qed.
(** A tip whose finder is the zero account is taken for one of the old form without votes. *)
Lemma translate_zero l reason who deposit closes tips fee credits :
  is_new_tip l reason who zero_account deposit closes tips fee credits ->
  is_new_tip (translate l) reason who zero_account 0 None [] false [].
Proof.
  intros (d & c & t & b & k & -> & Hr & Hw & _).
  assert (E : old_dec (reason ++ who ++ zero_account ++ d ++ c ++ t ++ b ++ k) = Some (OldTip reason who None None [])).
  { unfold old_dec. rewrite read_app by apply Hr. cbn [mbind option_bind]. rewrite read_app by apply Hw. reflexivity. }
  unfold translate. rewrite E. unfold convert. cbn [q_finder q_reason q_who q_closes q_tips].
  exists (le_enc 16 0), [0], (items_enc 16 []), [0], (items_enc 8 []).
  split; [reflexivity|]. do 2 (split; [assumption|]). split; [exact zero_is|]. split; [apply int_enc_is; reflexivity|].
  split; [reflexivity|]. split; [apply items_enc_nil|]. split; [reflexivity|]. apply items_enc_nil.
Qed.
(** A tip of the new form with another finder is left alone if no option starts with the
    finder's first byte. *)
Lemma translate_other l reason who b0 fr deposit closes tips fee credits :
  is_new_tip l reason who (b0 :: fr) deposit closes tips fee credits -> 1 < b0 -> translate l = l.
Proof.
  intros (d & c & t & b & k & -> & [Lr _] & [Lw _] & _) H. unfold translate, old_dec.
  rewrite read_app by exact Lr. cbn [mbind option_bind]. rewrite read_app by exact Lw. cbn [mbind option_bind].
  destruct b0 as [|[p|p|]]; try lia; reflexivity.
Qed.
