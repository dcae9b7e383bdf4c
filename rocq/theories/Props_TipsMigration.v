(** Properties of the migration of tips. *)
From Verif Require Import Base Model_TipsMigration Spec_Migration Spec_TipsMigration Proofs_TipsMigration.
From stdpp Require Import gmap.
From Coq Require Import Lia.
Open Scope N_scope.

(** C170. The migration turns every tip of the old form into one of the new form: the same
    reason, beneficiary, closing block and votes; a finder keeps the deposit and the fee; a tip
    without finder gets the zero account, no deposit and no fee. No tip appears or vanishes. *)
Theorem C170_migrated : forall m,
  (forall h, is_Some (migrate m !! h) <-> is_Some (m !! h)) /\
  (forall h v reason who finder deposit closes tips,
     m !! h = Some v -> is_old_tip v reason who (Some (finder, deposit)) closes tips ->
     (exists v', migrate m !! h = Some v' /\ is_new_tip v' reason who finder deposit closes tips true []) /\
     tip_at (migrate m) h = Some (NewTip reason who finder deposit closes tips true [])) /\
  (forall h v reason who closes tips,
     m !! h = Some v -> is_old_tip v reason who None closes tips ->
     (exists v', migrate m !! h = Some v' /\ is_new_tip v' reason who (List.repeat 0 32) 0 closes tips false []) /\
     tip_at (migrate m) h = Some (NewTip reason who (List.repeat 0 32) 0 closes tips false [])).
Proof.
  intros m. split; [|split].
  - intros h. unfold migrate. rewrite lookup_fmap. by rewrite fmap_is_Some.
  - intros h v reason who finder deposit closes tips E H. apply translate_old in H. cbn in H.
    unfold tip_at, migrate. rewrite lookup_fmap, E. cbn. split; [eauto|]. by apply new_dec_is.
  - intros h v reason who closes tips E H. apply translate_old in H. cbn in H.
    unfold tip_at, migrate. rewrite lookup_fmap, E. cbn. split; [eauto|]. by apply new_dec_is.
Qed.
Print Assumptions C170_migrated.
(** A tip with a finder that closes at block 70000 and two votes, and one without finder. *)
Definition acc (b : N) : list N := List.repeat b 32.
Definition n16 (b : N) : list N := b :: List.repeat 0 15.
Definition xfound : list N := acc 1 ++ acc 2 ++ (1 :: acc 3 ++ n16 50) ++ [1; 112; 17; 1; 0] ++ (8 :: (acc 4 ++ n16 10) ++ (acc 5 ++ n16 20)).
Definition xplain : list N := acc 1 ++ acc 2 ++ [0] ++ [1; 112; 17; 1; 0] ++ (8 :: (acc 4 ++ n16 10) ++ (acc 5 ++ n16 20)).
Definition xvotes : list (list N * N) := [(acc 4, 10); (acc 5, 20)].
Lemma acc_is b : b < 256 -> is_account (acc b).
Proof. intros H. split; [reflexivity|]. repeat constructor; exact H. Qed.
Lemma n16_is b : b < 256 -> is_int 16 (n16 b) b.
Proof.
  intros H. split; [reflexivity|]. cbn. split; [exact H|]. exists 0. split; [lia|].
  repeat (split; [reflexivity|exists 0; split; [reflexivity|]]). reflexivity.
Qed.
Lemma xvotes_is : is_list 16 (8 :: (acc 4 ++ n16 10) ++ (acc 5 ++ n16 20)) xvotes.
Proof.
  exists [8], [acc 4 ++ n16 10; acc 5 ++ n16 20]. split; [reflexivity|]. split.
  - left. split; [reflexivity|]. split; [reflexivity|]. split; [reflexivity|]. exists 0. split; reflexivity.
  - repeat constructor; [exists (n16 10)|exists (n16 20)]; (split; [reflexivity|]; split; [by apply acc_is|by apply n16_is]).
Qed.
Lemma xcloses_is : is_option (is_int 4) [1; 112; 17; 1; 0] (Some 70000).
Proof.
  exists [112; 17; 1; 0]. split; [reflexivity|]. split; [reflexivity|].
  split; [reflexivity|]. exists 273. split; [reflexivity|]. split; [reflexivity|]. exists 1. split; [reflexivity|].
  split; [reflexivity|]. exists 0. split; [reflexivity|]. split; [reflexivity|]. exists 0. split; reflexivity.
Qed.
Example C170_example :
  is_old_tip xfound (acc 1) (acc 2) (Some (acc 3, 50)) (Some 70000) xvotes /\
  is_old_tip xplain (acc 1) (acc 2) None (Some 70000) xvotes /\
  (let m : gmap N (list N) := {[1 := xfound; 2 := xplain; 3 := [9; 9]]} in
   tip_at (migrate m) 1 = Some (NewTip (acc 1) (acc 2) (acc 3) 50 (Some 70000) xvotes true []) /\
   tip_at (migrate m) 2 = Some (NewTip (acc 1) (acc 2) (acc 0) 0 (Some 70000) xvotes false []) /\
   migrate m !! 3 = Some [9; 9] /\ tip_at m 1 <> tip_at (migrate m) 1).
Proof.
  split; [|split].
  - exists (1 :: acc 3 ++ n16 50), [1; 112; 17; 1; 0], (8 :: (acc 4 ++ n16 10) ++ (acc 5 ++ n16 20)).
    split; [reflexivity|]. split; [by apply acc_is|]. split; [by apply acc_is|]. split; [|split; [exact xcloses_is|exact xvotes_is]].
    exists (acc 3 ++ n16 50). split; [reflexivity|]. exists (n16 50). split; [reflexivity|]. split; [by apply acc_is|by apply n16_is].
  - exists [0], [1; 112; 17; 1; 0], (8 :: (acc 4 ++ n16 10) ++ (acc 5 ++ n16 20)).
    split; [reflexivity|]. split; [by apply acc_is|]. split; [by apply acc_is|]. split; [reflexivity|split; [exact xcloses_is|exact xvotes_is]].
  - vm_compute. repeat split. discriminate.
Qed.

(** C171. A tip survives further runs of the migration. False: a tip that the first run gave no
    finder loses its votes and its closing block in the second. *)
Theorem C171_lost : forall m h v reason who closes tips,
  m !! h = Some v -> is_old_tip v reason who None closes tips ->
  tip_at (migrate (migrate m)) h = Some (NewTip reason who (List.repeat 0 32) 0 None [] false []).
Proof.
  intros m h v reason who closes tips E H. apply translate_old in H. cbn in H. apply translate_zero in H.
  unfold tip_at, migrate. rewrite !lookup_fmap, E. cbn. by apply new_dec_is.
Qed.
Print Assumptions C171_lost.
Theorem C171_refuted : exists (m : gmap N (list N)) h t,
  tip_at (migrate m) h = Some t /\ p_tips t = xvotes /\
  exists t', tip_at (migrate (migrate m)) h = Some t' /\ p_tips t' = [] /\ p_closes t' = None.
Proof.
  exists {[2 := xplain]}, 2, (NewTip (acc 1) (acc 2) (acc 0) 0 (Some 70000) xvotes false []).
  split; [vm_compute; reflexivity|]. split; [reflexivity|]. eexists. split; [vm_compute; reflexivity|]. split; reflexivity.
Qed.
Print Assumptions C171_refuted.
(** What holds: a tip whose finder's account does not start with the byte 0 or 1 is left alone
    by any number of runs. *)
Theorem C171_partial : forall m h v reason who first rest deposit closes tips fee credits,
  m !! h = Some v -> is_new_tip v reason who (first :: rest) deposit closes tips fee credits -> 1 < first ->
  forall n, Nat.iter n migrate m !! h = Some v /\
    tip_at (Nat.iter n migrate m) h = Some (NewTip reason who (first :: rest) deposit closes tips fee credits).
Proof.
  intros m h v reason who first rest deposit closes tips fee credits E H F n.
  assert (L : Nat.iter n migrate m !! h = Some v).
  { induction n as [|n IH]; [exact E|]. change (Nat.iter (S n) migrate m) with (translate <$> Nat.iter n migrate m). rewrite lookup_fmap, IH. cbn. f_equal. by eapply translate_other. }
  split; [exact L|]. unfold tip_at. rewrite L. cbn. by apply new_dec_is.
Qed.
Print Assumptions C171_partial.
Example C171_example :
  let m : gmap N (list N) := migrate {[1 := xfound]} in
  (exists v, m !! 1 = Some v /\ is_new_tip v (acc 1) (acc 2) (3 :: List.repeat 3 31) 50 (Some 70000) xvotes true []) /\
  tip_at (Nat.iter 3 migrate m) 1 = Some (NewTip (acc 1) (acc 2) (acc 3) 50 (Some 70000) xvotes true []).
Proof.
  split; [|vm_compute; reflexivity].
  destruct (C170_migrated {[1 := xfound]}) as (_ & P & _).
  destruct (P 1 xfound (acc 1) (acc 2) (acc 3) 50 (Some 70000) xvotes (lookup_singleton _ _) (proj1 C170_example)) as [(v' & Ev & Hv) _].
  exists v'. split; [exact Ev|exact Hv].
Qed.
