(** Properties of the node migration. *)
From Verif Require Import Base Model_Migration Spec_Migration Proofs_Migration.
From stdpp Require Import gmap.
Open Scope N_scope.

(** C127. The upgrade from storage version 0 turns every device record of the old form into one
    of the new form with the same account, country and expiry; records already of the new form
    stay as they are, bytes that are neither too; no device appears or vanishes. *)
Theorem C127_migrated : forall s, g_version s = 0 ->
  let s' := upgrade s in
  g_version s' = 1 /\
  (forall k, is_Some (g_devices s' !! k) <-> is_Some (g_devices s !! k)) /\
  (forall k v a ip c e, g_devices s !! k = Some v -> is_old v a ip c e ->
     (exists v', g_devices s' !! k = Some v' /\ is_new v' a c e) /\ device s' k = NewNode a c e) /\
  (forall k v a c e, g_devices s !! k = Some v -> is_new v a c e ->
     g_devices s' !! k = Some v /\ device s' k = NewNode a c e).
Proof.
  intros s Hv s'. unfold s', upgrade. rewrite Hv. cbn [N.eqb andb].
  change (current_version =? 1) with true. cbn [andb g_version g_devices].
  split; [reflexivity|]. split; [|split].
  - intros k. rewrite lookup_fmap. by rewrite fmap_is_Some.
  - intros k v a ip c e E H. apply translate_old in H. unfold device. cbn [g_devices].
    rewrite lookup_fmap, E. cbn. split; [eauto|]. by rewrite (new_dec_is _ _ _ _ H).
  - intros k v a c e E H. unfold device. cbn [g_devices].
    rewrite lookup_fmap, E. cbn. rewrite (translate_new _ _ _ _ H). by rewrite (new_dec_is _ _ _ _ H).
Qed.
(** Later upgrades change nothing. *)
Theorem C127_once : forall s, (g_version s <> 0 -> upgrade s = s) /\ upgrade (upgrade s) = upgrade s.
Proof.
  intros s. unfold upgrade. destruct (N.eqb_spec (g_version s) 0) as [E|E]; cbn [andb].
  - change (current_version =? 1) with true. cbn. split; [contradiction|reflexivity].
  - split; [reflexivity|]. by rewrite (proj2 (N.eqb_neq _ _) E).
Qed.
(** A device with IP 1.2.3.4 as text, in "US", with expiry 70000, and one of a long IP field. *)
Definition xacct : list N := List.repeat 7 32.
Definition xold : list N := xacct ++ [28; 49; 46; 50; 46; 51; 46; 52] ++ [8; 85; 83] ++ [112; 17; 1; 0].
Definition xlong : list N := xacct ++ ([145; 1] ++ List.repeat 49 100) ++ [8; 85; 83] ++ [112; 17; 1; 0].
Definition xnew : list N := xacct ++ [8; 85; 83] ++ [112; 17; 1; 0].
Lemma xacct_bytes : Forall byte xacct.
Proof. repeat constructor. Qed.
Example C127_example :
  is_old xold xacct [49; 46; 50; 46; 51; 46; 52] [85; 83] 70000 /\
  is_old xlong xacct (List.repeat 49 100) [85; 83] 70000 /\
  is_new xnew xacct [85; 83] 70000 /\
  (let s := GState 0 {[1 := xold; 2 := xlong; 3 := xnew; 4 := [1; 2; 3]]} in
   let s' := upgrade s in
   g_devices s' !! 1 = Some xnew /\ g_devices s' !! 2 = Some xnew /\ g_devices s' !! 3 = Some xnew /\
   g_devices s' !! 4 = Some [1; 2; 3] /\ w_expire (device s 1) <> 70000 /\ w_expire (device s' 1) = 70000).
Proof.
  assert (C : is_string [8; 85; 83] [85; 83]).
  { exists [8]. split; [reflexivity|]. split; [|repeat constructor].
    left. split; [reflexivity|]. split; [reflexivity|]. split; [reflexivity|]. exists 0. split; reflexivity. }
  assert (E : little [112; 17; 1; 0] 70000).
  { split; [reflexivity|]. exists 273. split; [reflexivity|]. split; [reflexivity|]. exists 1. split; [reflexivity|].
    split; [reflexivity|]. exists 0. split; [reflexivity|]. split; [reflexivity|]. exists 0. split; reflexivity. }
  split; [|split; [|split]].
  - exists [28; 49; 46; 50; 46; 51; 46; 52], [8; 85; 83], [112; 17; 1; 0].
    split; [reflexivity|]. split; [reflexivity|]. split; [exact xacct_bytes|]. split; [|split; [exact C|split; [reflexivity|exact E]]].
    exists [28]. split; [reflexivity|]. split; [|repeat constructor].
    left. split; [reflexivity|]. split; [reflexivity|]. split; [reflexivity|]. exists 0. split; reflexivity.
  - exists ([145; 1] ++ List.repeat 49 100), [8; 85; 83], [112; 17; 1; 0].
    split; [reflexivity|]. split; [reflexivity|]. split; [exact xacct_bytes|]. split; [|split; [exact C|split; [reflexivity|exact E]]].
    exists [145; 1]. split; [reflexivity|]. split; [|repeat constructor].
    right; left. split; [reflexivity|]. split; [split; [discriminate|reflexivity]|]. split; [reflexivity|].
    exists 1. split; [reflexivity|]. split; [reflexivity|]. exists 0. split; reflexivity.
  - exists [8; 85; 83], [112; 17; 1; 0].
    split; [reflexivity|]. split; [reflexivity|]. split; [exact xacct_bytes|]. split; [exact C|split; [reflexivity|exact E]].
  - vm_compute. repeat split; discriminate.
Qed.
Print Assumptions C127_migrated.
Print Assumptions C127_once.
