(** Property C188 (the time a server asks for, pallets/deeper-node). *)
From Verif Require Import Base Balances Model_Regions Model_DeeperNode Spec_DeeperNode Proofs_DeeperNode
  Props_DeeperNode Spec_Lease Proofs_Lease.
From stdpp Require Import gmap strings.
From Coq Require Import Lia.
Open Scope N_scope.

(** C188, what the record says. After any history the last block recorded for a
    device is the one its accepted calls asked for. *)
Theorem C188_record_partial :
  forall cfg b setting h who,
    d_regions cfg = regions -> roomy cfg h ->
    n_expire <$> d_dev (drun cfg (dinit b setting) h) !! who =
    terms_after cfg (dinit b setting) ∅ ∅ h !! who.
Proof.
  intros cfg b setting h who E R.
  exact (run_terms cfg (table_levels cfg E) h _ _ _ (init_reg cfg b setting) (init_term b setting) R who).
Qed.

(** C188, nobody asks for too much. The last block recorded is at most the
    longest time a device may ask for after the last block of the history. *)
Theorem C188_limit_partial :
  forall cfg b setting h who n now,
    d_regions cfg = regions -> roomy cfg h ->
    (forall o, In o h -> x_now o.1.1 <= now) ->
    d_dev (drun cfg (dinit b setting) h) !! who = Some n ->
    n_expire n <= now + d_maxeras cfg * d_bpe cfg.
Proof.
  intros cfg b setting h who n now E R B Hn.
  pose proof (C188_record_partial cfg b setting h who E R) as T. rewrite Hn in T. cbn in T.
  symmetry in T. revert T. apply terms_bound.
  - intros w e H. rewrite lookup_empty in H. discriminate.
  - intros o Ho. apply B in Ho. lia.
Qed.

(** Account 2 asks for 2 eras of 10 blocks at block 6, offers again at block 7
    and asks for 5 eras from block 8; account 1 asks for 3 eras and withdraws. *)
Definition xlease : list dop :=
  [ (xd 5, Signed 2, DRegister "US"); (xd 6, Signed 2, DRegisterServer 2);
    (xd 7, Signed 2, DRegisterServer 7); (xd 7, Signed 1, DRegister "FR");
    (xd 8, Signed 2, DUpdateServer 5); (xd 8, Signed 1, DRegisterServer 3);
    (xd 9, Signed 1, DUnregisterServer); (xd 9, Signed 2, DUpdateServer 8) ]%string.
Example C188_partial_nonvacuous :
  roomy xdcfg xlease /\
  n_expire <$> d_dev (drun xdcfg (dinit xdbank []) (take 3 xlease)) !! 2 = Some 26 /\
  n_expire <$> d_dev (drun xdcfg (dinit xdbank []) (take 6 xlease)) !! 1 = Some 38 /\
  n_expire <$> d_dev (drun xdcfg (dinit xdbank []) xlease) !! 2 = Some 58 /\
  n_expire <$> d_dev (drun xdcfg (dinit xdbank []) xlease) !! 1 = Some 9 /\
  terms_after xdcfg (dinit xdbank []) ∅ ∅ xlease !! 2 = Some 58 /\
  terms_after xdcfg (dinit xdbank []) ∅ ∅ xlease !! 1 = Some 9 /\
  terms_after xdcfg (dinit xdbank []) ∅ ∅ xlease !! 3 = None.
Proof.
  split.
  { intros o Ho. repeat (destruct Ho as [<-|Ho]; [vm_compute; reflexivity|]). destruct Ho. }
  vm_compute. repeat split.
Qed.
Print Assumptions C188_record_partial.
Print Assumptions C188_limit_partial.

(** C188, the time never runs out. A server that makes no further call stays
    listed, whatever the others do and however many blocks pass. *)
Theorem C188_never_ends_refuted :
  forall cfg b setting h h' who,
    d_regions cfg = regions ->
    listed (drun cfg (dinit b setting) h) who ->
    (forall o, In o h' -> ~ sent_by who o) ->
    listed (drun cfg (dinit b setting) (h ++ h')) who.
Proof.
  intros cfg b setting h h' who E [k L] H. exists k.
  destruct (C11_server_lists cfg b setting h who k E) as [A _].
  destruct (C11_server_lists cfg b setting (h ++ h') who k E) as [B _].
  apply B. apply A in L. unfold serves in *. rewrite registry_app, registry_others by exact H. exact L.
Qed.
Print Assumptions C188_never_ends_refuted.

(** C188 as stated: at block [now] a device is listed exactly if it asked for a
    time that has not passed. False both ways: account 2 asked for block 26 and is
    listed at block 1000; account 1 asked for block 38 by an update, without being
    a server, and is not listed at block 9. *)
Definition xlate : list dop :=
  [ (xd 7, Signed 1, DRegister "FR"); (xd 8, Signed 1, DUpdateServer 3);
    (xd 9, Signed 2, DImOnline) ]%string.
Lemma xlate_reg : registry_after xdcfg (dinit xdbank []) ∅ xlate !! 1 = Some ("FR"%string, false).
Proof. vm_compute. reflexivity. Qed.
Theorem C188_refuted :
  exists cfg b h h2 who who2,
    d_regions cfg = regions /\ roomy cfg h /\ roomy cfg h2 /\
    (listed (drun cfg (dinit b []) h) who /\
     exists e, terms_after cfg (dinit b []) ∅ ∅ h !! who = Some e /\
       exists o, last h = Some o /\ e < x_now o.1.1) /\
    (~ listed (drun cfg (dinit b []) h2) who2 /\
     exists e, terms_after cfg (dinit b []) ∅ ∅ h2 !! who2 = Some e /\
       exists o, last h2 = Some o /\ x_now o.1.1 < e).
Proof.
  exists xdcfg, xdbank,
    [ (xd 5, Signed 2, DRegister "US"); (xd 6, Signed 2, DRegisterServer 2);
      (xd 1000, Signed 1, DImOnline) ]%string,
    xlate, 2, 1.
  split; [reflexivity|].
  split; [intros o Ho; repeat (destruct Ho as [<-|Ho]; [vm_compute; reflexivity|]); destruct Ho|].
  split; [intros o Ho; repeat (destruct Ho as [<-|Ho]; [vm_compute; reflexivity|]); destruct Ho|].
  split; split.
  - exists "US"%string. apply (bool_decide_unpack _). vm_compute. exact Logic.I.
  - exists 26. split; [vm_compute; reflexivity|]. eexists. split; [reflexivity|]. vm_compute. reflexivity.
  - intros [k L]. destruct (C11_server_lists xdcfg xdbank [] xlate 1 k eq_refl) as [A _]. apply A in L.
    unfold serves in L. pose proof (eq_trans (eq_sym L) xlate_reg) as B. discriminate B.
  - exists 38. split; [vm_compute; reflexivity|]. eexists. split; [reflexivity|]. vm_compute. reflexivity.
Qed.
Print Assumptions C188_refuted.

(** C188, an offer that changes nothing. The offer of a device that serves
    already is accepted and leaves the chain as it was. *)
Theorem C188_offer_refuted :
  exists cfg b h x,
    let s := drun cfg (dinit b []) h in
    d_regions cfg = regions /\ listed s 2 /\
    dstep cfg s x (Signed 2) (DRegisterServer 7) = (s, ROk []).
Proof.
  exists xdcfg, xdbank, (take 2 xlease), (xd 20). cbv zeta.
  split; [reflexivity|]. split.
  - exists "US"%string. apply (bool_decide_unpack _). vm_compute. exact Logic.I.
  - vm_compute. reflexivity.
Qed.
Print Assumptions C188_offer_refuted.
