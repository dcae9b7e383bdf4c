(** Proofs about what referers are paid. *)
From Verif Require Import Base Balances Model_StakingLedger Model_Operation Model_Staking Spec_Staking Proofs_Arith Spec_Referral.
From stdpp Require Import gmap.
From Coq Require Import Lia ZifyBool.
Open Scope N_scope.

Section referral.
  Context (cfg : kcfg).
  Local Notation ed := (kc_ed cfg).

  Lemma rate_share n : bonus_rate n = if n =? 0 then None else Some (share n * 1000000).
  Proof. unfold bonus_rate, share. repeat (match goal with |- context [if ?b then _ else _] => destruct b end); reflexivity. Qed.
  Lemma share_le n : share n <= 120.
  Proof. unfold share. repeat (match goal with |- context [if ?b then _ else _] => destruct b end); lia. Qed.

  Lemma share_near n v : near (share n) v (frac_mul (share n * 1000000) PERBILL v).
  Proof.
    destruct (frac_mul_nearest (share n * 1000000) PERBILL v) as [A B]; [discriminate|].
    unfold near. change PERBILL with (1000 * 1000000) in *. generalize dependent (frac_mul (share n * 1000000) (1000 * 1000000) v).
    generalize (share n). intros k g A B. split; nia.
  Qed.
  Lemma share_small n v : frac_mul (share n * 1000000) PERBILL v <= v.
  Proof. apply frac_mul_le; [discriminate|]. pose proof (share_le n). change PERBILL with 1000000000. lia. Qed.

  Lemma at_most_less k v g g' : at_most k v g -> g' <= g -> at_most k v g'.
  Proof. unfold at_most. lia. Qed.

  (** What minting does to balances that are not dust. *)
  Lemma mint_le b w v : (mint ed b w v).2 <= v.
  Proof. unfold mint. destruct (v =? 0) eqn:E; [cbn; lia|]. cbv zeta. destruct (_ && _); [cbn; lia|]. destruct (_ <=? _); cbn; lia. Qed.
  Lemma acct_here m l a v : acct_of (Bank (<[a := v]> m) l) a = v.
  Proof. unfold acct_of. cbn [accts]. now rewrite lookup_insert. Qed.
  Lemma mint_keeps b w v a : ed <= free (acct_of b a) -> free (acct_of b a) <= free (acct_of (mint ed b w v).1 a).
  Proof.
    intros H. unfold mint. destruct (v =? 0) eqn:E; [cbn; lia|]. cbv zeta. destruct (is_new _ && _); [cbn; lia|].
    destruct (two128 <=? _); [cbn; lia|]. cbn [fst]. unfold put. cbn [free rsv].
    destruct (decide (w = a)) as [->|Hn].
    - destruct (_ && _) eqn:Ep; [lia|]. rewrite acct_here. cbn [free]. lia.
    - destruct (_ && _); unfold acct_of; cbn [accts]; [rewrite lookup_delete_ne by exact Hn|rewrite lookup_insert_ne by exact Hn]; lia.
  Qed.
  Lemma mint_all b a v : ed <= free (acct_of b a) -> free (acct_of b a) + v < two128 ->
    (mint ed b a v).2 = v /\ free (acct_of (mint ed b a v).1 a) = free (acct_of b a) + v.
  Proof.
    intros H L. unfold mint. destruct (v =? 0) eqn:E; [cbn; lia|]. cbv zeta.
    destruct (is_new (acct_of b a) && (v <? ed)) eqn:En.
    { exfalso. unfold is_new in En. lia. }
    destruct (two128 <=? _) eqn:Et; [lia|]. cbn [fst snd]. unfold put. cbn [free rsv].
    destruct ((free (acct_of b a) + v <? ed) && (rsv (acct_of b a) =? 0)) eqn:Ep; [lia|]. rewrite acct_here. now cbn [free].
  Qed.

  (** What stays the same during a round. *)
  Definition alike (s t : kstate) : Prop :=
    d_ref (k_del t) = d_ref (k_del s) /\ d_refc (k_del t) = d_refc (k_del s) /\ d_black (k_del t) = d_black (k_del s) /\
    forall a, ed <= coins s a -> coins s a <= coins t a.
  Lemma alike_refl s : alike s s.
  Proof. repeat split. intros. lia. Qed.
  Lemma alike_trans s t u : alike s t -> alike t u -> alike s u.
  Proof.
    intros (A1 & A2 & A3 & A4) (B1 & B2 & B3 & B4). repeat split; try congruence.
    intros a H. specialize (A4 a H). assert (ed <= coins t a) as H2 by lia. specialize (B4 a H2). lia.
  Qed.
  Lemma alike_bank s b w v : b = (mint ed (k_bank s) w v).1 -> alike s (set_k_bank s b).
  Proof. intros ->. repeat split. intros a H. unfold coins in *. cbn [k_bank set_k_bank]. now apply mint_keeps. Qed.

  (** One delegator and its referer. *)
  Lemma delegator_part x s d r pool s1 paid ev :
    pay_delegator cfg x s d r pool = (s1, paid, ev) ->
    alike s s1 /\ paid <= pool /\
    ((paid = 0 /\ ev = []) \/
     exists f t, (ev = [KAsk d f t] \/ exists g, ev = [KAsk d f t; KMint MDelegator d g]) /\
       paid <= earned x s d f t /\ (paid < pool -> paid = earned x s d f t)).
  Proof.
    unfold pay_delegator. cbv zeta. set (era := kx_era x). set (since := default era (dr_since r)).
    destruct (since =? era); [intros [= <- <- <-]; split; [apply alike_refl|]; split; [lia|]; now left|].
    set (to := sub32 era 1). destruct (kx_reward x d since to) as [poc|] eqn:Er.
    - set (rw := if era <=? _ then 0 else _). destruct (mint ed (k_bank s) d rw) as [b got] eqn:Em.
      intros [= <- <- <-]. split; [|split].
      + eapply alike_trans; [apply (alike_bank _ b d rw); now rewrite Em|].
        destruct (dr_on r); repeat split; intros; unfold coins; cbn; lia.
      + subst rw. destruct (_ <=? _); lia.
      + right. exists since, to. split; [right; eauto|]. unfold earned. fold era. rewrite Er. cbn [default from_option id].
        subst rw. destruct (era <=? _); [lia|]. cbn. lia.
    - intros [= <- <- <-]. split; [|split; [lia|]].
      + destruct (dr_on r); repeat split; intros; unfold coins; cbn; lia.
      + right. exists since, to. split; [now left|]. unfold earned. rewrite Er. cbn. destruct (_ <=? _); lia.
  Qed.

  Lemma referer_part s0 s d v pool s1 paid ev :
    (forall a, default 0 (d_refc (k_del s0) !! a) = N.of_nat (size (referees s0 a))) -> alike s0 s ->
    pay_referer cfg s d v pool = (s1, paid, ev) ->
    alike s s1 /\ paid <= pool /\
    ((ev = [] /\ referer s0 d = None) \/
     exists a got, ev = [KMint MReferer a got] /\ referer s0 d = Some a /\
       let k := share (N.of_nat (size (referees s0 a))) in
       at_most k v got /\
       (paid < pool -> ed <= coins s a -> coins s1 a + v < 2 ^ 128 -> near k v got)).
  Proof.
    intros Hc (A1 & A2 & _ & _). unfold pay_referer, referer. rewrite A1, A2. destruct (d_ref (k_del s0) !! d) as [a|] eqn:Ed.
    - rewrite Hc. set (n := N.of_nat (size (referees s0 a))). rewrite rate_share.
      assert (n <> 0) as Hn.
      { subst n. assert (d ∈ referees s0 a) as Hin.
        { unfold referees. apply elem_of_dom. exists a. now apply map_filter_lookup_Some. }
        assert (size (referees s0 a) <> O); [|lia]. intros Hz. apply size_empty_inv in Hz. set_solver. }
      destruct (N.eqb_spec n 0) as [|_]; [contradiction|].
      set (q := frac_mul _ _ v). destruct (mint ed (k_bank s) a (N.min pool q)) as [b got] eqn:Em.
      intros [= <- <- <-]. split; [apply (alike_bank _ b a (N.min pool q)); now rewrite Em|]. split; [lia|].
      right. exists a, got. split; [reflexivity|]. split; [reflexivity|]. cbv zeta.
      pose proof (share_near n v) as Nr. pose proof (share_small n v) as Sm. fold q in Nr, Sm.
      pose proof (mint_le (k_bank s) a (N.min pool q)) as Ml. rewrite Em in Ml. cbn [snd] in Ml.
      split.
      + apply (at_most_less _ _ q); [exact (proj2 Nr)|lia].
      + intros Hp He Hl. destruct (mint_all (k_bank s) a (N.min pool q)) as [M1 _].
        { exact He. }
        { pose proof (mint_keeps (k_bank s) a (N.min pool q) a He) as Mk. rewrite Em in Mk.
          unfold coins in Hl. cbn [k_bank set_k_bank fst] in *. change two128 with (2 ^ 128). lia. }
        rewrite Em in M1. cbn [snd] in M1. rewrite M1. replace (N.min pool q) with q by lia. exact Nr.
    - intros [= <- <- <-]. split; [apply alike_refl|]. split; [lia|]. now left.
  Qed.

  Lemma loop_shared x s0 : (forall a, default 0 (d_refc (k_del s0) !! a) = N.of_nat (size (referees s0 a))) ->
    forall n l s pool last c s' pool' last' c' ev,
    alike s0 s -> pay_loop cfg x n l s pool last c = (s', pool', last', c', ev) ->
    alike s s' /\ pool' <= pool /\
    forall s2, alike s' s2 -> shared ed x s0 s2 (0 < pool') None ev.
  Proof.
    intros Hc. induction n as [|n IH]; intros l s pool last c s' pool' last' c' ev A H.
    { cbn in H. injection H as <- <- <- <- <-. split; [apply alike_refl|]. split; [lia|]. intros s2 _ _. reflexivity. }
    destruct l as [|[d r] l].
    { cbn in H. injection H as <- <- <- <- <-. split; [apply alike_refl|]. split; [lia|]. intros s2 _ _. reflexivity. }
    cbn [pay_loop] in H. destruct (pay_delegator cfg x s d r pool) as [[s1 paid] e1] eqn:E1.
    destruct (delegator_part _ _ _ _ _ _ _ _ E1) as (A1 & P1 & D1).
    assert (En : forall f t, earned x s d f t = earned x s0 d f t).
    { intros f t. unfold earned. destruct A as (_ & _ & -> & _). reflexivity. }
    unfold ssub in H. cbv zeta in H.
    destruct (pool - paid =? 0) eqn:Z1.
    { injection H as <- <- <- <- <-. split; [exact A1|]. split; [lia|]. intros s2 A2.
      assert (pool - paid = 0) as -> by lia.
      destruct D1 as [[_ ->]|(f & t & [->|[g ->]] & _)]; cbn [shared].
      - intros Hf. lia.
      - split; [reflexivity|]. intros Hf. lia.
      - split; [reflexivity|]. intros Hf. lia. }
    destruct (pay_referer cfg s1 d paid (pool - paid)) as [[s2 paid2] e2] eqn:E2.
    pose proof (alike_trans _ _ _ A A1) as A01.
    destruct (referer_part s0 _ _ _ _ _ _ _ Hc A01 E2) as (A2 & P2 & D2).
    (* the events of this delegator, whatever follows *)
    assert (Head : forall s3 (full : Prop) rest, alike s2 s3 -> (full -> paid2 < pool - paid) -> shared ed x s0 s3 full None rest ->
      shared ed x s0 s3 full None (e1 ++ e2 ++ rest)).
    { intros s3 full rest A3 Hf Hr.
      assert (Hshare : forall f t a got, paid <= earned x s d f t -> (paid < pool -> paid = earned x s d f t) ->
        (at_most (share (N.of_nat (size (referees s0 a)))) paid got /\
         (paid2 < pool - paid -> ed <= coins s1 a -> coins s2 a + paid < 2 ^ 128 -> near (share (N.of_nat (size (referees s0 a)))) paid got)) ->
        at_most (share (N.of_nat (size (referees s0 a)))) (earned x s0 d f t) got /\
        (full -> ed <= coins s0 a -> coins s3 a + earned x s0 d f t < 2 ^ 128 ->
         near (share (N.of_nat (size (referees s0 a)))) (earned x s0 d f t) got)).
      { intros f t a got L1 L2 [B1 B2]. rewrite <- (En f t). split.
        - unfold at_most in *. pose proof (share_le (N.of_nat (size (referees s0 a)))). nia.
        - intros F1 F2 F3. specialize (L2 ltac:(lia)). rewrite <- L2 in *. apply B2; [now apply Hf| |].
          + destruct A01 as (_ & _ & _ & K). specialize (K a F2). lia.
          + destruct A01 as (_ & _ & _ & K1). specialize (K1 a F2).
            destruct A2 as (_ & _ & _ & K2). assert (ed <= coins s1 a) as G1 by lia. specialize (K2 a G1).
            destruct A3 as (_ & _ & _ & K3). assert (ed <= coins s2 a) as G2 by lia. specialize (K3 a G2). lia. }
      destruct D1 as [[Hz ->]|(f & t & D1 & L1 & L2)].
      - cbn [app]. destruct D2 as [[-> _]|(a & got & -> & _ & B1 & _)]; [exact Hr|]. cbn [app shared]. split; [|exact Hr].
        subst paid. unfold at_most in B1. lia.
      - assert (Hw : shared ed x s0 s3 full (waiting s0 d f t) (e2 ++ rest)).
        { unfold waiting. destruct D2 as [[-> Hn]|(a & got & -> & Hs & B)].
          - rewrite Hn. exact Hr.
          - rewrite Hs. cbn [app shared]. split; [|exact Hr]. split; [reflexivity|]. exact (Hshare f t a got L1 L2 B). }
        destruct D1 as [->|[g ->]]; cbn [app shared]; split; auto. }
    destruct (pool - paid - paid2 =? 0) eqn:Z2.
    { injection H as <- <- <- <- <-. split; [exact (alike_trans _ _ _ A1 A2)|]. split; [lia|]. intros s3 A3.
      assert (pool - paid - paid2 = 0) as -> by lia.
      rewrite <- (app_nil_r e2). apply Head; [exact A3|lia|]. intros _. reflexivity. }
    destruct (pay_loop cfg x n l s2 _ _ _) as [[[[s3 pool3] last3] c3] e3] eqn:E3.
    injection H as <- <- <- <- <-.
    destruct (IH _ _ _ _ _ _ _ _ _ _ (alike_trans _ _ _ A01 A2) E3) as (A3 & P3 & R3).
    split; [exact (alike_trans _ _ _ (alike_trans _ _ _ A1 A2) A3)|]. split; [lia|]. intros s4 A4.
    apply Head; [exact (alike_trans _ _ _ A3 A4)|lia|exact (R3 s4 A4)].
  Qed.

  Lemma init_shared x s s' ev :
    (forall a, default 0 (d_refc (k_del s) !! a) = N.of_nat (size (referees s a))) ->
    kstep cfg s (KInit x) = (s', KDone ev) -> shared ed x s s' (0 < pool_of cfg (k_del s')) None ev.
  Proof.
    intros Hc H. cbn [kstep] in H. unfold settle, on_initialize in H.
    destruct (0 <? cur_era s); [|injection H as <- <-; intros _; reflexivity].
    destruct (kx_block x mod kc_bpe cfg =? 0).
    { cbv zeta in H. destruct (_ =? 0); [discriminate|]. injection H as <- <-. intros _; reflexivity. }
    unfold pay_delegators in H. cbv zeta in H. destruct (pool_of cfg (k_del s) =? 0).
    { injection H as <- <-. intros _; reflexivity. }
    destruct (pay_loop _ _ _ _ _ _ _ _) as [[[[s1 pool1] last] c] e] eqn:E. injection H as <- <-.
    destruct (loop_shared x s Hc _ _ _ _ _ _ _ _ _ _ _ (alike_refl s) E) as (A & P & R).
    assert (pool_of cfg (k_del (set_k_del s1 (set_d_pool (if c =? d_per (k_del s) then set_d_cursor (k_del s1) last else k_del s1) (Some pool1)))) = pool1) as ->.
    { destruct (_ =? _); reflexivity. }
    apply R. destruct (_ =? _); (repeat split; [reflexivity..|]); intros a H; unfold coins; cbn; lia.
  Qed.

  (** Who is punished is paid nothing as a delegator. *)
  Lemma loop_banned x s0 : forall n l s pool last c s' pool' last' c' ev d g,
    alike s0 s -> pay_loop cfg x n l s pool last c = (s', pool', last', c', ev) ->
    KMint MDelegator d g ∈ ev -> kx_era x <= default 0 (d_black (k_del s0) !! d) -> g = 0.
  Proof.
    induction n as [|n IH]; intros l s pool last c s' pool' last' c' ev d g A H Hin Hb.
    { cbn in H. injection H as <- <- <- <- <-. now apply elem_of_nil in Hin. }
    destruct l as [|[d1 r] l].
    { cbn in H. injection H as <- <- <- <- <-. now apply elem_of_nil in Hin. }
    cbn [pay_loop] in H. destruct (pay_delegator cfg x s d1 r pool) as [[s1 paid] e1] eqn:E1.
    assert (H1 : KMint MDelegator d g ∈ e1 -> g = 0).
    { clear H Hin. intros Hin. unfold pay_delegator in E1. cbv zeta in E1. destruct (_ =? _); [injection E1 as <- <- <-; now apply elem_of_nil in Hin|].
      destruct (kx_reward x d1 _ _) as [poc|].
      - set (rw := if _ <=? _ then _ else _) in E1. destruct (mint ed (k_bank s) d1 rw) as [b got] eqn:Em. injection E1 as <- <- <-.
        apply elem_of_cons in Hin as [Hin|Hin]; [discriminate|]. apply elem_of_list_singleton in Hin. injection Hin as -> ->.
        destruct A as (_ & _ & A & _). rewrite <- A in Hb. subst rw. apply N.leb_le in Hb. rewrite Hb in Em.
        unfold mint in Em. cbn in Em. now injection Em.
      - injection E1 as <- <- <-. apply elem_of_list_singleton in Hin. discriminate. }
    destruct (delegator_part _ _ _ _ _ _ _ _ E1) as (A1 & _ & _).
    cbv zeta in H. destruct (_ =? 0); [injection H as <- <- <- <- <-; auto|].
    destruct (pay_referer cfg s1 d1 paid _) as [[s2 paid2] e2] eqn:E2.
    assert (A2 : alike s1 s2 /\ KMint MDelegator d g ∉ e2).
    { unfold pay_referer in E2. destruct (_ !! d1); [|injection E2 as <- <- <-; split; [apply alike_refl|apply not_elem_of_nil]].
      destruct (bonus_rate _); [|injection E2 as <- <- <-; split; [apply alike_refl|apply not_elem_of_nil]].
      cbv zeta in E2. match type of E2 with context [mint ed ?b0 ?w0 ?v0] => destruct (mint ed b0 w0 v0) as [b got] eqn:Em end.
      injection E2 as <- <- <-. split; [eapply alike_bank; now rewrite Em|]. intros Hx. apply elem_of_list_singleton in Hx. discriminate. }
    destruct A2 as [A2 N2]. destruct (_ =? 0).
    { injection H as <- <- <- <- <-. apply elem_of_app in Hin as [Hin|Hin]; [auto|now destruct N2]. }
    destruct (pay_loop cfg x n l s2 _ _ _) as [[[[s3 pool3] last3] c3] e3] eqn:E3. injection H as <- <- <- <- <-.
    apply elem_of_app in Hin as [Hin|Hin]; [auto|]. apply elem_of_app in Hin as [Hin|Hin]; [now destruct N2|].
    eapply (IH _ _ _ _ _ _ _ _ _ _ _ _ (alike_trans _ _ _ A (alike_trans _ _ _ A1 A2)) E3 Hin Hb).
  Qed.
  Lemma init_banned x s s' ev d g : kstep cfg s (KInit x) = (s', KDone ev) ->
    KMint MDelegator d g ∈ ev -> kx_era x <= default 0 (d_black (k_del s) !! d) -> g = 0.
  Proof.
    intros H Hin Hb. cbn [kstep] in H. unfold settle, on_initialize in H.
    destruct (0 <? cur_era s); [|injection H as <- <-; now apply elem_of_nil in Hin].
    destruct (kx_block x mod kc_bpe cfg =? 0).
    { cbv zeta in H. destruct (_ =? 0); [discriminate|]. injection H as <- <-. now apply elem_of_nil in Hin. }
    unfold pay_delegators in H. cbv zeta in H. destruct (pool_of cfg (k_del s) =? 0).
    { injection H as <- <-. now apply elem_of_nil in Hin. }
    destruct (pay_loop _ _ _ _ _ _ _ _) as [[[[s1 pool1] last] c] e] eqn:E. injection H as <- <-.
    exact (loop_banned x s _ _ _ _ _ _ _ _ _ _ _ _ _ (alike_refl s) E Hin Hb).
  Qed.
End referral.
