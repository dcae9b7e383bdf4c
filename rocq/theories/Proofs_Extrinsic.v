From Verif Require Import Base Model_Extrinsic Spec_Extrinsic.
From stdpp Require Import gmap.
From Coq Require Import ZifyBool Lia.
Open Scope N_scope.

Lemma raised_app a l1 l2 : raised a (l1 ++ l2) = raised a l1 + raised a l2.
Proof. unfold raised. rewrite List.filter_app, app_length. lia. Qed.
Lemma note_nonce a log : forall m, default 0 (m !! a) < two32 -> ~ In (Killed a) log ->
  default 0 (foldl note m log !! a) = (default 0 (m !! a) + raised a log) mod two32.
Proof.
  induction log as [|e log IH]; intros m L K; cbn [foldl].
  { unfold raised. cbn. rewrite N.add_0_r. now rewrite N.mod_small. }
  assert (K' : ~ In (Killed a) log) by (intros X; apply K; now right).
  assert (Q : default 0 (note m e !! a) = (default 0 (m !! a) + raised a [e]) mod two32).
  { unfold raised. destruct e as [b|b|b]; cbn [note List.filter].
    - rewrite lookup_delete_ne by (intros ->; apply K; now left). cbn. rewrite N.add_0_r. now rewrite N.mod_small.
    - cbn. rewrite N.add_0_r, N.mod_small by exact L. destruct (m !! b) eqn:E; [reflexivity|].
      destruct (decide (b = a)) as [->|Ne]; [rewrite lookup_insert, E; reflexivity|]. now rewrite lookup_insert_ne.
    - destruct (N.eqb_spec b a) as [->|Ne]; [rewrite lookup_insert; reflexivity|].
      rewrite lookup_insert_ne by exact Ne. cbn. rewrite N.add_0_r. now rewrite N.mod_small. }
  rewrite IH; [|rewrite Q; apply N.mod_lt; discriminate|exact K'].
  rewrite Q. change (e :: log) with ([e] ++ log). rewrite raised_app, N.add_mod_idemp_l by discriminate. f_equal. lia.
Qed.

Section proofs.
  Context {State Call Sig : Type} (verify : payload Call -> Sig -> N -> bool)
    (charge : State -> N -> Call -> N -> option State)
    (exec : State -> N -> Call -> State * list ev).
  Notation apply := (Model_Extrinsic.apply verify charge exec).
  Notation run := (Model_Extrinsic.run verify charge exec).
  Notation do_step := (Model_Extrinsic.do_step verify charge exec).
  Implicit Types s : sys State.

  Lemma apply_inv s x s' log : apply s x = Some (s', log) ->
    exists bh st st' evs, hashes s !! birth (x_era x) (number s) = Some bh /\
      verify (Payload (x_call x) (x_era x) (x_nonce x) (x_tip x) (spec s) (txv s) (default 0 (hashes s !! 0)) bh) (x_sig x) (x_who x) = true /\
      x_who x <> 0 /\ default 0 (nonces s !! x_who x) = x_nonce x /\
      charge (state s) (x_who x) (x_call x) (x_tip x) = Some st /\ exec st (x_who x) (x_call x) = (st', evs) /\
      log = Bumped (x_who x) :: evs /\
      s' = Sys (number s) (hashes s) (foldl note (nonces s) log) (spec s) (txv s) st'.
  Proof.
    unfold Model_Extrinsic.apply, payload_of. intros H.
    destruct (hashes s !! birth (x_era x) (number s)) as [bh|]; [|discriminate]. cbn [mbind option_bind] in H.
    destruct (verify _ _ _) eqn:V; [|discriminate]. cbn [negb] in H.
    destruct (x_who x =? 0) eqn:W; [discriminate|].
    destruct (_ =? x_nonce x) eqn:Nn; [|discriminate]. cbn [negb] in H.
    destruct (charge _ _ _ _) as [st|] eqn:C; [|discriminate]. cbn [mbind option_bind] in H.
    destruct (exec _ _ _) as [st' evs] eqn:E. injection H as <- <-. exists bh, st, st', evs. repeat split; auto; lia.
  Qed.
  Lemma step_nonces s t s' log : do_step s t = (s', log) -> nonces s' = foldl note (nonces s) log.
  Proof.
    destruct t as [x|h|sp tv|st evs]; cbn [Model_Extrinsic.do_step].
    - destruct (apply s x) as [[s1 l1]|] eqn:E; cbn; intros [= <- <-]; [|reflexivity].
      apply apply_inv in E as (? & ? & ? & ? & _ & _ & _ & _ & _ & _ & _ & ->). reflexivity.
    - now intros [= <- <-].
    - now intros [= <- <-].
    - now intros [= <- <-].
  Qed.
  Lemma run_nonces l : forall s s' log, run s l = (s', log) -> nonces s' = foldl note (nonces s) log.
  Proof.
    induction l as [|t l IH]; intros s s' log H; cbn [Model_Extrinsic.run] in H; [now injection H as <- <-|].
    destruct (do_step s t) as [s1 e] eqn:E. destruct (run s1 l) as [s2 e2] eqn:R. injection H as <- <-.
    rewrite foldl_app, <- (step_nonces _ _ _ _ E). now apply IH.
  Qed.
  Lemma later_nonce s x s' log1 l s'' log2 y s3 log3 :
    apply s x = Some (s', log1) -> run s' l = (s'', log2) -> apply s'' y = Some (s3, log3) ->
    x_who y = x_who x -> x_nonce x < two32 -> ~ In (Killed (x_who x)) (log1 ++ log2) ->
    1 <= raised (x_who x) (log1 ++ log2) /\ x_nonce y = (x_nonce x + raised (x_who x) (log1 ++ log2)) mod two32.
  Proof.
    intros A R B W L K. apply run_nonces in R.
    apply apply_inv in A as (? & ? & ? & evs & _ & _ & _ & N1 & _ & _ & El & ->). cbn [nonces] in R.
    apply apply_inv in B as (? & ? & ? & ? & _ & _ & _ & N2 & _).
    rewrite R, <- foldl_app, W in N2. rewrite note_nonce in N2; [|now rewrite N1|exact K]. rewrite N1 in N2.
    split; [|now symmetry]. rewrite El, raised_app. unfold raised. cbn. rewrite N.eqb_refl. cbn. lia.
  Qed.

  (** ** Hashes *)
  Definition hinv (hist : list N) s : Prop :=
    number s = N.of_nat (length hist) /\
    (forall b h, hashes s !! b = Some h -> hist !! N.to_nat b = Some h) /\
    (forall b, is_Some (hashes s !! b) <-> b < number s /\ (b = 0 \/ number s <= b + BLOCK_HASH_COUNT + 1)).
  Lemma start_hinv g m sp tv (st : State) : hinv [g] (start g m sp tv st).
  Proof.
    split; [reflexivity|]. cbn. split.
    - intros b h H. apply lookup_singleton_Some in H as [<- <-]. reflexivity.
    - intros b. destruct (decide (b = 0)) as [->|Nb].
      + rewrite lookup_singleton. split; [lia|now eexists].
      + rewrite lookup_singleton_ne by congruence. split; [now intros [? X]|lia].
  Qed.
  Lemma step_hinv hist s t s' log : hinv hist s -> do_step s t = (s', log) ->
    hinv (hist ++ match t with SBlock h => [h] | _ => [] end) s'.
  Proof.
    intros (I1 & I2 & I3) H. destruct t as [x|h|sp tv|st evs]; cbn [Model_Extrinsic.do_step] in H; rewrite ?app_nil_r.
    - destruct (apply s x) as [[s1 l1]|] eqn:E; cbn in H; injection H as <- <-; [|now split].
      apply apply_inv in E as (? & ? & ? & ? & _ & _ & _ & _ & _ & _ & _ & ->). now split.
    - injection H as <- <-. unfold next_block. split; [|split]; cbn [number hashes].
      + rewrite app_length. cbn. lia.
      + intros b h' Hb. destruct (decide (b = number s)) as [->|Ne].
        * rewrite lookup_insert in Hb. injection Hb as <-. rewrite I1, Nat2N.id. apply list_lookup_middle. reflexivity.
        * rewrite lookup_insert_ne in Hb by congruence. apply lookup_app_l_Some, I2.
          destruct (_ =? 0); [exact Hb|]. now apply lookup_delete_Some in Hb as [_ Hb].
      + intros b. destruct (decide (b = number s)) as [->|Ne].
        * rewrite lookup_insert. split; [lia|]. now eexists.
        * rewrite lookup_insert_ne by congruence. destruct (number s - BLOCK_HASH_COUNT - 1 =? 0) eqn:Z.
          -- rewrite I3. lia.
          -- destruct (decide (b = number s - BLOCK_HASH_COUNT - 1)) as [->|Nb].
             ++ rewrite lookup_delete. split; [intros [? [=]]|]. lia.
             ++ rewrite lookup_delete_ne by congruence. rewrite I3. lia.
    - injection H as <- <-. now split.
    - injection H as <- <-. now split.
  Qed.
  Lemma run_hinv l : forall hist s s' log, hinv hist s -> run s l = (s', log) ->
    hinv (hist ++ flat_map (fun t => match t with SBlock h => [h] | _ => [] end) l) s'.
  Proof.
    induction l as [|t l IH]; intros hist s s' log I H; cbn [Model_Extrinsic.run] in H.
    { injection H as <- <-. cbn. now rewrite app_nil_r. }
    destruct (do_step s t) as [s1 e] eqn:E. destruct (run s1 l) as [s2 e2] eqn:R. injection H as <- <-.
    cbn [flat_map]. rewrite app_assoc. eapply IH; [|exact R]. eapply step_hinv; eassumption.
  Qed.
  Lemma start_run g m sp tv st l s log : run (start g m sp tv st) l = (s, log) -> hinv (history g l) s.
  Proof. intros H. apply (run_hinv l [g] _ _ _ (start_hinv g m sp tv st) H). Qed.

  Lemma birth_window period phase n : 0 < period -> birth (Mortal period phase) n < n ->
    n < birth (Mortal period phase) n + period.
  Proof.
    intros P H. cbn [birth] in *. destruct (N.le_gt_cases n phase) as [L|L].
    - rewrite N.max_r, N.sub_diag, N.div_0_l in * by lia. lia.
    - rewrite N.max_l in * by lia. pose proof (N.div_mod (n - phase) period ltac:(lia)). pose proof (N.mod_lt (n - phase) period ltac:(lia)). nia.
  Qed.
  Lemma period_2048 : next_pow2 BLOCK_HASH_COUNT / 2 = 2048.
  Proof. reflexivity. Qed.
  Lemma mortal_2048 c : mortal 2048 c = Mortal 2048 (c mod 2048).
  Proof. unfold mortal. change (N.min (N.max (next_pow2 2048) 4) 65536) with 2048. cbv zeta.
    change (N.max (2048 / 2 ^ 12) 1) with 1. now rewrite N.div_1_r, N.mul_1_r. Qed.
  Lemma birth_2048 c n : c <= n -> n < c + 2048 -> birth (mortal 2048 c) n = c.
  Proof.
    intros A B. rewrite mortal_2048. cbn [birth]. pose proof (N.div_mod c 2048 ltac:(lia)) as D.
    pose proof (N.mod_lt c 2048 ltac:(lia)) as M. rewrite N.max_l by lia.
    replace ((n - c mod 2048) / 2048) with (c / 2048); [lia|].
    apply N.div_unique with (n - c); lia.
  Qed.
End proofs.
