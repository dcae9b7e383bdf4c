(** Properties C163 and C164: what credit levels earn (pallets/credit). *)
From Verif Require Import Base Balances Proofs_Balances Proofs_Arith Model_UserPrivileges Model_Credit
  Spec_Credit Proofs_Credit Proofs_Credit2 Proofs_Credit3 Model_Settings Spec_Settings Proofs_Settings Props_Credit.
From stdpp Require Import gmap.
Open Scope N_scope.

(** * C163: more credit never earns less *)
Lemma start_levels b settings data : (forall w d, (w, d) ∈ data -> level_ok d) -> all_levels (cr (kinit b settings data)).
Proof.
  intros H. unfold kinit, cr. cbn [k_uc k_hist set_k_uc]. split; cbn [fst snd].
  - assert (G : forall m : gmap N cdata, (forall w d', m !! w = Some d' -> level_ok d') ->
      forall w d', fold_left (fun m p => <[p.1 := p.2]> m) data m !! w = Some d' -> level_ok d').
    { induction data as [|[a da] l IH]; intros m Hm; [exact Hm|]. cbn [fold_left]. apply IH; [intros; eapply H; right; eassumption|].
      intros w d'. cbn. intros [[-> <-]|[_ E]]%lookup_insert_Some; [eapply H; left|eauto]. }
    apply G. intros w d'. now rewrite lookup_empty.
  - rewrite (Proofs_Credit4.fold_setting_frame k_hist) by done. intros w l. cbn. now rewrite lookup_empty.
Qed.

(** In every reachable state in which the settings rise with the level: of two accounts in
    the same campaign, with the same initial level and rank, who had at least the other's
    score in an era is paid at least as much for it. In the dollar campaign this is for
    stakes of at least as many dollars. *)
Theorem C163_more cfg b settings data h w w' e d d' : kc_step cfg <> U64MAX ->
  (forall w d, (w, d) ∈ data -> level_ok d) ->
  let s := krun cfg (kinit b settings data) h in graded s ->
  record s w e = Some d -> record s w' e = Some d' ->
  cd_camp d = cd_camp d' -> cd_init d = cd_init d' -> cd_rank d = cd_rank d' ->
  (cd_camp d = 5 -> staked_dollars s w <= staked_dollars s w') -> cd_credit d <= cd_credit d' ->
  pay cfg s w e <= pay cfg s w' e.
Proof.
  intros Hs Hd s Hg R R'.
  assert (L : all_levels (cr s)) by (apply run_levels; [done|now apply start_levels]).
  assert (Lv : forall a e d, record s a e = Some d -> level_ok d).
  { intros a e0 d0 Hr. unfold record, in_force in Hr. destruct (last _) as [[x y]|] eqn:E; cbn in Hr; [|discriminate]. injection Hr as ->.
    apply last_Some_elem_of, elem_of_list_filter in E as [_ E].
    destruct (k_hist s !! a) as [l|] eqn:El; cbn in E; [|now apply elem_of_nil in E].
    destruct L as [_ L]. exact (proj1 (Forall_forall _ _) (L a l El) _ E). }
  apply pay_mono; [apply run_follows; [done|apply start_follows]|done|done|done|eapply Lv; eassumption|eapply Lv; eassumption].
Qed.
Print Assumptions C163_more.
(** Settings that rise at the start rise for ever, through the hooks and the upgrade that
    rewrite the tables of campaigns 7 and 8, unless Root sets others. *)
Theorem C163_graded cfg b settings data h : kc_step cfg <> U64MAX ->
  graded (kinit b settings data) -> Forall (fun op => ~ sets_settings op) h -> graded (krun cfg (kinit b settings data) h).
Proof. intros. now apply run_graded. Qed.
Print Assumptions C163_graded.
Lemma graded_uc s u : graded s -> graded (set_k_uc s u).
Proof. intros H. exact H. Qed.
(** The settings of the development and local chains rise. *)
Theorem C163_development b data : graded (kinit b campaign_0 data).
Proof.
  unfold kinit. cbv zeta. apply graded_uc. apply (fold_graded 0); [apply rises_0|]. intros c l l' _ _. unfold the_setting. cbn [k_settings]. rewrite !lookup_empty. unfold offers_more. cbn. lia.
Qed.
Print Assumptions C163_development.
Definition sdata : list (N * cdata) := [(1, CData 0 150 1 0 0 1 270); (2, CData 0 705 1 0 0 7 270)].
Definition shist : list kop := [entry 3 (KInitHistory 1); entry 3 (KInitHistory 2); entry 20 KInitialize].
Example C163_example :
  let s := krun xkcfg (kinit xkbank campaign_0 sdata) shist in
  graded s /\ record s 1 1 = Some (CData 0 150 1 0 0 1 270) /\ record s 2 1 = Some (CData 0 705 1 0 0 7 270) /\
  pay xkcfg s 1 1 = 21369858941948251800 /\ pay xkcfg s 2 1 = 826739568502859546560 /\ Forall (fun op => ~ sets_settings op) shist.
Proof.
  split; [apply run_graded; [done|repeat constructor; intros []|apply C163_development]|].
  split; [vm_compute; reflexivity|]. split; [vm_compute; reflexivity|]. split; [vm_compute; reflexivity|]. split; [vm_compute; reflexivity|].
  repeat constructor; intros [].
Qed.
(** The assumption matters: with a table that Root makes fall, more credit earns less. *)
Example C163_needs_graded :
  let s := krun xkcfg (kinit xkbank campaign_0 sdata) (root 2 (KUpdateSetting (Setting 0 7 DPR 1 0 0 0 0 0)) :: shist) in
  ~ graded s /\ pay xkcfg s 2 1 < pay xkcfg s 1 1.
Proof.
  split; [|vm_compute; reflexivity]. intros G. destruct (G 0 6 7 ltac:(lia) ltac:(lia)) as (H & _). vm_compute in H. now apply H.
Qed.

(** * C164: a year at a level pays the yearly rate of the level *)
Theorem C164_year cfg b settings data h camp l : kc_step cfg <> U64MAX ->
  let s := krun cfg (kinit b settings data) h in let st := the_setting s camp l in
  st_perref st * st_maxref st = 0 ->
  yearly (st_apy st) (st_bal st) (base_reward s camp l) /\
  yearly (N.min (st_apy st + st_bonus st) 100) (st_bal st) (bonus_reward s camp l).
Proof.
  intros Hs s st H0. assert (F : follows s) by (apply run_follows; [done|apply start_follows]).
  rewrite (base_of_setting s), (bonus_of_setting s) by done. fold st. unfold daily_base, daily_bonus, smul128. rewrite H0, !N.sub_0_r.
  split; apply yearly_ok.
Qed.
Print Assumptions C164_year.
(** In the dollar campaign: the rate on the staked dollars at the present price. *)
Theorem C164_dollars s w d p : cd_camp d = 5 -> k_price s = Some p ->
  let m := st_apy (the_setting s 5 (cd_level d)) * (staked_dollars s w * DPR / p) in
  100 * (365 * daily s w d) <= m + 50 /\ m < 100 * (365 * (daily s w d + 1)) + 50.
Proof.
  intros E Ep m. unfold daily. rewrite E, Ep. cbn [N.eqb Pos.eqb].
  set (am := staked_dollars s w * DPR / p) in *. set (ap := st_apy _) in *.
  destruct (frac_mul_nearest ap 100 am ltac:(done)) as [A1 A2]. subst m. replace (2 * ap * am) with (2 * (ap * am)) in * by ring.
  generalize dependent (frac_mul ap 100 am). intros f A1 A2. pose proof (N.div_mod f 365 ltac:(done)) as Hf.
  pose proof (N.mod_lt f 365 ltac:(done)) as Hr. generalize dependent (f / 365). generalize dependent (f mod 365). intros r Hr q ->.
  generalize dependent (ap * am). intros m A1 A2. lia.
Qed.
Print Assumptions C164_dollars.
Example C164_example :
  let s := kinit xkbank campaign_0 sdata in
  the_setting s 0 7 = Setting 0 7 (368000 * DPR) 82 0 0 0 25 0 /\ base_reward s 0 7 = 826739568502859546560 /\
  365 * base_reward s 0 7 = 301759942503543734494400 /\ 82 * (368000 * DPR) / 100 = 301760000000000000000000.
Proof. vm_compute. repeat split. Qed.
