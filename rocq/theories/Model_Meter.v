(** What the hooks that serve a list of accounts look at in one block and what
    weight they report: pallets/adsc/src/lib.rs:207-232 and 490-550,
    pallets/operation/src/lib.rs:247-259 and 540-615, pallets/staking/src/lib.rs
    2150-2181 and 2676-2738.

    The loops are those of Model_Adsc, Model_Operation and Model_Staking; here they
    are followed for what they count instead of what they do. [looked] counts the
    entries of the map that are fetched, [reads] and [writes] the database accesses
    that the returned Weight names ([T::DbWeight::get().reads_writes]). *)
From Verif Require Import Base Balances Model_Adsc Model_Operation Model_Staking.
From stdpp Require Import gmap sorting.
Open Scope N_scope.

(** Entries fetched, reads and writes reported. *)
Record meter := Meter { looked : N; reads : N; writes : N }.
Definition madd (a b : meter) : meter :=
  Meter (looked a + looked b) (reads a + reads b) (writes a + writes b).
Definition mzero : meter := Meter 0 0 0.

(** ** pallets/adsc *)
(** adsc/src/lib.rs:503-529 and 532-547. A silent staker is passed over before
    anything is added to the weight or the counter; every other one costs a read,
    3 reads and 3 writes if it is paid, and a write for its removal or count down. *)
Fixpoint adsc_meter (x : actx) (bnum : N) (l : list (N * N)) (counter : N) : meter :=
  match l with
  | [] => mzero
  | (who, period) :: r =>
      if negb (ax_offline x who =? 0) then madd (Meter 1 0 0) (adsc_meter x bnum r counter) else
      let here := if period =? 0 then Meter 1 1 1 else Meter 1 4 4 in
      if add32 counter 1 =? bnum then here
      else madd here (adsc_meter x bnum r (add32 counter 1))
  end.
(** adsc/src/lib.rs:490-550 adsc_reward: 1 read, then 1 read and 1 write around the loop. *)
Definition adsc_reward_meter (cfg : acfg) (s : astate) (x : actx) : meter :=
  match a_cursor s with
  | CEmpty => Meter 0 1 0
  | c => madd (Meter 0 2 1) (adsc_meter x (a_bnum s) (Model_Adsc.iter_from cfg s c) 0)
  end.
(** adsc/src/lib.rs:207-232 on_initialize: 2 reads; on a new day 2 reads and 3 writes. *)
Definition adsc_init_meter (cfg : acfg) (s : astate) (x : actx) : meter :=
  madd (Meter 0 2 0)
    (if a_day s <? Model_Adsc.day_of (ax_time x) then Meter 0 2 3 else adsc_reward_meter cfg s x).

(** ** pallets/operation *)
(** operation/src/lib.rs:552-608. The pallet has no on_initialize and reports no weight. *)
Fixpoint release_meter (s : ostate) (cur_day : N) (l : list (N * sched)) (daily blockly : N) : N :=
  match l with
  | [] => 0
  | (who, r) :: rest =>
      let released := mul128 (r_per r) (cur_day - r_last r) in
      if released =? 0 then 1 + release_meter s cur_day rest daily blockly else
      if o_smax s <? released then 1 else
      let daily := add128 daily released in
      let blockly := add128 blockly released in
      if o_dmax s <=? daily then 1 else
      if o_smax s <=? blockly then 1 else
      1 + release_meter s cur_day rest daily blockly
  end.
(** operation/src/lib.rs:247-259 on_finalize and 540-551. *)
Definition operation_meter (cfg : ocfg) (s : ostate) (x : octx) : meter :=
  let cur_day := Model_Operation.day_of (ox_time x) in
  if (o_day s <? cur_day) || o_end s then mzero else
  Meter (release_meter s cur_day (Model_Operation.iter_from cfg s (o_cursor s))
           (default 0 (o_daily s !! cur_day)) 0) 0 0.

(** ** pallets/staking *)
Section staking.
  Context (cfg : kcfg).
  (** staking/src/lib.rs:2740-2807: the reads and writes that pay_delegator reports;
      [g] is what the credit pallet's get_reward reports for the delegator, [rewarded]
      whether the account is in Reward. Only the current record is asked. *)
  Definition payd_meter (x : kctx) (g : N -> N * N) (rewarded : N -> bool) (d : N) (r : drec) : meter :=
    let era := kx_era x in
    let since := default era (dr_since r) in
    if since =? era then mzero else
    madd (Meter 0 (1 + (g d).1) (g d).2)
      (madd (match kx_reward x d since (sub32 era 1) with
             | None => mzero
             | Some _ => if rewarded d then Meter 0 1 2 else Meter 0 0 2
             end)
         (if dr_on r then Meter 0 0 1 else mzero)).
  (** staking/src/lib.rs:2809-2857 pay_referer. *)
  Definition payr_meter (rewarded : N -> bool) (s : kstate) (d : N) : meter :=
    match d_ref (k_del s) !! d with
    | None => Meter 0 1 0
    | Some ref =>
        match Model_Staking.bonus_rate (default 0 (d_refc (k_del s) !! ref)) with
        | None => Meter 0 2 0
        | Some _ => if rewarded ref then Meter 0 3 2 else Meter 0 2 2
        end
    end.
  (** staking/src/lib.rs:2700-2726 the loop. *)
  Fixpoint pay_meter (x : kctx) (g : N -> N * N) (rewarded : N -> bool) (n : nat) (l : list (N * drec))
      (s : kstate) (pool : N) : meter :=
    match n, l with
    | S m, (d, r) :: rest =>
        let here := madd (Meter 1 1 0) (payd_meter x g rewarded d r) in
        let '(s1, paid, _) := pay_delegator cfg x s d r pool in
        let pool1 := ssub pool paid in
        if pool1 =? 0 then here else
        let here := madd here (payr_meter rewarded s1 d) in
        let '(s2, paid2, _) := pay_referer cfg s1 d paid pool1 in
        let pool2 := ssub pool1 paid2 in
        if pool2 =? 0 then here else
        madd here (madd (Meter 0 1 0) (pay_meter x g rewarded m rest s2 pool2))
    | _, _ => mzero
    end.
  (** staking/src/lib.rs:2676-2738 pay_delegators. The cursor is written when the quota is used up. *)
  Definition pays_meter (x : kctx) (g : N -> N * N) (rewarded : N -> bool) (s : kstate) : meter :=
    let pool := pool_of cfg (k_del s) in
    if pool =? 0 then Meter 0 1 0 else
    let per := d_per (k_del s) in
    let l := delegators_from cfg (k_del s) (d_cursor (k_del s)) in
    let '(_, _, _, counter, _) := pay_loop cfg x (N.to_nat per) l s pool (d_cursor (k_del s)) 0 in
    madd (Meter 0 6 (if counter =? per then 2 else 1)) (pay_meter x g rewarded (N.to_nat per) l s pool).
  (** staking/src/lib.rs:2150-2181 on_initialize. *)
  Definition staking_meter (x : kctx) (g : N -> N * N) (rewarded : N -> bool) (s : kstate) : meter :=
    madd (Meter 0 2 1)
      (if 0 <? cur_era s then
         if kx_block x mod kc_bpe cfg =? 0 then Meter 0 3 4 else pays_meter x g rewarded s
       else mzero).
End staking.
