(** What users of the whole chain rely on for their credit. *)
From Verif Require Import Base Balances Model_UserPrivileges.
From Verif Require Model_Credit Model_Staking Model_DeeperNode Model_Operation.
From Verif Require Import Model_Chain Model_World Spec_Chain3 Spec_World Spec_World2.
From stdpp Require Import gmap.
Open Scope N_scope.

(** The credit score of [d]; none counts as zero. *)
Definition score (w : wstate) (d : N) : N := credit_of (j_c (w_chain w)) d.
(** The block of [d]'s last heartbeat in the history; 0 without any. *)
Definition heartbeats (h : list wop) (d : N) : list N :=
  omap (fun op => match op.2 with
                  | WNode (Signed a) Model_DeeperNode.DImOnline => if a =? d then Some (wx_now op.1) else None
                  | _ => None
                  end) h.
Definition heard (h : list wop) (d : N) : N := default 0 (last (heartbeats h d)).
(** Whole eras since then. *)
Definition silent_eras (cfg : wcfg) (h : list wop) (now d : N) : N :=
  (now - heard h d) / Model_DeeperNode.d_bpe (wc_node cfg).
(** Devices in maintenance, and EVM addresses bound to accounts. *)
Definition maintained (w : wstate) (d : N) : Prop := d ∈ Model_Credit.k_maintain (j_c (w_chain w)).
Definition bound (w : wstate) (evm d : N) : Prop := Model_DeeperNode.d_e2d (w_node w) !! evm = Some d.

(** What can lower [d]'s score: a credit officer or Root writes a new record or ends its
    stake, a release of its stake is entered, the operator of an EVM contract takes points
    from its address, Root removes it from the delegators with a penalty, the device has
    been silent for three eras (or six, nine, ...) at a payout and is not in maintenance, or
    a validator it delegates to is slashed. *)
Definition cause (cfg : wcfg) (h : list wop) (w : wstate) (op : wop) (ev : list wev) (d : N) : Prop :=
  match op.2 with
  | WCredit _ (Model_Credit.KUnstakingSlash a) | WCredit _ (Model_Credit.KAddData a _)
  | WCredit _ (Model_Credit.KExternalData a _) | WOperation _ (Model_Operation.OUnstake a _ _ _)
  | WStaking _ (JOf (Model_Staking.KForceUnstakingDelegate a)) => a = d
  | WStaking _ (JForceUndelegate l) => exists n, (d, n) ∈ l /\ n <> 0
  | WEvm _ u _ false => bound w u d
  | WBlock BStakingInit =>
      let n := silent_eras cfg h (wx_now op.1) d in 0 < n /\ n mod 3 = 0 /\ ~ maintained w d
  | WBlock (BStartSession _) | WBlock (BOffence _ _) => 0 < credit_slashes (omap staking_event ev) d
  | _ => False
  end.

(** The credit record of [d], the first era of its reward period, and whether a payout from
    era [f] on moves it to the campaign that follows its own. *)
Definition record (w : wstate) (d : N) : option Model_Credit.cdata := Model_Credit.k_uc (j_c (w_chain w)) !! d.
Definition first_era (cfg : wcfg) (w : wstate) (now d : N) : N :=
  match default [] (Model_Credit.k_hist (j_c (w_chain w)) !! d) with
  | (e, _) :: _ => e
  | [] => now / Model_Credit.kc_bpe (jc_c (wc_chain cfg))
  end.
Definition moves (cfg : wcfg) (w : wstate) (now d : N) (r : Model_Credit.cdata) (f : N) : Prop :=
  let c := j_c (w_chain w) in
  Model_Credit.k_noswitch c !! d = None /\ is_Some (Model_Credit.k_switch c !! Model_Credit.cd_camp r) /\
  (Model_Credit.cd_camp r <= 6 \/ f + 1 = first_era cfg w now d + Model_Credit.cd_eras r).
