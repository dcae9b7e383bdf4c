(** Vocabulary for the properties of credit and staking together. *)
From Verif Require Import Base Balances Model_UserPrivileges.
From Verif Require Model_Credit Spec_Credit.
From Verif Require Import Model_StakingLedger Model_Staking Model_Chain.
From stdpp Require Import gmap sorting.
Open Scope N_scope.

(** The block of a step and its era. *)
Definition at_block (op : jop) : N := Model_Credit.kx_now (jx_c op.1).
Definition era_in (cfg : jcfg) (op : jop) : N := at_block op / Model_Credit.kc_bpe (jc_c cfg).

(** Every step of a history: the state before it, the step, and what came out. *)
Fixpoint visited (cfg : jcfg) (j : jstate) (h : list jop) : list (jstate * jop * jout) :=
  match h with
  | [] => []
  | op :: r => (j, op, (jstep cfg j op).2) :: visited cfg (jstep cfg j op).1 r
  end.
Definition jevents (outs : list jout) : list kev :=
  concat (map (fun o => match o with JDone ev => ev | _ => [] end) outs).

(** An orderly history: block numbers never go down, the chain is younger than 65536
    eras, root moves the start of a credit history only to an era already reached, and
    settings fit their types. *)
Definition calm (cfg : jcfg) (op : jop) : Prop :=
  match op.2 with
  | JCredit _ (Model_Credit.KForceHistory _ era) => era <= era_in cfg op
  | JCredit _ (Model_Credit.KUpdateSetting st) => Spec_Credit.setting_typed st
  | _ => True
  end.
Fixpoint orderly (cfg : jcfg) (from : N) (h : list jop) : Prop :=
  match h with
  | [] => True
  | op :: r => from <= at_block op /\ era_in cfg op < 65536 /\ calm cfg op /\ orderly cfg (at_block op) r
  end.

(** The reward computation for [d] stays within the machine's numbers: a price that is
    not zero, a dollar stake and a reward period that fit. *)
Definition claimable (c : credit) (d : N) : Prop :=
  Model_Credit.k_price c <> Some 0 /\
  (forall p, Model_Credit.k_price c = Some p -> Spec_Credit.staked_dollars c d * Model_Credit.DPR / p < 2 ^ 128) /\
  (forall r e0 r0 l, Model_Credit.k_uc c !! d = Some r ->
     default [] (Model_Credit.k_hist c !! d) = (e0, r0) :: l -> e0 + Model_Credit.cd_eras r < 2 ^ 32).

(** What [d] was paid as a delegator. *)
Definition paid (d : N) (ev : list kev) : N :=
  lsum (map (fun e => match e with KMint MDelegator a v => if a =? d then v else 0 | _ => 0 end) ev).

(** Era [e] lies in the reward period of [d]: from the first entry of the credit
    history on, for the number of eras of the campaign. *)
Definition in_period (c : credit) (d e : N) : Prop :=
  exists r e0 r0 l, Model_Credit.k_uc c !! d = Some r /\
    default [] (Model_Credit.k_hist c !! d) = (e0, r0) :: l /\ e < e0 + Model_Credit.cd_eras r.

(** The era that starts next, and the deferred slashes applied when it does. *)
Definition next_era (s : kstate) : N := match e_act (k_era s) with Some (i, _) => add32 i 1 | None => 0 end.
Definition starts (s : kstate) (i : N) : Prop :=
  exists st, e_start (k_era s) !! next_era s = Some st /\ st <= i.
Definition due_slash (cfg : kcfg) (s : kstate) (a : N) (u : uslash) : Prop :=
  exists first e, s_first (k_stk s) = Some first /\ first <= e /\ e + kc_defer cfg < a /\
    u ∈ default [] (s_unapp (k_stk s) !! e).

(** An account with a credit record. *)
Definition has_record (c : credit) (d : N) : Prop := is_Some (Model_Credit.k_uc c !! d).

(** Steps the runtime makes on its own, which no block can do without. *)
Definition hook (a : jact) : Prop :=
  match a with
  | JCredit _ _ | JCall _ _ | JBank _ => False
  | JEntry e => match e with Model_Credit.KInitialize | Model_Credit.KFinalize | Model_Credit.KUpgrade => True | _ => False end
  | _ => True
  end.

(** Steps that erase a credit record: the penalty u64::MAX. *)
Definition erases (a : jact) : Prop :=
  match a with
  | JCall _ (JOf (KForceUnstakingDelegate _)) => True
  | JCall _ (JForceUndelegate l) => exists d, (d, Model_Credit.U64MAX) ∈ l
  | JEntry (Model_Credit.KEvmUpdate _ _ n false) => n = Model_Credit.U64MAX
  | _ => False
  end.

(** Offences are reported with an exposure the staking pallet stored before. *)
Definition faithful_reports (cfg : jcfg) (j : jstate) (h : list jop) : Prop :=
  forall h1 x os i h2 st ex reps f,
    h = h1 ++ (x, JOffence os i) :: h2 -> (st, ex, reps, f) ∈ os -> x_others ex <> [] ->
    exists h0 k, h0 `prefix_of` h1 /\ e_stakers (k_era (j_s (jrun cfg j h0))) !! k = Some ex.

(** Accounts that take part as delegators, and those whose credit allows it. *)
Definition delegating (s : kstate) (d : N) : Prop :=
  exists r, d_recs (k_del s) !! d = Some r /\ dr_on r = true.
Definition eligible (cfg : jcfg) (c : credit) (d : N) : Prop :=
  exists r, Model_Credit.k_uc c !! d = Some r /\ Model_Credit.kc_min (jc_c cfg) <= Model_Credit.cd_credit r.

(** Steps that take credit from [d], or write a new record for it, behind the staking
    pallet's back: an officer, the EVM, the end of a stake, a node found offline that
    is not in maintenance. *)
Definition takes_credit (c : credit) (op : jop) (d : N) : Prop :=
  match op.2 with
  | JCredit _ (Model_Credit.KUnstakingSlash w) | JCredit _ (Model_Credit.KAddData w _)
  | JCredit _ (Model_Credit.KExternalData w _) | JEntry (Model_Credit.KUnstaking w) => w = d
  | JEntry (Model_Credit.KEvmUpdate _ u _ false) => Model_Credit.kx_e2d (jx_c op.1) u = Some d
  | JInit => 0 < Model_Credit.kx_offline (jx_c op.1) d /\ Model_Credit.kx_offline (jx_c op.1) d mod 3 = 0 /\ d ∉ Model_Credit.k_maintain c
  | _ => False
  end.

(** Steps in which [d] becomes a delegator without being on the books before, and how
    often that happens in a history. *)
Definition entersb (cfg : jcfg) (d : N) (q : jstate * jop * jout) : bool :=
  bool_decide (d_recs (k_del (j_s q.1.1)) !! d = None) &&
  bool_decide (is_Some (d_recs (k_del (j_s (jstep cfg q.1.1 q.1.2).1)) !! d)).
Definition entries (cfg : jcfg) (j : jstate) (h : list jop) (d : N) : N :=
  N.of_nat (length (List.filter (entersb cfg d) (visited cfg j h))).

(** Steps that move the start of [d]'s credit history or erase it. *)
Definition rewrites (op : jop) (d : N) : Prop :=
  match op.2 with
  | JCredit _ (Model_Credit.KForceHistory w _) => w = d
  | JEntry (Model_Credit.KEvmUpdate _ u n false) => Model_Credit.kx_e2d (jx_c op.1) u = Some d /\ n = Model_Credit.U64MAX
  | JCall _ (JOf (KForceUnstakingDelegate w)) => w = d
  | JCall _ (JForceUndelegate l) => (d, Model_Credit.U64MAX) ∈ l
  | _ => False
  end.

(** Steps by which [d] leaves or is removed from the delegators. *)
Definition quits (op : jop) (d : N) : Prop :=
  match op.2 with
  | JCall o (JOf KUndelegate) => o = Signed d
  | JCall _ (JOf (KForceUnstakingDelegate w)) => w = d
  | JCall _ (JOf (KForceUndelegate l)) => d ∈ l
  | JCall _ (JForceUndelegate l) => d ∈ l.*1
  | JStartSession _ | JOffence _ _ => True
  | _ => False
  end.

(** The first era for which [d] is still to be paid. *)
Definition unpaid_from (j : jstate) (d : N) : option N := d_recs (k_del (j_s j)) !! d ≫= dr_since.
(** The ranges of [l] follow one another without gap from [a] up to [b]. *)
Fixpoint tiles (a : N) (l : list (N * N)) (b : N) : Prop :=
  match l with
  | [] => a = b
  | (f, t) :: r => f = a /\ a <= t /\ tiles (t + 1) r b
  end.
