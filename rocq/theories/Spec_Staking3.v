(** What it means to stand as a validator, to dissolve a stake and to delegate. *)
From Verif Require Import Base Balances Model_StakingLedger Model_Staking Spec_Staking Spec_Staking2.
From stdpp Require Import gmap.
Open Scope N_scope.

(** ** Standing *)
Definition stands (s : kstate) (v : N) : Prop := v ∈ s_valid (k_stk s).
Definition controls (s : kstate) (c st : N) : Prop := s_bonded (k_stk s) !! st = Some c.
Definition bonded (s : kstate) (st : N) : Prop := is_Some (s_bonded (k_stk s) !! st).
Definition payee_at (s : kstate) (st : N) : option payee := s_payee (k_stk s) !! st.

(** How many slashing spans are stored for a stash. *)
Definition span_count (s : kstate) (st : N) : N :=
  match s_spans (k_stk s) !! st with Some sp => N.of_nat (length (spans_iter sp)) | None => 0 end.

(** The calls that may dissolve the stake of [st]: its controller withdraws, Root, or
    anybody once nothing but the existential deposit is on the account; in every
    case the caller has to name at least as many spans as there are. *)
Definition dissolves (cfg : kcfg) (s : kstate) (st : N) (op : kop) : Prop :=
  exists x o c n, op = KCall x o c /\ bonded s st /\ span_count s st <= n /\
    ((c = KWithdraw n /\ exists ct, o = Signed ct /\ controls s ct st) \/
     (c = KForceUnstake st n /\ o = Root) \/
     (c = KReap st n /\ free (acct_of (k_bank s) st) + rsv (acct_of (k_bank s) st) = kc_ed cfg)).

(** The offence report names the account. *)
Definition reported (op : kop) (v : N) : Prop :=
  exists x os i, op = KOffence x os i /\ exists ex reps frac, (v, ex, reps, frac) ∈ os.

(** The era lies in the ongoing span of the stash. *)
Definition in_current (cfg : kcfg) (s : kstate) (st era : N) : Prop :=
  match s_spans (k_stk s) !! st with
  | Some sp => sp_start sp <= era
  | None => window cfg s <= era
  end.
(** The worst fraction reported so far for a validator in an era. *)
Definition last_fraction (s : kstate) (st era : N) : N := fst (default (0, 0) (s_in_era (k_stk s) !! (era, st))).

(** Nothing is stored for a stash. *)
Definition cleared (s : kstate) (st : N) : Prop :=
  s_bonded (k_stk s) !! st = None /\ stake_of s st = None /\ payee_at s st = None /\ ~ stands s st /\
  s_lock (k_stk s) !! st = None.
(** Everything stored for a stash is as it was. *)
Definition untouched (s s' : kstate) (st : N) : Prop :=
  s_bonded (k_stk s') !! st = s_bonded (k_stk s) !! st /\ stake_of s' st = stake_of s st /\
  payee_at s' st = payee_at s st /\ (stands s' st <-> stands s st) /\
  s_lock (k_stk s') !! st = s_lock (k_stk s) !! st /\ s_spans (k_stk s') !! st = s_spans (k_stk s) !! st /\
  forall i, s_rec (k_stk s') !! (st, i) = s_rec (k_stk s) !! (st, i).

(** Everything that unlocks is due. *)
Definition all_due (s : kstate) (l : ledger) : Prop :=
  l_unl l = [] \/ exists e, e_cur (k_era s) = Some e /\ forall ch, ch ∈ l_unl l -> c_era ch <= e.

(** ** Delegating *)
Definition chosen (s : kstate) (d : N) : option (list N) := dr_vals <$> d_recs (k_del s) !! d.
Definition delegating (s : kstate) (d : N) : Prop :=
  exists r, d_recs (k_del s) !! d = Some r /\ dr_on r = true.
(** The calls that may set what [d] delegates to: their own delegate and stake_delegate,
    and a credit administrator who notes a payment made elsewhere. *)
Definition may_delegate (d : N) (op : kop) : Prop :=
  exists x o c, op = KCall x o c /\
    ((o = Signed d /\ ((exists l, c = KDelegate l) \/ (exists n, c = KStakeDelegate n /\ kx_sig x d = true))) \/
     (exists a usdt dpr, o = Signed a /\ kx_credit x a = true /\ c = KUsdtDelegate d usdt dpr)).
