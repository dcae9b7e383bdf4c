(** What the properties about credit settings talk about (C163, C164). *)
From Verif Require Import Base Balances Model_UserPrivileges Model_Credit Spec_Credit.
From stdpp Require Import gmap.
Open Scope N_scope.

(** One level of a campaign offers at least what another does. *)
Definition offers_more (a b : setting) : Prop :=
  st_bal a <= st_bal b /\ st_apy a <= st_apy b /\ st_perref b * st_maxref b <= st_perref a * st_maxref a.
(** The settings rise with the level, in every campaign. *)
Definition graded (s : kstate) : Prop :=
  forall camp l l', l <= l' -> l' <= 8 -> offers_more (the_setting s camp l) (the_setting s camp l').
Definition sets_settings (op : kop) : Prop := match op.2 with inl (Root, KUpdateSetting _) => True | _ => False end.
(** What an account is paid for an era. *)
Definition pay (cfg : kcfg) (s : kstate) (who e : N) : N := default 0 (era_pay cfg s who e).
Definition record (s : kstate) (who e : N) : option cdata := in_force (default [] (k_hist s !! who)) e.

(** [x] days of [v] make up the yearly rate of [apy] percent on [bal], up to one part in
    five million and 184 of the smallest units. *)
Definition yearly (apy bal v : N) : Prop :=
  100 * (365 * v) <= apy * bal + 100 * 184 /\
  apy * bal <= 100 * (365 * v) + apy * bal / 5000000 + 100 * 184.
