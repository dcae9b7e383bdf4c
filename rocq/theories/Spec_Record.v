(** Specification vocabulary for what a credit record says besides its score. *)
From Verif Require Import Base Balances Model_UserPrivileges Model_Credit Spec_Credit.
From stdpp Require Import gmap.
Open Scope N_scope.

(** Campaign, initial level, rank, number of referees and the number of eras that are paid. *)
Definition besides (d : cdata) : N * N * N * N * N :=
  (cd_camp d, cd_init d, cd_rank d, cd_refs d, cd_eras d).

(** A record that begins: the level at first is that of its score, ten years are paid. *)
Definition begun (camp : N) (d : cdata) : Prop :=
  besides d = (camp, band (cd_credit d), 0, 0, 10 * 365).

(** Root or a credit admin writes the record of [who]. *)
Definition writes (op : kop) (who : N) (d : cdata) : Prop :=
  snd op = inl (Root, KAddData who d) \/
  exists a, kx_priv (fst op) a CreditAdmin = true /\ snd op = inl (Signed a, KExternalData who d).

(** [who] gives its stake back (a call of a credit admin, or through pallet operation). *)
Definition unstakes (op : kop) (who : N) : Prop :=
  snd op = inr (KUnstaking who) \/
  exists a, kx_priv (fst op) a CreditAdmin = true /\ snd op = inl (Signed a, KUnstakingSlash who).

(** The era from which [who] is paid: the first of its history. *)
Definition paid_from (cfg : kcfg) (s : kstate) (x : kctx) (who : N) : N :=
  match default [] (k_hist s !! who) with
  | (e, _) :: _ => e
  | [] => era_at cfg (kx_now x)
  end.

(** A claim from era [from] on moves [who] from the campaign of [d] to the one named for
    it, for ten years, or prolongs its own by half a year. This is due for the campaigns up
    to 6 at every claim, for the later ones when the claim begins with the last paid era. *)
Definition moves_on (cfg : kcfg) (s : kstate) (op : kop) (who : N) (d d' : cdata) : Prop :=
  exists from to id, snd op = inr (KGetReward who from to) /\
    (cd_camp d <= 6 \/
     (paid_from cfg s (fst op) who + cd_eras d < two32 ->
      from + 1 = paid_from cfg s (fst op) who + cd_eras d)) /\
    k_noswitch s !! who = None /\ k_switch s !! cd_camp d = Some id /\
    besides d' = (id, cd_init d, cd_rank d, cd_refs d,
                  if cd_camp d =? id then (cd_eras d + 180) mod two32 else 10 * 365).

(** How many eras are paid, if nobody with powers writes the record. *)
Definition unwritten (who : N) (op : kop) : Prop := forall d, ~ writes op who d.

(** Why [w] has the record [d'] after the step [op] from [s]: it had a record and only its
    score changed, or it moved on to another campaign, or it gave its stake back; or the
    record was written; or it had none and bought its first credit. *)
Definition explained (cfg : kcfg) (s : kstate) (op : kop) (w : N) (d' : cdata) : Prop :=
  (exists d, k_uc s !! w = Some d /\
     (besides d' = besides d \/ moves_on cfg s op w d d' \/ (unstakes op w /\ begun (k_default_id s) d'))) \/
  writes op w d' \/
  (k_uc s !! w = None /\ exists gap camp, snd op = inr (KAddOrUpdate w gap camp) /\
     cd_credit d' = gap /\ begun (default (k_default_id s) camp) d').

(** [b] eras and some half years more, as the counter of 32 bits shows them. *)
Definition span (b e : N) : Prop := exists k, e = (b + 180 * k) mod two32.
