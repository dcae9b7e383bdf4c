(** Specification vocabulary for C39-C43 and C77-C79. *)
From Verif Require Import Base Balances Model_Adsc.
From stdpp Require Import gmap.
Open Scope N_scope.

(** The calendar day (since 1970) of a time in milliseconds. *)
Definition day (ms : N) : N := ms / (24 * 3600 * 1000).

(** Rewards paid: day and account. *)
Definition rewards (out : list (N * aev)) : list (N * N) :=
  omap (fun p => match p.2 with EReward w _ => Some (day p.1, w) | _ => None end) out.
Definition reward_amounts (out : list (N * aev)) : list N :=
  omap (fun p => match p.2 with EReward _ v => Some v | _ => None end) out.
Definition bridge_in (out : list (N * aev)) : list N :=
  omap (fun p => match p.2 with EBridgeMinted _ v => Some v | _ => None end) out.
Definition bridge_out (out : list (N * aev)) : list N :=
  omap (fun p => match p.2 with EBridgeBurned _ v => Some v | _ => None end) out.
(** How often [who] was paid. *)
Definition times_paid (who : N) (out : list (N * aev)) : N :=
  N.of_nat (length (filter (fun p => p.2 = who) (rewards out))).

(** Storage keys of different accounts differ. *)
Definition keys_differ (cfg : acfg) : Prop := forall a b, ac_key cfg a = ac_key cfg b -> a = b.

(** Block times never go back, and fit the u32 day counter. *)
Fixpoint chrono (t : N) (h : list aop) : Prop :=
  match h with
  | [] => True
  | op :: r => t <= ax_time op.1 /\ day (ax_time op.1) < 2 ^ 32 /\ chrono (ax_time op.1) r
  end.

(** The operation asks to add [who]; asks to add anybody; is the start of a block. *)
Definition adds (who : N) (op : aop) : Prop :=
  match op.2 with inl (_, AAdd w) | inl (_, AAddNft w _ _) => w = who | _ => False end.
Definition is_add (op : aop) : bool :=
  match op.2 with inl (_, AAdd _) | inl (_, AAddNft _ _ _) => true | _ => false end.
Definition is_block (op : aop) : bool := match op.2 with inr AInitialize => true | _ => false end.
Definition how_many (f : aop -> bool) (h : list aop) : N := N.of_nat (length (List.filter f h)).

(** Nobody retunes the reward or the target. *)
Definition no_tuning (op : aop) : Prop :=
  match op.2 with inl (_, ASetTarget _) | inl (_, ASetBase _) => False | _ => True end.

(** All blocks are of day [d]; [who] is online at every block. *)
Definition on_day (d : N) (op : aop) : Prop := is_block op = true -> day (ax_time op.1) = d.
Definition online (who : N) (op : aop) : Prop := is_block op = true -> ax_offline op.1 who = 0.

(** Nobody burns an NFT, or destroys its collection, while it is staked. *)
Fixpoint no_burn_of_staked (cfg : acfg) (s : astate) (h : list aop) : Prop :=
  match h with
  | [] => True
  | op :: r =>
      (match op.2 with
       | inr (AUniqBurn c i) => forall who, a_nfts s !! who <> Some (c, i)
       | inr (AUniqDestroy c) => forall who i, a_nfts s !! who <> Some (c, i)
       | _ => True
       end) /\ no_burn_of_staked cfg (fst (ado cfg s op)) r
  end.

(** At every block [who] holds some ADSC, and the supply is far from the limit. *)
Fixpoint can_receive (cfg : acfg) (who : N) (s : astate) (h : list aop) : Prop :=
  match h with
  | [] => True
  | op :: r =>
      (is_block op = true -> exists l b, a_ass s = Some l /\ as_bal l !! who = Some b /\
         b <= as_supply l /\ as_supply l + 2 ^ 32 * a_base s < 2 ^ 128) /\
      can_receive cfg who (fst (ado cfg s op)) r
  end.

(** All ADSC held by accounts. *)
Definition circulating (s : astate) : N :=
  match a_ass s with Some l => msum (fun _ b => b) (as_bal l) | None => 0 end.

(** [v] is the share [p / period] of [base] up to rounding: at most half a unit
    above it, at most half a unit and a billionth of the base below it; on the
    first day it is the base itself. *)
Definition share_of (base p period v : N) : Prop :=
  v <= base /\
  (period <> 0 -> period <= 10 ^ 9 ->
   let m := N.min p period in
   2 * v * period <= 2 * base * m + period /\
   2 * 10 ^ 9 * base * m <= period * (2 * 10 ^ 9 * v + 2 * base + 10 ^ 9) /\
   (p = period -> v = base)).

(** The NFT exists, with its collection and metadata. *)
Definition nft_whole (s : astate) (k : N * N) : Prop :=
  is_Some (u_colls (a_uniq s) !! k.1) /\ is_Some (u_items (a_uniq s) !! k) /\ is_Some (u_meta (a_uniq s) !! k).

(** What remains of [b] after taking [v]: a rest below [min] is lost. *)
Definition rest (min b v : N) : N := if v =? 0 then b else if b - v <? min then 0 else b - v.

(** ADSC held by an account. *)
Definition adsc_of (s : astate) (who : N) : N :=
  match a_ass s with Some l => default 0 (as_bal l !! who) | None => 0 end.
