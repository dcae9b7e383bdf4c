(** What the properties about NFTs talk about (C158-C162). *)
From Verif Require Import Base Balances Model_UserPrivileges.
From Verif Require Model_Credit Model_Adsc.
From Verif Require Import Model_Chain Model_World Model_Nfts.
From stdpp Require Import gmap.
Open Scope N_scope.

(** Who holds an NFT, who administers and owns a collection. *)
Definition holder (n : nstate) (k : nft) : option N := n_items n !! k.
Definition admin_of (n : nstate) (class : N) : option N := t_admin <$> n_teams n !! class.
Definition owner_of (n : nstate) (class : N) : option N := t_owner <$> n_teams n !! class.
(** The NFT recorded for an ADSC staker, and the days left. *)
Definition staked (n : nstate) (s : N) (k : nft) : Prop := Model_Adsc.a_nfts (w_adsc (n_w n)) !! s = Some k.
Definition days_left (n : nstate) (s : N) : option N := Model_Adsc.a_stakers (w_adsc (n_w n)) !! s.
(** What burning an NFT of a collection is worth. *)
Definition worth (n : nstate) (class : N) : option N := Model_Credit.k_nft_credit (j_c (w_chain (n_w n))) !! class.

(** ** C158 *)
Definition loses (n n' : nstate) (k : nft) (w : N) : Prop := holder n k = Some w /\ holder n' k <> Some w.
(** The holder, or someone the holder has to reckon with, asks for it. *)
Definition consent (n : nstate) (op : nop) (k : nft) (w : N) : Prop :=
  match op.2 with
  | NUniq (Signed a) (NBurn c i _) => k = (c, i) /\ (a = w \/ admin_of n c = Some a)
  | NUniq (Signed a) (NMove c i _) => k = (c, i) /\ (a = w \/ admin_of n c = Some a \/ n_approved n !! k = Some a)
  | NUniq (Signed a) (NBuy c i bid) => k = (c, i) /\ exists p chosen, n_price n !! k = Some (p, chosen) /\ p <= bid
  | NUniq o (NDestroy c) => k.1 = c /\ (o = Root \/ exists a, o = Signed a /\ owner_of n c = Some a)
  | NWorld (WCredit (Signed a) (Model_Credit.KBurnNft c i)) => k = (c, i) /\ (a = w \/ admin_of n c = Some a)
  | _ => False
  end.
(** The stake the NFT was made for ends, or is given another NFT. *)
Definition stake_ends (n n' : nstate) (op : nop) (k : nft) : Prop :=
  exists s, staked n s k /\
    match op.2 with
    | NWorld (WBlock (BAdsc Model_Adsc.AInitialize)) =>
        days_left n s = Some 0 /\ days_left n' s = None /\ (forall k', ~ staked n' s k')
    | NWorld (WAdsc (Signed a) (Model_Adsc.AAddNft s' c i)) =>
        s' = s /\ has_privilege (w_priv (n_w n)) a CreditAdmin = true /\ staked n' s (c, i) /\ (c, i) <> k
    | _ => False
    end.
(** At some point [op] was done by or for the holder, who has held the NFT ever since. *)
Definition ever_since (cfg : wcfg) (n0 : nstate) (h : list nop) (k : nft) (w : N) (P : nstate -> nact -> Prop) : Prop :=
  exists h1 x a h2, h = h1 ++ (x, a) :: h2 /\ P (nrun cfg n0 h1) a /\
    forall h3 h4, h2 = h3 ++ h4 -> holder (nrun cfg n0 (h1 ++ (x, a) :: h3)) k = Some w.

(** ** C159 *)
Definition worked (r : wout) : bool := match r with WDone _ => true | _ => false end.
Fixpoint times (cfg : wcfg) (f : nact -> bool) (n : nstate) (h : list nop) : N :=
  match h with
  | [] => 0
  | op :: r => (if f op.2 && worked (nstep cfg n op).2 then 1 else 0) + times cfg f (nstep cfg n op).1 r
  end.
Definition same_nft (c i : N) (k : nft) : bool := (c =? k.1) && (i =? k.2).
Definition burns_for_credit (k : nft) (a : nact) : bool :=
  match a with NWorld (WCredit _ (Model_Credit.KBurnNft c i)) => same_nft c i k | _ => false end.
Definition mints (k : nft) (a : nact) : bool :=
  match a with
  | NUniq _ (NMint c i _) => same_nft c i k
  | NWorld (WAdsc _ (Model_Adsc.AAddNft _ c i)) => same_nft c i k
  | _ => false
  end.
Definition exists_ (n : nstate) (k : nft) : N := match holder n k with Some _ => 1 | None => 0 end.

(** ** C160 *)
Definition sets_team (c : N) (a : nact) : Prop :=
  match a with
  | NUniq _ (NDestroy c') | NUniq _ (NTeam c' _ _) | NUniq _ (NForceTeam c' _) | NUniq _ (NPass c' _) => c' = c
  | _ => False
  end.
Definition from_owner (t : team) (a : nact) : Prop :=
  match a with NUniq Root _ => True | NUniq (Signed w) _ => w = t_owner t | _ => False end.
(** Who made an NFT. *)
Definition minted_by (P : N -> nstate -> Prop) (cfg : wcfg) (n0 : nstate) (h : list nop) (k : nft) : Prop :=
  exists h1 x a h2, h = h1 ++ (x, a) :: h2 /\ mints k a = true /\
    exists who, P who (nrun cfg n0 h1) /\
      ((exists c, a = NUniq (Signed who) c) \/ (exists c, a = NWorld (WAdsc (Signed who) c))).

(** ** C161 *)
Definition prices_class (c : N) (a : nact) : Prop :=
  match a with NWorld (WCredit _ (Model_Credit.KNftClassCredit c' _)) => c' = c | _ => False end.
Definition stakes_class (c : N) (a : nact) : Prop :=
  match a with NWorld (WAdsc _ (Model_Adsc.AAddNft _ c' _)) => c' = c | _ => False end.
