(** The asset that carries ADSC (AdscId = 0, runtime/src/lib.rs:1465) in pallet_assets as
    the runtime configures it (runtime/src/lib.rs:1181-1210), around the ADSC pallet of
    Model_Adsc.v: its team, its status, and the calls that accounts and Root can make.

    pallet_assets is environment code (polkadot-v1.1.0) and belongs to the trusted base.
    Simplifications: the calls for metadata, approvals, touch, refund and block are left
    out (an approved transfer is a transfer by its owner); that accounts of an asset which
    is not sufficient need DPR is left out; the deposit stays with the account that
    made it. *)
From Verif Require Import Base Balances Model_Adsc.
From stdpp Require Import gmap.
Open Scope N_scope.

(** pallet_assets AssetDetails: the accounts with powers, [AssetStatus], frozen accounts
    and the deposit with its depositor. *)
Record team := Team { t_owner : N; t_issuer : N; t_admin : N; t_freezer : N }.
Inductive life := Live | Frozen | Destroying.
Record details := Details { d_team : team; d_life : life; d_stop : list N; d_dep : option N }.

(** The ADSC pallet and the rest of AssetDetails; balances, supply and minimum balance are
    in [a_ass]. *)
Record wst := WSt { w_s : astate; w_det : option details }.

(** pallet_assets calls for asset 0. *)
Inductive wcall :=
| WCreate (admin min : N)
| WForceCreate (owner min : N)
| WStartDestroy
| WDestroyAccounts (whom : list N)
| WFinishDestroy
| WMint (who v : N)
| WBurn (who v : N)
| WTransfer (dst v : N)
| WForceTransfer (src dst v : N)
| WFreeze (who : N)
| WThaw (who : N)
| WFreezeAsset
| WThawAsset
| WSetOwner (owner : N)
| WSetTeam (issuer admin freezer : N)
| WSetMin (v : N)
| WForceStatus (t : team) (min : N) (frozen : bool).

Definition set_led (w : wst) (l : option ledger) : wst := WSt (set_a_ass (w_s w) l) (w_det w).
Definition set_det (w : wst) (d : option details) : wst := WSt (w_s w) d.
Definition stopped (d : details) (who : N) : bool := existsb (N.eqb who) (d_stop d).
(** runtime/src/lib.rs:1182 AssetDeposit. *)
Definition ASSET_DEPOSIT : N := 100 * DPR.

Section model.
  Context (cfg : acfg).

  (** runtime/src/lib.rs:1206 CreateOrigin = EnsureSigned: [create] with any signed account
      as owner; fails if the asset exists, the minimum is 0 or the deposit is missing. *)
  Definition wcreate (w : wst) (who admin min : N) : option wst :=
    match w_det w with
    | Some _ => None
    | None =>
        if min =? 0 then None else
        match reserve (ac_ed cfg) (a_bank (w_s w)) who ASSET_DEPOSIT with
        | None => None
        | Some b => Some (WSt (set_a_ass (set_a_bank (w_s w) b) (Some (Ledger ∅ 0 min)))
                            (Some (Details (Team who admin admin admin) Live [] (Some who))))
        end
    end.
  (** [do_force_create]: all powers to the owner, no deposit. *)
  Definition wforce_create (w : wst) (owner min : N) : option wst :=
    match w_det w with
    | Some _ => None
    | None => if min =? 0 then None else
        Some (WSt (set_a_ass (w_s w) (Some (Ledger ∅ 0 min)))
                (Some (Details (Team owner owner owner owner) Live [] None)))
    end.

  Definition is_live (d : details) : bool := match d_life d with Live => true | _ => false end.
  Definition is_dying (d : details) : bool := match d_life d with Destroying => true | _ => false end.
  Definition with_life (w : wst) (d : details) (v : life) : option wst :=
    Some (set_det w (Some (Details (d_team d) v (d_stop d) (d_dep d)))).
  Definition with_team (w : wst) (d : details) (t : team) : option wst :=
    Some (set_det w (Some (Details t (d_life d) (d_stop d) (d_dep d)))).
  Definition with_stop (w : wst) (d : details) (l : list N) : option wst :=
    Some (set_det w (Some (Details (d_team d) (d_life d) l (d_dep d)))).
  Definition led (w : wst) (f : ledger -> option ledger) : option wst :=
    match a_ass (w_s w) with
    | Some l => match f l with Some l' => Some (set_led w (Some l')) | None => None end
    | None => None
    end.

  (** A call signed by [who]. *)
  Definition wsigned (w : wst) (who : N) (c : wcall) : option wst :=
    match c with
    | WCreate admin min => wcreate w who admin min
    | WForceCreate _ _ | WForceStatus _ _ _ => None
    | _ =>
        match w_det w with
        | None => None
        | Some d =>
            let t := d_team d in
            match c with
            | WStartDestroy => if who =? t_owner t then with_life w d Destroying else None
            | WDestroyAccounts l =>
                if is_dying d
                then led w (fun g => Some (Ledger (fold_left (fun m a => delete a m) l (as_bal g)) (as_supply g) (as_min g)))
                else None
            | WFinishDestroy =>
                if is_dying d && bool_decide (from_option as_bal ∅ (a_ass (w_s w)) = ∅)
                then Some (WSt (set_a_ass (match d_dep d with
                                           | Some o => set_a_bank (w_s w) (unreserve (ac_ed cfg) (a_bank (w_s w)) o ASSET_DEPOSIT)
                                           | None => w_s w
                                           end) None) None)
                else None
            | WMint a v =>
                if v =? 0 then Some w else
                if is_live d && (who =? t_issuer t) then led w (fun g => amint g a v) else None
            | WBurn a v =>
                if negb (is_dying d) && (who =? t_admin t) && negb (stopped d a)
                then led w (fun g => aburn g a (N.min v (abal g a))) else None
            | WTransfer dst v =>
                if is_live d && negb (stopped d who) then led w (fun g => atransfer g who dst v) else None
            | WForceTransfer src dst v =>
                if is_live d && (who =? t_admin t) && negb (stopped d src)
                then led w (fun g => atransfer g src dst v) else None
            | WFreeze a =>
                if negb (is_dying d) && (who =? t_freezer t) then with_stop w d (a :: d_stop d) else None
            | WThaw a =>
                if negb (is_dying d) && (who =? t_admin t)
                then with_stop w d (filter (fun b => b <> a) (d_stop d)) else None
            | WFreezeAsset => if is_live d && (who =? t_freezer t) then with_life w d Frozen else None
            | WThawAsset =>
                if negb (is_dying d) && negb (is_live d) && (who =? t_admin t) then with_life w d Live else None
            | WSetOwner o =>
                if is_live d && (who =? t_owner t)
                then with_team w d (Team o (t_issuer t) (t_admin t) (t_freezer t)) else None
            | WSetTeam i a f =>
                if is_live d && (who =? t_owner t) then with_team w d (Team (t_owner t) i a f) else None
            | WSetMin v =>
                if (who =? t_owner t) && negb (v =? 0)
                then led w (fun g => if (v <? as_min g) || bool_decide (as_bal g = ∅)
                                     then Some (Ledger (as_bal g) (as_supply g) v) else None)
                else None
            | _ => None
            end
        end
    end.
  (** A call by Root (runtime/src/lib.rs:1194 ForceOrigin = EnsureRoot). *)
  Definition wroot (w : wst) (c : wcall) : option wst :=
    match c with
    | WForceCreate o m => wforce_create w o m
    | WStartDestroy => match w_det w with Some d => with_life w d Destroying | None => None end
    | WForceStatus t m f =>
        match w_det w with
        | Some d =>
            if is_dying d then None else
            match led w (fun g => Some (Ledger (as_bal g) (as_supply g) m)) with
            | Some w1 => Some (set_det w1 (Some (Details t (if f then Frozen else Live) (d_stop d) (d_dep d))))
            | None => None
            end
        | None => None
        end
    | _ => None
    end.
  Definition wasset (w : wst) (o : origin) (c : wcall) : option wst :=
    match o with Signed who => wsigned w who c | Root => wroot w c | _ => None end.

  (** The account that an operation of the ADSC pallet or a transfer takes ADSC from. *)
  Definition debits (op : aop) : option N :=
    match snd op with
    | inl (Signed who, ASwap _) => Some who
    | inl (_, ABridgeBurn who _) => Some who
    | inr (AAssetMove src _ _) => Some src
    | _ => None
    end.
  (** pallet_assets refuses to mint, burn or transfer unless the asset is live, and to debit
      a frozen account. *)
  Definition refused (w : wst) (op : aop) : bool :=
    match w_det w with
    | None => false
    | Some d => negb (is_live d) || match debits op with Some a => stopped d a | None => false end
    end.
  (** The ADSC pallet, its hooks and other pallets. A refused operation finds no asset. On an
      upgrade (adsc/src/lib.rs:233-257) the result of [create] is not looked at: whoever has
      created the asset keeps it. *)
  Definition wado (w : wst) (op : aop) : wst * list aev :=
    match snd op with
    | inr AUpgrade =>
        let '(s', evs) := ado cfg (w_s w) op in
        (WSt s' (match w_det w with
                 | Some d => Some d
                 | None => if a_version (w_s w) <? 2
                           then Some (Details (Team (ac_acct cfg) (ac_acct cfg) (ac_acct cfg) (ac_acct cfg)) Live [] None)
                           else None
                 end), evs)
    | _ =>
        if refused w op
        then let '(s', evs) := ado cfg (set_a_ass (w_s w) None) op in
             (WSt (set_a_ass s' (a_ass (w_s w))) (w_det w), evs)
        else let '(s', evs) := ado cfg (w_s w) op in (WSt s' (w_det w), evs)
    end.

  (** An operation: of the ADSC pallet and its surroundings, or a call of pallet_assets. *)
  Definition wop : Type := actx * ((origin * acall + aent) + origin * wcall).
  Definition wdo (w : wst) (op : wop) : wst * list aev :=
    match snd op with
    | inl i => wado w (fst op, i)
    | inr (o, c) => (default w (wasset w o c), [])
    end.
  Fixpoint wrun (w : wst) (h : list wop) : wst * list (N * aev) :=
    match h with
    | [] => (w, [])
    | op :: r =>
        let '(w1, evs) := wdo w op in
        let '(w2, out) := wrun w1 r in
        (w2, map (fun e => (ax_time (fst op), e)) evs ++ out)
    end.
End model.

(** Before the asset exists; [v] is the storage version the pallet starts with: below 2 on
    the chain that is upgraded, 2 on a new chain (the genesis of a pallet stores its current version,
    adsc/src/lib.rs:101,105). *)
Definition winit (b : bank) (u : uniques) (v : N) : wst := WSt (set_a_version (ainit b u) v) None.
