(** NFTs: pallet_uniques as the runtime configures it (runtime/src/lib.rs:1289-1306,
    1605), joined with the whole chain of Model_World.v. Two pallets of the chain use it:
    credit burns NFTs for credit (pallets/credit/src/lib.rs:637-665) and adsc mints and
    burns the NFTs that stand for stakes (pallets/adsc/src/lib.rs:283-320, 532-588).

    pallet_uniques itself (polkadot-v1.1.0) is not in /repo: its calls are modelled from
    its published behaviour and belong to the trusted base. Simplifications: freezing,
    attributes, the maximal supply, [redeposit] and the witness of [destroy] are left
    out; a new owner of a collection need not have accepted it; prices go with their item
    when a collection is destroyed; deposits are the oracle [wx_deposit] (Model_World.v),
    what is reserved for them is [WReserve]. *)
From Verif Require Import Base Balances Model_UserPrivileges Model_Chain Model_World.
From stdpp Require Import gmap.
Open Scope N_scope.

(** The team of a collection. *)
Record team := Team { t_owner : N; t_issuer : N; t_admin : N }.
Notation nft := (N * N)%type.

(** The chain with its NFTs. [n_items] and [n_meta] are what counts: they are handed to
    the pallets before each step, as the balances are. *)
Record nstate := NS {
  n_w : wstate; n_teams : gmap N team; n_items : gmap nft N; n_meta : gmap nft unit;
  n_approved : gmap nft N; n_price : gmap nft (N * option N) }.

(** Calls of pallet_uniques. *)
Inductive ncall :=
| NCreate (class admin : N)                       (* create; by Root force_create *)
| NDestroy (class : N)
| NMint (class item to : N)
| NBurn (class item : N) (check : option N)
| NMove (class item to : N)                       (* transfer *)
| NApprove (class item delegate : N)              (* approve_transfer *)
| NCancel (class item : N)                        (* cancel_approval *)
| NTeam (class issuer admin : N)                  (* set_team *)
| NForceTeam (class : N) (t : team)               (* force_item_status *)
| NPass (class owner : N)                         (* transfer_ownership *)
| NSetMeta (class item : N)
| NClearMeta (class item : N)
| NPrice (class item : N) (p : option (N * option N))   (* set_price, with a chosen buyer *)
| NBuy (class item bid : N).                      (* buy_item *)

(** A call of pallet_uniques, or anything else the chain does. *)
Inductive nact := NUniq (o : origin) (c : ncall) | NWorld (a : wact).
Definition nop : Type := wctx * nact.

(** The moves of NFTs that Model_World.v allows the surroundings are calls here. *)
Definition not_nft (a : wact) : bool :=
  match a with
  | WBlock (BNftSet _ _ _) | WBlock (BNftAdmin _ _) => false
  | WBlock (BAdsc e) =>
      match e with
      | Model_Adsc.AUniqBurn _ _ | Model_Adsc.AUniqMint _ _ _ | Model_Adsc.AUniqMove _ _ _ | Model_Adsc.AUniqCreate _
      | Model_Adsc.AUniqDestroy _ | Model_Adsc.AUniqSetMeta _ _ | Model_Adsc.AUniqClearMeta _ _ => false
      | _ => true
      end
  | _ => true
  end.

Definition with_items (n : nstate) (m : gmap nft N) : nstate :=
  NS (n_w n) (n_teams n) m (n_meta n) (n_approved n) (n_price n).
Definition with_team (n : nstate) (class : N) (t : team) : nstate :=
  NS (n_w n) (<[class := t]> (n_teams n)) (n_items n) (n_meta n) (n_approved n) (n_price n).
Definition with_meta (n : nstate) (m : gmap nft unit) : nstate :=
  NS (n_w n) (n_teams n) (n_items n) m (n_approved n) (n_price n).
(** Approval and price are dropped with the item and when it changes hands. *)
Definition unlisted (n : nstate) (k : nft) : nstate :=
  NS (n_w n) (n_teams n) (n_items n) (n_meta n) (delete k (n_approved n)) (delete k (n_price n)).
Definition pass_on (n : nstate) (k : nft) (to : N) : nstate := unlisted (with_items n (<[k := to]> (n_items n))) k.

Section model.
  Context (cfg : wcfg).

  (** ** pallet_uniques *)
  Definition owns (n : nstate) (class who : N) : bool :=
    match n_teams n !! class with Some t => t_owner t =? who | None => false end.
  Definition administers (n : nstate) (class who : N) : bool :=
    match n_teams n !! class with Some t => t_admin t =? who | None => false end.
  Definition owner_or_root (n : nstate) (o : origin) (class : N) : bool :=
    match o with Root => bool_decide (is_Some (n_teams n !! class)) | Signed who => owns n class who | NoOrigin => false end.
  (** The item's owner or the collection's admin. *)
  Definition holds (n : nstate) (class item who : N) : bool :=
    match n_teams n !! class, n_items n !! (class, item) with
    | Some t, Some w => (w =? who) || (t_admin t =? who)
    | _, _ => false
    end.
  Definition nexec (x : wctx) (n : nstate) (o : origin) (c : ncall) : option nstate :=
    match c with
    | NCreate class admin =>
        match n_teams n !! class, o with
        | None, Signed who => if wx_deposit x then Some (with_team n class (Team who admin admin)) else None
        | None, Root => Some (with_team n class (Team admin admin admin))
        | _, _ => None
        end
    | NDestroy class =>
        if owner_or_root n o class then
          Some (NS (n_w n) (delete class (n_teams n))
                  (filter (fun p => p.1.1 <> class) (n_items n)) (filter (fun p => p.1.1 <> class) (n_meta n))
                  (filter (fun p => p.1.1 <> class) (n_approved n)) (filter (fun p => p.1.1 <> class) (n_price n)))
        else None
    | NMint class item to =>
        match o, n_teams n !! class, n_items n !! (class, item) with
        | Signed who, Some t, None =>
            if (t_issuer t =? who) && wx_deposit x then Some (with_items n (<[(class, item) := to]> (n_items n))) else None
        | _, _, _ => None
        end
    | NBurn class item check =>
        match o with
        | Signed who =>
            if holds n class item who && match check with Some w => bool_decide (n_items n !! (class, item) = Some w) | None => true end
            then Some (unlisted (with_items n (delete (class, item) (n_items n))) (class, item)) else None
        | _ => None
        end
    | NMove class item to =>
        match o, n_items n !! (class, item) with
        | Signed who, Some _ =>
            if holds n class item who || bool_decide (n_approved n !! (class, item) = Some who)
            then Some (pass_on n (class, item) to) else None
        | _, _ => None
        end
    | NApprove class item delegate =>
        match n_items n !! (class, item) with
        | Some _ =>
            if match o with Root => true | Signed who => holds n class item who | NoOrigin => false end
            then Some (NS (n_w n) (n_teams n) (n_items n) (n_meta n) (<[(class, item) := delegate]> (n_approved n)) (n_price n))
            else None
        | None => None
        end
    | NCancel class item =>
        if match o with Root => true | Signed who => holds n class item who | NoOrigin => false end
        then Some (NS (n_w n) (n_teams n) (n_items n) (n_meta n) (delete (class, item) (n_approved n)) (n_price n))
        else None
    | NTeam class issuer admin =>
        match o, n_teams n !! class with
        | Signed who, Some t => if t_owner t =? who then Some (with_team n class (Team who issuer admin)) else None
        | _, _ => None
        end
    | NForceTeam class t =>
        match o, n_teams n !! class with Root, Some _ => Some (with_team n class t) | _, _ => None end
    | NPass class owner =>
        match o, n_teams n !! class with
        | Signed who, Some t =>
            if t_owner t =? who then Some (with_team n class (Team owner (t_issuer t) (t_admin t))) else None
        | _, _ => None
        end
    | NSetMeta class item =>
        if owner_or_root n o class && wx_deposit x then Some (with_meta n (<[(class, item) := tt]> (n_meta n))) else None
    | NClearMeta class item =>
        if owner_or_root n o class && bool_decide (is_Some (n_meta n !! (class, item)))
        then Some (with_meta n (delete (class, item) (n_meta n))) else None
    | NPrice class item p =>
        match o, n_items n !! (class, item) with
        | Signed who, Some w =>
            if w =? who
            then Some (NS (n_w n) (n_teams n) (n_items n) (n_meta n) (n_approved n)
                         (partial_alter (fun _ => p) (class, item) (n_price n)))
            else None
        | _, _ => None
        end
    | NBuy class item bid =>
        match o, n_items n !! (class, item), n_price n !! (class, item) with
        | Signed who, Some w, Some (p, chosen) =>
            if negb (w =? who) && (p <=? bid) && match chosen with Some b => b =? who | None => true end then
              match transfer_keep (Model_DeeperNode.d_ed (wc_node cfg)) (w_bank (n_w n)) who w p with
              | Some b => Some (pass_on (NS (set_w_bank (n_w n) b) (n_teams n) (n_items n) (n_meta n) (n_approved n) (n_price n))
                                  (class, item) who)
              | None => None
              end
            else None
        | _, _, _ => None
        end
    end.

  (** ** The rest of the chain *)
  (** What adsc and credit see of the NFTs. *)
  Definition seen_by_adsc (n : nstate) : Model_Adsc.uniques :=
    Model_Adsc.Uniques ((fun _ => tt) <$> n_teams n) (n_items n) (n_meta n).
  Definition handed (n : nstate) : wstate :=
    let w := n_w n in let j := w_chain w in
    W (w_bank w) (w_priv w) (w_proofs w) (w_node w)
      (J (Model_Credit.set_k_nft_admin (Model_Credit.set_k_nft_owner (j_c j) (n_items n)) (t_admin <$> n_teams n)) (j_s j))
      (w_chan w) (w_rel w) (Model_Adsc.set_a_uniq (w_adsc w) (seen_by_adsc n)) (w_tips w) (w_held w) (w_locked w).
  (** credit's burn_nft calls pallet_uniques::burn (credit lib.rs:655). *)
  Definition credit_burn (a : wact) : bool :=
    match a with WCredit _ (Model_Credit.KBurnNft _ _) => true | _ => false end.
  Definition items_after (a : wact) (w : wstate) : gmap nft N :=
    if credit_burn a then Model_Credit.k_nft_owner (j_c (w_chain w)) else Model_Adsc.u_items (Model_Adsc.a_uniq (w_adsc w)).
  Definition kept {A : Type} (items : gmap nft N) (m : gmap nft A) : gmap nft A := filter (fun p => is_Some (items !! p.1)) m.
  Definition nworld (x : wctx) (n : nstate) (a : wact) : nstate * wout :=
    if negb (not_nft a) then (n, WFail) else
    match wstep cfg (handed n) (x, a) with
    | (w, WDone ev) =>
        let items := items_after a w in
        (NS w (n_teams n) items (Model_Adsc.u_meta (Model_Adsc.a_uniq (w_adsc w)))
           (kept items (n_approved n)) (kept items (n_price n)), WDone ev)
    | (_, r) => (n, r)
    end.

  Definition nstep (n : nstate) (op : nop) : nstate * wout :=
    match op.2 with
    | NUniq o c => match nexec op.1 n o c with Some n' => (n', WDone []) | None => (n, WFail) end
    | NWorld a => nworld op.1 n a
    end.
  Fixpoint nrun (n : nstate) (h : list nop) : nstate :=
    match h with [] => n | op :: r => nrun (nstep n op).1 r end.

  (** Genesis: no collections (the runtime gives pallet_uniques no genesis, 1605). *)
  Definition ngenesis (w : wstate) : nstate := NS w ∅ ∅ ∅ ∅ ∅.
End model.
