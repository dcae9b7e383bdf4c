(** What the runtime's filters promise, in terms of call names and of who executed what. *)
From Verif Require Import Base Model_Runtime.
From stdpp Require Import gmap strings.
Local Open Scope string_scope.
Open Scope N_scope.

(** The calls each kind of proxy is for. *)
Definition permits (t : ptype) (n : cname) : Prop :=
  match t with
  | KAny => True
  | KNonTransfer =>
      n.1 <> "Balances" /\ n <> ("Vesting", "vested_transfer") /\ n <> ("Indices", "transfer")
  | KGovernance =>
      In n.1 ["Democracy"; "Council"; "Society"; "TechnicalCommittee"; "Elections"; "Treasury"]
  | KStaking => n.1 = "Staking"
  end.

(** Everything [x] is for, [y] is for as well. *)
Definition narrower (x y : ptype) : Prop := forall n, permits x n -> permits y n.

(** Account [a] executed the call named [n]. *)
Definition did (tr : list entry) (a : N) (n : cname) : Prop := In (CSigned a, n) tr.

(** Every proxy of [a] is of a kind within [t]. *)
Definition capped (s : rstate) (a : N) (t : ptype) : Prop :=
  forall l, r_proxies s !! a = Some l -> forall d x e, In (d, x, e) l -> narrower x t.

(** Nobody has been made a rescuer of [a], and [a] has no recovery set up. *)
Definition unclaimed (s : rstate) (a : N) : Prop :=
  r_config s !! a = None /\ forall w, r_rescue s !! w <> Some a.

(** Neither the sudo key nor Root's power to appoint rescuers was used. *)
Definition unforced (tr : list entry) : Prop :=
  forall e, In e tr -> e.2.1 <> "Sudo" /\ e.2 <> ("Recovery", "set_recovered").

(** The extrinsic is not signed by [a]. *)
Definition not_by (a : N) (x : xt) : Prop := forall c, x <> XSigned a c.

(** The call consists of leaves, of batches, of derived accounts' calls and of the management of
    one's own proxies: it does not act for a further account. *)
Fixpoint direct (c : rcall) : Prop :=
  match c with
  | Leaf _ _ _ | AddProxy _ _ _ | RemoveProxy _ _ _ | RemoveProxies => True
  | Batch _ l => (fix all (l : list rcall) : Prop :=
                    match l with [] => True | x :: r => direct x /\ all r end) l
  | AsDerivative _ x => direct x
  | _ => False
  end.

(** Not a call of Root's. *)
Definition not_root (x : xt) : Prop := forall c, x <> XRoot c.

(** Names no pause may touch. *)
Definition protected (n : cname) : Prop := n.1 = "Sudo" \/ n.1 = "System" \/ n.1 = "TxPause".
