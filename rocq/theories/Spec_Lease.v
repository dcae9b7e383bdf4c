(** Specification vocabulary for the time a server asks for. *)
From Verif Require Import Base Balances Model_DeeperNode Spec_DeeperNode.
From stdpp Require Import gmap strings.
Open Scope N_scope.

(** The last block each device asked for: [t] holds it for every registered
    device. Registering (again) and withdrawing as a server end it at once, a
    device that starts to serve asks for [eras] eras from now, a device that
    serves already asks for nothing by offering to serve once more, and an update
    asks for [eras] eras from now whether the device serves or not. *)
Definition term_call (cfg : dcfg) (r : registry) (t : gmap N N) (now who : N) (c : dcall) : gmap N N :=
  match c with
  | DRegister _ | DUnregisterServer => <[who := now]> t
  | DUnregister => delete who t
  | DRegisterServer eras =>
      match r !! who with
      | Some (_, true) => t
      | _ => <[who := now + eras * d_bpe cfg]> t
      end
  | DUpdateServer eras => <[who := now + eras * d_bpe cfg]> t
  | _ => t
  end.

Section spec.
  Context (cfg : dcfg).

  (** The same after a history: accepted calls only, in order. *)
  Fixpoint terms_after (s : dstate) (r : registry) (t : gmap N N) (h : list dop) : gmap N N :=
    match h with
    | [] => t
    | o :: h' =>
        let ok := is_ok (snd (dstep cfg s o.1.1 o.1.2 o.2)) in
        match o.1.2 with
        | Signed who =>
            terms_after (ddo cfg s o)
              (if ok then reg_call r who o.2 else r)
              (if ok then term_call cfg r t (x_now o.1.1) who o.2 else t) h'
        | _ => terms_after (ddo cfg s o) r t h'
        end
    end.

  (** No block number of the history is near the end of the number range. *)
  Definition roomy (h : list dop) : Prop :=
    forall o, In o h -> x_now o.1.1 + d_maxeras cfg * d_bpe cfg < two32.
End spec.

(** [o] is a call of [who]. *)
Definition sent_by (who : N) (o : dop) : Prop := o.1.2 = Signed who.

(** [who] is offered as a server by the country list. *)
Definition listed (s : dstate) (who : N) : Prop :=
  exists k, who ∈ get_list (d_bycountry s) k.
