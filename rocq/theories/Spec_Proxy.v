(** What an account's proxies are, in terms of the entries (delegate, kind, delay). *)
From Verif Require Import Base Model_Runtime.
From stdpp Require Import gmap strings.
Local Open Scope string_scope.
Open Scope N_scope.

(** The proxies of an account. *)
Definition proxies (s : rstate) (a : N) : list (N * ptype * N) := default [] (r_proxies s !! a).

(** At most 32 proxies, none named twice, none the account itself. *)
Definition proper (s : rstate) : Prop :=
  forall a, (length (proxies s a) <= 32)%nat /\ NoDup (proxies s a) /\
    forall d t e, In (d, t, e) (proxies s a) -> d <> a.

(** The calls of pallet_proxy with which an account changes its proxies. *)
Definition manages (n : cname) : Prop :=
  In n [("Proxy", "add_proxy"); ("Proxy", "remove_proxy"); ("Proxy", "remove_proxies"); ("Proxy", "kill_pure")].

(** A history that begins without proxies. *)
Definition proxy_reachable derive pure_of multi (s : rstate) : Prop :=
  exists s0 l, r_proxies s0 = ∅ /\ (run derive pure_of multi s0 l).1 = s.
