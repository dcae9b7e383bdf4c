(** Building the first state of the chain from a chain specification: the genesis builders
    of the staking, credit and deeper-node pallets in the order of construct_runtime
    (runtime/src/lib.rs:1551-1624: Balances, Staking, Session, Credit, DeeperNode), and
    cli/src/chain_spec.rs testnet_genesis.

    Simplified: the keys of the session pallet are taken to be complete. EVM, democracy,
    elections, society and the other library pallets are not built here. *)
From Verif Require Import Base Balances Model_UserPrivileges.
From Verif Require Model_Credit Model_Staking Model_DeeperNode Model_Adsc.
From Verif Require Import Model_Chain Model_World.
From stdpp Require Import gmap.
Open Scope N_scope.

(** staking lib.rs:982-987 an entry of [stakers]: stash, controller, balance, and whether
    the status is [Validator] (lib.rs:150-157 StakerStatus). *)
Record staker := Staker { g_stash : N; g_ctrl : N; g_value : N; g_valid : bool }.
(** The parts of the specification: balances; staking lib.rs:976-989 ([g_pars] holds the
    numbers, the invulnerables and the fraction); deeper-node lib.rs:160-173; credit
    lib.rs:318-336. NFTs are not part of a specification, but of the chain this one
    continues. *)
Record gconfig := GConfig {
  g_balances : list (N * N);
  g_pars : Model_Staking.pars; g_force : Model_Staking.forcing;
  g_stakers : list staker; g_dels : list (N * list N);
  g_evm : list (N * N);
  g_settings : list Model_Credit.setting; g_data : list (N * Model_Credit.cdata);
  g_nfts : Model_Adsc.uniques }.

(** Balances: pallet_balances' builder, which refuses amounts below the existential deposit
    and accounts named twice. *)
Definition gbank (l : list (N * N)) : bank := Bank (list_to_map (map (fun p => (p.1, Acct p.2 0 0)) l)) 0.
Definition gbalanced (ed : N) (l : list (N * N)) : bool :=
  forallb (fun p => ed <=? p.2) l && bool_decide (NoDup l.*1).

Section build.
  Context (cfg : wcfg) (x : wctx).

  (** staking lib.rs:1027 and 1034: a call whose result is dropped ([let _ =]); bond and
      validate fail before they write. *)
  Definition gtry (w : wstate) (o : origin) (c : Model_Staking.kcall) : wstate :=
    (wstep cfg w (x, WStaking o (JOf c))).1.
  (** staking lib.rs:1022-1040; the assertion stops the build. *)
  Definition gstaker (w : wstate) (s : staker) : option wstate :=
    if free_of (w_bank w) (g_stash s) <? g_value s then None else
    let w1 := gtry w (Signed (g_stash s)) (Model_Staking.KBond (g_ctrl s) (g_value s) Model_Staking.PStaked) in
    Some (if g_valid s then gtry w1 (Signed (g_ctrl s)) Model_Staking.KValidate else w1).
  (** staking lib.rs:1041-1047; [unwrap] stops the build. *)
  Definition gdelegation (w : wstate) (p : N * list N) : option wstate :=
    match wstep cfg w (x, WStaking (Signed p.1) (JOf (Model_Staking.KDelegate p.2))) with
    | (w', WDone _) => Some w'
    | _ => None
    end.
  Fixpoint gall {A} (f : wstate -> A -> option wstate) (w : wstate) (l : list A) : option wstate :=
    match l with
    | [] => Some w
    | a :: r => match f w a with Some w' => gall f w' r | None => None end
    end.
  (** pallet_session's builder: new_session_genesis for sessions 0 and 1, start_session 0. *)
  Definition gsessions (w : wstate) : wstate :=
    let w1 := (wstep cfg w (x, WBlock (BNewSession 0))).1 in
    let w2 := (wstep cfg w1 (x, WBlock (BNewSession 1))).1 in
    (wstep cfg w2 (x, WBlock (BStartSession 0))).1.
  (** credit lib.rs:339-347 and deeper-node lib.rs:176-182, the builders that come later:
      they fill storage that is empty until then. *)
  Definition gfill (c : Model_Credit.kstate) (n : anode) (w : wstate) : wstate :=
    W (w_bank w) (w_priv w) (w_proofs w) n
      (J (Model_Credit.set_k_bank c (Model_Credit.k_bank (j_c (w_chain w)))) (j_s (w_chain w)))
      (w_chan w) (w_rel w) (w_adsc w) (w_tips w) (w_held w) (w_locked w).

  Definition gbuild (g : gconfig) : option wstate :=
    let b := gbank (g_balances g) in
    if negb (gbalanced (Model_Staking.kc_ed (jc_s (wc_chain cfg))) (g_balances g)) then None else
    let w0 := wgenesis b (g_pars g) [] [] [] (g_nfts g) in
    let w1 := gtry w0 Root (Model_Staking.KForce (g_force g)) in
    match gall gstaker w1 (g_stakers g) with
    | None => None
    | Some w2 =>
        match gall gdelegation w2 (g_dels g) with
        | None => None
        | Some w3 =>
            Some (gfill (Model_Credit.kinit b (g_settings g) (g_data g)) (Model_DeeperNode.dinit b (g_evm g)) (gsessions w3))
        end
    end.

  (** cli/src/chain_spec.rs:138-155: the first gift to an account counts. *)
  Definition give (l : list (N * N)) (p : N * N) : list (N * N) :=
    if bool_decide (p.1 ∈ l.*1) then l else l ++ [p].
  (** cli/src/chain_spec.rs:122-248 testnet_genesis; [authorities] are the stashes and
      controllers, [ed] is the existential deposit, [frac] is 10 percent, 84 the default
      depth of history. The four example EVM addresses (220-247) are given as [evm]. *)
  Definition testnet (ed : N) (authorities : list (N * N)) (authority_endowment stash : N)
      (endowed : list N) (endowment : N) (settings : list Model_Credit.setting)
      (data : list (N * Model_Credit.cdata)) (evm : list (N * N)) : gconfig :=
    let gifts := map (fun a => (a, endowment)) endowed ++
                 flat_map (fun p => [(p.1, stash); (p.2, authority_endowment)]) authorities in
    let n := N.of_nat (length authorities) mod two32 in
    GConfig (fold_left give gifts [])
      (Model_Staking.Pars ed (57534 * Model_Credit.DPR) n n [] (map fst authorities) 100000000 84)
      Model_Staking.NotForcing (map (fun p => Staker p.1 p.2 stash true) authorities) []
      evm settings data (Model_Adsc.Uniques ∅ ∅ ∅).
End build.
