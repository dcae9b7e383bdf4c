(** The credit pallet and the staking pallet in one chain: pallets/credit/src/lib.rs
    under pallets/staking/src/lib.rs and slashing.rs, sharing balances and the block
    number (runtime/src/lib.rs:611-650, 1305-1330).

    Model_Staking.v takes the answers of the credit pallet from its surroundings.
    Here they come from the state of Model_Credit.v, and every call the staking
    pallet makes to the credit pallet (trait CreditInterface) changes that state,
    in the order of the source. Functions of the staking pallet that do not call
    the credit pallet, or call it only to read, are those of Model_Staking.v. *)
From Verif Require Import Base Balances Model_UserPrivileges.
From Verif Require Model_Credit.
From Verif Require Import Model_StakingLedger Model_Staking.
From stdpp Require Import gmap.
Open Scope N_scope.

Notation credit := Model_Credit.kstate.

(** The storage of both pallets. Balances are kept on both sides and copied after
    every step. *)
Record jstate := J { j_c : credit; j_s : kstate }.

(** The constants of both pallets. *)
Record jcfg := JCfg { jc_c : Model_Credit.kcfg; jc_s : kcfg }.

(** What neither pallet stores: the surroundings of the credit pallet (block
    number, time, node pallet, privileges) and those of the staking pallet that
    are not the credit pallet's answers. *)
Record jctx := JCtx {
  jx_c : Model_Credit.kctx;
  jx_limit : N -> bool; jx_other : N -> N; jx_dies : N -> bool;
  jx_consumer : N -> bool; jx_sig : N -> bool; jx_disable : N -> bool }.

(** Calls of the staking pallet. lib.rs:1908-1919 force_undelegate names a penalty
    for each account, which Model_Staking.v leaves out. *)
Inductive jcall := JOf (c : kcall) | JForceUndelegate (l : list (N * N)).

(** What the chain can do. *)
Inductive jact :=
| JCredit (o : origin) (c : Model_Credit.kcall)  (* a call of the credit pallet *)
| JEntry (e : Model_Credit.kentry)               (* its hooks; other pallets *)
| JCall (o : origin) (c : jcall)                 (* a call of the staking pallet *)
| JInit                                          (* hooks and handlers of the staking pallet *)
| JFinal
| JNewSession (i : N)
| JStartSession (i : N)
| JEndSession (i : N)
| JAuthor (a : N)
| JOffence (os : list (N * expo * list N * N)) (session : N)
| JBank (b : bank).                              (* any change of balances by others *)
Definition jop : Type := jctx * jact.
Inductive jout := JDone (ev : list kev) | JFail | JPanic.

(** The functions of CreditInterface that only the staking pallet calls; the rest of
    Model_Credit's entry points belong to other pallets, the EVM and the hooks. *)
Definition staking_only (e : Model_Credit.kentry) : bool :=
  match e with
  | Model_Credit.KSlash _ _ | Model_Credit.KGetReward _ _ _ | Model_Credit.KInitHistory _
  | Model_Credit.KAddOrUpdate _ _ _ | Model_Credit.KStakingBalance _ _ _ => true
  | _ => false
  end.

(** The functions of CreditInterface used here return no errors. *)
Definition lift {A} (r : res Model_Credit.kerr A) : res kerr A :=
  match r with ROk a => ROk a | _ => RPanic end.

Section model.
  Context (cfg : jcfg).
  Local Notation cc := (jc_c cfg).
  Local Notation sc := (jc_s cfg).

  Section step.
    Context (x : jctx).
    Local Notation cx := (jx_c x).
    Local Notation now := (Model_Credit.kx_now cx).

    (** credit lib.rs:1385-1390 pass_threshold. *)
    Definition passing (c : credit) (d : N) : bool :=
      match Model_Credit.k_uc c !! d with
      | Some r => Model_Credit.passes cc r
      | None => false
      end.

    (** The surroundings of a function of the staking pallet that reads the credit
        state [c0] and asks for the threshold when it is [c1]. *)
    Definition sctx2 (c0 c1 : credit) : kctx :=
      KCtx (Model_Credit.era_of cc now) (passing c1)
        (fun d f t => match Model_Credit.get_reward cc c0 cx d f t with ROk (_, r) => r | _ => None end)
        (fun d => Model_Credit.level_of <$> Model_Credit.credit_score c0 d)
        (fun d => Model_Credit.get_credit_balance c0 d (Some (Model_Credit.k_default_id c0)))
        (fun d => Model_Credit.get_credit_balance c0 d (Some (Model_Credit.k_usdt_id c0)))
        now
        (fun w => Model_Credit.kx_priv cx w BlackListAdmin)
        (fun w => Model_Credit.kx_priv cx w ReleaseSetter)
        (fun w => Model_Credit.kx_priv cx w CreditAdmin)
        (fun w => Model_Credit.kx_priv cx w NpowMint)
        (jx_limit x) (jx_other x) (jx_dies x) (jx_consumer x) (jx_sig x) (jx_disable x).
    Definition sctx (c : credit) : kctx := sctx2 c c.

    (** ** Delegation *)

    (** staking lib.rs:2437-2438: a new delegator's credit history is started. *)
    Definition joined (c : credit) (s s' : kstate) (d : N) : credit :=
      match d_recs (k_del s) !! d, d_recs (k_del s') !! d with
      | None, Some _ => fst (Model_Credit.init_delegator_history cc c cx d)
      | _, _ => c
      end.

    (** staking lib.rs:1861-1890 delegate, with do_delegate. *)
    Definition jdelegate (c : credit) (s : kstate) (o : origin) (l : list N)
        : res kerr (credit * kstate * list kev) :=
      signed o (fun w =>
        r <-? dispatch sc (sctx c) s o (KDelegate l) ;
        ROk (joined c s r.1 w, r.1, r.2)).

    (** staking lib.rs:1055-1068 staking_delegate and 3142-3181: the level and the
        balances are read first, then the score is raised, then the account
        delegates. *)
    Definition jstaking_delegate (c : credit) (s : kstate) (o : origin) (level : N)
        : res kerr (credit * kstate * list kev) :=
      signed o (fun w =>
        let cur := default 0 (Model_Credit.level_of <$> Model_Credit.credit_score c w) in
        c1 <-? lift (Model_Credit.add_or_update cc c cx w (level_gap level cur)
                       (Some (Model_Credit.k_default_id c))) ;
        r <-? dispatch sc (sctx2 c c1) s o (KStakeDelegate level) ;
        ROk (joined c1 s r.1 w, r.1, r.2)).

    (** staking lib.rs:1070-1085 usdt_staking_delegate and 3183-3235. *)
    Definition jusdt_delegate (c : credit) (s : kstate) (o : origin) (who usdt dpr : N)
        : res kerr (credit * kstate * list kev) :=
      let bals := kx_usdt (sctx c) who in
      let '(cur, rest) :=
        match kx_level (sctx c) who with
        | Some l => (l, usdt)
        | None => (0, ssub usdt (default 0 (head bals)))
        end in
      let dst := climb (length bals) bals (default 0 (bals !! N.to_nat cur)) rest cur in
      c1 <-? lift (Model_Credit.add_or_update cc c cx who (level_gap dst cur)
                     (Some (Model_Credit.k_usdt_id c))) ;
      let c2 := Model_Credit.set_staking_balance c1 who usdt dpr in
      r <-? dispatch sc (sctx2 c c2) s o (KUsdtDelegate who usdt dpr) ;
      ROk (joined c2 s r.1 who, r.1, r.2).

    (** staking lib.rs:1913-1917 the loop of force_undelegate. *)
    Fixpoint jforce (l : list (N * N)) (c : credit) (s : kstate) : res kerr (credit * kstate) :=
      match l with
      | [] => ROk (c, s)
      | (a, score) :: r =>
          c1 <-? lift (Model_Credit.slash_credit cc c cx a (Some score)) ;
          jforce r c1 (undelegate_in s a)
      end.
    Definition jforce_undelegate (c : credit) (s : kstate) (o : origin) (l : list (N * N))
        : res kerr (credit * kstate * list kev) :=
      root o (p <-? jforce l c s ; ROk (p.1, p.2, map (fun q => KCreditSlash q.1) l)).

    (** staking lib.rs:2117-2130 force_unstaking_delegate. *)
    Definition jforce_unstaking (c : credit) (s : kstate) (o : origin) (who : N)
        : res kerr (credit * kstate * list kev) :=
      c1 <-? lift (Model_Credit.slash_credit cc c cx who (Some Model_Credit.U64MAX)) ;
      r <-? dispatch sc (sctx2 c c1) s o (KForceUnstakingDelegate who) ;
      ROk (c1, r.1, r.2).

    Definition jdispatch (c : credit) (s : kstate) (o : origin) (call : jcall)
        : res kerr (credit * kstate * list kev) :=
      match call with
      | JForceUndelegate l => jforce_undelegate c s o l
      | JOf (KForceUndelegate l) => jforce_undelegate c s o (map (fun a => (a, 0)) l)
      | JOf (KStakeDelegate level) => jstaking_delegate c s o level
      | JOf (KUsdtDelegate who usdt dpr) => jusdt_delegate c s o who usdt dpr
      | JOf (KDelegate l) => jdelegate c s o l
      | JOf (KForceUnstakingDelegate who) => jforce_unstaking c s o who
      | JOf k => r <-? dispatch sc (sctx c) s o k ; ROk (c, r.1, r.2)
      end.

    (** ** Payouts *)

    (** staking lib.rs:2740-2807 pay_delegator; the call of get_reward, lib.rs:2755,
        may change the credit of the delegator. *)
    Definition jpay_delegator (c : credit) (s : kstate) (d : N) (r : drec) (pool : N)
        : res kerr (credit * kstate * N * list kev) :=
      let era := Model_Credit.era_of cc now in
      let since := default era (dr_since r) in
      let '(s1, paid, ev) := pay_delegator sc (sctx c) s d r pool in
      if since =? era then ROk (c, s1, paid, ev) else
      p <-? lift (Model_Credit.get_reward cc c cx d since (sub32 era 1)) ;
      ROk (p.1, s1, paid, ev).
    (** staking lib.rs:2700-2726. *)
    Fixpoint jpay_loop (n : nat) (l : list (N * drec)) (c : credit) (s : kstate) (pool : N)
        (last : kcursor) (counter : N) : res kerr (credit * kstate * N * kcursor * N * list kev) :=
      match n, l with
      | S m, (d, r) :: rest =>
          a <-? jpay_delegator c s d r pool ;
          let '(c1, s1, paid, e1) := (a : credit * kstate * N * list kev) in
          let pool1 := ssub pool paid in
          if pool1 =? 0 then ROk (c1, s1, pool1, last, counter, e1) else
          let '(s2, paid2, e2) := pay_referer sc s1 d paid pool1 in
          let pool2 := ssub pool1 paid2 in
          if pool2 =? 0 then ROk (c1, s2, pool2, last, counter, e1 ++ e2) else
          b <-? jpay_loop m rest c1 s2 pool2 (CKey (kc_dkey sc d)) (counter + 1) ;
          let '(c3, s3, pool3, last3, counter3, e3) := (b : credit * kstate * N * kcursor * N * list kev) in
          ROk (c3, s3, pool3, last3, counter3, e1 ++ e2 ++ e3)
      | _, _ => ROk (c, s, pool, last, counter, [])
      end.
    (** staking lib.rs:2676-2738 pay_delegators. *)
    Definition jpay_delegators (c : credit) (s : kstate) : res kerr (credit * kstate * list kev) :=
      let pool := pool_of sc (k_del s) in
      if pool =? 0 then ROk (c, s, []) else
      let per := d_per (k_del s) in
      a <-? jpay_loop (N.to_nat per) (delegators_from sc (k_del s) (d_cursor (k_del s))) c s pool
              (d_cursor (k_del s)) 0 ;
      let '(c1, s1, pool1, last, counter, ev) := (a : credit * kstate * N * kcursor * N * list kev) in
      let k1 := if counter =? per then set_d_cursor (k_del s1) last else k_del s1 in
      ROk (c1, set_k_del s1 (set_d_pool k1 (Some pool1)), ev).
    (** staking lib.rs:2150-2181 on_initialize. *)
    Definition jon_initialize (c : credit) (s : kstate) : res kerr (credit * kstate * list kev) :=
      if (0 <? cur_era s) && negb (now mod kc_bpe sc =? 0) then jpay_delegators c s
      else r <-? on_initialize sc (sctx c) s ; ROk (c, r.1, r.2).

    (** ** Slashing *)

    (** slashing.rs:534-536 and 515-520 do_credit_slash, for each delegator exposed. *)
    Fixpoint jslash_others (l : list N) (c : credit) (s : kstate) : res kerr (credit * kstate) :=
      match l with
      | [] => ROk (c, s)
      | d :: r =>
          c1 <-? lift (Model_Credit.slash_credit cc c cx d None) ;
          jslash_others r c1 (credit_slash (sctx c1) s d)
      end.
    (** slashing.rs:523-539 apply_slash. *)
    Definition japply_slash (c : credit) (s : kstate) (u : uslash) : res kerr (credit * kstate * list kev) :=
      let '(s1, pay, got, ev) := do_slash sc (sctx c) s (u_val u) (u_own u) (u_pay u) in
      p <-? jslash_others (u_others u) c s1 ;
      ROk (p.1, set_k_bank p.2 (pay_reporters sc (k_bank p.2) pay got (u_reps u)),
           ev ++ map KCreditSlash (u_others u)).
    Fixpoint japply_list (l : list uslash) (c : credit) (s : kstate) : res kerr (credit * kstate * list kev) :=
      match l with
      | [] => ROk (c, s, [])
      | u :: r =>
          a <-? japply_slash c s u ;
          b <-? japply_list r a.1.1 a.1.2 ;
          ROk (b.1, a.2 ++ b.2)
      end.
    (** staking lib.rs:3032-3037. *)
    Fixpoint japply_eras (n : nat) (era : N) (c : credit) (s : kstate) : res kerr (credit * kstate * list kev) :=
      match n with
      | O => ROk (c, s, [])
      | S m =>
          let l := default [] (s_unapp (k_stk s) !! era) in
          let s0 := set_k_stk s (set_s_unapp (k_stk s) (delete era (s_unapp (k_stk s)))) in
          a <-? japply_list l c s0 ;
          b <-? japply_eras m (era + 1) a.1.1 a.1.2 ;
          ROk (b.1, a.2 ++ b.2)
      end.
    (** staking lib.rs:3027-3043 apply_unapplied_slashes. *)
    Definition japply_unapplied (c : credit) (s : kstate) (active : N) : res kerr (credit * kstate * list kev) :=
      match s_first (k_stk s) with
      | None => ROk (c, s, [])
      | Some first =>
          let keep := ssub active (kc_defer sc) in
          a <-? japply_eras (N.to_nat (keep - first)) first c s ;
          ROk (a.1.1, set_k_stk a.1.2 (set_s_first (k_stk a.1.2) (Some (N.max first keep))), a.2)
      end.
    (** staking lib.rs:2570-2597 start_era, up to the slashes. *)
    Definition begin_era (s : kstate) (session : N) : kstate :=
      let active := match e_act (k_era s) with Some (i, _) => add32 i 1 | None => 0 end in
      let bonded := e_bonded (k_era s) ++ [(active, session)] in
      let first := active - kc_bonding sc in
      let fix old (l : list (N * N)) : list N :=
        match l with p :: r => if p.1 <? first then p.1 :: old r else [] | [] => [] end in
      let gone := if kc_bonding sc <? active then old bonded else [] in
      let e' := set_e_bonded (set_e_act (k_era s) (Some (active, false))) (drop (length gone) bonded) in
      let k' := set_s_in_era (k_stk s) (filter (fun p => p.1.1 ∉ gone) (s_in_era (k_stk s))) in
      set_k_era (set_k_stk s k') e'.
    (** staking lib.rs:2535-2553 start_session and 2598-2607. *)
    Definition jstart_session (c : credit) (s : kstate) (session : N) : res kerr (credit * kstate * list kev) :=
      let next := match e_act (k_era s) with Some (i, _) => add32 i 1 | None => 0 end in
      match e_start (k_era s) !! next with
      | Some st => if st <=? session then japply_unapplied c (begin_era s session) next else ROk (c, s, [])
      | None => ROk (c, s, [])
      end.
    (** staking lib.rs:3427-3472. *)
    Definition joffender1 (era window active : N) (c : credit) (s : kstate) (o : N * expo * list N * N)
        : res kerr (credit * kstate * list kev) :=
      let '(stash, ex, reps, frac) := o in
      if bool_decide (stash ∈ p_invul (k_par s)) then ROk (c, s, []) else
      let '(s1, u, e1) := compute_slash (sctx c) s stash frac ex era window active in
      match u with
      | None => ROk (c, s1, e1)
      | Some u0 =>
          let u1 := USlash (u_val u0) (u_own u0) (u_others u0) reps (u_pay u0) in
          if kc_defer sc =? 0 then
            a <-? japply_slash c s1 u1 ; ROk (a.1, e1 ++ a.2)
          else
            let m := s_unapp (k_stk s1) in
            ROk (c, set_k_stk s1 (set_s_unapp (k_stk s1) (<[active := default [] (m !! active) ++ [u1]]> m)), e1)
      end.
    Fixpoint joffenders (era window active : N) (os : list (N * expo * list N * N)) (c : credit) (s : kstate)
        : res kerr (credit * kstate * list kev) :=
      match os with
      | [] => ROk (c, s, [])
      | o :: r =>
          a <-? joffender1 era window active c s o ;
          b <-? joffenders era window active r a.1.1 a.1.2 ;
          ROk (b.1, a.2 ++ b.2)
      end.
    (** staking lib.rs:3353-3476 on_offence. *)
    Definition jon_offence (c : credit) (s : kstate) (os : list (N * expo * list N * N)) (session : N)
        : res kerr (credit * kstate * list kev) :=
      match e_act (k_era s) with
      | None => ROk (c, s, [])
      | Some (active, _) =>
          match slash_era (k_era s) active session with
          | None => ROk (c, s, [])
          | Some era =>
              let k := match s_first (k_stk s) with
                       | None => set_s_first (k_stk s) (Some active)
                       | Some _ => k_stk s
                       end in
              joffenders era (ssub active (kc_bonding sc)) active os c (set_k_stk s k)
          end
      end.

    (** ** Steps *)

    (** A step of the staking pallet; a call that fails, or a panic, changes nothing. *)
    Definition jsettle (j : jstate) (r : res kerr (credit * kstate * list kev)) : jstate * jout :=
      match r with
      | ROk (c, s, ev) => (J (Model_Credit.set_k_bank c (k_bank s)) s, JDone ev)
      | RErr _ => (j, JFail)
      | RPanic => (j, JPanic)
      end.
    (** A step of the credit pallet. *)
    Definition csettle {A} (j : jstate) (r : Model_Credit.kstate * res Model_Credit.kerr A) : jstate * jout :=
      (J r.1 (set_k_bank (j_s j) (Model_Credit.k_bank r.1)),
       match r.2 with ROk _ => JDone [] | RErr _ => JFail | RPanic => JPanic end).
    (** A step of the staking pallet that does not involve the credit pallet. *)
    Definition splain (j : jstate) (op : kop) : jstate * jout :=
      let r := kstep sc (j_s j) op in
      (J (Model_Credit.set_k_bank (j_c j) (k_bank r.1)) r.1,
       match r.2 with KDone ev => JDone ev | KFail _ => JFail | KPanic => JPanic end).

    Definition jact_step (j : jstate) (a : jact) : jstate * jout :=
      match a with
      | JCredit o c => csettle j (Model_Credit.kstep cc (j_c j) cx o c)
      | JEntry e => if staking_only e then (j, JDone []) else csettle j (Model_Credit.kentry_step cc (j_c j) cx e)
      | JCall o c => jsettle j (jdispatch (j_c j) (j_s j) o c)
      | JInit => jsettle j (jon_initialize (j_c j) (j_s j))
      | JStartSession i => jsettle j (jstart_session (j_c j) (j_s j) i)
      | JOffence os i => jsettle j (jon_offence (j_c j) (j_s j) os i)
      | JFinal => splain j KFinal
      | JNewSession i => splain j (KNewSession i)
      | JEndSession i => splain j (KEndSession (sctx (j_c j)) i)
      | JAuthor a => splain j (KAuthor a)
      | JBank b => splain j (KBank b)
      end.
  End step.

  Definition jstep (j : jstate) (op : jop) : jstate * jout := jact_step op.1 j op.2.
  Fixpoint jrun (j : jstate) (h : list jop) : jstate :=
    match h with [] => j | op :: r => jrun (jstep j op).1 r end.
  Fixpoint jouts (j : jstate) (h : list jop) : list jout :=
    match h with [] => [] | op :: r => (jstep j op).2 :: jouts (jstep j op).1 r end.

  (** Genesis of both pallets (credit lib.rs:336-347, staking lib.rs:1009-1046). *)
  Definition jgenesis (b : bank) (p : pars) (settings : list Model_Credit.setting)
      (data : list (N * Model_Credit.cdata)) : jstate :=
    J (Model_Credit.kinit b settings data) (kgenesis b p).
End model.
