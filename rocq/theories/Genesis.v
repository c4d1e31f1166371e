(** * Model of starting a chain from a genesis file, and of exporting one

    The parts of single modules are in their own files ([sched_import],
    [bank_init], [del_import], [voting_import], [earn_import]); here are the
    accounts, the referral network, the profiles, the validators and the order
    in which the application imports the modules.

    Simplification: the parameters of the modules are in place before the
    import (the code sets those of a module at the start of its own part). *)
From Verif Require Export App.

(** ** Accounts.  cosmos-sdk v0.42.6 x/auth/genesis.go InitGenesis, ExportGenesis;
    types/genesis.go SanitizeGenesisAccounts: sorted by number, then given new
    numbers one after the other.  Sequence numbers and keys are not modelled. *)
Definition by_number (x y : addr * Z) : Prop := snd x <= snd y.
#[export] Instance by_number_dec : RelDecision by_number.
Proof. intros x y. unfold by_number. apply _. Defined.
Definition auth_import (l : list (addr * Z)) : M unit :=
  do! mfor (merge_sort by_number l) (fun e => do! create_account (fst e) in ret tt) in
  touch_account fee_collector.
Definition auth_export (s : St) : list (addr * Z) :=
  map (fun a => (a, default 0 (st_accs s !! a))) (keysN (st_accs s)).

(** ** x/referral/types/genesis.pb.go GenesisState *)
Record rgen := mkRG {
  rg_top : list addr;                        (* top_level_accounts *)
  rg_other : list (addr * list addr);        (* other_accounts: referrer, referrals *)
  rg_banished : list (addr * addr);          (* banished_accounts: account, former referrer *)
  rg_comp : list (addr * time);              (* compressions *)
  rg_ban : list (addr * time);               (* banishment *)
  rg_down : list (addr * Z * time);          (* downgrades: account, current status, time *)
  rg_trans : list (addr * addr) }.           (* transitions: subject, destination *)

(** x/referral/keeper/keeper.go:183-206 GetTopLevelAndBanishedAccounts *)
Definition top_of (s : St) : list addr :=
  List.filter (fun a => negb (r_banished (ref_get s a)) && (r_referrer (ref_get s a) =? nobody)%N)
              (keysN (st_ref s)).
Definition banished_of (s : St) : list (addr * addr) :=
  map (fun a => (a, r_referrer (ref_get s a)))
      (List.filter (fun a => r_banished (ref_get s a)) (keysN (st_ref s))).
(** x/referral/keeper/genesis.go:54-61, 85-92: those of the accounts who have referrals *)
Definition with_refs (s : St) (l : list addr) : list (addr * list addr) :=
  flat_map (fun a => match r_referrals (ref_get s a) with [] => [] | k => [(a, k)] end) l.
(** x/referral/keeper/genesis.go:63-95 the loop over the levels; [None]: it does not end *)
Fixpoint levels (fuel : nat) (s : St) (lev : list (addr * list addr)) : option (list (addr * list addr)) :=
  match lev with
  | [] => Some []
  | _ =>
      match fuel with
      | O => None
      | S n => match levels n s (with_refs s (flat_map snd lev)) with
               | Some r => Some (lev ++ r)
               | None => None
               end
      end
  end.
(** x/referral/keeper/genesis.go:11-101 ExportToGenesis *)
Definition ref_export : M rgen :=
  let! s := get id in
  let top := top_of s in
  let! other := lift "endless loop" (levels (S (S (size (st_ref s)))) s (with_refs s top)) in
  let seen := top ++ flat_map snd other in
  let noted {A} (f : rinfo -> option A) : list (addr * A) :=
    omap (fun a => match f (ref_get s a) with Some t => Some (a, t) | None => None end) seen in
  ret (mkRG top other (banished_of s)
    (noted r_compression_at) (noted r_banishment_at)
    (omap (fun a => match r_downgrade_at (ref_get s a) with
                    | Some t => Some (a, r_status (ref_get s a), t) | None => None end) seen)
    (noted (fun r => if (r_transition r =? nobody)%N then None else Some (r_transition r)))).

(** x/referral/keeper/genesis.go:129-141 a banished account *)
Definition banished_record (s : St) (a former : addr) : rinfo :=
  r_zero <| r_referrer := former |> <| r_coins := [own_coins s a] |> <| r_deleg := [own_deleg s a] |>
         <| r_banished := true |>.
Definition put_banished (e : addr * addr) : M unit :=
  modify (fun s => s <| st_ref := <[ fst e := banished_record s (fst e) (snd e) ]> (st_ref s) |>).
(** x/referral/keeper/genesis.go:143-189 one list of notes on single accounts;
    only the downgrades set the status (line 169) and with it the index *)
Definition note {A} (f : A -> addr * (rinfo -> rinfo)) (l : list A) (b : bu) : M bu :=
  mfold l b (fun b x => let! (b, _) := bu_updatem b (fst (f x)) false (fun b r =>
    do! set_index (fst (f x)) (r_status r) (r_status (snd (f x) r)) in ret (b, snd (f x) r, tt)) in ret b).
(** x/referral/keeper/genesis.go:103-190 ImportFromGenesis, genesis.go InitGenesis *)
Definition ref_import (g : rgen) : M unit :=
  do! must (mfor (rg_top g) add_top_level) in
  do! must (mfor (rg_other g) (fun e =>
        mfor (snd e) (fun c => append_child_core (fst e) c true false))) in
  do! mfor (rg_banished g) put_banished in
  must (
    let! b := note (fun e => (fst e, fun r => r <| r_compression_at := Some (snd e) |>)) (rg_comp g) bu_new in
    let! b := note (fun e => (fst e, fun r => r <| r_banishment_at := Some (snd e) |>)) (rg_ban g) b in
    let! b := note (fun e => (fst (fst e), fun r => r <| r_status := snd (fst e) |>
                                                      <| r_downgrade_at := Some (snd e) |>)) (rg_down g) b in
    let! b := note (fun e => (fst e, fun r => r <| r_transition := snd e |>)) (rg_trans g) b in
    bu_commit b).

(** ** Profiles.  x/profile/keeper/genesis.go:15-33 ExportProfileRecords *)
Definition prof_export (s : St) : list (addr * profile) :=
  map (fun a => (a, default p_zero (st_prof s !! a) <| p_card := 0 |>)) (keysN (st_prof s)).
(** x/referral/keeper/keeper.go:657-696 Iterate, with the callback of
    x/profile/keeper/genesis.go:68-70: every record gets its status checked *)
Definition check_statuses : M unit :=
  let! ks := get (fun s => keysN (st_ref s)) in
  must (
    let! b := mfold ks bu_new (fun b a => let! (b, _) := bu_update b a true (fun r => (r, tt)) in ret b) in
    bu_commit b).
(** x/profile/keeper/genesis.go:37-65 one profile *)
Definition prof_import_one (e : addr * profile) : M unit :=
  let a := fst e in
  let! acc := get (fun s => st_accs s !! a) in
  let! n := lift "no such account" acc in
  let! magic := get (fun s => pp_card_magic (st_pp s)) in
  let p := snd e <| p_card := Z.lxor n magic |> in
  let! nick := get (fun s => trim s (p_nick p)) in
  do! (if decide (nick = []) then ret tt else nick_put nick a) in
  do! card_put (p_card p) a in
  do! modify (fun s => s <| st_prof := <[ a := p ]> (st_prof s) |>) in
  let! now := get st_now in
  do! (if p_active now p then must (set_active a true false) else ret tt) in
  must (set_profile a p).
(** x/profile/keeper/genesis.go:35-71 ImportProfileRecords *)
Definition prof_import (l : list (addr * profile)) : M unit :=
  do! mfor l prof_import_one in
  check_statuses.

(** ** Validators.  x/noding/types/genesis.pb.go Validator *)
Record gval := mkGV {
  gv_acc : addr; gv_pub : N; gv_strokes : Z; gv_ok : Z; gv_missed : Z; gv_jailed : bool;
  gv_unjail : Z; gv_infr : list N; gv_banned : bool; gv_staff : bool; gv_proposed : Z;
  gv_jails : Z; gv_on : bool; gv_heights : list Z }.
(** x/noding/types/genesis.go:37-55 GenesisValidatorFromD; keeper.go:891-901
    GetBlocksProposedByAll *)
Definition heights_of (s : St) (a : addr) : list Z :=
  List.filter (fun h => match st_proposers s !! h with Some b => (b =? a)%N | None => false end)
              (keysZ (st_proposers s)).
Definition gval_of (s : St) (a : addr) : gval :=
  let x := default n_zero (st_val s !! a) in
  mkGV a (n_pub x) (n_strokes x) (n_ok x) (n_missed x) (n_jailed x) (n_unjail_at x) (n_infr x)
       (n_banned x) (n_staff x) (n_proposed x) (n_jails x) (n_jailed x && n_status x) (heights_of s a).
(** x/noding/keeper/keeper.go:520-543 GetActiveValidators, 565-587 GetNonActiveValidators *)
Definition vals_export (active : bool) (s : St) : list gval :=
  map (gval_of s) (List.filter (fun a => Bool.eqb active (n_active (default n_zero (st_val s !! a))))
                               (keysN (st_val s))).
(** x/noding/types/genesis.go:17-35 ToInfo *)
Definition info_of (ilog : Z -> Z) (stake : Z) (v : gval) : ninfo :=
  fst (update_score ilog stake
    (mkN (gv_jailed v && gv_on v) 0 (gv_pub v) 0%N (gv_strokes v) (gv_ok v) (gv_missed v) (gv_jailed v)
         (gv_unjail v) (gv_infr v) (gv_banned v) (gv_staff v) (gv_proposed v) (gv_jails v) 0 0)).
(** x/noding/keeper/keeper.go:593-603, 612-622 the record and the index of proposers *)
Definition val_import_one (v : gval) : M unit :=
  let! d := delegated_in_network (gv_acc v) 10 in
  let! d := lift "Int64() out of bound" (Frac.to_int64 d) in
  let! ilog := get st_ilog in
  do! val_set (gv_acc v) (info_of ilog d v) in
  mfor (gv_heights v) (fun h =>
    modify (fun s => s <| st_proposers := <[ h := gv_acc v ]> (st_proposers s) |>)).
(** x/noding/keeper/keeper.go:589-626 SetActiveValidators, SetNonActiveValidators;
    genesis.go:11-27 InitGenesis *)
Definition noding_import (active other : list gval) : M (list update) :=
  do! must (mfor active (fun v =>
        do! assert (negb (gv_pub v =? 0)%N) "empty Bech32 string" in
        do! val_import_one v in
        switch_on (gv_acc v) (gv_pub v))) in
  do! must (mfor other val_import_one) in
  must gather.

(** ** The whole application *)
Record genesis := mkGen {
  g_tasks : list task; g_accs : list (addr * Z); g_ref : rgen;
  g_bals : list (addr * coins); g_supply : coins; g_profs : list (addr * profile);
  g_del : list (addr * (option time * list request)); g_active : list gval; g_other : list gval;
  g_vote : vgen; g_earn : list (addr * (option time * option time)) }.

(** app/app.go:491-501 SetOrderInitGenesis, 551-560 InitChainer *)
Definition init_genesis (g : genesis) : M (list update) :=
  do! sched_import (g_tasks g) in
  do! auth_import (g_accs g) in
  do! ref_import (g_ref g) in
  do! bank_init (g_bals g) (g_supply g) in
  do! prof_import (g_profs g) in
  do! del_import (g_del g) in
  let! upd := noding_import (g_active g) (g_other g) in
  do! voting_import (g_vote g) in
  do! earn_import (g_earn g) in
  ret upd.

(** x/bank/internal/keeper/genesis.go:38-45 ExportGenesis, keeper.go GetAccountsBalances *)
Definition bank_export (s : St) : list (addr * coins) :=
  map (fun a => (a, balance s a)) (keysN (st_bal s)).
(** app/export.go:13-29 ExportAppStateAndValidators *)
Definition export_genesis : M genesis :=
  let! r := must ref_export in
  let! s := get id in
  ret (mkGen (sched_export s) (auth_export s) r (bank_export s) (st_supply s) (prof_export s)
             (del_export s) (vals_export true s) (vals_export false s) (voting_export s) (earn_export s)).
