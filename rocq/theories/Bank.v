(** * Model of x/bank *)
From Verif Require Export Referral.

(** ** Coins (cosmos-sdk types/coin.go) *)

(** sdk.Coins.IsValid: the denominations are sorted and unique by
    representation, so only the amounts are left to check. *)
Definition coins_valid (c : coins) : bool := forallb (fun e => 0 <? snd e) (map_to_list c).
(** A coin kept only if its amount is not zero (Coins.Add, Sub and NewCoins
    drop zero coins). *)
Definition nz (x : Z) : option Z := if x =? 0 then None else Some x.
Definition coins_add (a b : coins) : coins :=
  merge (fun x y => match x, y with
                    | None, None => None
                    | _, _ => nz (default 0 x + default 0 y)
                    end) a b.
Definition coins_sub (a b : coins) : coins :=
  merge (fun x y => match x, y with
                    | None, None => None
                    | _, _ => nz (default 0 x - default 0 y)
                    end) a b.
(** Coins.SafeSub has no negative result *)
Definition coins_ge (a b : coins) : bool :=
  forallb (fun e => snd e <=? amt a (fst e)) (map_to_list b).
(** sdk.NewCoins(sdk.NewCoin(d, n)): panics when n is negative *)
Definition coins_of (d : N) (n : Z) : coins := match nz n with Some x => {[ d := x ]} | None => ∅ end.
Definition new_coins (d : N) (n : Z) : M coins :=
  do! assert (0 <=? n) "negative coin amount" in ret (coins_of d n).

(** ** Accounts *)

(** Module accounts, app/app.go:213-219 *)
Definition fee_collector : addr := 1%N.
Definition splitter : addr := 2%N.        (* util.SplittableFeeCollectorName *)

(** cosmos-sdk x/auth NewAccountWithAddress, SetAccount, GetModuleAccount *)
Definition create_account (a : addr) : M Z :=
  let! n := get st_next_acc in
  do! modify (fun s => s <| st_next_acc := n + 1 |>) in
  do! modify (fun s => s <| st_accs := <[ a := n ]> (st_accs s) |>) in
  ret n.
Definition acc_exists (s : St) (a : addr) : bool :=
  match st_accs s !! a with Some _ => true | None => false end.
Definition touch_account (a : addr) : M unit :=
  let! ex := get (fun s => acc_exists s a) in
  if ex then ret tt else do! create_account a in ret tt.

(** ** Balances.  x/bank/internal/keeper/send.go *)

(** 157-191 SetBalance and its hook (app/app.go:314-315).  The failure of the
    hook is recorded in the model's own log, for the callers that survive it. *)
Definition set_balance (a : addr) (c : coins) : M unit :=
  do! ensure (coins_valid c) "invalid coins" in
  do! modify (fun s => s <| st_bal :=
    if decide (c = ∅) then base.delete a (st_bal s) else <[ a := c ]> (st_bal s) |>) in
  let! r := try (on_balance_changed a) in
  match r with
  | inl _ => ret tt
  | inr e =>
      do! modify (fun s => s <| st_log := st_log s ++ [LHookFailed a] |>) in
      fail "hook failed"
  end.
(** 120-134 SubtractCoins *)
Definition subtract_coins (a : addr) (c : coins) : M unit :=
  do! ensure (coins_valid c) "invalid coins" in
  let! b := get (fun s => balance s a) in
  do! ensure (coins_ge b c) "insufficient funds" in
  set_balance a (coins_sub b c).
(** 137-144 AddCoins *)
Definition add_coins (a : addr) (c : coins) : M unit :=
  do! ensure (coins_valid c) "invalid coins" in
  let! b := get (fun s => balance s a) in
  set_balance a (coins_add b c).
(** 97-115 SendCoins *)
Definition send_coins (from to : addr) (c : coins) : M unit :=
  do! subtract_coins from c in add_coins to c.
(** internal/keeper/keeper.go:134-144 SendCoinsFromAccountToModule *)
Definition send_to_module (from m : addr) (c : coins) : M unit :=
  do! touch_account m in send_coins from m c.

(** types/types.go:14-91 ValidateInputsOutputs *)
Definition io_total (l : list (addr * coins)) : coins :=
  fold_left (fun t e => coins_add t (snd e)) l ∅.
Definition io_item_valid (e : addr * coins) : bool :=
  negb (fst e =? nobody)%N && coins_valid (snd e) && negb (bool_decide (snd e = ∅)).
(** 74-94 InputOutputCoins *)
Definition input_output_coins (ins outs : list (addr * coins)) : M unit :=
  do! ensure (forallb io_item_valid ins && forallb io_item_valid outs
              && bool_decide (io_total ins = io_total outs)) "inputs do not match outputs" in
  do! mfor ins (fun e => subtract_coins (fst e) (snd e)) in
  mfor outs (fun e => add_coins (fst e) (snd e)).

(** ** Supply.  types/supply.go:32-40, internal/keeper/keeper.go:73-97 *)
Definition inflate (c : coins) : M unit :=
  modify (fun s => s <| st_supply := coins_add (st_supply s) c |>).
Definition deflate (c : coins) : M unit :=
  let! s := get st_supply in
  do! assert (coins_ge s c) "negative coin amount" in
  modify (fun s => s <| st_supply := coins_sub (st_supply s) c |>).
(** internal/keeper/keeper.go:226-238 BurnAccCoins *)
Definition burn_acc_coins (a : addr) (c : coins) : M unit :=
  do! subtract_coins a c in deflate c.

(** ** Fees *)

(** util.CalculateFee with the parameters of the bank *)
Definition fee_of (x : Z) (s : St) : option Z :=
  let p := st_bp s in
  Frac.calculate_fee x (bp_fee p) (bp_max_fee p) (bp_for_proposer p) (bp_for_company p).
Definition tx_fee (x : Z) : M Z := let! f := get (fee_of x) in lift "fee" f.
(** internal/keeper/keeper.go:146-161 PayTxFee.  Only one denomination is
    sendable, so the loop has at most one turn. *)
Definition pay_tx_fee (a : addr) (c : coins) : M coins :=
  do! assert (forallb (fun e => (fst e =? uartr)%N) (map_to_list c)) "not sendable" in
  let! fee := (if decide (c = ∅) then ret ∅ else
    let! f := tx_fee (amt c uartr) in new_coins uartr f) in
  do! (if decide (fee = ∅) then ret tt else send_to_module a splitter fee) in
  ret fee.

(** ** Messages.  internal/keeper/msg_server.go *)

(** 14-58 Send; types/msgs.go:33-54 ValidateBasic (the amount is valid and
    positive).  No address is blocked as a recipient: app/app.go:228 passes an
    empty map. *)
Definition msg_send (from to : addr) (c : coins) : M unit :=
  do! ensure (coins_valid c && negb (bool_decide (c = ∅))) "invalid amount" in
  let! ex := get (fun s => acc_exists s to) in
  do! ensure ex "account doesn't exist" in
  do! ensure (forallb (fun e => (fst e =? uartr)%N) (map_to_list c)) "forbidden denom" in
  let! p := get st_bp in
  (* minCoins.IsAnyGT(amount): a denomination missing in the amount is skipped *)
  do! assert (0 <=? bp_min_send p) "negative coin amount" in
  do! ensure (negb ((amt c uartr <? bp_min_send p) && negb (amt c uartr =? 0))) "less then minimum" in
  do! ensure (negb (bool_decide (from ∈ bp_blocked p))) "not allowed to send" in
  do! pay_tx_fee from c in
  send_coins from to c.
(** 60-75 Burn; types/msgs.go:78-86 (the amount is a uint64 > 0; the
    conversion to int64 wraps) *)
Definition msg_burn (a : addr) (n : Z) : M unit :=
  do! ensure (0 <? n) "invalid amount" in
  let! c := new_coins uartr (Frac.wrap64 n) in
  burn_acc_coins a c.

(** ** Parameters *)

(** types/params.go:72-210 (any min_send is accepted), internal/keeper/send.go:229-246 *)
Definition bparams_valid (p : bparams) : option bool :=
  if negb ((0 <=? bp_dust p) && negb (bp_company p =? nobody)%N
           && Frac.validate_tx_fee (bp_fee p) && Frac.validate_max_fee (bp_max_fee p))
  then Some false
  else Frac.validate_split_ratios (bp_for_proposer p) (bp_for_company p).
Definition set_bparams (p : bparams) : M unit :=
  let! ok := lift "invalid params" (bparams_valid p) in
  do! assert ok "invalid params" in
  modify (fun s => s <| st_bp := p |>).
Definition add_blocked_sender (a : addr) : M unit :=
  let! p := get st_bp in
  set_bparams (p <| bp_blocked := fst (Lists.add_onto_end N.compare (bp_blocked p) a) |>).
Definition remove_blocked_sender (a : addr) : M unit :=
  let! p := get st_bp in
  set_bparams (p <| bp_blocked := fst (Lists.remove_fast N.compare (bp_blocked p) a) |>).

(** ** Genesis.  internal/keeper/genesis.go:11-36 (balances and supply) *)
Definition bank_init (bals : list (addr * coins)) (supply : coins) : M unit :=
  do! must (mfor bals (fun e => set_balance (fst e) (snd e))) in
  modify (fun s => s <| st_supply := if decide (supply = ∅) then io_total bals else supply |>).
