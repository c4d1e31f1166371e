(** * Model of x/profile *)
From Verif Require Export Delegating.

Definition gb : Z := 1073741824.          (* util/keys.go:15 GBSize *)

(** ** Nicknames *)

(** strings.ToLower, strings.ToTitle, strings.TrimSpace on characters *)
Definition lower (s : St) (n : list N) : list N := map (st_lower s) n.
Definition title (s : St) (n : list N) : list N := map (st_title s) n.
Fixpoint drop_space (sp : N -> bool) (n : list N) : list N :=
  match n with
  | c :: r => if sp c then drop_space sp r else n
  | [] => []
  end.
Definition trim (s : St) (n : list N) : list N :=
  rev (drop_space (st_space s) (rev (drop_space (st_space s) n))).
Fixpoint has_prefix (p n : list N) : bool :=
  match p, n with
  | [], _ => true
  | x :: p', y :: n' => (x =? y)%N && has_prefix p' n'
  | _, _ => false
  end.
Definition artr_prefix : list N := [65; 82; 84; 82; 45]%N.    (* "ARTR-" *)

(** keeper.go:82-118: the nickname index is keyed by the lower-case nickname *)
Definition nick_owner (s : St) (n : list N) : option addr := st_nick s !! lower s n.
Definition nick_put (n : list N) (a : addr) : M unit :=
  modify (fun s => s <| st_nick := <[ lower s n := a ]> (st_nick s) |>).
Definition nick_del (n : list N) : M unit :=
  modify (fun s => s <| st_nick := base.delete (lower s n) (st_nick s) |>).
Definition card_put (c : Z) (a : addr) : M unit :=
  modify (fun s => s <| st_card := <[ c := a ]> (st_card s) |>).
Definition card_del (c : Z) : M unit :=
  modify (fun s => s <| st_card := base.delete c (st_card s) |>).

(** keeper.go:192-207 ValidateProfileNickname *)
Definition validate_nickname (a : addr) (n : list N) : M unit :=
  match n with
  | [] => ret tt
  | _ =>
      let! bad := get (fun s => has_prefix artr_prefix (title s n)) in
      do! ensure (negb bad) "wrong nickname prefix" in
      let! o := get (fun s => nick_owner s n) in
      match o with
      | Some b => ensure (b =? a)%N "nickname is already taken"
      | None => ret tt
      end
  end.

(** keeper.go:120-190 SetProfile.  The price of a nickname change is
    1_000000 uartr (139-143). *)
Definition nick_price : Z := 1000000.
Definition set_profile (a : addr) (p : profile) : M unit :=
  let! old := get (fun s => st_prof s !! a) in
  let! nick := get (fun s => trim s (p_nick p)) in
  do! validate_nickname a nick in
  let! p := match old with
    | Some o =>
        do! (if decide (p_nick o = p_nick p) then ret tt else
             do! (if decide (p_nick o = []) then ret tt else nick_del (p_nick o)) in
             if decide (nick = []) then ret tt else
             let! c := new_coins uartr nick_price in
             do! send_to_module a fee_collector c in
             nick_put nick a) in
        if p_card p =? 0 then ret (p <| p_card := p_card o |>) else
        do! (if p_card o =? p_card p then ret tt else
             do! (if p_card o =? 0 then ret tt else card_del (p_card o)) in
             card_put (p_card p) a) in
        ret p
    | None =>
        do! (if decide (nick = []) then ret tt else nick_put nick a) in
        do! (if p_card p =? 0 then ret tt else card_put (p_card p) a) in
        ret p
    end in
  do! modify (fun s => s <| st_prof := <[ a := p ]> (st_prof s) |>) in
  do! touch_account a in
  let! now := get st_now in
  let was := match old with Some o => p_active now o | None => false end in
  if Bool.eqb was (p_active now p) then ret tt else must_set_active a (p_active now p).

(** ** Parameters.  params.go:13-31 SetParams, types/params.go:245-303.  The
    number xor'ed into card numbers is kept once set. *)
Definition pparams_valid (p : pparams) : bool :=
  negb (bool_decide (pp_creators p = [])) && negb (bool_decide (pp_storage_signers p = []))
  && negb (bool_decide (pp_vpn_signers p = [])) && negb (bool_decide (pp_rate_signers p = []))
  && Frac.is_positive (pp_token_rate p)
  && (0 <? pp_sub_price p) && (0 <? pp_vpn_price p) && (0 <? pp_storage_price p)
  && (0 <? pp_base_vpn p) && (0 <? pp_base_storage p).
Definition set_pparams (p : pparams) : M unit :=
  let! old := get (fun s => pp_card_magic (st_pp s)) in
  do! assert ((pp_card_magic p =? old) || (pp_card_magic p =? 0)) "card number magic must not be changed" in
  let p := p <| pp_card_magic := old |> in
  do! assert (pparams_valid p) "invalid params" in
  modify (fun s => s <| st_pp := p |>).
(** params.go:33-116: the four lists of privileged accounts *)
Definition add_once (l : list addr) (a : addr) : list addr := fst (Lists.add_onto_end N.compare l a).
Definition remove_one (l : list addr) (a : addr) : list addr := fst (Lists.remove_fast N.compare l a).
Definition on_pparams (f : pparams -> pparams) : M unit :=
  let! p := get st_pp in set_pparams (f p).
Definition add_creator (a : addr) : M unit :=
  on_pparams (fun p => p <| pp_creators := add_once (pp_creators p) a |>).
Definition remove_creator (a : addr) : M unit :=
  on_pparams (fun p => p <| pp_creators := remove_one (pp_creators p) a |>).
Definition add_rate_signer (a : addr) : M unit :=
  on_pparams (fun p => p <| pp_rate_signers := add_once (pp_rate_signers p) a |>).
Definition remove_rate_signer (a : addr) : M unit :=
  on_pparams (fun p => p <| pp_rate_signers := remove_one (pp_rate_signers p) a |>).
Definition add_vpn_signer (a : addr) : M unit :=
  on_pparams (fun p => p <| pp_vpn_signers := add_once (pp_vpn_signers p) a |>).
Definition remove_vpn_signer (a : addr) : M unit :=
  on_pparams (fun p => p <| pp_vpn_signers := remove_one (pp_vpn_signers p) a |>).
Definition add_storage_signer (a : addr) : M unit :=
  on_pparams (fun p => p <| pp_storage_signers := add_once (pp_storage_signers p) a |>).
Definition remove_storage_signer (a : addr) : M unit :=
  on_pparams (fun p => p <| pp_storage_signers := remove_one (pp_storage_signers p) a |>).

(** ** Registration.  keeper.go:209-225 CreateAccount, CreateAccountWithProfile *)
Definition create_with_profile (a referrer : addr) (p : profile) : M unit :=
  let! n := create_account a in
  do! append_child referrer a in
  let! t := get (fun s => st_now s + compression_period s) in
  do! schedule_compression t a in
  let! magic := get (fun s => pp_card_magic (st_pp s)) in
  set_profile a (p <| p_card := Z.lxor n magic |>).

(** msg_server.go:18-54 CreateAccount; types/msgs.go:59-71.  Nothing is checked
    about the profile in the message, nor that the referrer exists or differs
    from the new account. *)
Definition msg_create_account (creator a referrer : addr) (p : option profile) : M unit :=
  do! ensure (negb (creator =? nobody)%N && negb (a =? nobody)%N && negb (referrer =? nobody)%N)
             "empty address" in
  let! ex := get (fun s => acc_exists s a) in
  do! ensure (negb ex) "account already exists" in
  let! pp := get st_pp in
  do! (if (0 <? pp_rename_price pp) && negb (bool_decide (creator ∈ pp_creators pp))
       then let! c := new_coins uartr (pp_rename_price pp) in send_to_module creator fee_collector c
       else ret tt) in
  create_with_profile a referrer (default p_zero p).

(** ** Updates *)
Inductive upd :=
  | UAutoPay (b : bool) | UNoding (b : bool) | UStorage (b : bool) | UValidator (b : bool)
  | UVpn (b : bool) | UNick (n : list N) | UImAutoPay (b : bool).
Definition apply_upd (p : profile) (u : upd) : profile :=
  match u with
  | UAutoPay b => p <| p_autopay := b |>
  | UNoding b => p <| p_noding := b |>
  | UStorage b => p <| p_storage := b |>
  | UValidator b => p <| p_validator := b |>
  | UVpn b => p <| p_vpn := b |>
  | UNick n => p <| p_nick := n |>
  | UImAutoPay b => p <| p_im_autopay := b |>
  end.
(** types/msgs.go:122-163 ValidateBasic; the forbidden characters, 42.  The
    length is counted in bytes of UTF-8. *)
Definition forbidden_chars : list N := [32; 42; 47; 58; 39; 34; 61; 91; 93; 44; 46]%N.
Definition utf8_len (c : N) : Z :=
  if (c <? 128)%N then 1 else if (c <? 2048)%N then 2 else if (c <? 65536)%N then 3 else 4.
Definition nick_ok (n : list N) : bool :=
  match n with
  | [] => true
  | _ => forallb (fun c => negb (bool_decide (c ∈ forbidden_chars))) n
         && (3 <=? fold_left (fun t c => t + utf8_len c) n 0)
         && negb (has_prefix artr_prefix n)
  end.
Definition upd_ok (u : upd) : bool := match u with UNick n => nick_ok n | _ => true end.
Definition get_profile (a : addr) : M profile :=
  let! p := get (fun s => st_prof s !! a) in lift "nil pointer dereference" p.
(** msg_server.go:56-86 UpdateProfile *)
Definition msg_update_profile (a : addr) (us : list upd) : M unit :=
  do! ensure (negb (bool_decide (List.length us = 0%nat)) && forallb upd_ok us) "invalid updates" in
  let! p := get_profile a in
  set_profile a (fold_left apply_upd us p).

(** keeper.go:231-263 SetStorageCurrent, SetVpnCurrent; msg_server.go:88-131 *)
Definition write_profile (a : addr) (f : profile -> profile) : M unit :=
  let! p := get (fun s => st_prof s !! a) in
  match p with
  | None => throw ErrNotFound
  | Some p => modify (fun s => s <| st_prof := <[ a := f p ]> (st_prof s) |>)
  end.
Definition msg_set_storage_current (sender a : addr) (v : Z) : M unit :=
  let! pp := get st_pp in
  do! ensure (bool_decide (sender ∈ pp_storage_signers pp)) "unauthorized" in
  write_profile a (fun p => p <| p_storage_cur := v |>).
Definition msg_set_vpn_current (sender a : addr) (v : Z) : M unit :=
  let! pp := get st_pp in
  do! ensure (bool_decide (sender ∈ pp_vpn_signers pp)) "unauthorized" in
  write_profile a (fun p => p <| p_vpn_cur := v |>).
(** msg_server.go:173-193 SetRate; types/msgs.go (the value is positive) *)
Definition msg_set_rate (sender : addr) (v : frac) : M unit :=
  do! ensure (Frac.is_positive v) "rate must be positive" in
  let! pp := get st_pp in
  do! ensure (bool_decide (sender ∈ pp_rate_signers pp)) "unauthorized" in
  set_pparams (pp <| pp_token_rate := v |>).

(** ** Subscription.  subscription.go *)

(** uint64 arithmetic *)
Definition w64 (x : Z) : Z := x mod 18446744073709551616.
(** int64(x) of a uint64 is Frac.wrap64 *)

(** 520-522 monthPart *)
Definition month_part (s : St) (end_ : time) : option frac :=
  Frac.reduce (Frac.new_fraction (sat64 (end_ - st_now s)) (one_month s)).
(** 367-387 resetLimits *)
Definition reset_limits (pp : pparams) (p : profile) : profile :=
  let base := pp_base_vpn pp * gb in
  let p := if base <? p_vpn_cur p
           then p <| p_vpn_limit := w64 (p_vpn_limit p - (p_vpn_cur p - base)) |> else p in
  let p := p <| p_vpn_cur := 0 |> in
  let p := if p_vpn_limit p <? base then p <| p_vpn_limit := base |> else p in
  if p_storage_limit p =? 0 then p <| p_storage_limit := pp_base_storage pp * gb |> else p.

(** 20-39: the amount of storage to pay for, in bytes *)
Definition tariff_storage (pp : pparams) (p : profile) (storage_gb : Z) : option Z :=
  if storage_gb =? 0
  then Some (if p_storage_limit p =? 0 then pp_base_storage pp * gb else p_storage_limit p)
  else if storage_gb <? pp_base_storage pp then None
  else if storage_gb * gb <? p_storage_cur p then None
  else Some (storage_gb * gb).
(** 57-75: the price of the storage above the base amount *)
Definition tariff_storage_fee (s : St) (p : profile) (b : Z) : option frac :=
  let pp := st_pp s in
  oget (Frac.mul_int (pp_token_rate pp)
          (Frac.wrap64 (Frac.wrap64 (Frac.wrap64 b - pp_base_storage pp * gb) * pp_storage_price pp))) (fun x =>
  oget (Frac.div_int x gb) (fun x =>
  oget (Frac.reduce x) (fun fee =>
  match p_until p with
  | Some until =>
      if (st_now s <? until) && negb (b =? p_storage_limit p) then
        oget (month_part s until) (fun part =>
        oget (Frac.mul_int (pp_token_rate pp) (Frac.wrap64 (Frac.wrap64 b - Frac.wrap64 (p_storage_limit p)))) (fun x =>
        oget (Frac.div_int x gb) (fun x =>
        oget (Frac.reduce x) (fun x =>
        oget (Frac.mul_int x (pp_storage_price pp)) (fun x =>
        oget (Frac.mul x part) (fun x =>
        oget (Frac.reduce x) (fun x =>
        oget (Frac.add fee x) (fun fee =>
        Some (if Frac.is_negative fee then Frac.frac_zero else fee)))))))))
      else Some fee
  | None => Some fee
  end))).
(** 17-130 PayTariff *)
Definition pay_tariff (a : addr) (storage_gb : Z) (autopay : bool) : M unit :=
  let! p := get_profile a in
  let! pp := get st_pp in
  match tariff_storage pp p storage_gb with
  | None => fail "storage amount is too low"
  | Some b =>
      let! base := fr (oget (Frac.mul_int (pp_token_rate pp) (pp_sub_price pp)) Frac.big_int) in
      let! fee := tx_fee base in
      let! banished := get (fun s => r_banished (ref_get s a)) in
      do! (if banished then come_back a else ret tt) in
      let! now := get st_now in
      let active := p_active now p in
      let! sf := get (fun s => tariff_storage_fee s p b) in
      let! sf := fr sf in
      let p := if active && negb (b =? p_storage_limit p) then p <| p_storage_limit := b |> else p in
      let! extra := fr (Frac.big_int sf) in
      let total := base + extra in
      let! company := get (fun s => rp_company (st_rp s)) in
      let! c1 := new_coins uartr (total - fee) in
      let! c2 := new_coins uartr fee in
      let! c := new_coins uartr total in
      do! input_output_coins [(a, c)]
            ((company, c1) :: if fee =? 0 then [] else [(splitter, c2)]) in
      let! month := get one_month in
      let! p := (if negb active && negb autopay
                 then ret (reset_limits pp (p <| p_until := Some (now + month) |>))
                 else let! u := lift "nil pointer dereference" (p_until p) in
                      let p := p <| p_until := Some (u + month) |> in
                      ret (if autopay then reset_limits pp p else p)) in
      let! u := lift "nil pointer dereference" (p_until p) in
      do! schedule_task u HRefresh a in
      do! set_profile a p in
      do! lift "Uint64() out of bounds" (Frac.to_uint64 (total - fee)) in
      do! lift "Uint64() out of bounds" (Frac.to_uint64 total) in
      ret tt
  end.

(** The company is paid [n], of which the transaction fee is split off first:
    the common tail of the purchases (e.g. 157-168) *)
Definition pay_company (a : addr) (n : Z) : M unit :=
  let! c := new_coins uartr n in
  let! fee := pay_tx_fee a c in
  do! assert (coins_ge c fee) "negative coin amount" in
  let! company := get (fun s => rp_company (st_rp s)) in
  send_coins a company (coins_sub c fee).

(** 132-186 BuyStorage; the amounts are uint32 *)
Definition buy_storage (a : addr) (extra : Z) : M unit :=
  let! p := get_profile a in
  let! now := get st_now in
  do! ensure (p_active now p) "account inactive" in
  let! pp := get st_pp in
  let p := if p_storage_limit p <? pp_base_storage pp * gb
           then p <| p_storage_limit := pp_base_storage pp * gb |> else p in
  let! u := lift "nil pointer dereference" (p_until p) in
  let! part := get (fun s => month_part s u) in
  let! part := fr part in
  let! n := fr (oget (Frac.mul_int (pp_token_rate pp) (Frac.wrap64 (extra * pp_storage_price pp))) (fun x =>
                oget (Frac.mul x part) Frac.int64)) in
  do! assert (0 <? n) "invalid fee" in
  do! pay_company a n in
  set_profile a (p <| p_storage_limit := w64 (p_storage_limit p + extra * gb) |>).

(** types/types.go:17-19 IsExtraImStorageActive *)
Definition im_active (now : time) (p : profile) : bool :=
  negb (p_im_extra p =? 0) && match p_im_until p with Some t => now <? t | None => false end.
(** 188-250 BuyImStorage *)
Definition buy_im (a : addr) (extra : Z) : M unit :=
  let! p := get_profile a in
  let! now := get st_now in
  let! pp := get st_pp in
  let active := im_active now p in
  let! part := (if active
    then let! u := lift "nil pointer dereference" (p_im_until p) in
         let! part := get (fun s => month_part s u) in fr part
    else ret (Frac.frac_int 1)) in
  let! n := fr (oget (Frac.mul_int (pp_token_rate pp) (Frac.wrap64 (extra * pp_storage_price pp))) (fun x =>
                oget (Frac.mul x part) Frac.int64)) in
  do! assert (0 <? n) "invalid fee" in
  do! pay_company a n in
  if active then set_profile a (p <| p_im_extra := w64 (p_im_extra p + extra) |>) else
  let! t := get (fun s => st_now s + one_month s) in
  do! schedule_task t HRefreshIm a in
  set_profile a (p <| p_im_extra := extra |> <| p_im_until := Some t |>).

(** 252-290 BuyVpn *)
Definition buy_vpn (a : addr) (extra : Z) : M unit :=
  let! p := get_profile a in
  let! now := get st_now in
  do! ensure (p_active now p) "account inactive" in
  let! pp := get st_pp in
  let! n := fr (oget (Frac.mul_int (pp_token_rate pp) (Frac.wrap64 (extra * pp_vpn_price pp))) Frac.int64) in
  do! assert (0 <=? n) "invalid fee" in
  do! pay_company a n in
  set_profile a (p <| p_vpn_limit := w64 (p_vpn_limit p + extra * gb) |>).

(** 292-318 GiveStorageUp *)
Definition give_storage_up (a : addr) (amount_gb : Z) : M unit :=
  let! p := get_profile a in
  let! pp := get st_pp in
  let limit := Z.max (amount_gb * gb) (pp_base_storage pp * gb) in
  do! ensure (negb (limit <? p_storage_cur p)) "less than current usage" in
  do! ensure (limit <? p_storage_limit p) "not a reduction" in
  set_profile a (p <| p_storage_limit := limit |>).

(** 320-346 GiveImStorageUp *)
Definition give_im_up (a : addr) (extra : Z) : M unit :=
  let! p := get_profile a in
  let! now := get st_now in
  let current := if im_active now p then p_im_extra p else 0 in
  do! ensure (extra <? current) "not a reduction" in
  let p := p <| p_im_extra := extra |> in
  if extra =? 0 then
    let! u := lift "nil pointer dereference" (p_im_until p) in
    do! delete_task u HRefreshIm a in
    set_profile a (p <| p_im_until := None |>)
  else set_profile a p.

(** 473-518 prolongImExtra *)
Definition prolong_core (a : addr) (p : profile) : M profile :=
  match p_im_until p with
  | None => fail "no extra storage"
  | Some u =>
      do! ensure (negb (p_im_extra p =? 0)) "no extra storage" in
      let! pp := get st_pp in
      let! n := fr (oget (Frac.mul_int (pp_token_rate pp)
                            (Frac.wrap64 (Frac.wrap64 (p_im_extra p) * pp_storage_price pp))) Frac.int64) in
      do! assert (0 <? n) "invalid fee" in
      do! pay_company a n in
      let! month := get one_month in
      do! delete_task u HRefreshIm a in
      do! schedule_task (u + month) HRefreshIm a in
      ret (p <| p_im_until := Some (u + month) |>)
  end.
(** 348-357 ProlongImExtra *)
Definition prolong_im (a : addr) : M unit :=
  let! p := get_profile a in
  let! p := prolong_core a p in
  must (set_profile a p).

(** 401-438 monthlyRoutine, 389-393 HandleRenewHook.  A failed automatic
    payment is not an error; what it has written stays. *)
Definition monthly (a : addr) : M unit :=
  let! p := get_profile a in
  let! now := get st_now in
  if p_active now p then
    let! pp := get st_pp in set_profile a (reset_limits pp p)
  else if p_autopay p then
    let! r := try (pay_tariff a 0 true) in
    match r with
    | inl _ => ret tt
    | inr _ => must_set_active a false
    end
  else must_set_active a false.
Definition perform_refresh (a : addr) : M unit := must (monthly a).

(** 440-471 monthlyImRoutine, 395-399 HandleRenewImHook *)
Definition monthly_im (a : addr) : M unit :=
  let! p := get_profile a in
  let! r := (if p_im_autopay p then try (prolong_core a p) else ret (inr (ErrMsg "disabled"))) in
  match r with
  | inl p' => set_profile a p'
  | inr _ => set_profile a (p <| p_im_extra := 0 |> <| p_im_until := None |> <| p_im_autopay := false |>)
  end.
Definition perform_refresh_im (a : addr) : M unit := must (monthly_im a).

(** ** The other messages: types/msgs.go (amounts are uint32, positive except
    that all extra IM storage may be given up) *)
Definition uint32 (x : Z) : bool := (0 <=? x) && (x <? 4294967296).
Definition msg_pay_tariff (a : addr) (storage_gb : Z) : M unit :=
  do! ensure (uint32 storage_gb) "type" in pay_tariff a storage_gb false.
Definition msg_buy_storage (a : addr) (x : Z) : M unit :=
  do! ensure (uint32 x && (0 <? x)) "must be positive" in buy_storage a x.
Definition msg_give_storage_up (a : addr) (x : Z) : M unit :=
  do! ensure (uint32 x && (0 <? x)) "must be positive" in give_storage_up a x.
Definition msg_buy_vpn (a : addr) (x : Z) : M unit :=
  do! ensure (uint32 x && (0 <? x)) "must be positive" in buy_vpn a x.
Definition msg_buy_im (a : addr) (x : Z) : M unit :=
  do! ensure (uint32 x && (0 <? x)) "must be positive" in buy_im a x.
Definition msg_give_im_up (a : addr) (x : Z) : M unit :=
  do! ensure (uint32 x) "type" in give_im_up a x.
Definition msg_prolong_im (a : addr) : M unit := prolong_im a.
