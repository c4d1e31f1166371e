(** * Model of x/delegating *)
From Verif Require Export Earning.

(** x/profile/types/types.go:13-15 IsActive *)
Definition p_active (now : time) (p : profile) : bool :=
  match p_until p with Some t => now <? t | None => false end.

(** A chain of fraction operations; [None] is a panic. *)
Definition fr {A} (o : option A) : M A := lift "fraction" o.

(** ** Conversions between the three kinds of coins: keeper.go:264-353.
    [d1] loses [n1], [d2] gets [n2], and the supply follows. *)
Definition convert (a : addr) (d1 : N) (n1 : Z) (d2 : N) (n2 : Z) : M unit :=
  if n1 =? 0 then ret tt else
  let! minus := new_coins d1 n1 in
  do! subtract_coins a minus in
  let! plus := new_coins d2 n2 in
  do! add_coins a plus in
  do! deflate minus in
  inflate plus.
(** 264-288 delegate *)
Definition delegate_coins (a : addr) (n : Z) : M unit := convert a uartr n uartrd n.
(** 290-321 freeze (the event converts the amount to uint64) *)
Definition freeze (a : addr) (n m : Z) : M unit :=
  do! convert a uartrd n uartrr m in
  if n =? 0 then ret tt else do! lift "Uint64() out of bounds" (Frac.to_uint64 m) in ret tt.
(** 323-353 undelegate *)
Definition undelegate (a : addr) (n : Z) : M unit :=
  do! convert a uartrr n uartr n in
  if n =? 0 then ret tt else do! lift "Uint64() out of bounds" (Frac.to_uint64 n) in ret tt.

(** ** Interest *)

(** keeper.go:488-500: the bonus of column [i] is that of the last row whose
    start is not above the delegation (rows are tried in order until one is). *)
Fixpoint bonus (table : list (Z * list frac)) (i : nat) (delegated : Z) (acc : frac) : option frac :=
  match table with
  | [] => Some acc
  | (start, l) :: r =>
      if start <=? delegated
      then match l !! i with Some f => bonus r i delegated f | None => None end
      else Some acc
  end.
Fixpoint percent_sum (table : list (Z * list frac)) (delegated : Z) (flags : list bool) (i : nat) (acc : frac)
  : option frac :=
  match flags with
  | [] => Some acc
  | true :: r =>
      match bonus table i delegated Frac.frac_zero with
      | Some b => match Frac.add acc b with
                  | Some acc' => percent_sum table delegated r (S i) acc'
                  | None => None
                  end
      | None => None
      end
  | false :: r => percent_sum table delegated r (S i) acc
  end.
(** keeper.go:478-504 percent: the daily rate *)
Definition percent (s : St) (delegated : Z) (prof val vpn storage : bool) : option frac :=
  match Frac.to_int64 delegated with
  | None => None
  | Some d =>
      if d <=? bp_dust (st_bp s) then Some Frac.frac_zero else
      match percent_sum (dp_table (st_dp s)) delegated [true; val; prof; vpn; storage] 0 Frac.frac_zero with
      | Some p => match Frac.div p (Frac.new_fraction 30 1) with Some q => Frac.reduce q | None => None end
      | None => None
      end
  end.

(** keeper.go:355-394 accrue *)
Definition accrue (a : addr) (n : Z) : M unit :=
  if n =? 0 then ret tt else
  let! p := get (fun s => st_prof s !! a) in
  match p with
  | None => ret tt
  | Some _ =>
      let! emission := new_coins uartr n in
      do! inflate emission in
      let! fee := tx_fee n in
      let! emission := (if fee =? 0 then ret emission else
        let! f := new_coins uartr fee in
        do! assert (coins_ge emission f) "negative coin amount" in
        do! must (add_coins splitter f) in
        ret (coins_sub emission f)) in
      do! must (add_coins a emission) in
      do! lift "Uint64() out of bounds" (Frac.to_uint64 (n - fee)) in
      do! lift "Uint64() out of bounds" (Frac.to_uint64 fee) in
      ret tt
  end.

(** keeper.go:420-431: one validator's share *)
Definition vfee_amount (f : frac) (n : Z) : option Z :=
  match Frac.div f (Frac.new_fraction 30 1) with
  | Some q => match Frac.reduce q with
              | Some r => match Frac.to_int64 n with
                          | Some n' => match Frac.mul_int r n' with Some x => Frac.int64 x | None => None end
                          | None => None
                          end
              | None => None
              end
  | None => None
  end.
(** keeper.go:396-447 accrueToValidator *)
Definition accrue_to_validator (a : addr) (n : Z) : M unit :=
  if n =? 0 then ret tt else
  let! p := get (fun s => st_prof s !! a) in
  match p with
  | None => ret tt
  | Some _ =>
      let! fees := get (fun s => vfees_up 20 0 None s (r_referrer (ref_get s a))) in
      let! fees := fr fees in
      let! outs := mfold fees [] (fun acc e =>
        let! x := fr (vfee_amount (snd e) n) in
        if x =? 0 then ret acc else
        let! c := new_coins uartr x in
        ret (acc ++ [(fst e, x, c)])) in
      let total := Frac.wrap64 (fold_left (fun t e => t + snd (fst e)) outs 0) in
      if total =? 0 then ret tt else
      do! mfor outs (fun e => must (add_coins (fst (fst e)) (snd e))) in
      let! emission := new_coins uartr total in
      inflate emission
  end.

(** The four bonus conditions of an account at this moment (keeper.go:455-464,
    hooks.go:79-87): profile, validator, vpn, storage *)
Definition bonus_flags (a : addr) : M (bool * bool * bool * bool) :=
  let! p := get (fun s => st_prof s !! a) in
  let! p := lift "nil pointer dereference" p in
  let! now := get st_now in
  let! v := get (fun s => is_active_validator s a) in
  let! (vpn, st) := is_active_earner a in
  ret (p_active now p, v, vpn, st).

Definition oget {A B} (o : option A) (f : A -> option B) : option B := Frac.obind o f.

(** time.Time.Sub: saturates at the bounds of time.Duration *)
Definition sat64 (x : Z) : Z := Z.max (-9223372036854775808) (Z.min 9223372036854775807 x).
(** keeper.go:506-508 dayPart *)
Definition day_part (s : St) (end_ : time) : option frac :=
  oget (Frac.reduce (Frac.new_fraction (sat64 (end_ - st_now s)) (one_day s))) (fun q =>
  Frac.sub (Frac.frac_int 1) q).

(** keeper.go:449-476 accruePart *)
Definition accrue_part (a : addr) (item : drec) (next : time) : M drec :=
  let! item := match d_next item with
    | None => ret item
    | Some t =>
        let! part := get (fun s => day_part s t) in
        let! part := fr part in
        let! part := match d_missed item with
                     | Some m => fr (Frac.sub part m)
                     | None => ret part
                     end in
        let! delegated := get (fun s => own_deleg s a) in
        let! (prof, val, vpn, st) := bonus_flags a in
        let! pc := get (fun s => percent s delegated prof val vpn st) in
        let! pc := fr pc in
        let! d := lift "Int64() out of bound" (Frac.to_int64 delegated) in
        let! interest := fr (oget (Frac.mul pc part) (fun x => oget (Frac.reduce x) (fun x =>
                             oget (Frac.mul_int x d) Frac.int64))) in
        let! to_val := fr (oget (Frac.reduce part) (fun x => oget (Frac.mul_int x d) Frac.int64)) in
        do! (if 0 <? interest
             then do! accrue a interest in accrue_to_validator a to_val
             else ret tt) in
        do! delete_task t HAccrue a in
        ret (item <| d_missed := None |>)
    end in
  ret (item <| d_next := Some next |>).

(** ** Operations *)
Definition del_get (a : addr) (s : St) : drec := default (mkD None [] None) (st_del s !! a).
Definition del_set (a : addr) (r : drec) : M unit :=
  modify (fun s => s <| st_del := <[ a := r ]> (st_del s) |>).

(** keeper.go:64-121 Revoke *)
Definition revoke (a : addr) (n : Z) (express : bool) : M unit :=
  if n =? 0 then ret tt else
  let! s := get id in
  let current := own_deleg s a in
  do! ensure (negb (current <? n)) "cannot revoke more than delegated" in
  let item := del_get a s in
  let tomorrow := st_now s + one_day s in
  let! item := accrue_part a item tomorrow in
  let! p := get (fun s => if express then dp_express (st_dp s) else dp_revoke (st_dp s)) in
  let! ni := lift "Int64() out of bound" (Frac.to_int64 n) in
  let! burnt := fr (oget (Frac.mul_int (rv_burn p) ni) Frac.int64) in
  let m := n - burnt in
  do! freeze a n m in
  let! dust := get (fun s => bp_dust (st_bp s)) in
  let! left_ := lift "Int64() out of bound" (Frac.to_int64 (current - n)) in
  let! item := (if left_ <=? dust then ret (item <| d_next := None |>) else
    do! schedule_task tomorrow HAccrue a in
    ret (item <| d_next := Some tomorrow |>)) in
  let t := st_now s + rv_period p * one_day s in
  do! del_set a (item <| d_reqs := d_reqs item ++ [mkReq t m] |>) in
  schedule_task t HRevoke a.

(** keeper.go:123-175 Delegate *)
Definition delegate (a : addr) (n : Z) : M unit :=
  let! min := get (fun s => dp_min (st_dp s)) in
  do! ensure (negb (n <? min)) "less than minimum" in
  let! c := new_coins uartr n in
  let! fee := pay_tx_fee a c in
  let n := n - amt fee uartr in
  let! s := get id in
  let tomorrow := st_now s + one_day s in
  let! item := accrue_part a (del_get a s) tomorrow in
  do! delegate_coins a n in
  let! b := get (fun s => own_deleg s a) in
  let! b := lift "Int64() out of bound" (Frac.to_int64 b) in
  let! dust := get (fun s => bp_dust (st_bp s)) in
  let! item := (if b <=? dust then ret (item <| d_next := None |>) else
    do! schedule_task tomorrow HAccrue a in
    ret (item <| d_next := Some tomorrow |>)) in
  do! lift "Uint64() out of bounds" (Frac.to_uint64 n) in
  del_set a item.

(** hooks.go:14-62 MustPerformRevoking, performRevoking.  sort.Slice leaves the
    order of requests with equal times open; here they keep their order.  The
    record is never deleted: the emptied slice of requests is not nil. *)
Definition req_le (x y : request) : Prop := q_time x <= q_time y.
#[export] Instance req_le_dec : RelDecision req_le.
Proof. intros x y. unfold req_le. apply _. Defined.
Fixpoint take_due (now : time) (l : list request) : list request * list request :=
  match l with
  | [] => ([], [])
  | q :: r => if now <? q_time q then ([], q :: r)
              else let '(due, rest) := take_due now r in (q :: due, rest)
  end.
Definition perform_revoking (a : addr) : M unit :=
  let! r := get (fun s => st_del s !! a) in
  match r with
  | None => ret tt
  | Some item =>
      let! now := get st_now in
      let '(due, rest) := take_due now (merge_sort req_le (d_reqs item)) in
      do! must (mfor due (fun q => undelegate a (q_amount q))) in
      match due with
      | [] => ret tt
      | _ => del_set a (item <| d_reqs := rest |>)
      end
  end.

(** hooks.go:64-106 MustPerformAccrue *)
Definition perform_accrue (a : addr) (t : time) : M unit :=
  let! item := get (del_get a) in
  let! next := lift "accrue cancelled" (d_next item) in
  do! assert (next =? t) "accrue rescheduled" in
  let! delegated := get (fun s => own_deleg s a) in
  let! (prof, val, vpn, st) := bonus_flags a in
  let! pc := get (fun s => percent s delegated prof val vpn st) in
  let! pc := fr pc in
  let! item := (if Frac.is_zero pc then ret (item <| d_next := None |>) else
    let! d := lift "Int64() out of bound" (Frac.to_int64 delegated) in
    let! interest := fr (oget (Frac.mul_int pc d) Frac.int64) in
    let! (interest, to_val) := match d_missed item with
      | None => ret (interest, d)
      | Some m =>
          let! x := fr (oget (Frac.mul_int m interest) Frac.int64) in
          let! y := fr (oget (Frac.mul_int m d) Frac.int64) in
          ret (Frac.wrap64 (interest - x), Frac.wrap64 (d - y))
      end in
    do! accrue a interest in
    do! accrue_to_validator a to_val in
    let! day := get one_day in
    do! schedule_task (t + day) HAccrue a in
    ret (item <| d_next := Some (t + day) |> <| d_missed := None |>)) in
  del_set a item.

(** hooks.go:108-116 OnBanished *)
Definition on_banished (a : addr) : M unit :=
  let! d := get (fun s => own_deleg s a) in
  if d =? 0 then ret tt else revoke a d false.

(** x/referral/keeper/keeper.go:909-1001 Banish and its callback (app/app.go:321-322) *)
Definition banish (a : addr) : M unit := do! banish_core a in on_banished a.
(** x/referral/keeper/hooks.go:57-61 PerformBanish *)
Definition perform_banish (a : addr) : M unit := must (banish a).

(** x/delegating/keeper/msg_server.go:21-59; types/msgs.go:42-155 *)
Definition msg_delegate (a : addr) (n : Z) : M unit :=
  do! ensure (0 <? n) "amount must be positive" in delegate a n.
Definition msg_revoke (a : addr) (n : Z) (express : bool) : M unit :=
  do! ensure (0 <? n) "amount must be positive" in revoke a n express.

(** ** Parameters: types/types.go:91-142, types/params.go:127-158 *)
Definition revoke_valid (r : revoke_p) : option bool :=
  if rv_period r <? 1 then Some false else
  match Frac.gt (rv_burn r) (Frac.percent_f 100) with
  | Some g => Some (negb g && negb (Frac.is_negative (rv_burn r)))
  | None => None
  end.
Fixpoint table_ok (prev : Z) (l : list (Z * list frac)) : bool :=
  match l with
  | [] => true
  | (start, fs) :: r =>
      (prev <? start) && (List.length fs =? 5)%nat && forallb (fun f => negb (Frac.is_negative f)) fs
      && table_ok start r
  end.
Definition table_valid (l : list (Z * list frac)) : bool :=
  match l with (0, _) :: _ => table_ok (-1) l | _ => false end.
Definition dparams_valid (p : dparams) : option bool :=
  match revoke_valid (dp_revoke p), revoke_valid (dp_express p) with
  | Some a, Some b => Some ((1 <=? dp_min p) && a && b && table_valid (dp_table p))
  | _, _ => None
  end.
Definition set_dparams (p : dparams) : M unit :=
  let! ok := lift "invalid params" (dparams_valid p) in
  do! assert ok "invalid params" in
  modify (fun s => s <| st_dp := p |>).

(** ** Genesis: keeper/genesis.go:11-48 (the missed part is not exported) *)
Definition del_export (s : St) : list (addr * (option time * list request)) :=
  map (fun a => (a, (d_next (del_get a s), d_reqs (del_get a s)))) (keysN (st_del s)).
Definition del_import (l : list (addr * (option time * list request))) : M unit :=
  mfor l (fun e => del_set (fst e) (mkD (fst (snd e)) (snd (snd e)) None)).

(** x/referral/keeper/keeper.go:728-734: the requested referrer is noted *)
Definition set_transition (subject parent : addr) : M unit :=
  modify (fun s => s <| st_ref := <[ subject := ref_get s subject <| r_transition := parent |> ]> (st_ref s) |>).
(** ** Transitions, the part that needs the bank:
    x/referral/keeper/keeper.go:700-745 RequestTransition *)
Definition request_transition (subject parent : addr) : M unit :=
  do! validate_transition subject parent true in
  let! price := get (fun s => rp_transition_price (st_rp s)) in
  do! (if 0 <? price
       then let! c := new_coins uartr price in send_to_module subject fee_collector c
       else ret tt) in
  do! set_transition subject parent in
  let! t := get (fun s => st_now s + one_day s) in
  schedule_task t HTransition subject.
(** x/referral/keeper/msg_server.go:25-36, types/msgs.go *)
Definition msg_request_transition (subject parent : addr) : M unit := request_transition subject parent.
(** x/referral/keeper/msg_server.go:38-58 ResolveTransition *)
Definition msg_resolve_transition (signer subject : addr) (approved : bool) : M unit :=
  let! r := get (fun s => ref_get s subject) in
  do! ensure (negb (signer =? nobody)%N) "empty address" in
  do! ensure (signer =? r_referrer r)%N "only the current referrer can resolve" in
  if approved then affirm_transition subject else cancel_transition subject.
