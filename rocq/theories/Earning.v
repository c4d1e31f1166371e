(** * Model of x/earning *)
From Verif Require Export Bank.

(** x/earning/keeper/keeper.go:49-85 IsActiveEarner: vpn, storage *)
Definition fresh (s : St) (t : option time) : bool :=
  match t with Some t => st_now s <? t + 2 * one_day s | None => false end.
Definition is_active_earner (a : addr) : M (bool * bool) :=
  let! e := get (fun s => st_earn s !! a) in
  match e with
  | None => ret (false, false)
  | Some (v, st) =>
      let! fv := get (fun s => fresh s v) in
      let! fs := get (fun s => fresh s st) in
      let v' := if fv then v else None in
      let st' := if fs then st else None in
      do! modify (fun s => s <| st_earn :=
        match v', st' with
        | None, None => base.delete a (st_earn s)
        | _, _ => <[ a := (v', st') ]> (st_earn s)
        end |>) in
      ret (fv, fs)
  end.

(** x/earning/keeper/msg_server.go:28-51 SetMultiple (Set, 19-26, is the case
    of one earner); types/msgs.go:105-119.  The signer is not used. *)
Definition earn_set (e : addr * (option time * option time)) : M unit :=
  let '(a, (v, st)) := e in
  modify (fun s => s <| st_earn :=
    match v, st with
    | None, None => base.delete a (st_earn s)
    | _, _ => <[ a := (v, st) ]> (st_earn s)
    end |>).
Definition msg_set_earners (signer : addr) (es : list (addr * (option time * option time))) : M unit :=
  do! ensure (negb (bool_decide (es = []))) "missing earners list" in
  mfor es earn_set.

(** x/earning/keeper/params.go:20-41; types/params.go: at least one signer *)
Definition set_earn_signers (l : list addr) : M unit :=
  do! assert (negb (bool_decide (l = []))) "invalid params" in
  modify (fun s => s <| st_earn_signers := l |>).
Definition add_earn_signer (a : addr) : M unit :=
  let! l := get st_earn_signers in set_earn_signers (l ++ [a]).
Definition remove_earn_signer (a : addr) : M unit :=
  let! l := get st_earn_signers in
  let '(l', found) := Lists.remove_fast N.compare l a in
  if (found : bool) then set_earn_signers l' else ret tt.

(** x/earning/keeper/genesis.go:9-37 *)
Definition earn_export (s : St) : list (addr * (option time * option time)) :=
  map (fun a => (a, default (None, None) (st_earn s !! a))) (keysN (st_earn s)).
Definition earn_import (l : list (addr * (option time * option time))) : M unit :=
  mfor l (fun '(a, e) => modify (fun s => s <| st_earn := <[ a := e ]> (st_earn s) |>)).
