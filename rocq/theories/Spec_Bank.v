(** * What the bank properties talk about *)
From Verif Require Import App.

(** The balance of [a] in the denomination [d] *)
Definition bal (s : St) (a : addr) (d : N) : Z := amt (balance s a) d.
(** The recorded supply *)
Definition supply (s : St) (d : N) : Z := amt (st_supply s) d.
(** The sum of all balances *)
Definition sum_bal (s : St) (d : N) : Z := map_fold (fun _ c acc => amt c d + acc) 0 (st_bal s).
(** [n] if [x] is [y] *)
Definition at_ (x y : addr) (n : Z) : Z := if (x =? y)%N then n else 0.

(** Stored balances: not empty, and every amount stored is positive. *)
Definition bal_ok (s : St) : Prop :=
  forall a c, st_bal s !! a = Some c -> c <> ∅ /\ forall d n, c !! d = Some n -> 0 < n.

(** The amounts a list of inputs or outputs has for one account *)
Fixpoint share (l : list (addr * coins)) (a : addr) (d : N) : Z :=
  match l with
  | [] => 0
  | (x, c) :: r => at_ a x (amt c d) + share r a d
  end.
Fixpoint sum_all (l : list (addr * coins)) (d : N) : Z :=
  match l with
  | [] => 0
  | (_, c) :: r => amt c d + sum_all r d
  end.

(** The scheduled tasks that failed and the balance hooks that failed so far
    outside of transactions (what a failed transaction does is undone) *)
Definition is_abort (e : logev) : bool :=
  match e with LTaskFailed _ | LHookFailed _ => true | LProposerFailed | LNoHook _ => false end.
Definition aborts (s : St) : nat := List.length (List.filter is_abort (st_log s)).
