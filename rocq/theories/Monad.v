(** * The monad of the model

    [Err] is a returned Go error, [Panic] a Go panic.  Neither undoes writes:
    undoing is done by the transaction wrapper ([App.v]) only. *)
From Verif Require Export State.

Inductive err := ErrNotFound | ErrMsg (s : string).
Inductive res (A : Type) := Ok (a : A) | Err (e : err) | Panic (e : err).
Arguments Ok {A} a.
Arguments Err {A} e.
Arguments Panic {A} e.

Definition M (A : Type) := St -> St * res A.

Definition ret {A} (a : A) : M A := fun s => (s, Ok a).
Definition fail {A} (e : string) : M A := fun s => (s, Err (ErrMsg e)).
Definition throw {A} (e : err) : M A := fun s => (s, Err e).
Definition panic {A} (e : string) : M A := fun s => (s, Panic (ErrMsg e)).
Definition bind {A B} (m : M A) (f : A -> M B) : M B := fun s =>
  match m s with
  | (s', Ok a) => f a s'
  | (s', Err e) => (s', Err e)
  | (s', Panic e) => (s', Panic e)
  end.
Definition get {A} (f : St -> A) : M A := fun s => (s, Ok (f s)).
Definition modify (f : St -> St) : M unit := fun s => (f s, Ok tt).

Notation "'let!' x := m 'in' k" := (bind m (fun x => k))
  (at level 200, x pattern, m at level 100, k at level 200, right associativity).
Notation "'do!' m 'in' k" := (bind m (fun _ => k))
  (at level 200, m at level 100, k at level 200, right associativity).

(** A partial operation whose undefined case is a Go panic. *)
Definition lift {A} (e : string) (o : option A) : M A :=
  match o with Some a => ret a | None => panic e end.
(** if !b { return err } / if !b { panic(err) } *)
Definition ensure (b : bool) (e : string) : M unit := if b then ret tt else fail e.
Definition assert (b : bool) (e : string) : M unit := if b then ret tt else panic e.
Definition when (b : bool) (m : M unit) : M unit := if b then m else ret tt.

(** if err := m; err != nil { panic(err) } *)
Definition must {A} (m : M A) : M A := fun s =>
  match m s with (s', Err e) => (s', Panic e) | r => r end.
(** defer func() { if e := recover(); e != nil { err = e } }() *)
Definition recovered {A} (m : M A) : M A := fun s =>
  match m s with (s', Panic e) => (s', Err e) | r => r end.
(** The caller looks at the returned error (a panic goes through). *)
Definition try {A} (m : M A) : M (A + err) := fun s =>
  match m s with
  | (s', Ok a) => (s', Ok (inl a))
  | (s', Err e) => (s', Ok (inr e))
  | (s', Panic e) => (s', Panic e)
  end.
(** The caller also recovers from panics. *)
Definition try_all {A} (m : M A) : M (A + err) := try (recovered m).

Fixpoint mfor {A} (l : list A) (f : A -> M unit) : M unit :=
  match l with
  | [] => ret tt
  | x :: r => do! f x in mfor r f
  end.
Fixpoint mfold {A B} (l : list A) (b : B) (f : B -> A -> M B) : M B :=
  match l with
  | [] => ret b
  | x :: r => let! b' := f b x in mfold r b' f
  end.

(** Iteration over a KV store: ascending keys. *)
Definition keysN {A} (m : gmap N A) : list N := merge_sort N.le (map fst (map_to_list m)).
Definition keysZ {A} (m : gmap Z A) : list Z := merge_sort Z.le (map fst (map_to_list m)).

Definition eval {A} (m : M A) (s : St) : res A := snd (m s).
Definition exec {A} (m : M A) (s : St) : St := fst (m s).
