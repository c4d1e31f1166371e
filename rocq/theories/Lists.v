(** * util/lists.go: sets of strings kept in slices

    Generic in the element type and its comparison; the keepers use it with
    addresses, the theorems of C05 with byte strings.  Slices are values: the
    sharing of a backing array between two Go slices is not modelled. *)
From Coq Require Import List Bool.
Import ListNotations.

Section lists.
  Context {A : Type} (cmp : A -> A -> comparison).

  Definition eqk (a b : A) : bool := match cmp a b with Eq => true | _ => false end.

  (** util/lists.go:5-14 RemoveStringPreserveOrder: new slice and "found" *)
  Fixpoint remove_ordered (l : list A) (x : A) : list A * bool :=
    match l with
    | [] => ([], false)
    | s :: r => if eqk s x then (r, true)
                else let '(r', b) := remove_ordered r x in (s :: r', b)
    end.

  (** util/lists.go:16-25 RemoveStringFast: the last element takes the place of
      the removed one *)
  Fixpoint remove_fast (l : list A) (x : A) : list A * bool :=
    match l with
    | [] => ([], false)
    | s :: r => if eqk s x
                then (match rev r with [] => [] | z :: t => z :: rev t end, true)
                else let '(r', b) := remove_fast r x in (s :: r', b)
    end.

  (** util/lists.go:27-41 AddStringSorted *)
  Fixpoint add_sorted (l : list A) (x : A) : list A * bool :=
    match l with
    | [] => ([x], true)
    | s :: r => match cmp s x with
                | Eq => (l, false)
                | Gt => (x :: l, true)
                | Lt => let '(r', b) := add_sorted r x in (s :: r', b)
                end
    end.

  (** util/lists.go:90-97 ContainsString *)
  Fixpoint contains (l : list A) (x : A) : bool :=
    match l with
    | [] => false
    | s :: r => eqk s x || contains r x
    end.

  (** util/lists.go:43-51 AddStringOntoEnd *)
  Definition add_onto_end (l : list A) (x : A) : list A * bool :=
    if contains l x then (l, false) else (l ++ [x], true).

  (** util/lists.go:53-88 MergeStringsSorted (the two early returns give what
      the loop gives) *)
  Fixpoint merge_sorted (l1 : list A) : list A -> list A :=
    fix go (l2 : list A) : list A :=
      match l1, l2 with
      | [], _ => l2
      | _, [] => l1
      | x :: r1, y :: r2 =>
          match cmp x y with
          | Lt => x :: merge_sorted r1 l2
          | Eq => x :: merge_sorted r1 r2
          | Gt => y :: go r2
          end
      end.
End lists.
