(** * Specification vocabulary for C01-C07 *)
From Coq Require Import ZArith QArith Qround String OrderedTypeEx List Sorting.Sorted.
From Verif Require Import Frac.

(** The rational number a fraction stands for. *)
Definition qval (f : frac) : Q := (inject_Z (fnum f) / inject_Z (fden f))%Q.

(** A rational rounded toward zero. *)
Definition trunc (q : Q) : Z := if Qle_bool 0 q then Qfloor q else Qceiling q.

(** Byte-wise order of Go strings. *)
Definition str_lt (x y : string) : Prop := String_as_OT.cmp x y = Lt.
Definition str_sorted (l : list string) : Prop := StronglySorted str_lt l.
