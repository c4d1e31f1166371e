(** * What the property of the upgrade to 2.1.0 talks about *)
From Verif Require Export Spec_Upgrade.

(** The account is to be banished: it does not pay, is not banished yet, has
    (next to) nothing delegated, and no compression awaits it. *)
Definition condemned (s : St) (a : addr) : Prop :=
  active s a = false /\ banished s a = false /\ stored_deleg s a 0 <= bp_dust (st_bp s) /\
  forall c, r_compression_at (ref_get s a) = Some c -> st_now s < c -> ~ waiting s c HCompression a.
(** The account has been banished although it pays. *)
Definition unfair (s : St) (a : addr) : Prop := banished s a = true /\ active s a = true.
(** Tasks wait where they say they do. *)
Definition in_place (s : St) : Prop := forall t x, x ∈ tasks_at s t -> t_time x = t.

(** [s0] is [s], except for the schedule and for the times of compressions and
    banishments in the records. *)
Definition but_times (s s0 : St) : Prop :=
  s0 <| st_sched := ∅ |> <| st_ref := ∅ |> = s <| st_sched := ∅ |> <| st_ref := ∅ |> /\
  forall a, ref_get s0 a <| r_compression_at := None |> <| r_banishment_at := None |>
          = ref_get s a <| r_compression_at := None |> <| r_banishment_at := None |>.
(** The states the network goes through while accounts banished unfairly return
    one after another *)
Inductive returning (s : St) : St -> Prop :=
| returning_start s0 : but_times s s0 -> returning s s0
| returning_next s1 a : returning s s1 -> unfair s a -> returning s (fst (come_back a s1)).
(** The return of [a] has failed. *)
Definition kept_out (s : St) (a : addr) : Prop := exists s1 s2 e, returning s s1 /\ come_back a s1 = (s2, Err e).
