(** * What the property of the lists of accounts by status talks about *)
From Verif Require Export Spec_Network Queries.

(** The statuses that can be asked for: from the fifth on, the eighth is out of
    use *)
Definition high : list Z := [5; 6; 7; 9].
(** The list somebody gets who asks for the accounts with a status *)
Definition with_status (s : St) (st : Z) (l : list addr) : Prop := query_with_status s st = Some l.

(** Along the history, a monthly renewal never finds its account banished. *)
Definition renewed_in_place (bs : list block) (s : St) : Prop :=
  forall t s1, (STask t, s1) ∈ steps bs s -> t_hook t = HRefresh -> banished s1 (t_data t) = false.
(** Along the history, a banishment never finds an account with a high status. *)
Definition banished_low (bs : list block) (s : St) : Prop :=
  forall t s1, (STask t, s1) ∈ steps bs s -> t_hook t = HBanish -> status s1 (t_data t) < 5.
