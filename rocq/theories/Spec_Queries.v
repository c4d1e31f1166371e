(** * What the properties of queries talk about *)
From Coq Require Import QArith.
From Verif Require Import Queries Spec_Pure.
From Verif Require Export Spec_Bank Spec_Schedule Spec_Delegating Spec_Referral Spec_Network Spec_Noding Spec_Voting Spec_Profile.
Open Scope Z_scope.

(** The pages 1 to [n] of a query one after the other *)
Definition pages {A} (query : Z -> list A) (n : nat) : list A :=
  List.concat (map (fun k => query (Z.of_nat k)) (seq 1 n)).
(** [l] lists what a store keeps: everything, once, by ascending keys. *)
Definition lists_store {A} (m : gmap Z A) (l : list A) : Prop :=
  exists ks, StronglySorted Z.lt ks /\ (forall k, k ∈ ks <-> is_Some (m !! k)) /\ map Some l = map (fun k => m !! k) ks.
Definition lists_accounts {A} (m : gmap addr A) (l : list (addr * A)) : Prop :=
  StronglySorted N.lt (map fst l) /\ forall a x, (a, x) ∈ l <-> m !! a = Some x.

(** Numbers that fit into 32 bits *)
Definition fits32 (z : Z) : Prop := - 2147483648 <= z < 2147483648.

(** What the query about interest says of an account in state [s]: the current
    day of interest, the rate, what the day will bring, and what it has brought
    by now *)
Definition forecast (s : St) (a : addr) (r : accumulation) : Prop :=
  next_accrual s a = Some (ac_end r) /\ ac_start r = ac_end r - st_day s /\
  (qval (ac_daily r) == account_rate s a)%Q /\
  ac_percent r = trunc (account_rate s a * inject_Z 30 * inject_Z 100) /\
  ac_total r = trunc (account_rate s a * inject_Z (bal s a uartrd)) /\
  ac_current r = trunc (account_rate s a * part_of s (ac_end r) * inject_Z (bal s a uartrd)).
(** The amounts fit into 64 bits. *)
Definition fits64 (z : Z) : Prop := - 2^63 <= z < 2^63.
Definition small_interest (s : St) (a : addr) (t : time) : Prop :=
  fits64 (t - st_now s) /\ fits64 (st_now s - (t - st_day s)) /\
  fits64 (trunc (account_rate s a * inject_Z 30 * inject_Z 100)) /\
  fits64 (trunc (account_rate s a * inject_Z (bal s a uartrd))) /\
  fits64 (trunc (account_rate s a * part_of s t * inject_Z (bal s a uartrd))) /\
  fits64 (trunc (part_of s t * inject_Z (bal s a uartrd))).

(** The part of the day that [a] gets no interest for (the program reads it but
    never sets it) *)
Definition skipped (s : St) (a : addr) : Q :=
  match st_del s !! a with Some r => match d_missed r with Some m => qval m | None => 0%Q end | None => 0%Q end.
Definition proper_skip (s : St) (a : addr) : Prop :=
  match st_del s !! a with Some r => match d_missed r with Some m => Frac.fden m <> 0 | None => True end | None => True end.
(** The amounts of [forecast] less the interest for that part *)
Definition forecast_less (s : St) (a : addr) (r : accumulation) : Prop :=
  next_accrual s a = Some (ac_end r) /\ ac_start r = ac_end r - st_day s /\
  (qval (ac_daily r) == account_rate s a)%Q /\
  ac_percent r = trunc (account_rate s a * inject_Z 30 * inject_Z 100) /\
  ac_total r = trunc (account_rate s a * (1 - skipped s a) * inject_Z (bal s a uartrd)) /\
  ac_current r = trunc (account_rate s a * (part_of s (ac_end r) - skipped s a) * inject_Z (bal s a uartrd)) /\
  ac_missed r = match st_del s !! a with Some r => d_missed r | None => None end.
Definition small_less (s : St) (a : addr) (t : time) : Prop :=
  fits64 (st_now s - (t - st_day s)) /\
  fits64 (trunc (account_rate s a * inject_Z 30 * inject_Z 100)) /\
  fits64 (trunc (account_rate s a * (1 - skipped s a) * inject_Z (bal s a uartrd))) /\
  fits64 (trunc (account_rate s a * (part_of s t - skipped s a) * inject_Z (bal s a uartrd))).

(** [ts] lists the pending tasks with times in the range [p]: by time, for every
    instant just those waiting for it, in the order they were scheduled *)
Definition lists_tasks (s : St) (p : time -> bool) (ts : list task) : Prop :=
  StronglySorted (fun x y => t_time x <= t_time y) ts /\
  forall k, List.filter (fun t => t_time t =? k) ts = if p k then tasks_at s k else [].

(** [subject] may ask for [parent] as its new referrer. *)
Definition may_move (s : St) (subject parent : addr) : Prop :=
  parent <> nobody /\ parent <> subject /\ parent <> referrer s subject /\ open_account s parent /\
  r_transition (ref_get s subject) = nobody /\ ~ below s parent subject.

(** The lines a status opens, and the sum over an account and the members of
    its lines 1 to [m] *)
Definition opened (st : Z) : nat := match st with 1 => 4 | 2 => 6 | 3 => 8 | _ => 10 end.
Definition in_lines (s : St) (f : addr -> Z) (a : addr) (m : nat) : Z :=
  f a + sum (map (fun k => sum (map f (at_line s k a))) (seq 1 m)).

(** No active validator uses the key. *)
Definition key_free (s : St) (k : N) : Prop :=
  forall b, st_oper s !! k = Some b -> exists x, st_val s !! b = Some x /\ ~ (is_validator s b = true /\ n_pub x = k).

(** ** Profiles *)

(** Whoever is recorded under a nickname has a profile, and whoever is recorded
    under a card number has the card. *)
Definition findable (s : St) : Prop :=
  (forall k a, st_nick s !! k = Some a -> is_Some (st_prof s !! a)) /\
  (forall c a, st_card s !! c = Some a -> exists p, st_prof s !! a = Some p /\ p_card p = c).
