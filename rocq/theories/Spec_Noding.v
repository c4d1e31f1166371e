(** * What the properties of validators talk about *)
From Coq Require Import QArith.
From Verif Require Import App Spec_Pure.
Open Scope Z_scope.

(** ** Voting power *)

(** A proper distribution of voting power: positive powers, slices with positive
    parts that make up the whole. *)
Fixpoint parts (sl : list (frac * Z)) (n : nat) : Q :=
  match n, sl with
  | S m, (f, _) :: r => (qval f + parts r m)%Q
  | _, _ => 0%Q
  end.
Definition proper_distribution (lucky : Z) (sl : list (frac * Z)) : Prop :=
  0 < lucky /\ sl <> [] /\
  (forall f pw, (f, pw) ∈ sl -> 0 < pw /\ Frac.fden f <> 0 /\ (0 < qval f)%Q) /\
  (parts sl (List.length sl) == 1)%Q.
Definition proper_nparams (p : nparams) : Prop :=
  1 <= np_max p /\ 1 <= np_jail_after p /\ 1 <= np_unjail_after p /\
  proper_distribution (np_lucky_power p) (np_slices p).

(** The powers of a sequence of validators with the given scores (best first) *)
Fixpoint powers (p : nparams) (scores : list Z) (g : vpg) : option (list Z) :=
  match scores with
  | [] => Some []
  | sc :: r => match vpg_next p sc g with
               | Some (pw, g') => match powers p r g' with Some l => Some (pw :: l) | None => None end
               | None => None
               end
  end.
(** The power a slice gives *)
Definition slice_power (sl : list (frac * Z)) (j : nat) : option Z := option_map snd (sl !! j).
(** The slice of every validator in turn: number [i] (from 1) stays in the slice [j] of
    its predecessor if the slices up to [j] still have room for it or if it is
    just as good as its predecessor; otherwise it begins the next slice. *)
Fixpoint slice_numbers (max : Z) (sl : list (frac * Z)) (i last : Z) (j : nat) (scores : list Z) : list nat :=
  match scores with
  | [] => []
  | sc :: r =>
      let j' := if Qle_bool (inject_Z i / inject_Z max) (parts sl (S j)) || (sc =? last) then j else S j in
      j' :: slice_numbers max sl (i + 1) sc j' r
  end.
Definition all_slices (max : Z) (sl : list (frac * Z)) (scores : list Z) : list nat :=
  match scores with
  | [] => []
  | sc :: r => O :: slice_numbers max sl 2 sc 0 r
  end.

(** ** The consensus engine's view *)

(** Its validator set: keys and powers.  An update with power 0 removes a key. *)
Definition apply_update (c : gmap N Z) (u : N * Z) : gmap N Z :=
  if snd u =? 0 then base.delete (fst u) c else <[ fst u := snd u ]> c.
Definition apply_updates (c : gmap N Z) (us : list (N * Z)) : gmap N Z := fold_left apply_update us c.
(** What it accepts: no key twice, no removal of a key it does not know, no negative power *)
Definition acceptable (c : gmap N Z) (us : list (N * Z)) : Prop :=
  NoDup (map fst us) /\ forall k p, (k, p) ∈ us -> 0 <= p /\ (p = 0 -> is_Some (c !! k)).
(** The keys and powers on record *)
Definition on_record (s : St) (k : N) (p : Z) : Prop :=
  exists z x, st_val s !! z = Some x /\ n_last_pub x = k /\ n_power x = p /\ p <> 0.
Definition in_step (c : gmap N Z) (s : St) : Prop := forall k p, c !! k = Some p <-> on_record s k p.

(** Keys and powers as they should be: a validator that is switched on has a
    key, and has a last key iff it has power. *)
Definition sound_record (x : ninfo) : Prop :=
  (n_status x = true -> n_pub x <> 0%N) /\ 0 <= n_power x /\ (n_power x = 0 <-> n_last_pub x = 0%N).
Definition sound_records (s : St) : Prop := forall z x, st_val s !! z = Some x -> sound_record x.
(** Every key in use belongs to its operator ([owner] assigns an operator to every key). *)
Definition keys_owned (owner : N -> addr) (s : St) : Prop :=
  forall z x, st_val s !! z = Some x ->
    (n_pub x <> 0%N -> owner (n_pub x) = z) /\ (n_last_pub x <> 0%N -> owner (n_last_pub x) = z).
(** A transaction in which operators use only keys that belong to them *)
Definition owned_tx (owner : N -> addr) (t : tx) : Prop := forall a k, MOn a k ∈ tx_msgs t -> owner k = a.

(** The key index: every key in it leads to its owner, who has a record, and it has the last key of every record. *)
Definition indexed (owner : N -> addr) (s : St) : Prop :=
  (forall k a, st_oper s !! k = Some a -> k <> 0%N /\ owner k = a /\ is_Some (st_val s !! a)) /\
  (forall z x, st_val s !! z = Some x -> n_last_pub x <> 0%N -> is_Some (st_oper s !! n_last_pub x)).

(** ** Qualification *)

(** What is delegated by an account and by the lines below it that its status opens *)
Definition delegated_below (s : St) (a : addr) : Z :=
  let r := ref_get s a in
  fold_right Z.add 0 (take (S (lines_opened (r_status r))) (r_deleg r)).
Definition on_staff (s : St) (a : addr) : bool := match st_val s !! a with Some x => n_staff x | None => false end.
Definition qualified (s : St) (a : addr) : Prop :=
  on_staff s a = true \/
  (np_min_status (st_np s) <= r_status (ref_get s a) /\
   np_min_self (st_np s) <= amt (balance s a) uartrd /\
   np_min_total (st_np s) <= delegated_below s a).

(** The lottery queue and the records agree. *)
Definition queue_ok (s : St) : Prop :=
  forall z x, st_val s !! z = Some x -> n_lottery x <> 0 -> 0 < n_lottery x /\ st_lottery s !! n_lottery x = Some z.

(** ** Votes *)

(** Misses in a row at the end of a sequence of votes ([true]: signed), after [m] misses *)
Fixpoint in_a_row (m : Z) (vs : list bool) : Z :=
  match vs with
  | [] => m
  | v :: r => in_a_row (if v then 0 else m + 1) r
  end.
(** The votes of operator [z] in a block, by the keys known when the block begins *)
Definition votes_of (z : addr) (s : St) (votes : list (N * bool)) : list bool :=
  map snd (List.filter (fun e => bool_decide (st_oper s !! fst e = Some z)) votes).
(** Every vote of a block is by a known validator. *)
Definition known_voters (s : St) (votes : list (N * bool)) : Prop :=
  forall c v, (c, v) ∈ votes -> exists a x, st_oper s !! c = Some a /\ st_val s !! a = Some x.
(** Blocks in each of which [z] has one vote, the given one, while the number of
    misses that leads to jail is [J]; [s'] is the state after them. *)
Fixpoint voted (z : addr) (J : Z) (bs : list block) (vs : list bool) (s s' : St) : Prop :=
  match bs, vs with
  | [], [] => s' = s
  | b :: bs, v :: vs =>
      np_jail_after (st_np s) = J /\ known_voters s (b_votes b) /\ votes_of z s (b_votes b) = [v] /\
      exists s1 u, run_block b s = Some (s1, u) /\ voted z J bs vs s1 s'
  | _, _ => False
  end.

(** ** Infractions *)

(** The evidence against operator [z] in a block, by the keys known when the block begins *)
Definition evidence_of (z : addr) (s : St) (evs : list (N * N)) : list N :=
  map snd (List.filter (fun e => bool_decide (st_oper s !! fst e = Some z)) evs).
Definition infractions (s : St) (z : addr) : list N := match st_val s !! z with Some x => n_infr x | None => [] end.
Definition banned (s : St) (z : addr) : bool := match st_val s !! z with Some x => n_banned x | None => false end.
Definition jailed (s : St) (z : addr) : bool := match st_val s !! z with Some x => n_jailed x | None => false end.
Definition power_of (s : St) (z : addr) : Z := match st_val s !! z with Some x => n_power x | None => 0 end.
