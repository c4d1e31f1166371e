(** * What the properties of the referral network talk about *)
From Coq Require Import QArith.
From Verif Require Import App Spec_Pure.
Open Scope Z_scope.

(** ** Members *)
Definition registered (s : St) (a : addr) : Prop := is_Some (st_ref s !! a).
Definition referrer (s : St) (a : addr) : addr := r_referrer (ref_get s a).
Definition referrals (s : St) (a : addr) : list addr := r_referrals (ref_get s a).
Definition active_referrals (s : St) (a : addr) : list addr := r_arefs (ref_get s a).
Definition status (s : St) (a : addr) : Z := r_status (ref_get s a).
Definition active (s : St) (a : addr) : bool := r_active (ref_get s a).
Definition banished (s : St) (a : addr) : bool := r_banished (ref_get s a).
(** When the requirements of the status are not met: until when it is kept *)
Definition downgrade_at (s : St) (a : addr) : option Z := r_downgrade_at (ref_get s a).
(** The first [n] referrers of an account: its referrer, the referrer of that one ... *)
Fixpoint up (s : St) (n : nat) (a : addr) : addr := match n with O => a | S m => referrer s (up s m a) end.
Fixpoint ancestors (s : St) (n : nat) (a : addr) : list addr :=
  match n with
  | O => []
  | S m => let p := referrer s a in if (p =? nobody)%N then [] else p :: ancestors s m p
  end.

(** [x] is a direct or indirect referral of [a]. *)
Definition below (s : St) (x a : addr) : Prop :=
  exists n, (1 <= n)%nat /\ up s n x = a /\ forall m, (m <= n)%nat -> up s m x <> nobody.

(** ** Registration *)

(** An account without referrer is a top-level one.  The others take new
    referrals unless they are banished, while they are active or for the first
    of the two months that their compression is ahead. *)
Definition open_account (s : St) (a : addr) : Prop :=
  referrer s a = nobody \/
  (banished s a = false /\
   (active s a = true \/
    exists t, r_compression_at (ref_get s a) = Some t /\ st_now s <= t - one_month s)).

(** ** Statuses *)

(** The requirements of the published table (x/referral/keeper/status_requirements.go),
    for the account with the record [r] when [g] gives the records of the others:
    coins delegated in the lines 0 to [lines] (in whole ARTR), active referrals
    with at least so many active referrals, active referrals with teams of at
    least so many active accounts (themselves included). *)
Definition line (l : list Z) (k : nat) : Z := default 0 (l !! k).
Definition sum (l : list Z) : Z := fold_right Z.add 0 l.
Definition delegated_to (r : rinfo) (lines : nat) (artr : Z) : Prop :=
  artr * 1000000 <= sum (take (S lines) (r_deleg r)).
Definition wide (g : addr -> rinfo) (r : rinfo) (size : Z) : nat :=
  List.length (filter (fun x => size <= line (r_cnt (g x)) 1) (r_arefs r)).
Definition teams (g : addr -> rinfo) (r : rinfo) (size : Z) : nat :=
  List.length (filter (fun x => size <= sum (r_cnt (g x))) (r_arefs r)).
Definition xbyx (g : addr -> rinfo) (r : rinfo) (lines : nat) (artr : Z) (n : nat) : Prop :=
  delegated_to r lines artr /\ (n <= wide g r (Z.of_nat n))%nat.
Definition core (g : addr -> rinfo) (r : rinfo) (lines : nat) (artr size : Z) : Prop :=
  delegated_to r lines artr /\ (3 <= wide g r 3)%nat /\ (3 <= teams g r size)%nat.
Definition meets (g : addr -> rinfo) (r : rinfo) (st : Z) : Prop :=
  match st with
  | 0 => True
  | 1 => r_banished r = false                                     (* Lucky *)
  | 2 => r_banished r = false /\ xbyx g r 4 20000 2               (* Leader *)
  | 3 => r_banished r = false /\ xbyx g r 6 50000 3               (* Master *)
  | 4 => r_banished r = false /\ core g r 8 150000 10             (* Champion *)
  | 5 => r_banished r = false /\ core g r 10 300000 50            (* Businessman *)
  | 6 => r_banished r = false /\ core g r 10 700000 100           (* Professional *)
  | 7 => r_banished r = false /\ core g r 10 1500000 300          (* Top leader *)
  | 9 => r_banished r = false /\ core g r 10 3000000 600          (* Absolute champion *)
  | _ => False
  end.
(** The statuses one after the other; 8 is out of use and means 9. *)
Definition ladder (st : Z) : Z := if st =? 7 then 9 else st + 1.
(** The status with 9 for 8 *)
Definition new_number (st : Z) : Z := if st =? 8 then 9 else st.
(** Up from [st], every requirement is met until [st']; it is the last one or
    the requirements of the next one are not met. *)
Definition reaches_to (g : addr -> rinfo) (r : rinfo) (st st' : Z) : Prop :=
  exists n, st' = Nat.iter n ladder st /\
    (forall m, (1 <= m <= n)%nat -> meets g r (Nat.iter m ladder st)) /\
    (st' = 9 \/ ~ meets g r (ladder st')).
(** Teams are smaller than 2^64. *)
Definition counted (g : addr -> rinfo) (r : rinfo) : Prop :=
  forall x, x ∈ r_arefs r -> Forall (fun n => 0 <= n) (r_cnt (g x)) /\ sum (r_cnt (g x)) < 2 ^ 64.
Definition two_days (s : St) : Z := 2 * one_day s.

(** ** Returning *)

(** [a] is back in the network, under the first of its former referrers that
    takes referrals; nobody else's referrals change.  (Without referrers it
    becomes a top-level account.) *)
Definition returned (s s' : St) (a : addr) : Prop :=
  banished s' a = false /\
  ((referrer s a = nobody /\ referrer s' a = nobody) \/
   exists n, (1 <= n)%nat /\ referrer s' a = up s n a /\ up s n a <> nobody /\ open_account s (up s n a) /\
     (forall m, (1 <= m < n)%nat -> ~ open_account s (up s m a)) /\
     referrals s' (up s n a) = referrals s (up s n a) ++ [a] /\
     forall y, y <> up s n a -> referrals s' y = referrals s y).

(** ** The share of the validators among the referrers *)

(** What (in permille) an active validator [i] referrers above the account may
    get, by status: the table of x/referral/keeper/keeper.go:98-105 *)
Definition permille (st : Z) (i : nat) : Z :=
  if (9 <=? st) && (i <=? 20)%nat then 6 else
  if (7 <=? st) && (i <=? 14)%nat then 5 else
  if (6 <=? st) && (i <=? 12)%nat then 4 else
  if (5 <=? st) && (i <=? 10)%nat then 3 else
  if (4 <=? st) && (i <=? 6)%nat then 2 else
  if (3 <=? st) && (i <=? 4)%nat then 1 else 0.
Definition entitled (s : St) (i : nat) (b : addr) : Z :=
  if is_active_validator s b then permille (status s b) i else 0.
(** Everyone gets what the nearer ones have left. *)
Fixpoint parts_paid (s : St) (i : nat) (taken : Z) (l : list addr) : list (addr * Z) :=
  match l with
  | [] => []
  | b :: r => if taken <? entitled s i b
              then (b, entitled s i b - taken) :: parts_paid s (S i) (entitled s i b) r
              else parts_paid s (S i) taken r
  end.
Definition total_share (l : list (addr * frac)) : Q := fold_right (fun e t => (qval (snd e) + t)%Q) 0%Q l.
