(** * When the chain is able to do what it is asked *)
From Coq Require Import QArith.
From Verif Require Import Schedule Spec_Pure.
From Verif Require Export Spec_Bank Spec_Network Spec_Delegating.
Open Scope Z_scope.

(** What the records say [a] and its lines up to [n] have delegated *)
Definition stored_upto (s : St) (a : addr) (n : nat) : Z := sum (map (stored_deleg s a) (seq 0 (S n))).

(** The books the chain consults on every change of a balance can be read. *)
Record healthy (s : St) : Prop := mkHealthy {
  (* statuses are those there are *)
  hl_status : forall a, 0 <= status s a <= 9;
  (* the active referrals that are counted have counters of their own *)
  hl_counters : forall a x, x ∈ active_referrals s a -> (2 <= List.length (r_cnt (ref_get s x)))%nat;
  (* the delegations of the first lines add up to numbers that fit *)
  hl_sums : forall a n, (n <= 10)%nat -> 0 <= stored_upto s a n < 2 ^ 63;
  (* everybody's own delegation is the recorded one *)
  hl_own : forall a, stored_deleg s a 0 = delegation s a;
  (* the lines of validators are complete *)
  hl_validators : forall a x, st_val s !! a = Some x -> (11 <= List.length (r_deleg (ref_get s a)))%nat;
  hl_balances : bal_ok s;
  (* the end of time is far enough *)
  hl_clock : 0 <= st_now s /\ 0 <= st_day s /\ st_now s + 30 * st_day s < time_limit }.

(** A fee can be computed for every amount, and it is not more than the amount. *)
Definition fair_fee (s : St) : Prop := forall n, 0 <= n < 2 ^ 63 -> exists f, fee_of n s = Some f /\ 0 <= f <= n.
(** The burnt part of a revocation is a part. *)
Definition fair_terms (p : revoke_p) : Prop := Frac.fden (rv_burn p) <> 0 /\ (0 <= qval (rv_burn p) <= 1)%Q.

(** The interest of [a] can be settled, and [a] is a member of the network in good standing. *)
Record ready (s : St) (a : addr) : Prop := mkReady {
  rd_fee : fair_fee s;
  rd_table : proper_table (dp_table (st_dp s));
  rd_day : 0 < st_day s;
  rd_next : forall t, next_accrual s a = Some t -> 0 <= t - st_now s <= st_day s;
  rd_whole : unskipped s a;
  rd_profile : is_Some (st_prof s !! a);
  rd_someone : a <> nobody;
  rd_member : status s a <> 0;
  rd_standing : banished s a = false;
  rd_due : forall t, r_banishment_at (ref_get s a) = Some t -> 0 <= t < time_limit;
  rd_supply : forall d, sum_bal s d <= supply s d }.

(** A transaction of this one message, signed by its author, is carried out. *)
Definition accepted (m : msg) (s s' : St) : Prop := deliver_tx (mkTx (signer m) ∅ [m]) s = (s', true).
Definition refused (m : msg) (s : St) : Prop := snd (deliver_tx (mkTx (signer m) ∅ [m]) s) = false.
(** A scheduled task is carried out without a failure. *)
Definition goes_through (t : task) (s s' : St) : Prop :=
  exists h, hooks (t_hook t) = Some h /\ h (t_data t) (t_time t) s = (s', Ok tt).
