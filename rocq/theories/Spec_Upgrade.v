(** * What the properties of the upgrades talk about *)
From Verif Require Import Upgrade.
From Verif Require Export Spec_Bank Spec_Referral Spec_Delegating Spec_Schedule Spec_Network.

(** A registered account that is not banished *)
Definition member (s : St) (a : addr) : Prop := registered s a /\ banished s a = false.
(** Line 0 of the members' records says what they have and what they have delegated. *)
Definition own_lines (s : St) : Prop := forall a, member s a ->
  line (r_coins (ref_get s a)) 0 = bal s a uartr + bal s a uartrd + bal s a uartrr /\
  line (r_deleg (ref_get s a)) 0 = bal s a uartrd.
(** A task with the hook [h] for the account [a] waits for the instant [t]. *)
Definition waiting (s : St) (t : time) (h : hook) (a : N) : Prop := exists x, x ∈ tasks_at s t /\ t_hook x = h /\ t_data x = a.
(** A member that should have been scheduled for banishment and was not: it does
    not pay, has (next to) nothing delegated, and no compression awaits it. *)
Definition overlooked (s : St) (a : addr) : Prop :=
  member s a /\ active s a = false /\ bal s a uartrd <= bp_dust (st_bp s) /\
  r_banishment_at (ref_get s a) = None /\ (forall c, r_compression_at (ref_get s a) = Some c -> c < st_now s).
(** No task has been lost. *)
Definition tasks_kept (s s' : St) : Prop := forall t x, x ∈ tasks_at s t -> x ∈ tasks_at s' t.
(** A status downgrade kept at the instant [t] that says another time, already past *)
Definition astray (s : St) (t : time) (x : task) : Prop := t_hook x = HDowngrade /\ t_time x <> t /\ t_time x < st_now s.
#[export] Instance astray_dec s t x : Decision (astray s t x).
Proof. unfold astray. apply _. Defined.
(** How many there are in the whole schedule *)
Definition strays (s : St) : Z :=
  Z.of_nat (List.length (filter (fun e => astray s (fst e) (snd e)) (flat_map (fun t => map (pair t) (tasks_at s t)) (keysZ (st_sched s))))).
(** The account is open for new referrals: it is a top-level one, or is not
    banished and either pays or is still more than a month from its compression. *)
Definition open (s : St) (a : addr) : Prop := registered s a /\
  (referrer s a = nobody \/
   banished s a = false /\ (active s a = true \/ exists t, r_compression_at (ref_get s a) = Some t /\ st_now s <= t - one_month s)).
(** The nearest open account above [a] *)
Definition first_open (s : St) (a q : addr) : Prop :=
  exists n, (0 < n)%nat /\ up s n a = q /\ q <> nobody /\ open s q /\ forall k, (0 < k < n)%nat -> ~ open s (up s k a).
