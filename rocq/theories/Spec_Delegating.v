(** * What the properties of delegation and earning talk about *)
From Coq Require Import QArith.
From Verif Require Import App Spec_Pure.
From Verif Require Export Spec_Bank Spec_Schedule.
Open Scope Z_scope.

(** When the account's next interest is due, if at all *)
Definition next_accrual (s : St) (a : addr) : option time :=
  match st_del s !! a with Some r => d_next r | None => None end.
(** The account's pending revocations *)
Definition requests (s : St) (a : addr) : list request :=
  match st_del s !! a with Some r => d_reqs r | None => [] end.
Fixpoint requested (l : list request) : Z :=
  match l with [] => 0 | q :: r => q_amount q + requested r end.
(** Those that are due at [now], and the others *)
Definition due_reqs (now : time) (l : list request) : list request := List.filter (fun q => q_time q <=? now) l.
Definition later_reqs (now : time) (l : list request) : list request := List.filter (fun q => negb (q_time q <=? now)) l.

(** The terms of ordinary and express revocation *)
Definition terms (s : St) (express : bool) : revoke_p := if express then dp_express (st_dp s) else dp_revoke (st_dp s).

(** The table of interest: rows in ascending order of their starts, five
    fractions each, no zero denominators. *)
Definition proper_table (t : list (Z * list frac)) : Prop :=
  StronglySorted Z.lt (map fst t) /\
  forall start row, (start, row) ∈ t -> List.length row = 5%nat /\ forall f, f ∈ row -> Frac.fden f <> 0.
(** The row for a delegation: the last one whose start does not exceed it *)
Definition row_for (t : list (Z * list frac)) (d : Z) : option (list frac) :=
  option_map snd (last (List.filter (fun r => fst r <=? d) t)).
Definition column (row : list frac) (i : nat) : Q := match row !! i with Some f => qval f | None => 0%Q end.
(** The rate per month: the base rate and the bonuses the account is entitled to *)
Definition monthly_rate (t : list (Z * list frac)) (d : Z) (profile validator vpn storage : bool) : Q :=
  match row_for t d with
  | None => 0%Q
  | Some row => (column row 0
      + (if validator then column row 1 else 0)
      + (if profile then column row 2 else 0)
      + (if vpn then column row 3 else 0)
      + (if storage then column row 4 else 0))%Q
  end.

(** A confirmation counts for two days. *)
Definition counts (now day : Z) (t : option time) : bool :=
  match t with Some t => now <? t + 2 * day | None => false end.
(** The stored confirmations of an account: VPN, storage *)
Definition confirmed (s : St) (a : addr) : option time * option time := default (None, None) (st_earn s !! a).

(** What an account is entitled to in the state [s] *)
Definition profile_active (s : St) (a : addr) : bool :=
  match st_prof s !! a with
  | Some p => match p_until p with Some t => st_now s <? t | None => false end
  | None => false
  end.
(** The daily rate of an account: a thirtieth of the monthly one, nothing up to the dust limit *)
Definition account_rate (s : St) (a : addr) : Q :=
  let d := bal s a uartrd in
  if d <=? bp_dust (st_bp s) then 0%Q
  else (monthly_rate (dp_table (st_dp s)) d (profile_active s a) (is_active_validator s a)
          (counts (st_now s) (st_day s) (fst (confirmed s a)))
          (counts (st_now s) (st_day s) (snd (confirmed s a))) / inject_Z 30)%Q.
(** Payments in the main denomination *)
Fixpoint paid_to (l : list (addr * Z)) (x : addr) : Z :=
  match l with [] => 0 | (y, n) :: r => at_ x y n + paid_to r x end.
Fixpoint paid_sum (l : list (addr * Z)) : Z :=
  match l with [] => 0 | (_, n) :: r => n + paid_sum r end.
(** [s'] is [s] after paying interest [n] to [a], [fee] of it going to the splitter, and [l] to validators *)
Definition interest_paid (s s' : St) (a : addr) (n fee : Z) (l : list (addr * Z)) : Prop :=
  (forall x, bal s' x uartr = bal s x uartr + at_ x splitter fee + at_ x a (n - fee) + paid_to l x) /\
  (forall x d, d <> uartr -> bal s' x d = bal s x d) /\
  supply s' uartr = supply s uartr + n + paid_sum l /\
  (forall d, d <> uartr -> supply s' d = supply s d) /\
  0 <= fee <= n /\ (0 < n -> fee_of n s = Some fee) /\ (forall y m, (y, m) ∈ l -> 0 < m).

(** The part of the day that has passed when the next interest is due at [t] *)
Definition part_of (s : St) (t : time) : Q := (1 - inject_Z (t - st_now s) / inject_Z (st_day s))%Q.
(** A part of a day that was skipped (read but never set by the program) *)
Definition unskipped (s : St) (a : addr) : Prop := match st_del s !! a with Some r => d_missed r = None | None => True end.
(** [I] is what everybody gets as interest on [a]'s delegation when it changes in the state [s]:
    nothing if no interest was due, and otherwise the interest for the part of the day that has passed. *)
Definition part_interest (s : St) (a : addr) (I : addr -> Z) : Prop :=
  match next_accrual s a with
  | None => forall x, I x = 0
  | Some t =>
      let d := bal s a uartrd in
      let n := trunc (account_rate s a * part_of s t * inject_Z d) in
      let m := trunc (part_of s t * inject_Z d) in
      unskipped s a -> proper_table (dp_table (st_dp s)) -> 0 < st_day s -> - 2^63 <= t - st_now s < 2^63 ->
      - 2^63 <= n < 2^63 -> - 2^63 <= m < 2^63 ->
      exists fee l, (forall x, I x = at_ x splitter fee + at_ x a (Z.max 0 n - fee) + paid_to l x) /\
        0 <= fee <= Z.max 0 n /\ (0 < n -> fee_of n s = Some fee) /\
        30000 * paid_sum l <= 6 * Z.max 0 m /\ (n <= 0 -> l = []) /\ (forall y k, (y, k) ∈ l -> 0 < k)
  end.

(** Scheduled pay-outs of revocations and banishments that failed *)
Definition is_lost (e : logev) : bool :=
  match e with
  | LTaskFailed t => match t_hook t with HRevoke | HBanish => true | _ => false end
  | _ => false
  end.
Definition lost (s : St) : nat := List.length (List.filter is_lost (st_log s)).
