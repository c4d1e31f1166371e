(** * Model of util/fraction.go and util/fee.go

    A Go [Fraction] is a pair of [*big.Int]; the model is a pair of [Z].
    The null fraction (both pointers nil) only occurs as the result of parsing
    and is [None] there.  A Go panic (division by zero inside [big.Int.Quo],
    a conversion out of range) is [None]. *)
From Coq Require Import ZArith Bool String Ascii DecimalString Decimal.
Open Scope bool_scope.
Open Scope Z_scope.

(** util/fraction.go:14-17 *)
Record frac := Fr { fnum : Z; fden : Z }.

(** big.Int.Quo: truncated division, panics when the divisor is zero. *)
Definition quo (a b : Z) : option Z :=
  if b =? 0 then None else Some (Z.quot a b).

Definition obind {A B} (o : option A) (f : A -> option B) : option B :=
  match o with Some a => f a | None => None end.
Notation "'olet' x := e 'in' f" := (obind e (fun x => f))
  (at level 200, x name, e at level 100, f at level 200, right associativity).

(** big.Int.GCD(nil, nil, a, b) is non-negative and GCD(0,0) = 0: [Z.gcd]. *)

(** util/fraction.go:79-96 NewFraction, Percent, Permille, FractionInt, FractionZero *)
Definition new_fraction (n d : Z) : frac := Fr n d.
Definition percent_f (x : Z) : frac := Fr x 100.
Definition permille (x : Z) : frac := Fr x 1000.
Definition frac_int (x : Z) : frac := Fr x 1.
Definition frac_zero : frac := frac_int 0.

(** util/fraction.go:163 BigInt *)
Definition big_int (x : frac) : option Z := quo (fnum x) (fden x).

(** big.Int.Int64: the low 64 bits, as a signed number. *)
Definition wrap64 (z : Z) : Z := (z + 2^63) mod 2^64 - 2^63.

(** util/fraction.go:165 Int64 *)
Definition int64 (x : frac) : option Z :=
  olet b := big_int x in Some (wrap64 b).

(** util/fraction.go:177-186 Reduce (the in-place mutation of the receiver is
    not modelled: every caller reduces a value it has just built, or uses only
    the returned one). *)
Definition reduce (x : frac) : option frac :=
  let '(n, d) := if fden x <? 0 then (- fnum x, - fden x) else (fnum x, fden x) in
  let q := Z.gcd n d in
  olet n' := quo n q in olet d' := quo d q in Some (Fr n' d').

(** util/fraction.go:188-193 Mul *)
Definition mul (x y : frac) : option frac :=
  reduce (Fr (fnum x * fnum y) (fden x * fden y)).
(** util/fraction.go:195-197 MulInt64 *)
Definition mul_int (x : frac) (y : Z) : option frac := mul x (frac_int y).
(** util/fraction.go:199-204 Div *)
Definition div (x y : frac) : option frac :=
  reduce (Fr (fnum x * fden y) (fden x * fnum y)).
(** util/fraction.go:206-208 DivInt64 *)
Definition div_int (x : frac) (y : Z) : option frac := div x (frac_int y).
(** util/fraction.go:210-215 Neg *)
Definition neg (x : frac) : frac := Fr (- fnum x) (fden x).

(** util/fraction.go:255-263 lcm *)
Definition lcm (x y : Z) : option Z :=
  olet r := quo (x * y) (Z.gcd x y) in Some (if r <? 0 then - r else r).

(** util/fraction.go:217-227 Add *)
Definition add (x y : frac) : option frac :=
  olet c := lcm (fden x) (fden y) in
  olet a := quo (fnum x * c) (fden x) in
  olet b := quo (fnum y * c) (fden y) in
  Some (Fr (a + b) c).
(** util/fraction.go:229-231 Sub *)
Definition sub (x y : frac) : option frac := add x (neg y).

(** util/fraction.go:237-247 *)
Definition is_zero (x : frac) : bool := Z.sgn (fnum x) =? 0.
Definition is_negative (x : frac) : bool := Z.sgn (fnum x) * Z.sgn (fden x) <? 0.
Definition is_positive (x : frac) : bool := Z.sgn (fnum x) * Z.sgn (fden x) >? 0.

(** util/fraction.go:249-253 *)
Definition equal (x y : frac) : option bool := olet d := sub x y in Some (is_zero d).
Definition gt (x y : frac) : option bool := olet d := sub x y in Some (is_positive d).
Definition lt (x y : frac) : option bool := gt y x.
Definition gte (x y : frac) : option bool := olet b := lt x y in Some (negb b).
Definition lte (x y : frac) : option bool := olet b := gt x y in Some (negb b).

(** ** Text form *)

(** big.Int.MarshalText: decimal, with a leading '-' when negative. *)
Definition print_Z (z : Z) : string :=
  match z with
  | Zneg p => String "-" (NilZero.string_of_uint (N.to_uint (Npos p)))
  | _ => NilZero.string_of_uint (N.to_uint (Z.to_N z))
  end.

(** util/fraction.go:138-161 String.  A nil denominator next to a non-nil
    numerator cannot be built through the package's API. *)
Definition print_frac (x : option frac) : string :=
  match x with
  | None => "nil"
  | Some (Fr n d) =>
      print_Z n ++ (if d =? 100 then "%" else if d =? 1 then "" else "/" ++ print_Z d)
  end.

(** big.Int.UnmarshalText scans with base 0 (Go 1.13 and later): a number of
    more than one digit that starts with '0' is octal, and then a digit 8 or 9
    makes the parse fail. *)
Fixpoint octal_acc (d : uint) (acc : N) : option N :=
  match d with
  | Nil => Some acc
  | D0 d => octal_acc d (8 * acc)
  | D1 d => octal_acc d (8 * acc + 1)
  | D2 d => octal_acc d (8 * acc + 2)
  | D3 d => octal_acc d (8 * acc + 3)
  | D4 d => octal_acc d (8 * acc + 4)
  | D5 d => octal_acc d (8 * acc + 5)
  | D6 d => octal_acc d (8 * acc + 6)
  | D7 d => octal_acc d (8 * acc + 7)
  | D8 _ | D9 _ => None
  end.

Definition parse_nat (s : string) : option N :=
  match NilZero.uint_of_string s with
  | None => None
  | Some (D0 Nil) => Some 0%N
  | Some (D0 d) => octal_acc d 0
  | Some d => Some (N.of_uint d)
  end.

Definition is_digit (c : ascii) : bool :=
  let n := nat_of_ascii c in (Nat.leb 48 n && Nat.leb n 57)%bool.

(** Longest prefix of decimal digits (\d+ in the two regular expressions). *)
Fixpoint span_digits (s : string) : string * string :=
  match s with
  | EmptyString => (EmptyString, EmptyString)
  | String c r =>
      if is_digit c
      then let '(a, b) := span_digits r in (String c a, b)
      else (EmptyString, s)
  end.

(** The optional leading minus of the two regular expressions. *)
Definition split_sign (s : string) : bool * string :=
  match s with
  | String c r => if Ascii.eqb c "-" then (true, r) else (false, s)
  | EmptyString => (false, s)
  end.

(** util/fraction.go:98-136 ParseFraction.  [None] is an error,
    [Some None] the null fraction. *)
Definition parse_frac (s : string) : option (option frac) :=
  if ((s =? "") || (s =? "nil"))%string%bool then Some None else
  let '(minus, r) := split_sign s in
  let '(ds, tl) := span_digits r in
  if (ds =? "")%string then None else
  let num (k : Z -> option (option frac)) :=
    olet n := parse_nat ds in k (if minus then - Z.of_N n else Z.of_N n) in
  match tl with
  | EmptyString => num (fun n => Some (Some (Fr n 1)))
  | String "%" EmptyString => num (fun n => Some (Some (Fr n 100)))
  | String "/" r2 =>
      let '(ds2, tl2) := span_digits r2 in
      if ((ds2 =? "") || negb (tl2 =? ""))%string%bool then None else
      olet d := parse_nat ds2 in num (fun n => Some (Some (Fr n (Z.of_N d))))
  | _ => None
  end.

(** ** util/fee.go *)

Definition is_int64 (z : Z) : bool := (- 2^63 <=? z) && (z <? 2^63).
Definition is_uint64 (z : Z) : bool := (0 <=? z) && (z <? 2^64).
(** sdk.Int.Int64 / Uint64 panic out of range. *)
Definition to_int64 (z : Z) : option Z := if is_int64 z then Some z else None.
Definition to_uint64 (z : Z) : option Z := if is_uint64 z then Some z else None.

(** util/fee.go:18-20 calculateForBurningFeeFraction *)
Definition burning_fraction (p c : frac) : option frac :=
  olet a := sub (frac_int 1) p in sub a c.

(** util/fee.go:22-24 CalculateTransactionFeeSplitRatiosLCM *)
Definition split_lcm (p c : frac) : option Z :=
  olet l1 := lcm (fden p) (fden c) in
  olet b := burning_fraction p c in
  lcm l1 (fden b).

(** util/fee.go:26-28 calculateSplittableFee (sdk.Int.Mod is big.Int.Mod:
    Euclidean, panics when the modulus is zero; here the modulus is
    non-negative, so it is [Z.modulo]). *)
Definition splittable_fee (limit : Z) (p c : frac) : option Z :=
  olet l := split_lcm p c in
  if l =? 0 then None else Some (limit - limit mod l).

(** util/fee.go:7-16 CalculateFee *)
Definition calculate_fee (amount : Z) (rate : frac) (max : Z) (p c : frac) : option Z :=
  olet a := to_int64 amount in
  olet f := mul_int rate a in
  olet fee := int64 f in
  let fee := if negb (max =? 0) && (fee >? max) then max else fee in
  splittable_fee fee p c.

(** util/fee.go:30-34 SplitFee: proposer, company, burning *)
Definition split_fee (fee : Z) (p c : frac) : option (Z * Z * Z) :=
  olet a := to_int64 fee in
  olet f1 := mul_int p a in olet x := int64 f1 in
  olet f2 := mul_int c a in olet y := int64 f2 in
  olet bf := burning_fraction p c in
  olet f3 := mul_int bf a in olet z := int64 f3 in
  Some (x, y, z).

(** util/keys.go TransactionFeeSplitRatiosMaxLcm *)
Definition max_split_lcm : Z := 100.

(** x/bank/types/params.go:187-205 validateTransactionFeeSplitRatios
    ([None] = panic, [Some false] = error). *)
Definition validate_split_ratios (p c : frac) : option bool :=
  if is_negative p then Some false else
  if is_negative c then Some false else
  olet s := add p c in
  olet g := gt s (frac_int 1) in
  if g then Some false else
  olet l := split_lcm p c in
  Some (negb (l >? max_split_lcm)).

(** x/bank/types/params.go:165-174 validateTransactionFee *)
Definition validate_tx_fee (f : frac) : bool := negb (is_negative f).
(** x/bank/types/params.go:176-185 validateMaxTransactionFee *)
Definition validate_max_fee (m : Z) : bool := negb (m <? 0).
