(** * C01-C07: fractions, string sets, fees *)
From Coq Require Import ZArith QArith Qround String OrderedTypeEx List Permutation Lia.
From Verif Require Import Frac Lists Spec_Pure FracProofs ListsProofs PureLemmas.
Import ListNotations.
Open Scope Z_scope.

(** ** C01 *)

Theorem C01_add : forall x y, fden x <> 0 -> fden y <> 0 ->
  exists r, add x y = Some r /\ fden r <> 0 /\ (qval r == qval x + qval y)%Q.
Proof. exact c01_add. Qed.
Print Assumptions C01_add.

Theorem C01_sub : forall x y, fden x <> 0 -> fden y <> 0 ->
  exists r, sub x y = Some r /\ fden r <> 0 /\ (qval r == qval x - qval y)%Q.
Proof. exact c01_sub. Qed.
Print Assumptions C01_sub.

Theorem C01_mul : forall x y, fden x <> 0 -> fden y <> 0 ->
  exists r, mul x y = Some r /\ fden r <> 0 /\ (qval r == qval x * qval y)%Q.
Proof. exact c01_mul. Qed.
Print Assumptions C01_mul.

Theorem C01_div : forall x y, fden x <> 0 -> fden y <> 0 -> fnum y <> 0 ->
  exists r, div x y = Some r /\ fden r <> 0 /\ (qval r == qval x / qval y)%Q.
Proof. exact c01_div. Qed.
Print Assumptions C01_div.

Theorem C01_div_by_zero : forall x y, fden x <> 0 -> fden y <> 0 -> fnum y = 0 ->
  (fnum x = 0 /\ div x y = None) \/ (exists r, div x y = Some r /\ fden r = 0 /\ fnum r <> 0).
Proof. exact div_zero. Qed.
Print Assumptions C01_div_by_zero.

Theorem C01_mul_int : forall x n, fden x <> 0 ->
  exists r, mul_int x n = Some r /\ fden r <> 0 /\ (qval r == qval x * inject_Z n)%Q.
Proof. exact c01_mul_int. Qed.
Print Assumptions C01_mul_int.

Theorem C01_div_int : forall x n, fden x <> 0 -> n <> 0 ->
  exists r, div_int x n = Some r /\ fden r <> 0 /\ (qval r == qval x / inject_Z n)%Q.
Proof. exact c01_div_int. Qed.
Print Assumptions C01_div_int.

Theorem C01_neg : forall x, fden x <> 0 -> fden (neg x) <> 0 /\ (qval (neg x) == - qval x)%Q.
Proof. exact c01_neg. Qed.
Print Assumptions C01_neg.

(** Reduce returns the same number in lowest terms, with a positive denominator. *)
Theorem C01_reduce : forall x, fden x <> 0 ->
  exists r, reduce x = Some r /\ 0 < fden r /\ Z.gcd (fnum r) (fden r) = 1 /\ (qval r == qval x)%Q.
Proof. exact reduce_qval. Qed.
Print Assumptions C01_reduce.

Example C01_witness :
  add (Fr 1 (-6)) (Fr 3 4) = Some (Fr 7 12) /\ mul (Fr (-2) 6) (Fr 3 (-5)) = Some (Fr 1 5) /\
  div (Fr 1 2) (Fr (-3) 4) = Some (Fr (-2) 3).
Proof. vm_compute. auto. Qed.

(** ** C02 *)

Theorem C02_comparisons : forall x y, fden x <> 0 -> fden y <> 0 ->
  (exists b, gt x y = Some b /\ (b = true <-> (qval x > qval y)%Q)) /\
  (exists b, gte x y = Some b /\ (b = true <-> (qval x >= qval y)%Q)) /\
  (exists b, lt x y = Some b /\ (b = true <-> (qval x < qval y)%Q)) /\
  (exists b, lte x y = Some b /\ (b = true <-> (qval x <= qval y)%Q)) /\
  (exists b, equal x y = Some b /\ (b = true <-> (qval x == qval y)%Q)).
Proof. exact c02_comparisons. Qed.
Print Assumptions C02_comparisons.

Theorem C02_signs : forall x, fden x <> 0 ->
  (is_zero x = true <-> (qval x == 0)%Q) /\
  (is_positive x = true <-> (qval x > 0)%Q) /\
  (is_negative x = true <-> (qval x < 0)%Q).
Proof. exact c02_signs. Qed.
Print Assumptions C02_signs.

Example C02_witness : gt (Fr 1 (-2)) (Fr (-2) 3) = Some true /\ lte (Fr 2 4) (Fr 1 2) = Some true.
Proof. vm_compute. auto. Qed.

(** ** C03 *)

Theorem C03_truncation : forall x, fden x <> 0 -> big_int x = Some (trunc (qval x)).
Proof. exact c03_truncation. Qed.
Print Assumptions C03_truncation.

Theorem C03_int64 : forall x, fden x <> 0 ->
  exists v, int64 x = Some v /\ - 2^63 <= v < 2^63 /\ v mod 2^64 = trunc (qval x) mod 2^64 /\
    (- 2^63 <= trunc (qval x) < 2^63 -> v = trunc (qval x)).
Proof. exact c03_int64. Qed.
Print Assumptions C03_int64.

Example C03_witness : int64 (Fr (-7) 2) = Some (-3) /\ int64 (Fr (2^63) 1) = Some (- 2^63).
Proof. vm_compute. auto. Qed.

(** ** C04 *)

Theorem C04_round_trip : forall x, 0 < fden x -> parse_frac (print_frac (Some x)) = Some (Some x).
Proof. exact parse_print. Qed.
Print Assumptions C04_round_trip.

Theorem C04_null_round_trip : parse_frac (print_frac None) = Some None.
Proof. exact c04_null. Qed.
Print Assumptions C04_null_round_trip.

Example C04_witness :
  print_frac (Some (Fr (-25) 100)) = "-25%"%string /\ print_frac (Some (Fr 3 1000)) = "3/1000"%string /\
  parse_frac "-25%" = Some (Some (Fr (-25) 100)).
Proof. vm_compute. auto. Qed.

(** ** C05 *)

Theorem C05_add_sorted : forall l x, str_sorted l ->
  str_sorted (fst (add_sorted String_as_OT.cmp l x)) /\
  (forall y, In y (fst (add_sorted String_as_OT.cmp l x)) <-> y = x \/ In y l) /\
  (snd (add_sorted String_as_OT.cmp l x) = true <-> ~ In x l).
Proof. exact c05_add_sorted. Qed.
Print Assumptions C05_add_sorted.

Theorem C05_merge : forall l1 l2, str_sorted l1 -> str_sorted l2 ->
  str_sorted (merge_sorted String_as_OT.cmp l1 l2) /\
  forall y, In y (merge_sorted String_as_OT.cmp l1 l2) <-> In y l1 \/ In y l2.
Proof. exact c05_merge. Qed.
Print Assumptions C05_merge.

Theorem C05_remove_preserve_order : forall l x,
  (~ In x l /\ remove_ordered String_as_OT.cmp l x = (l, false)) \/
  (exists l1 l2, l = l1 ++ x :: l2 /\ ~ In x l1 /\ remove_ordered String_as_OT.cmp l x = (l1 ++ l2, true)).
Proof. exact c05_remove_ordered. Qed.
Print Assumptions C05_remove_preserve_order.

Theorem C05_remove_sorted : forall l x, str_sorted l ->
  str_sorted (fst (remove_ordered String_as_OT.cmp l x)) /\
  forall y, In y (fst (remove_ordered String_as_OT.cmp l x)) <-> In y l /\ y <> x.
Proof. exact c05_remove_sorted. Qed.
Print Assumptions C05_remove_sorted.

Theorem C05_remove_fast : forall l x,
  (~ In x l /\ remove_fast String_as_OT.cmp l x = (l, false)) \/
  (exists l1 l2 l', l = l1 ++ x :: l2 /\ ~ In x l1 /\ Permutation l' l2 /\
     remove_fast String_as_OT.cmp l x = (l1 ++ l', true)).
Proof. exact c05_remove_fast. Qed.
Print Assumptions C05_remove_fast.

Theorem C05_add_onto_end : forall l x,
  (In x l /\ add_onto_end String_as_OT.cmp l x = (l, false)) \/
  (~ In x l /\ add_onto_end String_as_OT.cmp l x = (l ++ [x], true)).
Proof. exact c05_add_onto_end. Qed.
Print Assumptions C05_add_onto_end.

Theorem C05_contains : forall l x, contains String_as_OT.cmp l x = true <-> In x l.
Proof. exact c05_contains. Qed.
Print Assumptions C05_contains.

Example C05_witness :
  let l := ["a"; "c"; "d"]%string in
  str_sorted l /\
  add_sorted String_as_OT.cmp l "b"%string = (["a"; "b"; "c"; "d"]%string, true) /\
  merge_sorted String_as_OT.cmp l ["b"; "c"; "x"]%string = ["a"; "b"; "c"; "d"; "x"]%string /\
  remove_fast String_as_OT.cmp l "a"%string = (["d"; "c"]%string, true).
Proof. repeat split; repeat (constructor; try reflexivity). Qed.

(** ** C06

    [rate], [max], [p] (proposer share) and [c] (company share) are parameters
    the validation functions accept; the rate's denominator is non-zero (the
    validation does not check this, and with a zero denominator the fee
    computation panics: [C06_zero_denominator_refuted]).  The product is kept
    within 64 bits, which every rate up to 100% guarantees. *)

Theorem C06_fee_bounds : forall amount rate max p c,
  fden rate <> 0 -> validate_tx_fee rate = true -> validate_max_fee max = true ->
  validate_split_ratios p c = Some true ->
  0 <= amount < 2^63 -> (qval rate * inject_Z amount < inject_Z (2^63))%Q ->
  exists fee, calculate_fee amount rate max p c = Some fee /\
    0 <= fee /\ (inject_Z fee <= qval rate * inject_Z amount)%Q /\ (max <> 0 -> fee <= max) /\
    (* and it is short of the allowed maximum by less than 100 units *)
    (forall f, (inject_Z f <= qval rate * inject_Z amount)%Q -> (max <> 0 -> f <= max) -> f < fee + 100).
Proof. exact c06_fee_bounds. Qed.
Print Assumptions C06_fee_bounds.

Theorem C06_fee_below_amount : forall amount rate max p c,
  fden rate <> 0 -> validate_tx_fee rate = true -> validate_max_fee max = true ->
  validate_split_ratios p c = Some true ->
  0 <= amount < 2^63 -> (qval rate <= 1)%Q ->
  exists fee, calculate_fee amount rate max p c = Some fee /\ 0 <= fee <= amount.
Proof. exact c06_fee_below_amount. Qed.
Print Assumptions C06_fee_below_amount.

(** The parameter validation accepts a rate that makes every fee computation panic. *)
Theorem C06_zero_denominator_refuted : exists rate,
  validate_tx_fee rate = true /\
  forall amount max p c, calculate_fee amount rate max p c = None.
Proof. exact c06_zero_denominator. Qed.
Print Assumptions C06_zero_denominator_refuted.

(** It also accepts rates above 100%, for which the 64-bit result may wrap to a negative fee. *)
Theorem C06_big_rate_refuted : exists amount rate max p c fee,
  fden rate <> 0 /\ validate_tx_fee rate = true /\ validate_max_fee max = true /\
  validate_split_ratios p c = Some true /\ 0 <= amount < 2^63 /\
  calculate_fee amount rate max p c = Some fee /\ fee < 0.
Proof. exact c06_big_rate. Qed.
Print Assumptions C06_big_rate_refuted.

Example C06_witness :
  validate_split_ratios (Fr 1 2) (Fr 30 100) = Some true /\
  calculate_fee 1234567 (Fr 3 1000) 10000000 (Fr 1 2) (Fr 30 100) = Some 3700 /\
  calculate_fee (10^15) (Fr 3 1000) 10000000 (Fr 1 2) (Fr 30 100) = Some 10000000.
Proof. vm_compute. auto. Qed.

(** ** C07 *)

Theorem C07_fee_splits_exactly : forall amount rate max p c fee,
  fden rate <> 0 -> validate_tx_fee rate = true -> validate_max_fee max = true ->
  validate_split_ratios p c = Some true ->
  0 <= amount < 2^63 -> (qval rate * inject_Z amount < inject_Z (2^63))%Q ->
  calculate_fee amount rate max p c = Some fee ->
  exists proposer company burn,
    split_fee fee p c = Some (proposer, company, burn) /\
    0 <= proposer /\ 0 <= company /\ 0 <= burn /\
    proposer + company + burn = fee /\
    (inject_Z proposer == qval p * inject_Z fee)%Q /\ (inject_Z company == qval c * inject_Z fee)%Q.
Proof. exact c07_fee_splits. Qed.
Print Assumptions C07_fee_splits_exactly.

Example C07_witness : split_fee 3700 (Fr 1 2) (Fr 30 100) = Some (1850, 1110, 740).
Proof. vm_compute. auto. Qed.
