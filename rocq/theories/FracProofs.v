(** * Proofs about fractions and fees *)
From Coq Require Import ZArith Bool QArith Qround String Ascii DecimalString Decimal
  DecimalN DecimalPos DecimalFacts Lia Lqa ZifyBool Znumtheory.
From Verif Require Import Frac Spec_Pure.
Open Scope bool_scope.
Open Scope Z_scope.

Lemma inj_nz d : d <> 0 -> ~ (inject_Z d == 0)%Q.
Proof. intros H E. apply H. unfold Qeq in E. simpl in E. lia. Qed.

Lemma qval_eq x y : fden x <> 0 -> fden y <> 0 ->
  (qval x == qval y)%Q <-> fnum x * fden y = fnum y * fden x.
Proof.
  intros Hx Hy. unfold qval.
  assert (Hx' := inj_nz _ Hx). assert (Hy' := inj_nz _ Hy).
  split; intro H.
  - apply inject_Z_injective. rewrite !inject_Z_mult.
    setoid_replace (inject_Z (fnum x)) with (inject_Z (fnum x) / inject_Z (fden x) * inject_Z (fden x))%Q by (field; auto).
    rewrite H. field; auto.
  - assert (E : (inject_Z (fnum x) * inject_Z (fden y) == inject_Z (fnum y) * inject_Z (fden x))%Q)
      by (rewrite <- !inject_Z_mult; rewrite H; reflexivity).
    setoid_replace (inject_Z (fnum x) / inject_Z (fden x))%Q
      with (inject_Z (fnum x) * inject_Z (fden y) / (inject_Z (fden x) * inject_Z (fden y)))%Q by (field; auto).
    rewrite E. field; auto.
Qed.

Lemma quo_exact a d r : d <> 0 -> a = r * d -> quo a d = Some r.
Proof.
  intros Hd ->. unfold quo. destruct (d =? 0) eqn:E; [lia|].
  rewrite Z.quot_mul by lia. reflexivity.
Qed.

Lemma reduce_spec x : fden x <> 0 ->
  exists r, reduce x = Some r /\ 0 < fden r /\ Z.gcd (fnum r) (fden r) = 1 /\
            fnum r * fden x = fnum x * fden r.
Proof.
  intros Hd. unfold reduce.
  remember (if fden x <? 0 then (- fnum x, - fden x) else (fnum x, fden x)) as nd eqn:E.
  destruct nd as [n d].
  assert (Hnd : 0 < d /\ n * fden x = fnum x * d).
  { destruct (fden x <? 0) eqn:E2; inversion E; subst; split; try lia. }
  destruct Hnd as [Hpos Heq].
  set (q := Z.gcd n d).
  assert (Hq : 0 < q).
  { pose proof (Z.gcd_nonneg n d). destruct (Z.eq_dec q 0) as [E0|]; [|unfold q in *; lia].
    apply Z.gcd_eq_0_r in E0. lia. }
  destruct (Z.gcd_divide_l n d) as [a Ha]. destruct (Z.gcd_divide_r n d) as [b Hb].
  fold q in Ha, Hb.
  rewrite (quo_exact n q a) by lia. simpl.
  rewrite (quo_exact d q b) by lia. simpl.
  exists (Fr a b). simpl. repeat split; try nia.
  pose proof (Z.gcd_mul_mono_r_nonneg a b q ltac:(lia)) as G.
  rewrite <- Ha, <- Hb in G. fold q in G. nia.
Qed.

Lemma reduce_qval x : fden x <> 0 ->
  exists r, reduce x = Some r /\ 0 < fden r /\ Z.gcd (fnum r) (fden r) = 1 /\ (qval r == qval x)%Q.
Proof.
  intros H. destruct (reduce_spec x H) as (r & E & P & G & M).
  exists r. repeat split; auto. apply qval_eq; auto; lia.
Qed.

Lemma lcm_spec x y : x <> 0 -> y <> 0 ->
  exists l, lcm x y = Some l /\ 0 < l /\ (x | l) /\ (y | l) /\
            forall m, (x | m) -> (y | m) -> (l | m).
Proof.
  intros Hx Hy. unfold lcm.
  set (g := Z.gcd x y).
  assert (Hg : 0 < g).
  { pose proof (Z.gcd_nonneg x y). destruct (Z.eq_dec g 0) as [E0|]; [|unfold g in *; lia].
    apply Z.gcd_eq_0_l in E0. lia. }
  destruct (Z.gcd_divide_l x y) as [a Ha]. destruct (Z.gcd_divide_r x y) as [b Hb].
  fold g in Ha, Hb.
  rewrite (quo_exact (x * y) g (x * b)) by nia. simpl.
  set (r := x * b).
  exists (if r <? 0 then - r else r).
  assert (Hb0 : b <> 0) by nia.
  assert (Hr0 : r <> 0) by (unfold r; nia).
  assert (Dx : (x | r)) by (exists b; unfold r; lia).
  assert (Dy : (y | r)) by (exists a; unfold r; nia).
  assert (Cop : rel_prime a b).
  { apply Zgcd_1_rel_prime.
    pose proof (Z.gcd_mul_mono_r_nonneg a b g ltac:(lia)) as G.
    rewrite <- Ha, <- Hb in G. fold g in G. nia. }
  assert (Min : forall m, (x | m) -> (y | m) -> (r | m)).
  { intros m [u Hu] [v Hv].
    assert (E : u * a = v * b) by nia.
    assert (D : (b | u)).
    { apply Gauss with a; [exists v; lia | apply rel_prime_sym; exact Cop]. }
    destruct D as [w Hw]. exists w. unfold r. rewrite Hu, Hw. ring. }
  split; [reflexivity|].
  destruct (r <? 0) eqn:E.
  - repeat split; try lia; try (apply Z.divide_opp_r; assumption).
    intros m H1 H2. apply Z.divide_opp_l. auto.
  - repeat split; auto; lia.
Qed.

Lemma add_spec x y : fden x <> 0 -> fden y <> 0 ->
  exists r, add x y = Some r /\ lcm (fden x) (fden y) = Some (fden r) /\ 0 < fden r /\
            (fden x | fden r) /\ (fden y | fden r) /\
            fnum r * (fden x * fden y) = (fnum x * fden y + fnum y * fden x) * fden r.
Proof.
  intros Hx Hy. unfold add.
  destruct (lcm_spec (fden x) (fden y) Hx Hy) as (l & El & Pl & Dx & Dy & _).
  rewrite El. simpl.
  destruct Dx as [u Hu]. destruct Dy as [v Hv].
  rewrite (quo_exact (fnum x * l) (fden x) (fnum x * u)) by (auto; rewrite Hu; ring). simpl.
  rewrite (quo_exact (fnum y * l) (fden y) (fnum y * v)) by (auto; rewrite Hv; ring). simpl.
  eexists; split; [reflexivity|]. simpl.
  repeat split; auto; try (eexists; eassumption).
  transitivity (fnum x * fden y * (u * fden x) + fnum y * fden x * (v * fden y)); [ring|].
  rewrite <- Hu, <- Hv. ring.
Qed.

Lemma add_qval x y : fden x <> 0 -> fden y <> 0 ->
  exists r, add x y = Some r /\ 0 < fden r /\ (qval r == qval x + qval y)%Q.
Proof.
  intros Hx Hy. destruct (add_spec x y Hx Hy) as (r & E & _ & P & _ & _ & M).
  exists r. repeat split; auto.
  assert (Q1 : (qval r == qval (Fr (fnum x * fden y + fnum y * fden x) (fden x * fden y)))%Q).
  { apply qval_eq; simpl; nia. }
  rewrite Q1. unfold qval. simpl. rewrite inject_Z_plus, !inject_Z_mult.
  field. split; apply inj_nz; auto.
Qed.

Lemma neg_qval x : fden x <> 0 -> (qval (neg x) == - qval x)%Q.
Proof.
  intros H. unfold qval, neg; simpl. rewrite inject_Z_opp. field. apply inj_nz; auto.
Qed.

Lemma sub_qval x y : fden x <> 0 -> fden y <> 0 ->
  exists r, sub x y = Some r /\ 0 < fden r /\ (qval r == qval x - qval y)%Q.
Proof.
  intros Hx Hy. unfold sub.
  destruct (add_qval x (neg y) Hx Hy) as (r & E & P & V).
  exists r. repeat split; auto. rewrite V, neg_qval; auto. ring.
Qed.

Lemma mul_qval x y : fden x <> 0 -> fden y <> 0 ->
  exists r, mul x y = Some r /\ 0 < fden r /\ Z.gcd (fnum r) (fden r) = 1 /\ (qval r == qval x * qval y)%Q.
Proof.
  intros Hx Hy. unfold mul.
  destruct (reduce_qval (Fr (fnum x * fnum y) (fden x * fden y))) as (r & E & P & G & V);
    [simpl; nia|].
  exists r. repeat split; auto. rewrite V. unfold qval; simpl.
  rewrite !inject_Z_mult. field. split; apply inj_nz; auto.
Qed.

Lemma mul_int_qval x n : fden x <> 0 ->
  exists r, mul_int x n = Some r /\ 0 < fden r /\ (qval r == qval x * inject_Z n)%Q.
Proof.
  intros Hx. unfold mul_int. destruct (mul_qval x (frac_int n) Hx) as (r & E & P & _ & V); [simpl; lia|].
  exists r. repeat split; auto. rewrite V. unfold qval, frac_int; simpl. field. apply inj_nz; auto.
Qed.

Lemma div_qval x y : fden x <> 0 -> fden y <> 0 -> fnum y <> 0 ->
  exists r, div x y = Some r /\ 0 < fden r /\ Z.gcd (fnum r) (fden r) = 1 /\ (qval r == qval x / qval y)%Q.
Proof.
  intros Hx Hy Hn. unfold div.
  destruct (reduce_qval (Fr (fnum x * fden y) (fden x * fnum y))) as (r & E & P & G & V);
    [simpl; nia|].
  exists r. repeat split; auto. rewrite V. unfold qval; simpl.
  rewrite !inject_Z_mult. field. repeat split; apply inj_nz; auto.
Qed.

Lemma div_int_qval x n : fden x <> 0 -> n <> 0 ->
  exists r, div_int x n = Some r /\ 0 < fden r /\ (qval r == qval x / inject_Z n)%Q.
Proof.
  intros Hx Hn. unfold div_int. destruct (div_qval x (frac_int n) Hx) as (r & E & P & _ & V); try (simpl; lia).
  exists r. repeat split; auto. rewrite V. unfold qval, frac_int; simpl. field.
  repeat split; try apply inj_nz; auto.
Qed.

(** Division by zero: panic for 0/0, a zero denominator otherwise. *)
Lemma div_zero x y : fden x <> 0 -> fden y <> 0 -> fnum y = 0 ->
  (fnum x = 0 /\ div x y = None) \/ (exists r, div x y = Some r /\ fden r = 0 /\ fnum r <> 0).
Proof.
  intros Hx Hy Hn. unfold div. rewrite Hn, Z.mul_0_r.
  destruct (Z.eq_dec (fnum x) 0) as [E|E].
  - left. split; auto. rewrite E, Z.mul_0_l. reflexivity.
  - right. unfold reduce. cbn [fden fnum]. replace (0 <? 0) with false by reflexivity.
    rewrite Z.gcd_0_r. set (n := fnum x * fden y). assert (n <> 0) by (unfold n; nia).
    rewrite (quo_exact n (Z.abs n) (Z.sgn n)) by lia. simpl.
    rewrite (quo_exact 0 (Z.abs n) 0) by lia. simpl.
    eexists. split; [reflexivity|]. simpl. split; auto. lia.
Qed.

(** ** Order *)

Lemma qval_sign x : fden x <> 0 ->
  (qval x ?= 0)%Q = (Z.sgn (fnum x) * Z.sgn (fden x) ?= 0).
Proof.
  intros H. unfold qval. destruct x as [n d]. cbn [fnum fden] in *.
  destruct d as [|d|d]; [lia| |].
  - assert (E : (inject_Z n / inject_Z (Z.pos d) == n # d)%Q).
    { unfold Qeq, Qdiv, Qmult, Qinv, inject_Z. simpl. lia. }
    rewrite E. unfold Qcompare. simpl. rewrite !Z.mul_1_r. now destruct n.
  - assert (E : (inject_Z n / inject_Z (Z.neg d) == (- n) # d)%Q).
    { unfold Qeq, Qdiv, Qmult, Qinv, inject_Z. simpl. lia. }
    rewrite E. unfold Qcompare. simpl. rewrite !Z.mul_1_r. now destruct n.
Qed.

Lemma is_positive_spec x : fden x <> 0 -> is_positive x = true <-> (0 < qval x)%Q.
Proof.
  intros H. unfold is_positive.
  pose proof (qval_sign x H) as S.
  split; intro K.
  - apply (proj2 (Qgt_alt (qval x) 0)). rewrite S. apply Z.gtb_lt in K. now apply Z.compare_gt_iff.
  - apply (proj1 (Qgt_alt (qval x) 0)) in K. rewrite S in K. apply Z.compare_gt_iff in K. now apply Z.gtb_lt.
Qed.

Lemma is_negative_spec x : fden x <> 0 -> is_negative x = true <-> (qval x < 0)%Q.
Proof.
  intros H. unfold is_negative. pose proof (qval_sign x H) as S.
  split; intro K.
  - apply (proj2 (Qlt_alt (qval x) 0)). rewrite S. apply Z.ltb_lt in K. now apply Z.compare_lt_iff.
  - apply (proj1 (Qlt_alt (qval x) 0)) in K. rewrite S in K. apply Z.compare_lt_iff in K. now apply Z.ltb_lt.
Qed.

Lemma is_zero_spec x : fden x <> 0 -> is_zero x = true <-> (qval x == 0)%Q.
Proof.
  intros H. unfold is_zero. pose proof (qval_sign x H) as S.
  split; intro K.
  - apply (proj2 (Qeq_alt (qval x) 0)). rewrite S. assert (fnum x = 0) by lia. rewrite H0. reflexivity.
  - apply (proj1 (Qeq_alt (qval x) 0)) in K. rewrite S in K. apply Z.compare_eq_iff in K. lia.
Qed.

Lemma gt_spec x y : fden x <> 0 -> fden y <> 0 ->
  exists b, gt x y = Some b /\ (b = true <-> (qval y < qval x)%Q).
Proof.
  intros Hx Hy. unfold gt. destruct (sub_qval x y Hx Hy) as (r & E & P & V).
  rewrite E. simpl. eexists; split; [reflexivity|].
  rewrite is_positive_spec by lia. rewrite V. split; intro K; lra.
Qed.

Lemma lt_spec x y : fden x <> 0 -> fden y <> 0 ->
  exists b, lt x y = Some b /\ (b = true <-> (qval x < qval y)%Q).
Proof. intros. unfold lt. now apply gt_spec. Qed.

Lemma lte_spec x y : fden x <> 0 -> fden y <> 0 ->
  exists b, lte x y = Some b /\ (b = true <-> (qval x <= qval y)%Q).
Proof.
  intros Hx Hy. unfold lte. destruct (gt_spec x y Hx Hy) as (b & E & S). rewrite E. simpl.
  eexists; split; [reflexivity|]. destruct b; simpl; split; intro K; try discriminate; auto.
  - exfalso. apply (Qle_not_lt _ _ K). now apply S.
  - apply Qnot_lt_le. intro L. apply S in L. discriminate.
Qed.

Lemma gte_spec x y : fden x <> 0 -> fden y <> 0 ->
  exists b, gte x y = Some b /\ (b = true <-> (qval y <= qval x)%Q).
Proof.
  intros Hx Hy. unfold gte, lt. destruct (gt_spec y x Hy Hx) as (b & E & S). rewrite E. simpl.
  eexists; split; [reflexivity|]. destruct b; simpl; split; intro K; try discriminate; auto.
  - exfalso. apply (Qle_not_lt _ _ K). now apply S.
  - apply Qnot_lt_le. intro L. apply S in L. discriminate.
Qed.

Lemma equal_spec x y : fden x <> 0 -> fden y <> 0 ->
  exists b, equal x y = Some b /\ (b = true <-> (qval x == qval y)%Q).
Proof.
  intros Hx Hy. unfold equal. destruct (sub_qval x y Hx Hy) as (r & E & P & V).
  rewrite E. simpl. eexists; split; [reflexivity|].
  rewrite is_zero_spec by lia. rewrite V. split; intro K.
  - setoid_replace (qval x) with (qval x - qval y + qval y)%Q by ring. rewrite K. ring.
  - rewrite K. ring.
Qed.

(** ** Conversion to integers *)

Lemma quot_trunc n d : d <> 0 ->
  ((0 <= qval (Fr n d))%Q -> Z.quot n d = Qfloor (qval (Fr n d))) /\
  ((qval (Fr n d) <= 0)%Q -> Z.quot n d = Qceiling (qval (Fr n d))).
Proof.
  intros Hd.
  assert (E : exists m p, (qval (Fr n d) == m # p)%Q /\ Z.quot n d = Z.quot m (Zpos p)).
  { destruct d as [|p|p]; [lia| |].
    - exists n, p. split; auto. unfold Qeq, qval, Qdiv, Qmult, Qinv, inject_Z. simpl. lia.
    - exists (- n), p. split.
      + unfold Qeq, qval, Qdiv, Qmult, Qinv, inject_Z. simpl. lia.
      + change (Z.neg p) with (- Z.pos p). rewrite Z.quot_opp_r, Z.quot_opp_l by lia. reflexivity. }
  destruct E as (m & p & E & Q). rewrite Q. clear Q.
  split; intro K; rewrite E in K; unfold Qle in K; simpl in K; rewrite E.
  - unfold Qfloor. rewrite Z.quot_div_nonneg by lia. reflexivity.
  - unfold Qceiling, Qfloor, Qopp. simpl.
    rewrite <- Z.quot_div_nonneg by lia. rewrite Z.quot_opp_l by lia. lia.
Qed.

Lemma wrap64_id z : - 2^63 <= z < 2^63 -> wrap64 z = z.
Proof. intros H. unfold wrap64. rewrite Z.mod_small by lia. lia. Qed.

Lemma wrap64_range z : - 2^63 <= wrap64 z < 2^63.
Proof. unfold wrap64. pose proof (Z.mod_pos_bound (z + 2^63) (2^64) ltac:(lia)). lia. Qed.

Lemma wrap64_mod z : (wrap64 z) mod 2^64 = z mod 2^64.
Proof.
  unfold wrap64. rewrite Zminus_mod_idemp_l. f_equal. lia.
Qed.

(** ** Text form *)

Lemma string_app_nil_r (s : string) : (s ++ "")%string = s.
Proof. induction s; simpl; congruence. Qed.

(** A string starts with no digit. *)
Definition no_digit_head (s : string) : bool :=
  match s with EmptyString => true | String c _ => negb (is_digit c) end.

Lemma span_uint d tl : no_digit_head tl = true ->
  span_digits (NilEmpty.string_of_uint d ++ tl) = (NilEmpty.string_of_uint d, tl).
Proof.
  intros Htl. induction d; cbn [NilEmpty.string_of_uint String.append];
    try (cbn [span_digits]; change (is_digit _) with true; cbn iota; rewrite IHd; reflexivity).
  destruct tl as [|c tl]; [reflexivity|]. simpl in Htl. cbn [span_digits].
  destruct (is_digit c); [discriminate|reflexivity].
Qed.

Lemma to_uint_nonnil n : N.to_uint n <> Nil.
Proof. destruct n; simpl; [discriminate|]. apply DecimalPos.Unsigned.to_uint_nonnil. Qed.

Lemma nilzero_nilempty d : d <> Nil -> NilZero.string_of_uint d = NilEmpty.string_of_uint d.
Proof. destruct d; try reflexivity. congruence. Qed.

Lemma to_uint_head p d : N.to_uint (Npos p) <> D0 d.
Proof.
  intro E.
  assert (U : unorm (N.to_uint (Npos p)) = N.to_uint (Npos p)).
  { rewrite <- DecimalN.Unsigned.to_of. now rewrite DecimalN.Unsigned.of_to. }
  rewrite E in U. simpl in U.
  assert (L : N.of_uint (N.to_uint (N.pos p)) = Npos p) by apply DecimalN.Unsigned.of_to.
  destruct (nzhead d) eqn:F.
  - assert (d' : unorm (D0 d) = D0 Nil) by (unfold unorm; simpl; now rewrite F).
    rewrite E in L. rewrite <- (DecimalN.Unsigned.of_uint_norm) in L. rewrite d' in L. discriminate.
  - unfold unorm in U. simpl in U. rewrite F in U. pose proof (nzhead_nonzero d u). congruence.
  - unfold unorm in U. simpl in U. rewrite F in U. congruence.
  - unfold unorm in U. simpl in U. rewrite F in U. congruence.
  - unfold unorm in U. simpl in U. rewrite F in U. congruence.
  - unfold unorm in U. simpl in U. rewrite F in U. congruence.
  - unfold unorm in U. simpl in U. rewrite F in U. congruence.
  - unfold unorm in U. simpl in U. rewrite F in U. congruence.
  - unfold unorm in U. simpl in U. rewrite F in U. congruence.
  - unfold unorm in U. simpl in U. rewrite F in U. congruence.
  - unfold unorm in U. simpl in U. rewrite F in U. congruence.
Qed.

Lemma parse_print_N n : parse_nat (NilZero.string_of_uint (N.to_uint n)) = Some n.
Proof.
  unfold parse_nat. rewrite NilZero.usu by apply to_uint_nonnil.
  destruct n as [|p]; [reflexivity|].
  pose proof (to_uint_head p) as Hh.
  pose proof (DecimalN.Unsigned.of_to (Npos p)) as Ho.
  pose proof (to_uint_nonnil (Npos p)) as Hn.
  destruct (N.to_uint (Npos p)) eqn:E; try (now rewrite <- Ho); try congruence.
Qed.

Definition digits (n : N) : string := NilZero.string_of_uint (N.to_uint n).

Lemma span_N n tl : no_digit_head tl = true ->
  span_digits (digits n ++ tl) = (digits n, tl).
Proof.
  intros. unfold digits. rewrite nilzero_nilempty by apply to_uint_nonnil. now apply span_uint.
Qed.

Lemma digits_nonempty n : (digits n =? "")%string = false.
Proof.
  unfold digits. rewrite nilzero_nilempty by apply to_uint_nonnil.
  pose proof (to_uint_nonnil n). destruct (N.to_uint n); try reflexivity. congruence.
Qed.

Lemma digits_head n : exists c r, digits n = String c r /\ is_digit c = true.
Proof.
  unfold digits. rewrite nilzero_nilempty by apply to_uint_nonnil.
  pose proof (to_uint_nonnil n). destruct (N.to_uint n); try congruence;
  simpl; eexists; eexists; split; reflexivity.
Qed.

Lemma print_Z_shape z :
  exists m n, print_Z z = ((if m : bool then "-" else "") ++ digits n)%string /\
              z = (if m then - Z.of_N n else Z.of_N n).
Proof.
  destruct z as [|p|p].
  - exists false, 0%N. split; reflexivity.
  - exists false, (Npos p). split; reflexivity.
  - exists true, (Npos p). split; reflexivity.
Qed.

Lemma parse_shape (m : bool) n tl :
  no_digit_head tl = true ->
  parse_frac ((if m then "-" else "") ++ digits n ++ tl) =
  match tl with
  | EmptyString => Some (Some (Fr (if m then - Z.of_N n else Z.of_N n) 1))
  | String "%" EmptyString => Some (Some (Fr (if m then - Z.of_N n else Z.of_N n) 100))
  | String "/" r2 =>
      let '(ds2, tl2) := span_digits r2 in
      if ((ds2 =? "") || negb (tl2 =? ""))%string%bool then None else
      olet d := parse_nat ds2 in Some (Some (Fr (if m then - Z.of_N n else Z.of_N n) (Z.of_N d)))
  | _ => None
  end.
Proof.
  intros Htl.
  destruct (digits_head n) as (c & r & Hd & Hc).
  unfold parse_frac.
  assert (Hne : (((if m then "-" else "") ++ digits n ++ tl =? "") || ((if m then "-" else "") ++ digits n ++ tl =? "nil"))%string%bool = false).
  { rewrite Hd. destruct m; cbn [String.append].
    - reflexivity.
    - destruct c as [[] [] [] [] [] [] [] []]; try reflexivity; discriminate Hc. }
  rewrite Hne.
  assert (Hs : split_sign ((if m then "-" else "") ++ digits n ++ tl)%string = (m, (digits n ++ tl)%string)).
  { destruct m; [reflexivity|]. cbn [String.append]. rewrite Hd. cbn [String.append split_sign].
    destruct (Ascii.eqb_spec c "-"); [subst; discriminate Hc|reflexivity]. }
  rewrite Hs. rewrite span_N by exact Htl. rewrite digits_nonempty.
  change (parse_nat (digits n)) with (parse_nat (NilZero.string_of_uint (N.to_uint n))).
  rewrite parse_print_N. cbn [obind]. reflexivity.
Qed.

Lemma string_app_assoc (a b c : string) : ((a ++ b) ++ c = a ++ b ++ c)%string.
Proof. induction a; simpl; congruence. Qed.

Lemma parse_print x : 0 < fden x -> parse_frac (print_frac (Some x)) = Some (Some x).
Proof.
  intros Hd. destruct x as [n d]. cbn [fden] in Hd. unfold print_frac.
  destruct (print_Z_shape n) as (m & k & Ep & En). rewrite Ep, string_app_assoc.
  destruct (d =? 100) eqn:E100.
  - rewrite parse_shape by reflexivity. cbn. rewrite <- En. repeat f_equal. lia.
  - destruct (d =? 1) eqn:E1.
    + rewrite parse_shape by reflexivity. rewrite <- En. repeat f_equal. lia.
    + rewrite parse_shape by reflexivity. rewrite <- En.
      destruct d as [|p|p]; try lia. cbn [String.append].
      change (print_Z (Z.pos p)) with (digits (Npos p)).
      rewrite <- (string_app_nil_r (digits (Npos p))) at 1.
      rewrite span_N by reflexivity. rewrite digits_nonempty. cbn [negb orb].
      change ("" =? "")%string with true. cbn [negb orb].
      unfold digits. rewrite parse_print_N. reflexivity.
Qed.

(** ** Fees *)

Lemma int64_exact f z : fden f <> 0 -> (qval f == inject_Z z)%Q ->
  - 2^63 <= z < 2^63 -> int64 f = Some z.
Proof.
  intros Hd V R. unfold int64, big_int.
  assert (E : fnum f = z * fden f).
  { assert (Q : (qval f == qval (Fr z 1))%Q).
    { rewrite V. unfold qval; simpl. field. }
    apply qval_eq in Q; simpl in *; lia. }
  rewrite (quo_exact (fnum f) (fden f) z) by auto. simpl. now rewrite wrap64_id.
Qed.

Lemma int64_floor f : fden f <> 0 -> (0 <= qval f)%Q -> (qval f < inject_Z (2^63))%Q ->
  int64 f = Some (Qfloor (qval f)).
Proof.
  intros Hd P R. destruct f as [n d]. cbn [fden] in Hd. unfold int64, big_int, quo. cbn [fnum fden].
  replace (d =? 0) with false by lia. cbn [obind].
  rewrite (proj1 (quot_trunc n d Hd) P). rewrite wrap64_id; [reflexivity|].
  set (q := qval (Fr n d)) in *.
  assert (0 <= Qfloor q) by (change 0 with (Qfloor (inject_Z 0)); now apply Qfloor_resp_le).
  assert (Qfloor q < 2^63); [|lia].
  rewrite Zlt_Qlt. eapply Qle_lt_trans; [apply Qfloor_le|exact R].
Qed.

Lemma add_den_nz x y r : add x y = Some r -> fden x <> 0 /\ fden y <> 0.
Proof.
  unfold add, quo. destruct (lcm (fden x) (fden y)) as [c|]; simpl; [|discriminate].
  destruct (Z.eqb_spec (fden x) 0); simpl; [discriminate|].
  destruct (Z.eqb_spec (fden y) 0); simpl; [discriminate|]. auto.
Qed.

Lemma burning_spec p c : fden p <> 0 -> fden c <> 0 ->
  exists b, burning_fraction p c = Some b /\ 0 < fden b /\ (qval b == 1 - qval p - qval c)%Q.
Proof.
  intros Hp Hc. unfold burning_fraction.
  destruct (sub_qval (frac_int 1) p ltac:(simpl; lia) Hp) as (a & Ea & Pa & Va).
  rewrite Ea. simpl. destruct (sub_qval a c ltac:(lia) Hc) as (b & Eb & Pb & Vb).
  exists b. repeat split; auto. rewrite Vb, Va.
  assert (O : (qval (frac_int 1) == 1)%Q) by (vm_compute; reflexivity). rewrite O. reflexivity.
Qed.

Lemma split_lcm_spec p c b : fden p <> 0 -> fden c <> 0 -> burning_fraction p c = Some b -> fden b <> 0 ->
  exists l, split_lcm p c = Some l /\ 0 < l /\ (fden p | l) /\ (fden c | l) /\ (fden b | l).
Proof.
  intros Hp Hc Eb Hb. unfold split_lcm.
  destruct (lcm_spec (fden p) (fden c) Hp Hc) as (l1 & E1 & P1 & D1 & D2 & _).
  rewrite E1. simpl. rewrite Eb. simpl.
  destruct (lcm_spec l1 (fden b) ltac:(lia) Hb) as (l & E & P & D3 & D4 & _).
  exists l. repeat split; auto; eapply Z.divide_trans; eassumption.
Qed.

Lemma validate_split_spec p c : validate_split_ratios p c = Some true ->
  fden p <> 0 /\ fden c <> 0 /\ (0 <= qval p)%Q /\ (0 <= qval c)%Q /\ (qval p + qval c <= 1)%Q /\
  exists b l, burning_fraction p c = Some b /\ 0 < fden b /\ (qval b == 1 - qval p - qval c)%Q /\
    split_lcm p c = Some l /\ 0 < l <= 100 /\ (fden p | l) /\ (fden c | l) /\ (fden b | l).
Proof.
  unfold validate_split_ratios.
  destruct (is_negative p) eqn:Np; [discriminate|].
  destruct (is_negative c) eqn:Nc; [discriminate|].
  destruct (add p c) as [s|] eqn:Es; simpl; [|discriminate].
  destruct (add_den_nz _ _ _ Es) as [Hp Hc].
  destruct (add_qval p c Hp Hc) as (s' & E' & Ps & Vs). assert (s' = s) by congruence. subst s'.
  destruct (gt_spec s (frac_int 1) ltac:(lia) ltac:(simpl; lia)) as (g & Eg & Sg).
  rewrite Eg. simpl. destruct g; [discriminate|].
  destruct (burning_spec p c Hp Hc) as (b & Eb & Pb & Vb).
  destruct (split_lcm_spec p c b Hp Hc Eb ltac:(lia)) as (l & El & Pl & D1 & D2 & D3).
  rewrite El. simpl. intros K. injection K as K.
  assert (O : (qval (frac_int 1) == 1)%Q) by (vm_compute; reflexivity).
  repeat split; auto.
  - apply Qnot_lt_le. intro L. apply is_negative_spec in L; auto. congruence.
  - apply Qnot_lt_le. intro L. apply is_negative_spec in L; auto. congruence.
  - apply Qnot_lt_le. intro L. assert (false = true); [|discriminate]. apply Sg. rewrite O, Vs. exact L.
  - exists b, l. unfold max_split_lcm in K. repeat split; auto. lia.
Qed.

(** The limit a fee must respect: rate times amount rounded down, capped. *)
Lemma calculate_fee_spec amount rate max p c :
  fden rate <> 0 -> validate_tx_fee rate = true -> validate_max_fee max = true ->
  validate_split_ratios p c = Some true ->
  0 <= amount < 2^63 -> (qval rate * inject_Z amount < inject_Z (2^63))%Q ->
  exists fee l, calculate_fee amount rate max p c = Some fee /\ split_lcm p c = Some l /\ 0 < l <= 100 /\
    let limit := if max =? 0 then Qfloor (qval rate * inject_Z amount)
                 else Z.min max (Qfloor (qval rate * inject_Z amount)) in
    0 <= limit /\ fee = limit - limit mod l.
Proof.
  intros Hd Hr Hm Hs Ha Hw.
  destruct (validate_split_spec p c Hs) as (Hp & Hc & _ & _ & _ & b & l & Eb & Pb & Vb & El & Pl & _).
  unfold calculate_fee, to_int64, is_int64.
  replace ((- 2 ^ 63 <=? amount) && (amount <? 2 ^ 63)) with true by lia. cbn [obind].
  destruct (mul_int_qval rate amount Hd) as (f & Ef & Pf & Vf). rewrite Ef. cbn [obind].
  assert (Q0 : (0 <= qval rate)%Q).
  { apply Qnot_lt_le. intro L. apply is_negative_spec in L; auto. unfold validate_tx_fee in Hr. rewrite L in Hr. discriminate. }
  assert (A0 : (0 <= inject_Z amount)%Q) by (change 0%Q with (inject_Z 0); rewrite <- Zle_Qle; lia).
  assert (F0 : (0 <= qval f)%Q) by (rewrite Vf; apply Qmult_le_0_compat; auto).
  assert (Fl : Qfloor (qval f) = Qfloor (qval rate * inject_Z amount)) by (now rewrite Vf).
  rewrite int64_floor; [|lia|auto|rewrite Vf; auto]. cbn [obind].
  unfold splittable_fee. rewrite El. cbn [obind]. replace (l =? 0) with false by lia.
  exists (let limit := if max =? 0 then Qfloor (qval rate * inject_Z amount)
                 else Z.min max (Qfloor (qval rate * inject_Z amount)) in limit - limit mod l), l.
  assert (G0 : 0 <= Qfloor (qval f)) by (change 0 with (Qfloor (inject_Z 0)); now apply Qfloor_resp_le).
  rewrite <- Fl.
  assert (EL : (if negb (max =? 0) && (Qfloor (qval f) >? max) then max else Qfloor (qval f)) =
    (if max =? 0 then Qfloor (qval f) else Z.min max (Qfloor (qval f)))).
  { destruct (Z.eqb_spec max 0); cbn [negb andb]; [reflexivity|]. destruct (Z.gtb_spec (Qfloor (qval f)) max); lia. }
  rewrite EL. unfold validate_max_fee in Hm.
  repeat split; auto; try lia. destruct (Z.eqb_spec max 0); lia.
Qed.

Lemma split_fee_spec fee p c l :
  validate_split_ratios p c = Some true -> split_lcm p c = Some l ->
  0 <= fee < 2^63 -> (l | fee) ->
  exists x y z, split_fee fee p c = Some (x, y, z) /\ 0 <= x /\ 0 <= y /\ 0 <= z /\ x + y + z = fee /\
    (inject_Z x == qval p * inject_Z fee)%Q /\ (inject_Z y == qval c * inject_Z fee)%Q.
Proof.
  intros Hs El' R Dl.
  destruct (validate_split_spec p c Hs) as (Hp & Hc & Qp & Qc & Qs & b & l0 & Eb & Pb & Vb & El & Pl & D1 & D2 & D3).
  assert (l0 = l) by congruence. subst l0. clear El'.
  unfold split_fee, to_int64, is_int64.
  replace ((- 2 ^ 63 <=? fee) && (fee <? 2 ^ 63)) with true by lia. cbn [obind].
  assert (Gen : forall f, fden f <> 0 -> (fden f | l) -> (0 <= qval f)%Q -> (qval f <= 1)%Q ->
    exists r x, mul_int f fee = Some r /\ int64 r = Some x /\ 0 <= x /\ (inject_Z x == qval f * inject_Z fee)%Q).
  { intros f Hf Df Q1 Q2. destruct (mul_int_qval f fee Hf) as (r & Er & Pr & Vr).
    assert (D : (fden f | fee)) by (eapply Z.divide_trans; eauto). destruct D as [k Hk].
    exists r, (fnum f * k).
    assert (VV : (inject_Z (fnum f * k) == qval f * inject_Z fee)%Q).
    { rewrite Hk. unfold qval. rewrite !inject_Z_mult. field. now apply inj_nz. }
    assert (F0 : (0 <= inject_Z fee)%Q) by (change 0%Q with (inject_Z 0); rewrite <- Zle_Qle; lia).
    assert (X0 : 0 <= fnum f * k).
    { rewrite Zle_Qle. rewrite VV. change (inject_Z 0) with 0%Q. now apply Qmult_le_0_compat. }
    assert (X1 : fnum f * k <= fee).
    { rewrite Zle_Qle. rewrite VV. setoid_replace (inject_Z fee) with (1 * inject_Z fee)%Q at 2 by ring.
      now apply Qmult_le_compat_r. }
    repeat split; auto. apply int64_exact; [lia|rewrite Vr; symmetry; auto|lia]. }
  destruct (Gen p Hp D1 Qp ltac:(lra)) as (r1 & x & E1 & I1 & P1 & V1). rewrite E1. cbn [obind]. rewrite I1. cbn [obind].
  destruct (Gen c Hc D2 Qc ltac:(lra)) as (r2 & y & E2 & I2 & P2 & V2). rewrite E2. cbn [obind]. rewrite I2. cbn [obind].
  rewrite Eb. cbn [obind].
  destruct (Gen b ltac:(lia) D3 ltac:(rewrite Vb; lra) ltac:(rewrite Vb; lra)) as (r3 & z & E3 & I3 & P3 & V3).
  rewrite E3. cbn [obind]. rewrite I3. cbn [obind].
  exists x, y, z. repeat split; auto.
  apply inject_Z_injective. rewrite !inject_Z_plus. rewrite V1, V2, V3, Vb. ring.
Qed.
