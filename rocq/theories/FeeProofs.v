(** * Arithmetic of interest and validators' shares *)
From Verif Require Import Spec_Pure FracProofs PureLemmas.
From Verif Require Export Sweep.
From Coq Require Export QArith Qround ZifyBool ZifyN Lqa.
Open Scope Z_scope.

(** ** Floors *)
Lemma floor_div a b : 0 < b -> Qfloor (inject_Z a / inject_Z b)%Q = a / b.
Proof.
  intros H. destruct b as [|p|p]; try lia.
  assert (E : (inject_Z a / inject_Z (Zpos p) == a # p)%Q).
  { unfold Qdiv, Qinv, Qmult, Qeq; cbn. lia. }
  rewrite E. reflexivity.
Qed.
Lemma floor_eq q a b : 0 < b -> (q == inject_Z a / inject_Z b)%Q -> Qfloor q = a / b.
Proof. intros H E. rewrite E. by apply floor_div. Qed.

Lemma to_int64_some n x : Frac.to_int64 n = Some x -> x = n /\ - 2^63 <= n < 2^63.
Proof.
  unfold Frac.to_int64, Frac.is_int64. destruct (_ && _) eqn:E; [|discriminate]. intros [= <-].
  apply andb_prop in E as [E1 E2]. split; [reflexivity|]. lia.
Qed.

(** [int64] of a quotient *)
Lemma int64_div f a b : Frac.fden f <> 0 -> (qval f == inject_Z a / inject_Z b)%Q -> 0 < b -> 0 <= a -> a < b * 2^63 ->
  Frac.int64 f = Some (a / b).
Proof.
  intros Hf V Hb Ha Hlt. rewrite <- (floor_eq _ _ _ Hb V). apply int64_floor; [done| |].
  - rewrite V. apply Qle_shift_div_l; [change 0%Q with (inject_Z 0); rewrite <- Zlt_Qlt; lia|].
    change 0%Q with (inject_Z 0). rewrite <- inject_Z_mult, <- Zle_Qle. lia.
  - rewrite V. apply Qlt_shift_div_r; [change 0%Q with (inject_Z 0); rewrite <- Zlt_Qlt; lia|].
    rewrite <- inject_Z_mult, <- Zlt_Qlt. lia.
Qed.

(** ** Validators' shares *)
Lemma vfee_amount_spec k n : 0 < k <= 6 -> 0 <= n < 2^63 -> vfee_amount (Frac.Fr k 1000) n = Some (k * n / 30000).
Proof.
  intros Hk Hn. unfold vfee_amount.
  destruct (div_qval (Frac.Fr k 1000) (Frac.new_fraction 30 1)) as (q & -> & Hq & _ & Vq); [cbn; lia..|].
  destruct (reduce_qval q) as (r & -> & Hr & _ & Vr); [lia|].
  unfold Frac.to_int64, Frac.is_int64.
  match goal with |- context [if ?b then _ else _] => assert (b = true) as -> by lia end.
  destruct (mul_int_qval r n) as (m & -> & Hm & Vm); [lia|].
  apply int64_div; [lia| |lia|nia|].
  - rewrite Vm, Vr, Vq. unfold qval, Frac.new_fraction. cbn [Frac.fnum Frac.fden].
    rewrite inject_Z_mult. change (inject_Z 30000) with (inject_Z 1000 * inject_Z 30)%Q. field.
  - assert (k * n <= 6 * n) by nia. lia.
Qed.
Lemma vfee_amount_neg k n x : 0 < k <= 6 -> n < 0 -> vfee_amount (Frac.Fr k 1000) n = Some x -> x <= 0.
Proof.
  intros Hk Hn. unfold vfee_amount.
  destruct (div_qval (Frac.Fr k 1000) (Frac.new_fraction 30 1)) as (q & -> & Hq & _ & Vq); [cbn; lia..|].
  destruct (reduce_qval q) as (r & -> & Hr & _ & Vr); [lia|].
  destruct (Frac.to_int64 n) as [n'|] eqn:En; [|discriminate]. apply to_int64_some in En as [-> Hb].
  destruct (mul_int_qval r n) as (m & -> & Hm & Vm); [lia|].
  unfold Frac.int64, Frac.big_int, Frac.quo. destruct (Frac.fden m =? 0); [discriminate|]. cbn. intros [= <-].
  assert (V : (qval m == inject_Z (k * n) / inject_Z 30000)%Q).
  { rewrite Vm, Vr, Vq. unfold qval, Frac.new_fraction. cbn [Frac.fnum Frac.fden].
    rewrite inject_Z_mult. change (inject_Z 30000) with (inject_Z 1000 * inject_Z 30)%Q. field. }
  destruct m as [a b]. cbn [Frac.fnum Frac.fden] in *.
  assert (E : a * 30000 = k * n * b).
  { change (inject_Z a / inject_Z b == inject_Z (k * n) / inject_Z 30000)%Q in V.
    apply (qval_eq (Frac.Fr a b) (Frac.Fr (k * n) 30000)); cbn; [lia|lia|exact V]. }
  assert (H1 : k * n < 0) by nia. assert (H2 : - 6 * 2^63 <= k * n) by nia. set (kn := k * n) in *. clearbody kn.
  assert (Ha : a <= 0) by nia. assert (Hab : - 2^63 * b <= a) by nia.
  pose proof (Z.quot_opp_l a b ltac:(lia)) as Q1.
  assert (0 <= Z.quot (- a) b <= 2^63).
  { rewrite Z.quot_div_nonneg by lia. split; [apply Z.div_pos; lia|]. apply Z.div_le_upper_bound; lia. }
  rewrite wrap64_id by lia. lia.
Qed.

(** What the share of an ancestor may be *)
Definition base_of (h : option nat) : Z := match h with Some x => Z.of_nat x + 1 | None => 0 end.
Lemma vfee_ratio_spec j : (j < 6)%nat -> vfee_ratio j = Frac.Fr (Z.of_nat j + 1) 1000.
Proof. intros H. do 6 (destruct j as [|j]; [reflexivity|]). lia. Qed.
Lemma vfee_sub_spec j h : (h < j)%nat -> (j < 6)%nat ->
  Frac.sub (vfee_ratio j) (vfee_ratio h) = Some (Frac.Fr (Z.of_nat j - Z.of_nat h) 1000).
Proof.
  intros H1 H2. do 6 (destruct j as [|j]; [do 6 (destruct h as [|h]; [try lia; try reflexivity|]); lia|]). lia.
Qed.
Lemma vfee_rank_spec st i n j : vfee_rank st i n = Some j ->
  (j < n)%nat /\ exists st' f lvl, vfee_table !! j = Some (st', f, lvl) /\ st' <= st /\ (i < lvl)%nat.
Proof.
  induction n as [|n IH]; cbn [vfee_rank]; [discriminate|].
  destruct (vfee_table !! n) as [[[st' f] lvl]|] eqn:E.
  - destruct ((st' <=? st) && (i <? lvl)%nat) eqn:B.
    + intros [= ->]. apply andb_prop in B as [B1 B2]. apply Nat.ltb_lt in B2. split; [lia|]. exists st', f, lvl. split; [done|]. split; [lia|done].
    + intros H. destruct (IH H) as (H1 & H2). split; [lia|done].
  - intros H. destruct (IH H) as (H1 & H2). split; [lia|done].
Qed.
Definition fsum (l : list (addr * frac)) : Z := fold_right (fun e t => Frac.fnum (snd e) + t) 0 l.
Lemma vfees_up_spec n : forall i h s a l, (base_of h <= 6) -> vfees_up n i h s a = Some l ->
  (forall e, e ∈ l -> 0 < Frac.fnum (snd e) <= 6 /\ Frac.fden (snd e) = 1000) /\ 0 <= fsum l /\ base_of h + fsum l <= 6.
Proof.
  induction n as [|n IH]; intros i h s a l Hh; cbn [vfees_up].
  { intros [= <-]. split; [intros e He; by apply elem_of_nil in He|]. cbn. lia. }
  destruct (a =? nobody)%N.
  { intros [= <-]. split; [intros e He; by apply elem_of_nil in He|]. cbn. lia. }
  destruct (is_active_validator s a); [|apply IH; done].
  destruct (vfee_rank (r_status (ref_get s a)) i 6) as [j|] eqn:ER; [|apply IH; done].
  apply vfee_rank_spec in ER as (Hj & _).
  assert (A : forall f l', Frac.fnum f = Z.of_nat j + 1 - base_of h -> Frac.fden f = 1000 -> base_of h < Z.of_nat j + 1 -> 0 <= base_of h ->
    match vfees_up n (S i) (Some j) s (r_referrer (ref_get s a)) with Some l0 => Some ((a, f) :: l0) | None => None end = Some l' ->
    (forall e, e ∈ l' -> 0 < Frac.fnum (snd e) <= 6 /\ Frac.fden (snd e) = 1000) /\ 0 <= fsum l' /\ base_of h + fsum l' <= 6).
  { intros f l' Hf Hd Hlt H0. destruct (vfees_up n (S i) (Some j) s _) as [l0|] eqn:EU; [|discriminate]. intros [= <-].
    apply IH in EU as (HA & HB & HC); [|cbn; lia]. change (base_of (Some j)) with (Z.of_nat j + 1) in HC.
    cbn [fsum fold_right snd]. fold (fsum l0). split; [|lia].
    intros e He. apply elem_of_cons in He as [->|He]; [cbn [snd]; lia|by apply HA]. }
  destruct h as [h|].
  - destruct (h <? j)%nat eqn:EL; [|apply IH; done]. apply Nat.ltb_lt in EL.
    rewrite vfee_sub_spec by lia. apply A; cbn; lia.
  - rewrite vfee_ratio_spec by lia. apply A; cbn; lia.
Qed.
