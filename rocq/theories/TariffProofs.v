(** * Paying for a subscription *)
From Coq Require Import QArith Qround.
From Verif Require Import Spec_Pure FracProofs FeeProofs DelegProofs.
From Verif Require Export NameProofs.
Open Scope Z_scope.

(** ** Cases of a run *)
Lemma out_bind {A B} (P : St * res B -> Prop) (m : M A) (f : A -> M B) s :
  (forall s1 e, m s = (s1, Err e) -> P (s1, Err e)) -> (forall s1 e, m s = (s1, Panic e) -> P (s1, Panic e)) ->
  (forall s1 a, m s = (s1, Ok a) -> P (f a s1)) -> P (bind m f s).
Proof. intros H1 H2 H3. unfold bind. destruct (m s) as [s1 [a|e|e]]; auto. Qed.
Lemma out_get {A B} (P : St * res B -> Prop) (g : St -> A) (f : A -> M B) s : P (f (g s) s) -> P (bind (get g) f s).
Proof. done. Qed.
Lemma out_lift {A B} (P : St * res B -> Prop) e (o : option A) (f : A -> M B) s :
  P (s, Panic (ErrMsg e)) -> (forall a, o = Some a -> P (f a s)) -> P (bind (lift e o) f s).
Proof. intros H1 H2. unfold bind, lift. destruct o; [by apply H2|exact H1]. Qed.

(** The profile after the payment *)
Definition renewed (s : St) (p : profile) (b : Z) (auto : bool) (u : time) : profile :=
  let active := p_active (st_now s) p in
  let p1 := if active && negb (b =? p_storage_limit p) then p <| p_storage_limit := b |> else p in
  let p2 := p1 <| p_until := Some u |> in
  if negb active && negb auto then reset_limits (st_pp s) p2
  else if auto then reset_limits (st_pp s) p2 else p2.
Definition new_end (s : St) (p : profile) (auto : bool) : option time :=
  if negb (p_active (st_now s) p) && negb auto then Some (st_now s + one_month s)
  else option_map (fun t => t + one_month s) (p_until p).

(** Nothing about names or money changes. *)
Definition calm (s s' : St) : Prop := opens s s' /\
  (st_bal s', st_supply s', st_bp s', st_pp s', st_rp s', st_now s', st_day s') =
  (st_bal s, st_supply s, st_bp s, st_pp s, st_rp s, st_now s, st_day s).
#[export] Instance calm_preorder : PreOrder calm.
Proof. split; [by intros s|]. intros s1 s2 s3 [O1 E1] [O2 E2]. split; [by transitivity s2|by rewrite E2]. Qed.
Lemma calm_fields s s' : opens s s' -> st_bal s' = st_bal s -> st_supply s' = st_supply s -> st_bp s' = st_bp s -> st_pp s' = st_pp s ->
  st_rp s' = st_rp s -> st_now s' = st_now s -> st_day s' = st_day s -> calm s s'.
Proof. intros O H1 H2 H3 H4 H5 H6 H7. split; [done|]. by rewrite H1, H2, H3, H4, H5, H6, H7. Qed.
Lemma calm_fields' s s' : nview s' = nview s -> st_accs s' = st_accs s -> st_next_acc s' = st_next_acc s -> st_bal s' = st_bal s -> st_supply s' = st_supply s -> st_bp s' = st_bp s -> st_pp s' = st_pp s ->
  st_rp s' = st_rp s -> st_now s' = st_now s -> st_day s' = st_day s -> calm s s'.
Proof. intros. apply calm_fields; [by apply opens_fields|done..]. Qed.
#[export] Hint Extern 1 (calm _ _) => (apply calm_fields'; reflexivity) : frame.
Lemma calm_come_back a : rel calm (come_back a).
Proof. frame. Qed.
Lemma calm_task t h a : rel calm (schedule_task t h a).
Proof. intros s. unfold schedule_task, schedule_task'. apply at_bind; [apply _|apply sw_check_key, _|]. intros [] s1 _. by apply calm_fields'. Qed.
Lemma op_io i o : rel opens (input_output_coins i o).
Proof. frame. Qed.

Lemma pay_tariff_out a g auto s s' r : pay_tariff a g auto s = (s', r) ->
  (opens s s' /\ forall x, r <> Ok x) \/
  exists p b base fee sf extra s1 s2 s3 u,
    st_prof s !! a = Some p /\ tariff_storage (st_pp s) p g = Some b /\
    oget (Frac.mul_int (pp_token_rate (st_pp s)) (pp_sub_price (st_pp s))) Frac.big_int = Some base /\
    fee_of base s = Some fee /\ tariff_storage_fee s p b = Some sf /\ Frac.big_int sf = Some extra /\
    0 <= fee <= base + extra /\ calm s s1 /\
    input_output_coins [(a, coins_of uartr (base + extra))]
      ((rp_company (st_rp s), coins_of uartr (base + extra - fee)) :: if fee =? 0 then [] else [(splitter, coins_of uartr fee)]) s1
      = (s2, Ok tt) /\ opens s1 s2 /\ calm s2 s3 /\ new_end s p auto = Some u /\
    s' = fst (set_profile a (renewed s p b auto u) s3) /\
    (forall x, r = Ok x -> set_profile a (renewed s p b auto u) s3 = (s', Ok tt)).
Proof.
  intros H.
  match goal with |- ?G => set (P := fun x : St * res unit => x = (s', r) -> G) end.
  enough (HP : P (pay_tariff a g auto s)) by (by apply HP).
  assert (FE : forall s0 e, opens s s0 -> P (s0, Err e)) by (intros s0 e HO [= -> <-]; left; done).
  assert (FP : forall s0 e, opens s s0 -> P (s0, Panic e)) by (intros s0 e HO [= -> <-]; left; done).
  unfold pay_tariff.
  apply out_bind.
  { intros s1 e H1. apply FE. unfold get_profile in H1. cbn in H1. by destruct (st_prof s !! a). }
  { intros s1 e H1. apply FP. unfold get_profile in H1. cbn in H1. destruct (st_prof s !! a); [done|]. by injection H1 as <- _. }
  intros s1 p H1. unfold get_profile in H1. cbn in H1. destruct (st_prof s !! a) as [p0|] eqn:EP; [|done]. injection H1 as <- <-.
  apply out_get. destruct (tariff_storage (st_pp s) p0 g) as [b|] eqn:EB; [|by apply FE].
  unfold fr at 1. apply out_lift; [by apply FP|intros base EBase].
  apply out_bind.
  { intros s1 e H1. unfold tx_fee in H1. cbn in H1. by destruct (fee_of base s). }
  { intros s1 e H1. unfold tx_fee in H1. cbn in H1. destruct (fee_of base s); [done|]. injection H1 as <- _. by apply FP. }
  intros s1 fee H1. apply tx_fee_ok in H1 as [-> EFee].
  apply out_get.
  match goal with |- P (bind ?m _ s) => assert (HCM : rel calm m) end.
  { destruct (r_banished _); [apply calm_come_back|apply rel_ret, _]. }
  apply out_bind.
  { intros s1 e H1. specialize (HCM s). rewrite H1 in HCM. by apply FE, HCM. }
  { intros s1 e H1. specialize (HCM s). rewrite H1 in HCM. by apply FP, HCM. }
  intros s1 [] H1. assert (C1 : calm s s1) by (specialize (HCM s); by rewrite H1 in HCM). clear HCM H1.
  assert (O1 : opens s s1) by apply C1. destruct C1 as [_ E1]. 
  assert (E1b : st_bp s1 = st_bp s) by exact (f_equal (fun v => v.1.1.1.1.2) E1).
  assert (E1p : st_pp s1 = st_pp s) by exact (f_equal (fun v => v.1.1.1.2) E1).
  assert (E1r : st_rp s1 = st_rp s) by exact (f_equal (fun v => v.1.1.2) E1).
  assert (E1n : st_now s1 = st_now s) by exact (f_equal (fun v => v.1.2) E1).
  assert (E1d : st_day s1 = st_day s) by exact (f_equal (fun v => v.2) E1).
  assert (C1 : calm s s1) by done.
  apply out_get. rewrite E1n. cbv zeta. apply out_get.
  assert (EM : one_month s1 = one_month s) by (unfold one_month, one_day; by rewrite E1d).
  assert (ETF : tariff_storage_fee s1 p0 b = tariff_storage_fee s p0 b).
  { unfold tariff_storage_fee, month_part. by rewrite E1p, E1n, EM. }
  rewrite ETF. unfold fr at 1. apply out_lift; [by apply FP|intros sf ESf].
  unfold fr. apply out_lift; [by apply FP|intros extra EExtra].
  apply out_get. rewrite E1r.
  assert (HNC : forall n (k : coins -> M unit) s0, opens s s0 -> (0 <= n -> P (k (coins_of uartr n) s0)) -> P (bind (new_coins uartr n) k s0)).
  { intros n k s0 O0 HK. unfold new_coins, bind at 1, bind at 1, assert. destruct (Z.leb_spec 0 n); [by apply HK|by apply FP]. }
  apply HNC; [done|intros HF1]. apply HNC; [done|intros HF2]. apply HNC; [done|intros HF3].
  match goal with |- P (bind ?m _ s1) => assert (HIO : rel opens m) by apply op_io end.
  apply out_bind.
  { intros s2 e H2. specialize (HIO s1). rewrite H2 in HIO. apply FE. by transitivity s1. }
  { intros s2 e H2. specialize (HIO s1). rewrite H2 in HIO. apply FP. by transitivity s1. }
  intros s2 [] H2. assert (O2 : opens s1 s2) by (specialize (HIO s1); by rewrite H2 in HIO). clear HIO.
  assert (O02 : opens s s2) by (by transitivity s1).
  assert (DM : st_day s2 = st_day s).
  { assert (HD : rel (same st_day) (input_output_coins [(a, coins_of uartr (base + extra))] ((rp_company (st_rp s), coins_of uartr (base + extra - fee)) :: if fee =? 0 then [] else [(splitter, coins_of uartr fee)]))) by frame.
    specialize (HD s1). rewrite H2 in HD. unfold same in HD. cbn in HD. congruence. }
  apply out_get.
  assert (EM2 : one_month s2 = one_month s) by (unfold one_month, one_day; by rewrite DM). rewrite EM2.
  match goal with |- P (bind ?m _ s2) => assert (HM : match new_end s p0 auto with Some u => m s2 = (s2, Ok (renewed s p0 b auto u)) | None => exists e, m s2 = (s2, Panic e) end) end.
  { unfold new_end, renewed. destruct (negb (p_active (st_now s) p0) && negb auto) eqn:EA.
    - assert (p_active (st_now s) p0 = false) as -> by (by destruct (p_active _ _)). done.
    - unfold bind, lift.
      assert (EU : p_until (if p_active (st_now s) p0 && negb (b =? p_storage_limit p0) then p0 <| p_storage_limit := b |> else p0) = p_until p0)
        by (destruct (p_active (st_now s) p0 && negb (b =? p_storage_limit p0)); reflexivity).
      rewrite EU. destruct (p_until p0) as [t|]; cbn; [|eauto]. done. }
  destruct (new_end s p0 auto) as [u|] eqn:EU.
  2: { destruct HM as [e HM]. unfold bind at 1. rewrite HM. by apply FP. }
  unfold bind at 1. rewrite HM. clear HM.
  assert (EU2 : p_until (renewed s p0 b auto u) = Some u).
  { unfold renewed, reset_limits. repeat match goal with |- context [if ?c then _ else _] => destruct c end; done. }
  unfold bind at 1. rewrite EU2. cbn [lift ret].
  apply out_bind.
  { intros s3 e H3. apply FE. pose proof (op_task u HRefresh a s2) as HR. rewrite H3 in HR. by transitivity s2. }
  { intros s3 e H3. apply FP. pose proof (op_task u HRefresh a s2) as HR. rewrite H3 in HR. by transitivity s2. }
  intros s3 [] H3. assert (C3 : calm s2 s3) by (pose proof (calm_task u HRefresh a s2) as HR; by rewrite H3 in HR).
  unfold bind at 1. destruct (set_profile a (renewed s p0 b auto u) s3) as [s4 [[]|e|e]] eqn:H4.
  - intros HX. right.
    exists p0, b, base, fee, sf, extra, s1, s2, s3, u. rewrite H4.
    assert (s' = s4) as ->.
    { clear -HX. unfold bind, lift, ret, panic in HX.
      destruct (Frac.to_uint64 (base + extra - fee)); [destruct (Frac.to_uint64 (base + extra))|]; by injection HX as <- _. }
    split_and!; try done; lia.
  - intros [= <- <-]. right. exists p0, b, base, fee, sf, extra, s1, s2, s3, u. rewrite H4. split_and!; try done; lia.
  - intros [= <- <-]. right. exists p0, b, base, fee, sf, extra, s1, s2, s3, u. rewrite H4. split_and!; try done; lia.
Qed.
