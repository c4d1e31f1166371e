(** * Purchases go through *)
From Coq Require Import QArith.
From Verif Require Import Spec_Pure FracProofs FeeProofs PriceProofs NameProofs NameHist TariffHist TariffProofs LiveProofs LiveRevoke Spec_Live.
Open Scope Z_scope.

(** Writing a profile with the same nickname, card and subscription *)
Lemma set_still a o p s : names_ok s -> st_prof s !! a = Some o -> p_nick p = p_nick o -> p_card p = p_card o -> p_active (st_now s) p = p_active (st_now s) o ->
  exists s', set_profile a p s = (s', Ok tt).
Proof.
  intros HN E N1 N2 N3. assert (A := no_profile s HN a o E).
  assert (V : validate_nickname a (trim s (p_nick p)) s = (s, Ok tt)).
  { rewrite N1. pose proof (no_nick s HN a o E) as O. pose proof (no_prefix s HN a o E) as P. unfold nick_key in O. unfold validate_nickname.
    destruct (trim s (p_nick o)) as [|c n]; [done|]. assert (EO : nick_owner s (c :: n) = Some a) by (apply O; done).
    cbv beta iota delta [bind get ensure]. rewrite P. cbn [negb]. cbv beta iota delta [ret]. rewrite EO. by rewrite N.eqb_refl. }
  assert (B : forall {A B} (m : M A) (k : A -> M B) s s1 x, m s = (s1, Ok x) -> bind m k s = k x s1) by (intros A' B' m k s0 s1 x Hm; unfold bind; by rewrite Hm).
  eexists. unfold set_profile.
  rewrite (B _ _ _ _ _ s (Some o)) by (unfold get; by rewrite E). rewrite (B _ _ _ _ _ s (trim s (p_nick p))) by done.
  rewrite (B _ _ _ _ _ s tt V).
  rewrite (B _ _ _ _ _ s p).
  2: { rewrite decide_True by done. rewrite N2, Z.eqb_refl. unfold bind, ret. destruct (Z.eqb_spec (p_card o) 0) as [X|X]; [|done]. f_equal. f_equal. rewrite <- N2. by destruct p. }
  rewrite (B _ _ _ _ _ (s <| st_prof := <[ a := p ]> (st_prof s) |>) tt) by done.
  rewrite (B _ _ _ _ _ (s <| st_prof := <[ a := p ]> (st_prof s) |>) tt).
  2: { unfold touch_account, bind, get. change (acc_exists _ a) with (acc_exists s a). by rewrite A. }
  rewrite (B _ _ _ _ _ (s <| st_prof := <[ a := p ]> (st_prof s) |>) (st_now s)) by done.
  cbv zeta. rewrite N3. rewrite eqb_reflx. done.
Qed.
Lemma set_same a o p s : names_ok s -> st_prof s !! a = Some o -> p_nick p = p_nick o -> p_card p = p_card o -> p_until p = p_until o ->
  exists s', set_profile a p s = (s', Ok tt).
Proof. intros HN E H1 H2 H3. apply (set_still a o); try done. unfold p_active. by rewrite H3. Qed.

(** Paying the company *)
Lemma main_sub n f : 0 <= f <= n -> coins_sub (coins_of uartr n) (coins_of uartr f) = coins_of uartr (n - f).
Proof.
  intros H. apply map_eq. intros d. unfold coins_sub. rewrite lookup_merge. unfold coins_of, nz.
  destruct (N.eq_dec d uartr) as [->|N].
  - destruct (Z.eqb_spec n 0), (Z.eqb_spec f 0), (Z.eqb_spec (n - f) 0); rewrite ?lookup_singleton, ?lookup_empty; cbn; try lia; try done;
      repeat match goal with |- context [?x =? 0] => destruct (Z.eqb_spec x 0) end; try lia; try done; f_equal; lia.
  - destruct (Z.eqb_spec n 0), (Z.eqb_spec f 0), (Z.eqb_spec (n - f) 0); rewrite ?lookup_singleton_ne, ?lookup_empty by done; done.
Qed.
Lemma wp_company a n f s : healthy s -> names_ok s -> 0 < n -> fee_of n s = Some f -> 0 <= f <= n -> n <= bal s a uartr ->
  exists s', pay_company a n s = (s', Ok tt) /\ healthy s' /\ names_ok s' /\ st_prof s' = st_prof s /\ st_day s' = st_day s /\ st_now s' = st_now s.
Proof.
  intros H HN Hn HF Hf HL.
  assert (W : wp (pay_company a n) (fun _ => healthy) s).
  { unfold pay_company, new_coins. apply wp_bind, wp_bind, wp_assert; [lia|]. apply wp_ret.
    pose proof (wp_pay_fee a n f s H Hn HF ltac:(lia)) as W. apply wp_run in W as (s1 & fee & E & [H1 _] & ->).
    apply wp_bind. eapply wp_of; [exact E|]. apply wp_bind, wp_assert.
    { apply ge_main; [lia|]. rewrite amt_coins_of, N.eqb_refl. lia. }
    apply wp_bind, wp_get. rewrite main_sub by lia. eapply wp_mono; [apply wp_send_n; [done|]|by intros [] s2 []]. split; [lia|].
    apply pay_tx_fee_ok in E as (f' & Hf' & Hp & Ec & _ & B & _). rewrite B.
    assert (EA : amt (coins_of uartr f) uartr = amt (coins_of uartr f') uartr) by (by rewrite Ec).
    rewrite !amt_coins_of, N.eqb_refl in EA. subst f'. rewrite ?amt_coins_of, ?N.eqb_refl. unfold at_.
    destruct (a =? a)%N, (a =? splitter)%N; lia. }
  apply wp_run in W as (s' & [] & E & H'). exists s'. split; [done|]. split; [done|].
  apply pay_company_ok in E as (_ & O & _ & _ & _ & _ & V). split; [eapply names_kept; [by apply kept_opens|done]|].
  split; [by apply opens_prof|]. split; [exact (f_equal snd V)|exact (f_equal (fun v => v.1.2) V)].
Qed.

(** The price can be computed. *)
Lemma int64_some' f : Frac.fden f <> 0 -> exists n, Frac.int64 f = Some n.
Proof. intros H. unfold Frac.int64, Frac.big_int, Frac.quo. destruct (Z.eqb_spec (Frac.fden f) 0); [done|]. by eexists. Qed.
Lemma gb_some s unit x part pf : gb_fits s unit x part -> Frac.fden (pp_token_rate (st_pp s)) <> 0 -> Frac.fden pf <> 0 -> (qval pf == part)%Q ->
  oget (Frac.mul_int (pp_token_rate (st_pp s)) (Frac.wrap64 (x * unit))) (fun y => oget (Frac.mul y pf) Frac.int64) = Some (gb_price s unit x part).
Proof.
  intros HF HD HP HQ.
  assert (X : exists n, oget (Frac.mul_int (pp_token_rate (st_pp s)) (Frac.wrap64 (x * unit))) (fun y => oget (Frac.mul y pf) Frac.int64) = Some n).
  { destruct (mul_int_qval _ (Frac.wrap64 (x * unit)) HD) as (y & -> & Dy & _). destruct (mul_qval y pf ltac:(lia) HP) as (z & Ez & Dz & _). unfold oget, Frac.obind. rewrite Ez.
    apply int64_some'. lia. }
  destruct X as [n E]. rewrite E. f_equal. by eapply gb_priced.
Qed.
Lemma gb_some1 s unit x : gb_fits s unit x 1 -> Frac.fden (pp_token_rate (st_pp s)) <> 0 ->
  oget (Frac.mul_int (pp_token_rate (st_pp s)) (Frac.wrap64 (x * unit))) Frac.int64 = Some (gb_price s unit x 1).
Proof.
  intros HF HD.
  assert (X : exists n, oget (Frac.mul_int (pp_token_rate (st_pp s)) (Frac.wrap64 (x * unit))) Frac.int64 = Some n).
  { destruct (mul_int_qval _ (Frac.wrap64 (x * unit)) HD) as (y & -> & Dy & _). unfold oget, Frac.obind. apply int64_some'. lia. }
  destruct X as [n E]. rewrite E. f_equal. by eapply gb_priced1.
Qed.
Lemma month_some s t : 0 < st_day s -> - 2^63 <= t - st_now s < 2^63 ->
  exists part, month_part s t = Some part /\ Frac.fden part <> 0 /\ (qval part == month_left s t)%Q.
Proof.
  intros HD HR. unfold month_part. assert (HM : one_month s <> 0) by (unfold one_month, one_day; lia).
  destruct (reduce_qval (Frac.new_fraction (sat64 (t - st_now s)) (one_month s)) HM) as (q & Eq & Dq & _ & Vq).
  exists q. split; [done|]. split; [lia|]. by apply month_part_left.
Qed.

(** ** The purchases *)
Lemma run_bind {A B} (m : M A) (k : A -> M B) s s1 x : m s = (s1, Ok x) -> bind m k s = k x s1.
Proof. intros H. unfold bind. by rewrite H. Qed.

Lemma live_storage a x p t f s : healthy s -> names_ok s -> st_prof s !! a = Some p -> p_until p = Some t -> 0 < st_day s ->
  st_now s < t -> t - st_now s < 2^63 -> 0 < x < 2^32 -> Frac.fden (pp_token_rate (st_pp s)) <> 0 ->
  let n := gb_price s (pp_storage_price (st_pp s)) x (month_left s t) in
  gb_fits s (pp_storage_price (st_pp s)) x (month_left s t) -> 0 < n <= bal s a uartr -> fee_of n s = Some f -> 0 <= f <= n ->
  exists s', msg_buy_storage a x s = (s', Ok tt).
Proof.
  intros H HN E U HD T1 T2 Hx HR n HG Hn HF Hf. unfold msg_buy_storage.
  assert (X : uint32 x && (0 <? x) = true) by (unfold uint32; lia). rewrite X.
  destruct (month_some s t HD ltac:(lia)) as (part & Ep & Dp & Vp).
  destruct (wp_company a n f s H HN ltac:(lia) HF Hf ltac:(lia)) as (s1 & E1 & H1 & HN1 & P1 & _).
  pose (p' := if p_storage_limit p <? pp_base_storage (st_pp s) * gb then p <| p_storage_limit := pp_base_storage (st_pp s) * gb |> else p).
  destruct (set_same a p (p' <| p_storage_limit := w64 (p_storage_limit p' + x * gb) |>) s1 HN1) as [s2 E2]; [by rewrite P1|by unfold p'; case_match..|].
  exists s2. rewrite (run_bind _ _ s s tt) by done. unfold buy_storage.
  rewrite (run_bind _ _ s s p) by (unfold get_profile; unfold bind, get, lift; by rewrite E).
  rewrite (run_bind _ _ s s (st_now s)) by done.
  assert (PA : p_active (st_now s) p = true) by (unfold p_active; rewrite U; lia).
  rewrite PA. rewrite (run_bind _ _ s s tt) by done. rewrite (run_bind _ _ s s (st_pp s)) by done.
  fold p'. rewrite (run_bind _ _ s s t) by (unfold p'; case_match; cbn; by rewrite U).
  rewrite (run_bind _ _ s s (Some part)) by (unfold get; by rewrite Ep). rewrite (run_bind _ _ s s part) by done.
  rewrite (run_bind _ _ s s n) by (rewrite (gb_some s _ x (month_left s t) part) by done; done).
  rewrite (run_bind _ _ s s tt) by (unfold assert; assert (0 <? n = true) as -> by lia; done).
  rewrite (run_bind _ _ s s1 tt) by done. exact E2.
Qed.

Lemma live_vpn a x p t f s : healthy s -> names_ok s -> st_prof s !! a = Some p -> p_until p = Some t -> 
  st_now s < t -> 0 < x < 2^32 -> Frac.fden (pp_token_rate (st_pp s)) <> 0 ->
  let n := gb_price s (pp_vpn_price (st_pp s)) x 1 in
  gb_fits s (pp_vpn_price (st_pp s)) x 1 -> 0 < n <= bal s a uartr -> fee_of n s = Some f -> 0 <= f <= n ->
  exists s', msg_buy_vpn a x s = (s', Ok tt).
Proof.
  intros H HN E U T1 Hx HR n HG Hn HF Hf. unfold msg_buy_vpn.
  assert (X : uint32 x && (0 <? x) = true) by (unfold uint32; lia). rewrite X.
  destruct (wp_company a n f s H HN ltac:(lia) HF Hf ltac:(lia)) as (s1 & E1 & H1 & HN1 & P1 & _).
  destruct (set_same a p (p <| p_vpn_limit := w64 (p_vpn_limit p + x * gb) |>) s1 HN1) as [s2 E2]; [by rewrite P1|done..|].
  exists s2. rewrite (run_bind _ _ s s tt) by done. unfold buy_vpn.
  rewrite (run_bind _ _ s s p) by (unfold get_profile; unfold bind, get, lift; by rewrite E).
  rewrite (run_bind _ _ s s (st_now s)) by done.
  assert (PA : p_active (st_now s) p = true) by (unfold p_active; rewrite U; lia).
  rewrite PA. rewrite (run_bind _ _ s s tt) by done. rewrite (run_bind _ _ s s (st_pp s)) by done.
  rewrite (run_bind _ _ s s n) by (rewrite (gb_some1 s _ x) by done; done).
  rewrite (run_bind _ _ s s tt) by (unfold assert; assert (0 <=? n = true) as -> by lia; done).
  rewrite (run_bind _ _ s s1 tt) by done. exact E2.
Qed.

Lemma still_names s s' : still s s' -> names_ok s -> names_ok s' /\ st_prof s' = st_prof s.
Proof. intros (t & i & ->) H. split; [|done]. destruct H as [H1 H2 H3 H4 H5 H6 H7 H8]. by split. Qed.

Lemma live_im_more a x p t f s : healthy s -> names_ok s -> st_prof s !! a = Some p -> p_im_until p = Some t -> p_im_extra p <> 0 -> 0 < st_day s ->
  st_now s < t -> t - st_now s < 2^63 -> 0 < x < 2^32 -> Frac.fden (pp_token_rate (st_pp s)) <> 0 ->
  let n := gb_price s (pp_storage_price (st_pp s)) x (month_left s t) in
  gb_fits s (pp_storage_price (st_pp s)) x (month_left s t) -> 0 < n <= bal s a uartr -> fee_of n s = Some f -> 0 <= f <= n ->
  exists s', msg_buy_im a x s = (s', Ok tt).
Proof.
  intros H HN E U I HD T1 T2 Hx HR n HG Hn HF Hf. unfold msg_buy_im.
  assert (X : uint32 x && (0 <? x) = true) by (unfold uint32; lia). rewrite X.
  destruct (month_some s t HD ltac:(lia)) as (part & Ep & Dp & Vp).
  destruct (wp_company a n f s H HN ltac:(lia) HF Hf ltac:(lia)) as (s1 & E1 & H1 & HN1 & P1 & _).
  destruct (set_same a p (p <| p_im_extra := w64 (p_im_extra p + x) |>) s1 HN1) as [s2 E2]; [by rewrite P1|done..|].
  exists s2. rewrite (run_bind _ _ s s tt) by done. unfold buy_im.
  rewrite (run_bind _ _ s s p) by (unfold get_profile; unfold bind, get, lift; by rewrite E).
  rewrite (run_bind _ _ s s (st_now s)) by done. rewrite (run_bind _ _ s s (st_pp s)) by done.
  assert (PA : im_active (st_now s) p = true) by (unfold im_active; rewrite U; lia).
  rewrite PA. rewrite (run_bind _ _ s s part).
  2: { rewrite (run_bind _ _ s s t) by (by rewrite U). rewrite (run_bind _ _ s s (Some part)) by (unfold get; by rewrite Ep). done. }
  rewrite (run_bind _ _ s s n) by (rewrite (gb_some s _ x (month_left s t) part) by done; done).
  rewrite (run_bind _ _ s s tt) by (unfold assert; assert (0 <? n = true) as -> by lia; done).
  rewrite (run_bind _ _ s s1 tt) by done. exact E2.
Qed.

Lemma live_im_new a x p f s : healthy s -> names_ok s -> st_prof s !! a = Some p ->
  (p_im_extra p = 0 \/ forall t, p_im_until p = Some t -> t <= st_now s) -> 0 < x < 2^32 -> Frac.fden (pp_token_rate (st_pp s)) <> 0 ->
  let n := gb_price s (pp_storage_price (st_pp s)) x 1 in
  gb_fits s (pp_storage_price (st_pp s)) x 1 -> 0 < n <= bal s a uartr -> fee_of n s = Some f -> 0 <= f <= n ->
  exists s', msg_buy_im a x s = (s', Ok tt).
Proof.
  intros H HN E I Hx HR n HG Hn HF Hf. unfold msg_buy_im.
  assert (X : uint32 x && (0 <? x) = true) by (unfold uint32; lia). rewrite X.
  destruct (wp_company a n f s H HN ltac:(lia) HF Hf ltac:(lia)) as (s1 & E1 & H1 & HN1 & P1 & D1 & N1).
  pose proof (hl_clock s1 H1) as (C1 & C2 & C3).
  pose proof (wp_schedule (st_now s1 + one_month s1) HRefreshIm a s1 ltac:(unfold one_month, one_day; lia)) as W. apply wp_run in W as (s2 & [] & W2 & S2).
  apply still_names in S2 as [HN2 P2]; [|done].
  destruct (set_same a p (p <| p_im_extra := x |> <| p_im_until := Some (st_now s1 + one_month s1) |>) s2 HN2) as [s3 E3]; [by rewrite P2, P1|done..|].
  exists s3. rewrite (run_bind _ _ s s tt) by done. unfold buy_im.
  rewrite (run_bind _ _ s s p) by (unfold get_profile; unfold bind, get, lift; by rewrite E).
  rewrite (run_bind _ _ s s (st_now s)) by done. rewrite (run_bind _ _ s s (st_pp s)) by done.
  assert (PA : im_active (st_now s) p = false).
  { unfold im_active. destruct I as [->|I]; [done|]. destruct (p_im_until p) as [t|]; [specialize (I t eq_refl)|]; lia. }
  rewrite PA. rewrite (run_bind _ _ s s (Frac.frac_int 1)) by done.
  rewrite (run_bind _ _ s s n) by (rewrite (gb_some s _ x 1 (Frac.frac_int 1)) by done; done).
  rewrite (run_bind _ _ s s tt) by (unfold assert; assert (0 <? n = true) as -> by lia; done).
  rewrite (run_bind _ _ s s1 tt) by done. rewrite (run_bind _ _ s1 s1 (st_now s1 + one_month s1)) by done.
  rewrite (run_bind _ _ s1 s2 tt) by done. exact E3.
Qed.

Lemma live_im_longer a p t f s : healthy s -> names_ok s -> st_prof s !! a = Some p -> p_im_until p = Some t -> 0 < p_im_extra p < 2^63 ->
  0 <= t -> t + one_month s < time_limit -> Frac.fden (pp_token_rate (st_pp s)) <> 0 ->
  let n := gb_price s (pp_storage_price (st_pp s)) (p_im_extra p) 1 in
  gb_fits s (pp_storage_price (st_pp s)) (p_im_extra p) 1 -> 0 < n <= bal s a uartr -> fee_of n s = Some f -> 0 <= f <= n ->
  exists s', msg_prolong_im a s = (s', Ok tt).
Proof.
  intros H HN E U I T0 T HR n HG Hn HF Hf. unfold msg_prolong_im, prolong_im.
  destruct (wp_company a n f s H HN ltac:(lia) HF Hf ltac:(lia)) as (s1 & E1 & H1 & HN1 & P1 & D1 & N1).
  assert (M1 : one_month s1 = one_month s) by (unfold one_month, one_day; by rewrite D1).
  pose proof (hl_clock s H) as (_ & C & _). assert (0 <= one_month s) by (unfold one_month, one_day; lia).
  pose proof (wp_delete t HRefreshIm a s1 ltac:(lia)) as W1.
  apply wp_run in W1 as (s2 & [] & W1 & S1).
  pose proof (wp_schedule (t + one_month s) HRefreshIm a s2 ltac:(lia)) as W. apply wp_run in W as (s3 & [] & W2 & S2).
  apply still_names in S1 as [HN2 P2]; [|done]. apply still_names in S2 as [HN3 P3]; [|done].
  destruct (set_same a p (p <| p_im_until := Some (t + one_month s) |>) s3 HN3) as [s4 E4]; [by rewrite P3, P2, P1|done..|].
  exists s4.
  rewrite (run_bind _ _ s s p) by (unfold get_profile; unfold bind, get, lift; by rewrite E).
  rewrite (run_bind _ _ s s3 (p <| p_im_until := Some (t + one_month s) |>)).
  { unfold must. by rewrite E4. }
  unfold prolong_core. rewrite U.
  rewrite (run_bind _ _ s s tt) by (unfold ensure; assert (negb (p_im_extra p =? 0) = true) as -> by lia; done).
  rewrite (run_bind _ _ s s (st_pp s)) by done.
  rewrite (run_bind _ _ s s n) by (rewrite (wrap64_id (p_im_extra p)) by lia; rewrite (gb_some1 s _ (p_im_extra p)) by done; done).
  rewrite (run_bind _ _ s s tt) by (unfold assert; assert (0 <? n = true) as -> by lia; done).
  rewrite (run_bind _ _ s s1 tt) by done. rewrite (run_bind _ _ s1 s1 (one_month s)) by (unfold get; by rewrite M1).
  rewrite (run_bind _ _ s1 s2 tt) by done. rewrite (run_bind _ _ s2 s3 tt) by done. done.
Qed.

(** ** The next month *)
Lemma tariff_some s p b : Frac.fden (pp_token_rate (st_pp s)) <> 0 -> 0 < st_day s -> exists sf, tariff_storage_fee s p b = Some sf /\ Frac.fden sf <> 0.
Proof.
  intros HD HDay. unfold tariff_storage_fee. unfold month_part.
  match goal with |- context [Frac.mul_int _ ?n] => destruct (mul_int_qval _ n HD) as (f1 & E1 & P1 & _) end.
  rewrite E1. cbn [oget Frac.obind].
  destruct (div_int_qval f1 gb ltac:(lia) ltac:(done)) as (f2 & E2 & P2 & _). rewrite E2. cbn [oget Frac.obind].
  destruct (reduce_qval f2 ltac:(lia)) as (f3 & E3 & P3 & _ & _). rewrite E3. cbn [oget Frac.obind].
  destruct (p_until p) as [t|]; [|exists f3; split; [done|lia]].
  destruct (_ && _); [|exists f3; split; [done|lia]].
  assert (HM : one_month s <> 0) by (unfold one_month, one_day; lia).
  destruct (reduce_qval (Frac.new_fraction (sat64 (t - st_now s)) (one_month s)) HM) as (part & Ep & Pp & _ & _).
  rewrite Ep. cbn [oget Frac.obind].
  match goal with |- context [Frac.mul_int _ (Frac.wrap64 (?x - ?y))] => destruct (mul_int_qval _ (Frac.wrap64 (x - y)) HD) as (g1 & G1 & Q1 & _) end.
  rewrite G1. cbn [oget Frac.obind].
  destruct (div_int_qval g1 gb ltac:(lia) ltac:(done)) as (g2 & G2 & Q2 & _). rewrite G2. cbn [oget Frac.obind].
  destruct (reduce_qval g2 ltac:(lia)) as (g3 & G3 & Q3 & _ & _). rewrite G3. cbn [oget Frac.obind].
  destruct (mul_int_qval g3 (pp_storage_price (st_pp s)) ltac:(lia)) as (g4 & G4 & Q4 & _). rewrite G4. cbn [oget Frac.obind].
  destruct (mul_qval g4 part ltac:(lia) ltac:(lia)) as (g5 & G5 & Q5 & _ & _). rewrite G5. cbn [oget Frac.obind].
  destruct (reduce_qval g5 ltac:(lia)) as (g6 & G6 & Q6 & _ & _). rewrite G6. cbn [oget Frac.obind].
  destruct (add_qval f3 g6 ltac:(lia) ltac:(lia)) as (h & H1 & HP & _). rewrite H1. cbn [oget Frac.obind].
  eexists. split; [reflexivity|]. destruct (Frac.is_negative h); [done|lia].
Qed.
Lemma big_some f : Frac.fden f <> 0 -> exists n, Frac.big_int f = Some n.
Proof. intros H. unfold Frac.big_int, Frac.quo. destruct (Z.eqb_spec (Frac.fden f) 0); [done|]. by eexists. Qed.
Lemma month_base s : Frac.fden (pp_token_rate (st_pp s)) <> 0 ->
  oget (Frac.mul_int (pp_token_rate (st_pp s)) (pp_sub_price (st_pp s))) Frac.big_int = Some (month_price s).
Proof.
  intros HD. destruct (mul_int_qval _ (pp_sub_price (st_pp s)) HD) as (y & Ey & Dy & _). destruct (big_some y ltac:(lia)) as [n En].
  assert (E : oget (Frac.mul_int (pp_token_rate (st_pp s)) (pp_sub_price (st_pp s))) Frac.big_int = Some n) by (unfold oget, Frac.obind; by rewrite Ey).
  pose proof (base_price s n E) as [_ ->]. done.
Qed.
Lemma asked_some s p g : g = 0 \/ (pp_base_storage (st_pp s) <= g /\ p_storage_cur p <= g * gb) -> tariff_storage (st_pp s) p g = Some (storage_asked s p g).
Proof.
  unfold tariff_storage, storage_asked. destruct (Z.eqb_spec g 0) as [|N]; [done|]. intros [?|[H1 H2]]; [done|].
  destruct (Z.ltb_spec g (pp_base_storage (st_pp s))); [lia|]. destruct (Z.ltb_spec (g * gb) (p_storage_cur p)); [lia|]. done.
Qed.
Lemma main_add x y : 0 <= x -> 0 <= y -> coins_add (coins_of uartr x) (coins_of uartr y) = coins_of uartr (x + y).
Proof.
  intros Hx Hy. apply map_eq. intros d. unfold coins_add. rewrite lookup_merge. unfold coins_of, nz.
  destruct (N.eq_dec d uartr) as [->|N].
  - destruct (Z.eqb_spec x 0), (Z.eqb_spec y 0), (Z.eqb_spec (x + y) 0); rewrite ?lookup_singleton, ?lookup_empty; cbn; try lia; try done;
      repeat match goal with |- context [?x =? 0] => destruct (Z.eqb_spec x 0) end; try lia; try done; f_equal; lia.
  - destruct (Z.eqb_spec x 0), (Z.eqb_spec y 0), (Z.eqb_spec (x + y) 0); rewrite ?lookup_singleton_ne, ?lookup_empty by done; done.
Qed.
Lemma item_main a n : a <> nobody -> 0 < n -> io_item_valid (a, coins_of uartr n) = true.
Proof.
  intros Ha Hn. unfold io_item_valid. cbn [fst snd]. rewrite coins_of_valid by lia. rewrite bool_decide_false.
  - destruct (N.eqb_spec a nobody); done.
  - intros E. apply LiveProofs.coins_of_empty in E. lia.
Qed.
Lemma wp_io a c T f s : healthy s -> a <> nobody -> c <> nobody -> 0 <= f < T -> T <= bal s a uartr ->
  wp (input_output_coins [(a, coins_of uartr T)] ((c, coins_of uartr (T - f)) :: if f =? 0 then [] else [(splitter, coins_of uartr f)])) (fun _ s' => healthy s' /\ kept s s') s.
Proof.
  intros H Ha Hc Hf HT. unfold input_output_coins. apply wp_bind, wp_ensure.
  { cbn [forallb]. rewrite !item_main by (done || lia). rewrite bool_decide_true.
    - destruct (Z.eqb_spec f 0); cbn [forallb]; [done|]. rewrite item_main by (done || lia). done.
    - unfold io_total. destruct (Z.eqb_spec f 0) as [->|N]; cbn [fold_left snd]; [by rewrite Z.sub_0_r|].
      change (∅ : coins) with (coins_of uartr 0). rewrite !main_add by lia. f_equal. lia. }
  apply wp_bind. cbn [mfor fst snd]. apply wp_bind. eapply wp_mono; [apply wp_subtract; [done|apply coins_of_valid; lia|apply ge_main; [lia|done]|by rewrite amt_coins_of]|].
  intros [] s1 [H1 K1]. apply wp_ret. apply wp_bind. eapply wp_mono; [apply wp_add'; [done|apply coins_of_valid; lia|by rewrite amt_coins_of]|].
  intros [] s2 [H2 K2]. pose proof (kept_trans _ _ _ K1 K2) as K. destruct (Z.eqb_spec f 0); [by apply wp_ret|]. cbn [mfor fst snd]. apply wp_bind.
  eapply wp_mono; [apply wp_add'; [done|apply coins_of_valid; lia|by rewrite amt_coins_of]|]. intros [] s3 [H3 K3]. apply wp_ret. split; [done|by eapply kept_trans].
Qed.

Lemma live_renewal a g p t f s : let b := storage_asked s p g in let T := month_price s + surcharge s p b in
  healthy s -> names_ok s -> st_prof s !! a = Some p -> p_until p = Some t -> st_now s < t -> t + one_month s < time_limit ->
  a <> nobody -> rp_company (st_rp s) <> nobody -> r_banished (ref_get s a) = false -> Frac.fden (pp_token_rate (st_pp s)) <> 0 ->
  0 <= g < 2^32 -> (g = 0 \/ (pp_base_storage (st_pp s) <= g /\ p_storage_cur p <= g * gb)) -> storage_fits s p b ->
  fee_of (month_price s) s = Some f -> 0 <= f < T -> T < 2^64 -> T <= bal s a uartr ->
  exists s', msg_pay_tariff a g s = (s', Ok tt).
Proof.
  intros b T H HN E U T1 T2 Ha Hc HB HR Hg Hs HF EF Hf HT HL. unfold msg_pay_tariff.
  assert (X : uint32 g = true) by (unfold uint32; lia). rewrite X.
  pose proof (hl_clock s H) as (C0 & C1 & _).
  destruct (tariff_some s p b HR ltac:(apply HF)) as (sf & Esf & Dsf). destruct (big_some sf Dsf) as [extra Eex].
  pose proof (extra_price s p b sf extra HR HF Esf Eex) as ->.
  pose proof (wp_io a (rp_company (st_rp s)) T f s H Ha Hc Hf HL) as W. apply wp_run in W as (s1 & [] & W1 & H1 & _).
  assert (O1 : opens s s1). { pose proof (op_io [(a, coins_of uartr T)] ((rp_company (st_rp s), coins_of uartr (T - f)) :: if f =? 0 then [] else [(splitter, coins_of uartr f)]) s) as R. by rewrite W1 in R. }
  assert (D1 : st_day s1 = st_day s).
  { assert (R : rel (same st_day) (input_output_coins [(a, coins_of uartr T)] ((rp_company (st_rp s), coins_of uartr (T - f)) :: if f =? 0 then [] else [(splitter, coins_of uartr f)]))) by frame.
    specialize (R s). rewrite W1 in R. exact R. }
  assert (N1 : st_now s1 = st_now s).
  { assert (R : rel (same st_now) (input_output_coins [(a, coins_of uartr T)] ((rp_company (st_rp s), coins_of uartr (T - f)) :: if f =? 0 then [] else [(splitter, coins_of uartr f)]))) by frame.
    specialize (R s). rewrite W1 in R. exact R. }
  assert (M1 : one_month s1 = one_month s) by (unfold one_month, one_day; by rewrite D1).
  assert (HN1 : names_ok s1) by (eapply names_kept; [by apply kept_opens|done]).
  assert (P1 : st_prof s1 = st_prof s) by (by apply opens_prof).
  assert (0 <= one_month s) by (unfold one_month, one_day; lia).
  pose proof (wp_schedule (t + one_month s) HRefresh a s1 ltac:(lia)) as W. apply wp_run in W as (s2 & [] & W2 & S2).
  assert (N2 : st_now s2 = st_now s). { destruct S2 as (x & i & ->). exact N1. }
  apply still_names in S2 as [HN2 P2]; [|done].
  pose (p1 := if negb (b =? p_storage_limit p) then p <| p_storage_limit := b |> else p).
  destruct (set_still a p (p1 <| p_until := Some (t + one_month s) |>) s2 HN2) as [s3 E3]; [by rewrite P2, P1|by unfold p1; destruct (negb (b =? p_storage_limit p))..| |].
  { unfold p_active. cbn [p_until]. rewrite N2, U. cbn. lia. }
  exists s3. rewrite (run_bind _ _ s s tt) by done. unfold pay_tariff.
  rewrite (run_bind _ _ s s p) by (unfold get_profile; unfold bind, get, lift; by rewrite E).
  rewrite (run_bind _ _ s s (st_pp s)) by done. rewrite (asked_some s p g Hs). fold b.
  rewrite (run_bind _ _ s s (month_price s)) by (by rewrite month_base).
  rewrite (run_bind _ _ s s f) by (unfold tx_fee, bind, get; by rewrite EF).
  rewrite (run_bind _ _ s s false) by (unfold get; by rewrite HB). rewrite (run_bind _ _ s s tt) by done.
  rewrite (run_bind _ _ s s (st_now s)) by done. rewrite (run_bind _ _ s s (Some sf)) by (unfold get; by rewrite Esf).
  rewrite (run_bind _ _ s s sf) by done.
  assert (PA : p_active (st_now s) p = true) by (unfold p_active; rewrite U; lia). rewrite PA. cbn [andb negb]. fold p1.
  rewrite (run_bind _ _ s s (surcharge s p b)) by (by rewrite Eex). cbv zeta. fold T.
  rewrite (run_bind _ _ s s (rp_company (st_rp s))) by done.
  assert (NC : forall n, 0 <= n -> new_coins uartr n s = (s, Ok (coins_of uartr n))).
  { intros n Hn. unfold new_coins, bind, assert. by rewrite (proj2 (Z.leb_le 0 n) Hn). }
  rewrite (run_bind _ _ s s (coins_of uartr (T - f))) by (apply NC; lia).
  rewrite (run_bind _ _ s s (coins_of uartr f)) by (apply NC; lia).
  rewrite (run_bind _ _ s s (coins_of uartr T)) by (apply NC; lia).
  rewrite (run_bind _ _ s s1 tt) by done. rewrite (run_bind _ _ s1 s1 (one_month s)) by (unfold get; by rewrite M1).
  assert (U1 : p_until p1 = Some t) by (unfold p1; by destruct (negb (b =? p_storage_limit p))).
  rewrite (run_bind _ _ s1 s1 (p1 <| p_until := Some (t + one_month s) |>)) by (rewrite U1; done).
  rewrite (run_bind _ _ s1 s1 (t + one_month s)) by done. rewrite (run_bind _ _ s1 s2 tt) by done. rewrite (run_bind _ _ s2 s3 tt) by done.
  unfold Frac.to_uint64, Frac.is_uint64.
  rewrite (run_bind _ _ s3 s3 (T - f)). 2: { match goal with |- context [if ?c then _ else _] => assert (c = true) as -> by lia end. done. }
  rewrite (run_bind _ _ s3 s3 T). 2: { match goal with |- context [if ?c then _ else _] => assert (c = true) as -> by lia end. done. }
  done.
Qed.
