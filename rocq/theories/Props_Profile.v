(** * C47-C54 and C71: nicknames, cards and subscriptions *)
From Coq Require Import QArith.
From Verif Require Import TariffHist Witness.
Open Scope Z_scope.

Definition psec : Z := 1000000000.
(** The initial state of the examples is one of the states the theorems start
    from. *)
Lemma w0_names : names_ok w0.
Proof.
  assert (L : forall c, st_space w0 (st_lower w0 c) = st_space w0 c).
  { assert (E : st_lower w0 = to_lower /\ st_space w0 = is_space) by (split; by vm_compute). destruct E as [-> ->].
    intros c. unfold to_lower, is_space. destruct ((65 <=? c) && (c <=? 90))%N eqn:E; [|done].
    destruct (N.eqb_spec c 32), (N.eqb_spec (c + 32) 32); lia. }
  assert (P : map_Forall (fun a p => p_nick p = [] /\ is_Some (st_accs w0 !! a) /\
    (p_card p = 0 \/ st_card w0 !! p_card p = Some a /\ p_card p = Z.lxor (default 0 (st_accs w0 !! a)) (pp_card_magic (st_pp w0)))) (st_prof w0))
    by (apply (bool_decide_unpack _); by vm_compute).
  assert (N : st_nick w0 = ∅) by by vm_compute.
  assert (B : map_Forall (fun (a : addr) n => n < st_next_acc w0) (st_accs w0)) by (apply (bool_decide_unpack _); by vm_compute).
  assert (I : map_Forall (fun (a : addr) n => map_Forall (fun (b : addr) m => n = m -> a = b) (st_accs w0)) (st_accs w0)) by (apply (bool_decide_unpack _); by vm_compute).
  revert L P N B I. generalize w0. intros s L P N B I.
  assert (T : forall a p, st_prof s !! a = Some p -> trim s (p_nick p) = []).
  { intros a p E. destruct (P a p E) as (-> & _). done. }
  split.
  - exact L.
  - intros a p E H. by apply T in E.
  - intros k a. by rewrite N, lookup_empty.
  - intros a p E. apply T in E. by rewrite E.
  - exact B.
  - intros a b n H1 H2. by apply (I a n H1 b n H2).
  - intros a p E. destruct (P a p E) as (_ & [n Hn] & _). unfold acc_exists. by rewrite Hn.
  - intros a p E HC. destruct (P a p E) as (_ & [n Hn] & [H|[H1 H2]]); [done|]. split; [done|]. exists n. split; [done|]. by rewrite Hn in H2.
Qed.
Lemma w0_clean : names_clean w0.
Proof.
  assert (P : map_Forall (fun (a : addr) p => p_nick p = []) (st_prof w0)) by (apply (bool_decide_unpack _); by vm_compute).
  assert (N : st_nick w0 = ∅) by by vm_compute.
  revert P N. generalize w0. intros s P N. split.
  - intros a p E. unfold trimmed. by rewrite (P a p E).
  - intros k a. by rewrite N, lookup_empty.
Qed.

Definition alice : list N := [65; 108; 105; 99; 101]%N.       (* "Alice" *)
Definition alice2 : list N := [97; 76; 73; 67; 69]%N.         (* "aLICE" *)
Definition blank_abc : list N := [32; 97; 98; 99]%N.          (* " abc" *)
Definition abc : list N := [97; 98; 99]%N.

(** ** C47 *)

(** At any time two accounts with nicknames that differ only in the case of
    letters and in blanks around them are the same account. *)
Theorem C47_unique : forall bs s s' us a b, names_ok s -> times_from (st_now s) bs -> run_blocks bs s = Some (s', us) ->
  nick_key s' (nickname s' a) = nick_key s' (nickname s' b) -> nick_key s' (nickname s' a) <> [] -> a = b.
Proof.
  intros bs s s' us a b HN HT HB HE HZ. destruct (names_blocks _ _ _ _ HT HB HN) as (HN' & _). clear HB HN HT.
  assert (HO : forall x, nick_key s' (nickname s' x) <> [] -> st_nick s' !! nick_key s' (nickname s' x) = Some x).
  { intros x. unfold nickname. destruct (st_prof s' !! x) as [p|] eqn:E; [|done]. intros H. apply (no_nick _ HN' x p E).
    intros X. apply H. unfold nick_key. by rewrite X. }
  pose proof (HO a HZ) as H1. rewrite HE in HZ, H1. rewrite (HO b HZ) in H1. congruence.
Qed.
Print Assumptions C47_unique.

(** Looking a nickname up (in any case of letters, without blanks around) yields
    the account that has it. *)
Theorem C47_lookup : forall bs s s' us a n, names_ok s -> times_from (st_now s) bs -> run_blocks bs s = Some (s', us) ->
  trim s' n = n -> nick_key s' n = nick_key s' (nickname s' a) -> n <> [] -> owner_of s' n = Some a.
Proof.
  intros bs s s' us a n HN HT HB HTr HE HZ. destruct (names_blocks _ _ _ _ HT HB HN) as (HN' & _). clear HB HN HT.
  assert (HK : nick_key s' (nickname s' a) <> []).
  { rewrite <-HE. unfold nick_key. rewrite HTr. intros X. by apply lower_nil in X. }
  unfold owner_of, nick_owner. replace (lower s' n) with (nick_key s' n) by (unfold nick_key; by rewrite HTr). rewrite HE.
  unfold nickname in *. destruct (st_prof s' !! a) as [p|] eqn:E; [|done]. apply (no_nick _ HN' a p E).
  intros X. apply HK. unfold nick_key. by rewrite X.
Qed.
Print Assumptions C47_lookup.

Definition alice_blk : block := blk (T0 + psec) [tx1 (MUpdateProfile 11 [UNick alice]); tx1 (MUpdateProfile 12 [UNick alice2])].
Example C47_witness : names_ok w0 /\ times_from (st_now w0) [alice_blk] /\ runs [alice_blk] w0 = true /\
  nickname (after [alice_blk] w0) 11 = alice /\ nickname (after [alice_blk] w0) 12 = [] /\ owner_of (after [alice_blk] w0) alice2 = Some 11%N.
Proof. split; [apply w0_names|]. split; [vm_compute; repeat split; congruence|]. split_and!; by vm_compute. Qed.

(** ** C71 *)

(** No nickname looks like a card number: none starts with ARTR-, in any case of
    letters and however many blanks precede. *)
Theorem C71_reserved : forall bs s s' us a, names_ok s -> times_from (st_now s) bs -> run_blocks bs s = Some (s', us) ->
  has_prefix artr_prefix (title s' (trim s' (nickname s' a))) = false.
Proof.
  intros bs s s' us a HN HT HB. destruct (names_blocks _ _ _ _ HT HB HN) as (HN' & _). clear HB.
  unfold nickname. destruct (st_prof s' !! a) as [p|] eqn:E; [by apply (no_prefix _ HN' a p E)|done].
Qed.
Print Assumptions C71_reserved.
Definition artr_blk : block :=
  blk (T0 + psec) [tx1 (MUpdateProfile 11 [UNick [97; 82; 116; 114; 45; 49]%N]); tx1 (MUpdateProfile 12 [UNick [65; 82; 84; 82; 49]%N])].
Example C71_witness : names_ok w0 /\ times_from (st_now w0) [artr_blk] /\ runs [artr_blk] w0 = true /\
  nickname (after [artr_blk] w0) 11 = [] /\ nickname (after [artr_blk] w0) 12 = [65; 82; 84; 82; 49]%N.
Proof. split; [apply w0_names|]. split; [vm_compute; repeat split; congruence|]. split_and!; by vm_compute. Qed.

(** ** C48 *)

(** Refuted: an account created with a nickname with blanks around it changes
    its nickname; nobody has the old one now, but another account is refused it. *)
Definition blank_blk : block := blk (T0 + psec) [tx1 (MCreateAccount 10 20 11 (Some (p_zero <| p_nick := blank_abc |>)))].
Definition money_blk : block := blk (T0 + 2 * psec) [tx1 (MSend 10 20 (uc 20000000))].
Definition change_blk : block := blk (T0 + 3 * psec) [tx1 (MUpdateProfile 20 [UNick alice])].
Definition blank_hist : list block := [blank_blk; money_blk; change_blk].
Theorem C48_refuted : exists bs s s' us, names_ok s /\ names_clean s /\ times_from (st_now s) bs /\ run_blocks bs s = Some (s', us) /\
  (forall a p, st_prof s' !! a = Some p -> nick_key s' (p_nick p) <> nick_key s' abc) /\
  exists s'', run_msg (MUpdateProfile 12 [UNick abc]) s' = (s'', Err (ErrMsg "nickname is already taken")).
Proof.
  assert (HR : runs blank_hist w0 = true) by by vm_compute. destruct (after_runs _ _ HR) as [us HB].
  exists blank_hist, w0, (after blank_hist w0), us.
  split; [apply w0_names|]. split; [apply w0_clean|]. split; [vm_compute; repeat split; congruence|]. split; [exact HB|]. split.
  - assert (P : map_Forall (fun (a : addr) p => nick_key (after blank_hist w0) (p_nick p) <> nick_key (after blank_hist w0) abc) (st_prof (after blank_hist w0)))
      by (apply (bool_decide_unpack _); by vm_compute). exact P.
  - assert (E : snd (run_msg (MUpdateProfile 12 [UNick abc]) (after blank_hist w0)) = Err (ErrMsg "nickname is already taken")) by by vm_compute.
    revert E. generalize (run_msg (MUpdateProfile 12 [UNick abc]) (after blank_hist w0)). intros [s'' r] E. cbn in E. subst r. by exists s''.
Qed.
Print Assumptions C48_refuted.

(** After a history in which no message gave a nickname with blanks around it,
    a change of the nickname frees the old one: it belongs to nobody, and nobody
    is refused it because it is taken. *)
Theorem C48_partial : forall bs s s1 us a upds s2, names_ok s -> names_clean s -> times_from (st_now s) bs ->
  Forall (fun b => Forall (tx_trimmed s) (b_txs b)) bs -> run_blocks bs s = Some (s1, us) ->
  Forall (upd_trimmed s) upds -> run_msg (MUpdateProfile a upds) s1 = (s2, Ok tt) ->
  nickname s1 a <> [] -> nick_key s1 (nickname s2 a) <> nick_key s1 (nickname s1 a) ->
  owner_of s2 (nickname s1 a) = None /\
  forall b s3 e, run_msg (MUpdateProfile b [UNick (nickname s1 a)]) s2 = (s3, Err e) -> e <> ErrMsg "nickname is already taken".
Proof.
  intros bs s s1 us a upds s2 HN HC HT HF HB HU H HZ HD. destruct (clean_blocks _ _ _ _ HT HF HB eq_refl HN HC) as (E1 & N1 & C1). clear HB.
  destruct (nick_released s s1 s2 a upds N1 C1 E1 HU H HZ HD) as [H1 H2]. split; [done|].
  intros b s3 e H3 ->. pose proof (not_taken_free b (nickname s1 a) s2 H2) as HX. cbn [run_msg] in H3. unfold not_taken in HX. by rewrite H3 in HX.
Qed.
Print Assumptions C48_partial.
Definition bob_blk : block := blk (T0 + 2 * psec) [tx1 (MUpdateProfile 11 [UNick abc])].
Example C48_witness : names_ok w0 /\ names_clean w0 /\ times_from (st_now w0) [alice_blk] /\
  Forall (fun b => Forall (tx_trimmed w0) (b_txs b)) [alice_blk] /\ runs [alice_blk] w0 = true /\ Forall (upd_trimmed w0) [UNick abc] /\
  ok (eval (run_msg (MUpdateProfile 11 [UNick abc])) (after [alice_blk] w0)) = true /\
  nickname (after [alice_blk] w0) 11 = alice /\ nickname (after [alice_blk; bob_blk] w0) 11 = abc /\
  ok (eval (run_msg (MUpdateProfile 12 [UNick alice])) (after [alice_blk; bob_blk] w0)) = true.
Proof.
  split; [apply w0_names|]. split; [apply w0_clean|]. split; [vm_compute; repeat split; congruence|].
  split. { repeat constructor; by vm_compute. }
  split; [by vm_compute|]. split; [repeat constructor; by vm_compute|]. split_and!; by vm_compute.
Qed.

(** ** C49 *)

(** Refuted in a corner: the account whose number is the number that disguises
    the card numbers gets the card 0, and is not found by it. *)
Definition magic_state : St := w0 <| st_pp := st_pp w0 <| pp_card_magic := 7 |> |>.
Theorem C49_refuted : exists c a r p s s', run_msg (MCreateAccount c a r p) s = (s', Ok tt) /\ st_next_acc s = pp_card_magic (st_pp s) /\
  card s' a = Some 0 /\ card_owner s' 0 = None.
Proof.
  exists 10%N, 20%N, 11%N, None, magic_state, (exec (run_msg (MCreateAccount 10 20 11 None)) magic_state).
  split; [apply exec_ok; by vm_compute|]. split_and!; by vm_compute.
Qed.
Print Assumptions C49_refuted.

(** Creating an account gives it the card number computed from its account
    number. *)
Theorem C49_created_partial : forall c a r p s s', names_ok s -> run_msg (MCreateAccount c a r p) s = (s', Ok tt) ->
  card s a = None /\ exists n, st_accs s' !! a = Some n /\ card s' a = Some (Z.lxor n (pp_card_magic (st_pp s))) /\
  forall b x, b <> a -> card s b = Some x -> x <> 0 -> x <> Z.lxor n (pp_card_magic (st_pp s)).
Proof.
  intros c a r p s s' HN H. cbn [run_msg] in H.
  apply names_create in H as (EX & s1 & p' & n & O1 & EP' & HN1 & HN' & O & A1 & A2 & EP & EN); [|done].
  assert (EM : pp_card_magic (st_pp s1) = pp_card_magic (st_pp s)) by (apply opens_parts in O1 as (O1 & _); by apply opens0_chars in O1 as (_ & _ & _ & ->)).
  assert (EPr : st_prof s1 = st_prof s) by (by apply opens_prof).
  split; [unfold card; by rewrite EX|]. exists n. split; [done|]. split.
  - unfold card. rewrite EP, lookup_insert, EP', EM. done.
  - intros b x Hb Hx H0 HE. unfold card in Hx. destruct (st_prof s !! b) as [q|] eqn:Eq; [|done]. cbn in Hx. injection Hx as Hx.
    rewrite <-EPr in Eq. destruct (no_card _ HN1 b q Eq ltac:(congruence)) as (_ & m & Hm & HC). rewrite EM in HC.
    assert (m = n) as ->.
    { rewrite Hx in HC. rewrite HE in HC. apply (f_equal (fun z => Z.lxor z (pp_card_magic (st_pp s)))) in HC.
      rewrite !Z.lxor_assoc, !Z.lxor_nilpotent, !Z.lxor_0_r in HC. done. }
    by apply Hb, (no_number _ HN1 b a n).
Qed.
Print Assumptions C49_created_partial.

(** At any time two accounts with the same card (other than 0) are the same
    account, the card leads to it, and the cards are those they always were. *)
Theorem C49_partial : forall bs s s' us, names_ok s -> times_from (st_now s) bs -> run_blocks bs s = Some (s', us) ->
  (forall a c, card s' a = Some c -> c <> 0 -> card_owner s' c = Some a) /\
  (forall a b c, card s' a = Some c -> card s' b = Some c -> c <> 0 -> a = b) /\
  (forall a c, card s a = Some c -> card s' a = Some c).
Proof.
  intros bs s s' us HN HT HB. destruct (names_blocks _ _ _ _ HT HB HN) as (HN' & _ & HC). clear HB.
  assert (HO : forall a c, card s' a = Some c -> c <> 0 -> card_owner s' c = Some a).
  { intros a c H H0. unfold card in H. destruct (st_prof s' !! a) as [p|] eqn:E; [|done]. cbn in H. injection H as <-. by apply (no_card _ HN' a p E). }
  split; [done|]. split; [|done]. intros a b c H1 H2 H0. apply HO in H1, H2; [|done..]. congruence.
Qed.
Print Assumptions C49_partial.
Definition card_blk : block := blk (T0 + psec) [tx1 (MCreateAccount 10 20 11 None); tx1 (MUpdateProfile 11 [UNick alice])].
Example C49_witness : names_ok w0 /\ times_from (st_now w0) [card_blk] /\ runs [card_blk] w0 = true /\
  card w0 11 = Some 3735928558 /\ card (after [card_blk] w0) 11 = Some 3735928558 /\ card w0 20 = None /\
  card (after [card_blk] w0) 20 = Some 3735928552 /\ card_owner (after [card_blk] w0) 3735928552 = Some 20%N /\
  ok (eval (run_msg (MCreateAccount 10 20 11 None)) w0) = true.
Proof. split; [apply w0_names|]. split; [vm_compute; repeat split; congruence|]. split_and!; by vm_compute. Qed.

(** ** C50 *)

(** Refuted: an account may be created active, with nobody paying anything. *)
Definition gift : profile := p_zero <| p_until := Some (T0 + 400 * day_ns) |>.
Definition given : St := exec (run_msg (MCreateAccount 10 20 11 (Some gift))) w0.
Lemma given_bal : forall x d, bal given x d = bal w0 x d.
Proof.
  assert (E : st_bal given = st_bal w0) by (apply (bool_decide_unpack _); vm_compute; exact I).
  revert E. generalize given w0. intros s1 s2 E x d. unfold bal, balance. by rewrite E.
Qed.
Theorem C50_refuted : exists c a r p s s', names_ok s /\ run_msg (MCreateAccount c a r (Some p)) s = (s', Ok tt) /\
  until s a = None /\ (exists q, st_prof s' !! a = Some q /\ active_now s' q = true) /\ (forall x d, bal s' x d = bal s x d).
Proof.
  exists 10%N, 20%N, 11%N, gift, w0, given.
  split; [apply w0_names|]. split; [apply exec_ok; by vm_compute|]. split; [by vm_compute|]. split; [|exact given_bal].
  exists (gift <| p_card := 3735928552 |>). split; by vm_compute.
Qed.
Print Assumptions C50_refuted.

(** In a history whose messages create no active accounts, everything is made of
    steps that change nobody's paid time, and payments of the published price
    by the account whose time is extended; *)
Theorem C50_history_partial : forall bs s s' us, names_ok s -> times_from (st_now s) bs ->
  Forall (fun b => Forall tx_unpaid (b_txs b)) bs -> run_blocks bs s = Some (s', us) -> rtc astep s s'.
Proof. intros bs s s' us HN HT HF HB. by apply (time_blocks _ _ _ _ HT HF HB HN). Qed.
Print Assumptions C50_history_partial.
(** so an account whose paid time has changed has paid. *)
Theorem C50_partial : forall bs s s' us a, names_ok s -> times_from (st_now s) bs ->
  Forall (fun b => Forall tx_unpaid (b_txs b)) bs -> run_blocks bs s = Some (s', us) -> until s' a <> until s a ->
  exists s1 s2, rtc astep s s1 /\ pays a s1 s2 /\ rtc astep s2 s'.
Proof. intros bs s s' us a HN HT HF HB. apply astep_change. by eapply C50_history_partial. Qed.
Print Assumptions C50_partial.
Definition tariff_blk : block := blk (T0 + psec) [tx1 (MPayTariff 11 0)].
Example C50_witness : names_ok w0 /\ times_from (st_now w0) [tariff_blk] /\ Forall (fun b => Forall tx_unpaid (b_txs b)) [tariff_blk] /\
  runs [tariff_blk] w0 = true /\ until w0 11 = None /\ until (after [tariff_blk] w0) 11 = Some (T0 + psec + 30 * day_ns).
Proof.
  split; [apply w0_names|]. split; [vm_compute; repeat split; congruence|]. split; [repeat constructor|]. split_and!; by vm_compute.
Qed.

(** ** C51 *)

(** Refuted: the product of the price and the amount of storage in bytes is
    computed with 64 bits.  Two thousand million gigabytes cost nothing. *)
Definition late_blk : block := blk (T0 + psec + 30 * day_ns - 1) [].
Definition late : St := after [tariff_blk; late_blk] w0.
Definition huge : Z := 2147483653.
Definition late2 : St := exec (run_msg (MPayTariff 11 huge)) late.
Definition late_p : profile :=
  p_zero <| p_until := Some (T0 + psec + 30 * day_ns) |> <| p_card := 3735928558 |> <| p_storage_limit := 5 * gb |> <| p_vpn_limit := 7 * gb |>.
Theorem C51_refuted : exists bs s0 s us a gbs s' p p', names_ok s0 /\ times_from (st_now s0) bs /\ run_blocks bs s0 = Some (s, us) /\
  run_msg (MPayTariff a gbs) s = (s', Ok tt) /\ st_prof s !! a = Some p /\
  bal s a uartr - bal s' a uartr = month_price s /\ surcharge s p (storage_asked s p gbs) = 214748364800000 /\
  st_prof s' !! a = Some p' /\ p_storage_limit p' = gbs * gb.
Proof.
  assert (HR : runs [tariff_blk; late_blk] w0 = true) by by vm_compute. destruct (after_runs _ _ HR) as [us HB].
  exists [tariff_blk; late_blk], w0, late, us, 11%N, huge, late2, late_p, (late_p <| p_until := Some (T0 + psec + 60 * day_ns) |> <| p_storage_limit := huge * gb |>).
  split; [apply w0_names|]. split; [vm_compute; repeat split; congruence|]. split; [exact HB|]. split; [apply exec_ok; by vm_compute|]. split_and!; by vm_compute.
Qed.
Print Assumptions C51_refuted.
(** A successful payment takes exactly the price and the surcharge for storage
    from the payer, hands it to the company except for the fee, which goes to the
    fee splitter, and moves the end by exactly one month.  (The amount of the
    surcharge is as stated unless the arithmetic overflows.) *)
Theorem C51_partial : forall a gbs s s', run_msg (MPayTariff a gbs) s = (s', Ok tt) ->
  exists p, st_prof s !! a = Some p /\ tariff_paid s s' a p gbs false.
Proof.
  intros a gbs s s' H. cbn [run_msg] in H. unfold msg_pay_tariff in H. apply bind_ok in H as ([] & s1 & H1 & H). apply ensure_ok in H1 as [-> _].
  apply pay_tariff_paid in H as [[_ H]|(p & EP & [[_ H]|H])]; [by destruct (H tt)| |by exists p]. by destruct (H tt).
Qed.
Print Assumptions C51_partial.
(** The automatic payment at the end of the month does the same. *)
Theorem C51_auto_partial : forall a s s' r, pay_tariff a 0 true s = (s', r) -> until s' a <> until s a ->
  exists p, st_prof s !! a = Some p /\ tariff_paid s s' a p 0 true.
Proof.
  intros a s s' r H HU. unfold until in HU.
  apply pay_tariff_paid in H as [[H _]|(p & EP & [[H _]|H])]; [by rewrite (opens_prof _ _ H) in HU| |by exists p]. by rewrite H in HU.
Qed.
Print Assumptions C51_auto_partial.

Definition pay1 : St := exec (run_msg (MPayTariff 11 10)) w0.
Definition pay2 : St := exec (run_msg (MPayTariff 11 10)) pay1.
Example C51_witness : ok (eval (run_msg (MPayTariff 11 10)) pay1) = true /\
  (exists p, st_prof pay1 !! 11%N = Some p /\ storage_fits pay1 p (storage_asked pay1 p 10) /\ month_price pay1 = 19900000 /\ surcharge pay1 p (10 * gb) = 1000000) /\
  fee_of (month_price pay1) pay1 = Some 59700 /\
  bal pay1 11 uartr - bal pay2 11 uartr = 20900000 /\ bal pay2 10 uartr - bal pay1 10 uartr = 20840300 /\
  until pay1 11 = Some (T0 + 30 * day_ns) /\ until pay2 11 = Some (T0 + 60 * day_ns).
Proof.
  split; [by vm_compute|]. split; [|split_and!; by vm_compute].
  exists (p_zero <| p_until := Some (T0 + 30 * day_ns) |> <| p_card := 3735928558 |> <| p_storage_limit := 5368709120 |> <| p_vpn_limit := 7516192768 |>).
  split; [by vm_compute|]. split; [|split; by vm_compute].
  unfold storage_fits. split; [by vm_compute|]. split; [split; by vm_compute|]. split; [split; by vm_compute|]. split; [split; by vm_compute|].
  split; [split; by vm_compute|].
  assert (E : st_now pay1 = T0) by by vm_compute. rewrite E. clear E. cbn [p_until set]. intros t Ht. cbn in Ht. injection Ht as <-. by vm_compute.
Qed.

(** ** C52 *)

(** Refuted: an account that was not active gets the storage included in the
    subscription whatever it has paid for. *)
Theorem C52_refuted : exists a gbs s s' p p', run_msg (MPayTariff a gbs) s = (s', Ok tt) /\ gbs <> 0 /\
  st_prof s !! a = Some p /\ active_now s p = false /\ surcharge s p (gbs * gb) = 500000 /\
  st_prof s' !! a = Some p' /\ p_storage_limit p' <> gbs * gb.
Proof.
  exists 11%N, 10, w0, pay1, (p_zero <| p_card := 3735928558 |>),
    (p_zero <| p_until := Some (T0 + 30 * day_ns) |> <| p_card := 3735928558 |> <| p_storage_limit := 5368709120 |> <| p_vpn_limit := 7516192768 |>).
  split; [apply exec_ok; by vm_compute|]. split; [done|]. split_and!; by vm_compute.
Qed.
Print Assumptions C52_refuted.
(** An active account gets what it has paid for. *)
Theorem C52_partial : forall a gbs s s' p, run_msg (MPayTariff a gbs) s = (s', Ok tt) -> st_prof s !! a = Some p ->
  active_now s p = true -> gbs <> 0 -> exists p', st_prof s' !! a = Some p' /\ p_storage_limit p' = gbs * gb.
Proof.
  intros a gbs s s' p H. cbn [run_msg] in H. unfold msg_pay_tariff in H. apply bind_ok in H as ([] & s1 & H1 & H). apply ensure_ok in H1 as [-> _].
  by apply tariff_storage_ok.
Qed.
Print Assumptions C52_partial.
Example C52_witness : ok (eval (run_msg (MPayTariff 11 10)) pay1) = true /\
  (exists p, st_prof pay1 !! 11%N = Some p /\ active_now pay1 p = true /\ p_storage_limit p = 5 * gb) /\
  exists p, st_prof pay2 !! 11%N = Some p /\ p_storage_limit p = 10 * gb.
Proof.
  split; [by vm_compute|]. split.
  - exists (p_zero <| p_until := Some (T0 + 30 * day_ns) |> <| p_card := 3735928558 |> <| p_storage_limit := 5368709120 |> <| p_vpn_limit := 7516192768 |>).
    split_and!; by vm_compute.
  - exists (p_zero <| p_until := Some (T0 + 60 * day_ns) |> <| p_card := 3735928558 |> <| p_storage_limit := 10737418240 |> <| p_vpn_limit := 7516192768 |>).
    split_and!; by vm_compute.
Qed.

(** ** C53 *)

(** Refuted: when more was used than the limit and the included amount together,
    the new limit wraps around to almost 2^64. *)
Definition used (n : Z) : St := exec (run_msg (MSetVpnCurrent 10 11 n)) pay1.
Theorem C53_refuted : exists a s s' p p', perform_refresh a s = (s', Ok tt) /\ st_prof s !! a = Some p /\
  p_vpn_limit p = 7 * gb /\ pp_base_vpn (st_pp s) = 7 /\ st_prof s' !! a = Some p' /\ p_vpn_limit p' = 2^64 - gb.
Proof.
  exists 11%N, (used (15 * gb)), (exec (perform_refresh 11) (used (15 * gb))),
    (p_zero <| p_until := Some (T0 + 30 * day_ns) |> <| p_card := 3735928558 |> <| p_storage_limit := 5368709120 |> <| p_vpn_limit := 7516192768 |> <| p_vpn_cur := 15 * gb |>),
    (p_zero <| p_until := Some (T0 + 30 * day_ns) |> <| p_card := 3735928558 |> <| p_storage_limit := 5368709120 |> <| p_vpn_limit := 2^64 - gb |>).
  split; [apply exec_ok; by vm_compute|]. split_and!; by vm_compute.
Qed.
Print Assumptions C53_refuted.
(** Otherwise the monthly routine, whether it succeeds or not, leaves the traffic
    as it is or sets the counter to 0 and the limit to exactly what is left of
    it, at least the amount included; *)
Theorem C53_refresh_partial : forall a s s' r p, perform_refresh a s = (s', r) -> st_prof s !! a = Some p -> vpn_fits s p ->
  exists p', st_prof s' !! a = Some p' /\ (vpn_same p p' \/ vpn_reset s p p').
Proof.
  intros a s s' r p H EP HF. destruct (monthly_vpn a s p EP HF) as (q & Eq & Hq). exists q. split; [|done].
  unfold perform_refresh, must in H. destruct (monthly a s) as [s0 [?|?|?]]; injection H as <- _; done.
Qed.
Print Assumptions C53_refresh_partial.
(** so does a payment; *)
Theorem C53_payment_partial : forall a gbs auto s s' r p, pay_tariff a gbs auto s = (s', r) -> st_prof s !! a = Some p -> vpn_fits s p ->
  exists p', st_prof s' !! a = Some p' /\ (vpn_same p p' \/ vpn_reset s p p').
Proof.
  intros a gbs auto s s' r p H EP HF. destruct (tariff_vpn a gbs auto s p EP HF) as (q & Eq & Hq). exists q. split; [|done]. by rewrite H in Eq.
Qed.
Print Assumptions C53_payment_partial.
(** in either case the limit is not above the larger of the old one and the
    amount included. *)
Theorem C53_partial : forall a s s' r p, perform_refresh a s = (s', r) -> st_prof s !! a = Some p -> vpn_fits s p ->
  exists p', st_prof s' !! a = Some p' /\ p_vpn_limit p' <= Z.max (p_vpn_limit p) (pp_base_vpn (st_pp s) * gb).
Proof.
  intros a s s' r p H EP HF. destruct (C53_refresh_partial a s s' r p H EP HF) as (q & Eq & Hq). exists q. split; [done|].
  destruct Hq as [[-> _]|[-> _]]; [lia|]. unfold vpn_after. lia.
Qed.
Print Assumptions C53_partial.
Definition vpn1 : St := exec (run_msg (MBuyVpn 11 3)) pay1.
Definition vpn2 : St := exec (run_msg (MSetVpnCurrent 10 11 (8 * gb))) vpn1.
Definition vpn3 : St := exec (perform_refresh 11) vpn2.
Example C53_witness :
  let p := p_zero <| p_until := Some (T0 + 30 * day_ns) |> <| p_card := 3735928558 |> <| p_storage_limit := 5368709120 |> <| p_vpn_limit := 10 * gb |> <| p_vpn_cur := 8 * gb |> in
  ok (eval (perform_refresh 11) vpn2) = true /\ st_prof vpn2 !! 11%N = Some p /\ vpn_fits vpn2 p /\
  st_prof vpn3 !! 11%N = Some (p <| p_vpn_limit := 9 * gb |> <| p_vpn_cur := 0 |>).
Proof. cbv zeta. split; [by vm_compute|]. split; [by vm_compute|]. split; [|by vm_compute]. unfold vpn_fits. split_and!; by vm_compute. Qed.

(** ** C54 *)

(** Refuted: when the balance covers the fee but not the price, the renewal fails
    and the fee is gone. *)
Definition im1 : St := exec (run_msg (MBuyIm 11 10)) w0.
Definition im2 : St := exec (run_msg (MUpdateProfile 11 [UImAutoPay true])) im1.
Definition im3 : St := exec (run_msg (MSend 11 12 (uc 19988900001))) im2.
Definition im4 : St := exec (perform_refresh_im 11) im3.
Definition im_left : profile := p_zero <| p_card := 3735928558 |>.
Theorem C54_refuted : exists a s s' q, perform_refresh_im a s = (s', Ok tt) /\ aborts s' = aborts s /\
  st_prof s' !! a = Some q /\ p_im_until q = None /\ bal s' a uartr < bal s a uartr.
Proof.
  exists 11%N, im3, im4, im_left. split; [apply exec_ok; by vm_compute|]. split_and!; by vm_compute.
Qed.
Print Assumptions C54_refuted.
(** What a failed renewal takes is at most the fee for the payment, which goes to
    the fee splitter; nothing else moves. *)
Theorem C54_partial : forall a s s' p q, bal_ok s -> st_prof s !! a = Some p -> perform_refresh_im a s = (s', Ok tt) -> aborts s' = aborts s ->
  st_prof s' !! a = Some q -> p_im_until q = None ->
  exists f, 0 <= f /\ fee_taken s s' a f /\ (f = 0 \/ exists n, 0 < n /\ fee_of n s = Some f /\
    (0 <= p_im_extra p < 2^63 -> - 2^63 <= p_im_extra p * pp_storage_price (st_pp s) < 2^63 -> - 2^63 <= im_price s p < 2^63 -> n = im_price s p)).
Proof.
  intros a s s' p q Hok EP H HA EQ HU. destruct (renewal_failed a s s' p q Hok EP H HA EQ HU) as (f & H1 & H2 & H3). by exists f.
Qed.
Print Assumptions C54_partial.
Example C54_witness : ok (eval (run_msg (MSend 11 12 (uc 19988900001))) im2) = true /\
  let p := p_zero <| p_card := 3735928558 |> <| p_im_extra := 10 |> <| p_im_until := Some (T0 + 30 * day_ns) |> <| p_im_autopay := true |> in
  st_prof im3 !! 11%N = Some p /\ im_price im3 p = 1000000 /\ fee_of 1000000 im3 = Some 3000 /\
  ok (eval (perform_refresh_im 11) im3) = true /\ aborts im4 = aborts im3 /\ st_prof im4 !! 11%N = Some im_left /\
  bal im3 11 uartr - bal im4 11 uartr = 3000 /\ bal im4 splitter uartr - bal im3 splitter uartr = 3000.
Proof. cbv zeta. split_and!; by vm_compute. Qed.
(** The state of the example meets the hypothesis about balances. *)
Lemma im3_bal : bal_ok im3.
Proof.
  assert (P : map_Forall (fun (a : addr) (c : coins) => c <> ∅ /\ map_Forall (fun (d : N) n => 0 < n) c) (st_bal im3)) by (apply (bool_decide_unpack _); vm_compute; exact I).
  revert P. generalize im3. intros s P a c E. exact (P a c E).
Qed.
