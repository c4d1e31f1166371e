(** * Proofs about the bank *)
From Verif Require Export FeeProofs SweepO SweepP Spec_Bank.
From Coq Require Export ZifyBool ZifyN.

Ltac mi := minv; repeat match goal with u : unit |- _ => destruct u end.

(** ** Coins *)
Lemma amt_nz x : default 0 (nz x) = x.
Proof. unfold nz. destruct (x =? 0) eqn:E; cbn; lia. Qed.
Lemma amt_add a b d : amt (coins_add a b) d = amt a d + amt b d.
Proof.
  unfold amt, coins_add. rewrite lookup_merge. unfold diag_None.
  destruct (a !! d), (b !! d); cbn; rewrite ?amt_nz; reflexivity.
Qed.
Lemma amt_sub a b d : amt (coins_sub a b) d = amt a d - amt b d.
Proof.
  unfold amt, coins_sub. rewrite lookup_merge. unfold diag_None.
  destruct (a !! d), (b !! d); cbn; rewrite ?amt_nz; reflexivity.
Qed.
Lemma amt_empty d : amt ∅ d = 0.
Proof. unfold amt. by rewrite lookup_empty. Qed.
Lemma coins_valid_spec c : coins_valid c = true <-> forall d n, c !! d = Some n -> 0 < n.
Proof.
  unfold coins_valid. rewrite forallb_forall. split.
  - intros H d n Hd. specialize (H (d, n)). cbn in H.
    assert (0 <? n = true); [|lia]. apply H. by apply elem_of_list_In, elem_of_map_to_list.
  - intros H [d n] Hd. apply elem_of_list_In, elem_of_map_to_list in Hd. cbn. apply H in Hd. lia.
Qed.
Lemma coins_valid_nonneg c d : coins_valid c = true -> 0 <= amt c d.
Proof.
  intros H. rewrite coins_valid_spec in H. unfold amt. destruct (c !! d) as [n|] eqn:E; cbn; [|lia].
  apply H in E. lia.
Qed.
Lemma coins_ge_spec a b : coins_ge a b = true <-> forall d n, b !! d = Some n -> n <= amt a d.
Proof.
  unfold coins_ge. rewrite forallb_forall. split.
  - intros H d n Hd. specialize (H (d, n)). cbn in H.
    assert (n <=? amt a d = true); [|lia]. apply H. by apply elem_of_list_In, elem_of_map_to_list.
  - intros H [d n] Hd. apply elem_of_list_In, elem_of_map_to_list in Hd. cbn. apply H in Hd. lia.
Qed.
Lemma amt_coins_of d n x : amt (coins_of d n) x = if (x =? d)%N then n else 0.
Proof.
  unfold coins_of, nz. destruct (n =? 0) eqn:E.
  - rewrite amt_empty. destruct (x =? d)%N; lia.
  - unfold amt. destruct (x =? d)%N eqn:F.
    + assert (x = d) as -> by lia. by rewrite lookup_singleton.
    + rewrite lookup_singleton_ne by lia. reflexivity.
Qed.
Lemma coins_of_zero d : coins_of d 0 = ∅.
Proof. reflexivity. Qed.
Lemma coins_of_empty d n : coins_of d n = ∅ -> n = 0.
Proof. intros H. pose proof (amt_coins_of d n d) as E. rewrite H, amt_empty, N.eqb_refl in E. lia. Qed.

(** ** The sum of the balances *)
Definition bsum (m : gmap N coins) (d : N) : Z := map_fold (fun _ c acc => amt c d + acc) 0 m.
Lemma bsum_insert m a c d : m !! a = None -> bsum (<[a := c]> m) d = amt c d + bsum m d.
Proof.
  intros H. unfold bsum. rewrite (map_fold_insert_L _ _ a c m); [reflexivity| |exact H].
  intros. lia.
Qed.
Lemma bsum_split m a d : bsum m d = amt (default ∅ (m !! a)) d + bsum (base.delete a m) d.
Proof.
  destruct (m !! a) as [c|] eqn:E; cbn.
  - rewrite <- (insert_delete m a c E) at 1. rewrite bsum_insert; [reflexivity|apply lookup_delete].
  - rewrite amt_empty, delete_notin by done. reflexivity.
Qed.
Definition put_bal (m : gmap N coins) (a : addr) (c : coins) : gmap N coins :=
  if decide (c = ∅) then base.delete a m else <[a := c]> m.
Lemma put_bal_lookup m a c x :
  default ∅ (put_bal m a c !! x) = if (x =? a)%N then c else default ∅ (m !! x).
Proof.
  unfold put_bal. destruct (x =? a)%N eqn:E.
  - assert (x = a) as -> by lia. destruct (decide (c = ∅)) as [->|].
    + by rewrite lookup_delete.
    + by rewrite lookup_insert.
  - destruct (decide (c = ∅)).
    + rewrite lookup_delete_ne by lia. reflexivity.
    + rewrite lookup_insert_ne by lia. reflexivity.
Qed.
Lemma put_bal_sum m a c d :
  bsum (put_bal m a c) d = bsum m d - amt (default ∅ (m !! a)) d + amt c d.
Proof.
  rewrite (bsum_split m a d). rewrite (bsum_split (put_bal m a c) a d), put_bal_lookup, N.eqb_refl.
  assert (base.delete a (put_bal m a c) = base.delete a m) as ->; [|lia].
  unfold put_bal. destruct (decide (c = ∅)); [by rewrite delete_idemp|apply delete_insert_delete].
Qed.

(** ** Writing a balance *)

(** The log only grows, and the hooks of the bank never log anything but their
    own failure. *)
Definition grows (s s' : St) : Prop := exists l, st_log s' = st_log s ++ l.
#[export] Instance grows_preorder : PreOrder grows.
Proof.
  split.
  - intros s. exists []. by rewrite app_nil_r.
  - intros x y z [l1 H1] [l2 H2]. exists (l1 ++ l2). by rewrite H2, H1, app_assoc.
Qed.

Lemma on_balance_changed_bal a : rel (same st_bal) (on_balance_changed a).
Proof. frame. Qed.
Lemma on_balance_changed_log a : rel (same st_log) (on_balance_changed a).
Proof. frame. Qed.

Definition upd_bal (s : St) (a : addr) (c : coins) : St := s <| st_bal := put_bal (st_bal s) a c |>.

(** What happens, case by case *)
Lemma set_balance_cases a c s :
  (coins_valid c = false /\ fst (set_balance a c s) = s /\ exists e, snd (set_balance a c s) = Err e) \/
  (coins_valid c = true /\
   let s1 := upd_bal s a c in
   let s2 := fst (on_balance_changed a s1) in
   (set_balance a c s = (s2, Ok tt) /\ snd (on_balance_changed a s1) = Ok tt) \/
   (exists e, set_balance a c s = (s2 <| st_log := st_log s2 ++ [LHookFailed a] |>, Err e)) \/
   (exists e, set_balance a c s = (s2, Panic e))).
Proof.
  unfold set_balance, bind, ensure. destruct (coins_valid c) eqn:Hv; cbn [ret fail].
  2:{ left. cbn. eauto. }
  right. split; [reflexivity|]. unfold modify, upd_bal, put_bal, try. cbn zeta.
  match goal with |- context [on_balance_changed a ?s1] => set (z := s1) end.
  destruct (on_balance_changed a z) as [s2 [[]|e|e]]; cbn; eauto.
Qed.
Lemma upd_bal_balance s a c x : balance (upd_bal s a c) x = if (x =? a)%N then c else balance s x.
Proof. unfold balance, upd_bal. cbn. apply put_bal_lookup. Qed.
Lemma upd_bal_total s a c d : sum_bal (upd_bal s a c) d = sum_bal s d - bal s a d + amt c d.
Proof. unfold sum_bal, upd_bal, bal, balance. cbn. apply (put_bal_sum (st_bal s) a c d). Qed.

Lemma balance_same s s' : st_bal s' = st_bal s -> balance s' = balance s.
Proof. intros H. unfold balance. by rewrite H. Qed.
Lemma total_same s s' : st_bal s' = st_bal s -> sum_bal s' = sum_bal s.
Proof. intros H. unfold sum_bal. by rewrite H. Qed.

(** The parts of the state that no bank operation on balances touches *)
Definition bank_fixed (s : St) :=
  (st_now s, st_height s, st_day s, st_bp s, st_rp s, st_np s, st_dp s, st_pp s, st_prof s, st_nick s, st_card s,
   st_del s, st_earn s, st_earn_signers s).

Lemma set_balance_ok a c s s' : set_balance a c s = (s', Ok tt) ->
  coins_valid c = true /\ st_bal s' = put_bal (st_bal s) a c /\
  st_supply s' = st_supply s /\ st_log s' = st_log s.
Proof.
  intros H. destruct (set_balance_cases a c s) as [(_ & _ & [e E])|(Hv & HC)].
  { rewrite H in E. discriminate. }
  cbn zeta in HC. destruct HC as [[E _]|[[e E]|[e E]]]; rewrite H in E; try discriminate.
  injection E as ->. split; [exact Hv|].
  split; [exact (on_balance_changed_bal a (upd_bal s a c))|].
  split; [|exact (on_balance_changed_log a (upd_bal s a c))].
  assert (F : rel (same st_supply) (on_balance_changed a)) by frame. exact (F (upd_bal s a c)).
Qed.
Lemma subtract_ok a c s s' : subtract_coins a c s = (s', Ok tt) ->
  coins_valid c = true /\ coins_ge (balance s a) c = true /\
  (forall x d, bal s' x d = bal s x d - at_ x a (amt c d)) /\
  (forall d, sum_bal s' d = sum_bal s d - amt c d) /\
  st_supply s' = st_supply s /\ st_log s' = st_log s.
Proof.
  unfold subtract_coins. intros H. mi. apply set_balance_ok in H as (_ & Hb & Hs & Hl).
  split; [done|]. split; [done|]. split; [|split; [|done]].
  - intros x d. unfold bal, at_. unfold balance at 1. rewrite Hb, put_bal_lookup.
    destruct (x =? a)%N eqn:E; [|fold (balance s x); lia].
    assert (x = a) as -> by lia. rewrite amt_sub. lia.
  - intros d. unfold sum_bal at 1. rewrite Hb.
    change (bsum (put_bal (st_bal s) a (coins_sub (balance s a) c)) d = sum_bal s d - amt c d).
    rewrite put_bal_sum, amt_sub. unfold sum_bal, bsum, balance. lia.
Qed.
Lemma add_ok a c s s' : add_coins a c s = (s', Ok tt) ->
  coins_valid c = true /\
  (forall x d, bal s' x d = bal s x d + at_ x a (amt c d)) /\
  (forall d, sum_bal s' d = sum_bal s d + amt c d) /\
  st_supply s' = st_supply s /\ st_log s' = st_log s.
Proof.
  unfold add_coins. intros H. mi. apply set_balance_ok in H as (_ & Hb & Hs & Hl).
  split; [done|]. split; [|split; [|done]].
  - intros x d. unfold bal, at_. unfold balance at 1. rewrite Hb, put_bal_lookup.
    destruct (x =? a)%N eqn:E; [|fold (balance s x); lia].
    assert (x = a) as -> by lia. rewrite amt_add. lia.
  - intros d. unfold sum_bal at 1. rewrite Hb.
    change (bsum (put_bal (st_bal s) a (coins_add (balance s a) c)) d = sum_bal s d + amt c d).
    rewrite put_bal_sum, amt_add. unfold sum_bal, bsum, balance. lia.
Qed.
Lemma send_ok a b c s s' : send_coins a b c s = (s', Ok tt) ->
  coins_valid c = true /\ coins_ge (balance s a) c = true /\
  (forall x d, bal s' x d = bal s x d - at_ x a (amt c d) + at_ x b (amt c d)) /\
  (forall d, sum_bal s' d = sum_bal s d) /\
  st_supply s' = st_supply s /\ st_log s' = st_log s.
Proof.
  unfold send_coins. intros H. mi.
  match goal with H1 : subtract_coins _ _ _ = (_, Ok tt) |- _ => apply subtract_ok in H1 as (V & G & B1 & T1 & S1 & L1) end.
  apply add_ok in H as (_ & B2 & T2 & S2 & L2).
  split; [done|]. split; [done|]. split; [intros y d; rewrite B2, B1; reflexivity|].
  split; [intros d; rewrite T2, T1; lia|]. split; congruence.
Qed.
Lemma touch_bal a : rel (same st_bal) (touch_account a).
Proof. frame. Qed.
Lemma to_module_ok a b c s s' : send_to_module a b c s = (s', Ok tt) ->
  coins_valid c = true /\ coins_ge (balance s a) c = true /\
  (forall x d, bal s' x d = bal s x d - at_ x a (amt c d) + at_ x b (amt c d)) /\
  (forall d, sum_bal s' d = sum_bal s d) /\
  st_supply s' = st_supply s /\ st_log s' = st_log s.
Proof.
  unfold send_to_module. intros H. mi.
  match goal with H1 : touch_account b s = (?s1, _) |- _ =>
    pose proof (touch_bal b s) as F1; rewrite H1 in F1; cbn in F1;
    assert (F2 : rel (same st_supply) (touch_account b)) by frame; specialize (F2 s); rewrite H1 in F2; cbn in F2;
    assert (F3 : rel (same st_log) (touch_account b)) by frame; specialize (F3 s); rewrite H1 in F3; cbn in F3
  end.
  unfold same in F1, F2, F3.
  apply send_ok in H as (V & G & B & T & S & L).
  rewrite (balance_same _ _ F1) in G. split; [done|]. split; [done|].
  split; [intros y d; rewrite B; unfold bal; by rewrite (balance_same _ _ F1)|].
  split; [intros d; rewrite T; by rewrite (total_same _ _ F1)|]. split; congruence.
Qed.

(** ** C14 *)
Lemma io_total_sum l d : amt (io_total l) d = sum_all l d.
Proof.
  unfold io_total. assert (A : forall l t, amt (fold_left (fun t e => coins_add t (snd e)) l t) d = amt t d + sum_all l d).
  { clear l. induction l as [|[x c] l IH]; intros t; cbn; [lia|]. rewrite IH, amt_add. cbn. lia. }
  rewrite A, amt_empty. lia.
Qed.
Lemma outs_ok l : forall s s', mfor l (fun e => add_coins (fst e) (snd e)) s = (s', Ok tt) ->
  (forall x d, bal s' x d = bal s x d + share l x d) /\
  (forall d, sum_bal s' d = sum_bal s d + sum_all l d) /\
  st_supply s' = st_supply s /\ st_log s' = st_log s.
Proof.
  induction l as [|[y c] l IH]; intros s s' H; cbn in H.
  - mi. cbn. split; [intros; lia|]. split; [intros; lia|done].
  - mi. match goal with H1 : add_coins _ _ _ = (_, Ok tt) |- _ => apply add_ok in H1 as (V & B1 & T1 & S1 & L1) end.
    apply IH in H as (B2 & T2 & S2 & L2). cbn.
    split; [intros z d; rewrite B2, B1; lia|]. split; [intros d; rewrite T2, T1; lia|]. split; congruence.
Qed.
Lemma ins_ok l : forall s s', mfor l (fun e => subtract_coins (fst e) (snd e)) s = (s', Ok tt) ->
  (forall x d, bal s' x d = bal s x d - share l x d) /\
  (forall d, sum_bal s' d = sum_bal s d - sum_all l d) /\
  st_supply s' = st_supply s /\ st_log s' = st_log s.
Proof.
  induction l as [|[y c] l IH]; intros s s' H; cbn in H.
  - mi. cbn. split; [intros; lia|]. split; [intros; lia|done].
  - mi. match goal with H1 : subtract_coins _ _ _ = (_, Ok tt) |- _ => apply subtract_ok in H1 as (V & _ & B1 & T1 & S1 & L1) end.
    apply IH in H as (B2 & T2 & S2 & L2). cbn.
    split; [intros z d; rewrite B2, B1; lia|]. split; [intros d; rewrite T2, T1; lia|]. split; congruence.
Qed.
Lemma io_ok ins outs s s' : input_output_coins ins outs s = (s', Ok tt) ->
  (forall d, sum_all ins d = sum_all outs d) /\
  (forall x d, bal s' x d = bal s x d - share ins x d + share outs x d) /\
  (forall d, sum_bal s' d = sum_bal s d) /\
  st_supply s' = st_supply s /\ st_log s' = st_log s.
Proof.
  unfold input_output_coins. intros H. mi.
  match goal with H1 : _ = true |- _ => apply andb_prop in H1 as [_ HT] end.
  apply bool_decide_eq_true in HT.
  assert (E : forall d, sum_all ins d = sum_all outs d) by (intros d; by rewrite <- !io_total_sum, HT).
  match goal with H1 : mfor ins _ _ = (_, Ok tt) |- _ => apply ins_ok in H1 as (B1 & T1 & S1 & L1) end.
  apply outs_ok in H as (B2 & T2 & S2 & L2).
  split; [exact E|]. split; [intros z d; rewrite B2, B1; lia|].
  split; [intros d; rewrite T2, T1, E; lia|]. split; congruence.
Qed.

(** ** Fees and messages *)
Lemma new_coins_ok d n s s' c : new_coins d n s = (s', Ok c) -> s' = s /\ 0 <= n /\ c = coins_of d n.
Proof. unfold new_coins. intros H. mi. split; [done|]. split; [lia|done]. Qed.
Lemma tx_fee_ok x s s' f : tx_fee x s = (s', Ok f) -> s' = s /\ fee_of x s = Some f.
Proof. unfold tx_fee. intros H. mi. done. Qed.
Lemma only_main_spec (c : coins) : forallb (fun e => (fst e =? uartr)%N) (map_to_list c) = true <->
  forall d n, c !! d = Some n -> d = uartr.
Proof.
  rewrite forallb_forall. split.
  - intros H d n Hd. specialize (H (d, n)). cbn in H.
    assert ((d =? uartr)%N = true); [|lia]. apply H. by apply elem_of_list_In, elem_of_map_to_list.
  - intros H [d n] Hd. apply elem_of_list_In, elem_of_map_to_list in Hd. cbn. apply H in Hd. lia.
Qed.
Lemma pay_tx_fee_ok a c s s' fee : pay_tx_fee a c s = (s', Ok fee) ->
  exists f, (if decide (c = ∅) then f = 0 else fee_of (amt c uartr) s = Some f) /\ 0 <= f /\
  fee = coins_of uartr f /\
  (forall d n, c !! d = Some n -> d = uartr) /\
  (forall x d, bal s' x d = bal s x d - at_ x a (amt fee d) + at_ x splitter (amt fee d)) /\
  (forall d, sum_bal s' d = sum_bal s d) /\
  st_supply s' = st_supply s /\ st_log s' = st_log s.
Proof.
  unfold pay_tx_fee. intros H. mi. rename x1 into fee, H0 into HD, H1 into HF, H2 into HS.
  rewrite only_main_spec in HD.
  assert (A : exists f, (if decide (c = ∅) then f = 0 else fee_of (amt c uartr) s = Some f) /\ 0 <= f /\ fee = coins_of uartr f /\ x2 = s).
  { destruct (decide (c = ∅)) as [->|Hne].
    - mi. exists 0. split; [done|]. split; [lia|]. done.
    - mi. match goal with H1 : tx_fee _ _ = _ |- _ => apply tx_fee_ok in H1 as [-> HF'] end.
      apply new_coins_ok in HF as (-> & Hp & ->). eauto. }
  destruct A as (f & Hf & Hp & -> & ->). exists f. split; [done|]. split; [done|]. split; [done|]. split; [done|].
  destruct (decide (coins_of uartr f = ∅)) as [E|E].
  - mi. rewrite E. split; [|done]. intros x d. rewrite amt_empty. unfold at_. destruct (x =? a)%N, (x =? splitter)%N; lia.
  - apply to_module_ok in HS as (_ & _ & B & T & S & L). done.
Qed.

Lemma msg_send_ok from to c s s' : msg_send from to c s = (s', Ok tt) ->
  (forall d n, c !! d = Some n -> d = uartr /\ 0 < n) /\ c <> ∅ /\
  0 <= bp_min_send (st_bp s) <= amt c uartr /\ 0 < amt c uartr /\
  from ∉ bp_blocked (st_bp s) /\ acc_exists s to = true /\
  exists f, fee_of (amt c uartr) s = Some f /\ 0 <= f /\
  (forall x, bal s' x uartr = bal s x uartr - at_ x from (amt c uartr + f) + at_ x splitter f + at_ x to (amt c uartr)) /\
  (forall x d, d <> uartr -> bal s' x d = bal s x d) /\
  (forall d, sum_bal s' d = sum_bal s d) /\
  st_supply s' = st_supply s /\ st_log s' = st_log s.
Proof.
  unfold msg_send. intros H. mi.
  repeat match goal with H1 : _ && _ = true |- _ => apply andb_prop in H1 as [? ?] end.
  repeat match goal with H1 : negb (bool_decide _) = true |- _ => apply negb_true_iff, bool_decide_eq_false in H1 end.
  match goal with H1 : forallb _ (map_to_list c) = true |- _ => rewrite only_main_spec in H1; rename H1 into HD end.
  match goal with H1 : coins_valid c = true |- _ => rename H1 into HV; pose proof HV as HV'; rewrite coins_valid_spec in HV' end.
  assert (HP : 0 < amt c uartr).
  { destruct (map_choose c) as (d & n & Hd); [done|]. pose proof (HD _ _ Hd) as ->. unfold amt. rewrite Hd. cbn. eauto. }
  match goal with H1 : pay_tx_fee _ _ _ = _ |- _ => apply pay_tx_fee_ok in H1 as (f & Hf & Hp & -> & _ & B1 & T1 & S1 & L1) end.
  apply send_ok in H as (_ & _ & B2 & T2 & S2 & L2).
  split; [intros d n Hd; split; eauto|]. split; [done|]. split; [lia|]. split; [done|]. split; [done|]. split; [done|].
  destruct (decide (c = ∅)); [done|]. exists f. split; [done|]. split; [done|].
  split; [|split; [|split; [|split]]].
  - intros x. rewrite B2, B1, amt_coins_of. unfold at_. rewrite N.eqb_refl.
    destruct (x =? from)%N, (x =? to)%N, (x =? splitter)%N; lia.
  - intros x d Hd. rewrite B2, B1, amt_coins_of.
    assert ((d =? uartr)%N = false) as -> by lia.
    assert (amt c d = 0) as ->.
    { unfold amt. destruct (c !! d) as [k|] eqn:E; [|done]. apply HD in E. done. }
    unfold at_. destruct (x =? from)%N, (x =? to)%N, (x =? splitter)%N; lia.
  - intros d. by rewrite T2, T1.
  - congruence.
  - congruence.
Qed.

Lemma deflate_ok c s s' : deflate c s = (s', Ok tt) ->
  (forall d, supply s' d = supply s d - amt c d) /\ st_bal s' = st_bal s /\ st_log s' = st_log s /\
  (forall d n, c !! d = Some n -> n <= supply s d).
Proof.
  unfold deflate. intros H. mi. split; [|split; [done|split; [done|by apply coins_ge_spec]]].
  intros d. unfold supply. cbn. apply amt_sub.
Qed.
Lemma inflate_ok c s s' : inflate c s = (s', Ok tt) ->
  (forall d, supply s' d = supply s d + amt c d) /\ st_bal s' = st_bal s /\ st_log s' = st_log s.
Proof.
  unfold inflate. intros H. mi. split; [|done]. intros d. unfold supply. cbn. apply amt_add.
Qed.
Lemma burn_acc_ok a c s s' : burn_acc_coins a c s = (s', Ok tt) ->
  coins_ge (balance s a) c = true /\
  (forall x d, bal s' x d = bal s x d - at_ x a (amt c d)) /\
  (forall d, sum_bal s' d = sum_bal s d - amt c d) /\
  (forall d, supply s' d = supply s d - amt c d) /\ st_log s' = st_log s.
Proof.
  unfold burn_acc_coins. intros H. mi.
  match goal with H1 : subtract_coins _ _ _ = _ |- _ => apply subtract_ok in H1 as (V & G & B & T & S & L) end.
  apply deflate_ok in H as (SD & Hb & Hl & _).
  split; [done|]. split; [intros x d; unfold bal at 1; rewrite (balance_same _ _ Hb); apply B|].
  split; [intros d; rewrite (total_same _ _ Hb); apply T|].
  split; [intros d; rewrite SD; unfold supply; by rewrite S|congruence].
Qed.
Lemma msg_burn_ok a n s s' : 0 < n < 2^64 -> msg_burn a n s = (s', Ok tt) ->
  n < 2^63 /\ n <= bal s a uartr /\
  (forall x, bal s' x uartr = bal s x uartr - at_ x a n) /\
  (forall x d, d <> uartr -> bal s' x d = bal s x d) /\
  supply s' uartr = supply s uartr - n /\
  (forall d, d <> uartr -> supply s' d = supply s d) /\
  sum_bal s' uartr = sum_bal s uartr - n.
Proof.
  intros Hn. unfold msg_burn. intros H. mi.
  match goal with H1 : new_coins _ _ _ = _ |- _ => apply new_coins_ok in H1 as (-> & Hp & ->) end.
  apply burn_acc_ok in H as (G & B & T & S & L).
  assert (Frac.wrap64 n = n /\ n < 2^63) as [W HW].
  { unfold Frac.wrap64 in *. change (2^64) with 18446744073709551616 in *. change (2^63) with 9223372036854775808 in *.
    destruct (Z_lt_dec n 9223372036854775808).
    - rewrite Z.mod_small by lia. lia.
    - exfalso. rewrite <- (Z.mod_add _ (-1)) in Hp by lia. rewrite Z.mod_small in Hp by lia. lia. }
  rewrite W in *. rewrite coins_ge_spec in G.
  split; [done|].
  split. { apply (G uartr n). unfold coins_of, nz. destruct (n =? 0) eqn:E; [lia|]. apply lookup_singleton. }
  split. { intros x. rewrite B, amt_coins_of, N.eqb_refl. done. }
  split. { intros x d Hd. rewrite B, amt_coins_of. assert ((d =? uartr)%N = false) as -> by lia.
           unfold at_. destruct (x =? a)%N; lia. }
  split. { rewrite S, amt_coins_of, N.eqb_refl. done. }
  split. { intros d Hd. rewrite S, amt_coins_of. assert ((d =? uartr)%N = false) as -> by lia. lia. }
  rewrite T, amt_coins_of, N.eqb_refl. done.
Qed.

(** ** C10 *)
Lemma bal_ok_fields s s' : st_bal s' = st_bal s -> bal_ok s -> bal_ok s'.
Proof. unfold bal_ok. by intros ->. Qed.
Lemma bal_ok_fields' s s' : st_bal s' = st_bal s -> keeps bal_ok s s'.
Proof. intros H Hok. by eapply bal_ok_fields. Qed.
Lemma bal_ok_put s a c : coins_valid c = true -> keeps bal_ok s (s <| st_bal :=
    if decide (c = ∅) then base.delete a (st_bal s) else <[ a := c ]> (st_bal s) |>).
Proof.
  intros Hv H x cx. cbn. destruct (decide (c = ∅)) as [E|E].
  - rewrite lookup_delete_Some. intros [_ Hx]. by apply (H x).
  - rewrite lookup_insert_Some. intros [[<- <-]|[_ Hx]]; [|by apply (H x)].
    split; [done|]. by apply coins_valid_spec.
Qed.
#[export] Hint Extern 1 (keeps bal_ok _ _) => (apply bal_ok_fields'; reflexivity) : frame.
#[export] Hint Resolve bal_ok_put : frame.
Lemma bal_ok_blocks bs s s' us : run_blocks bs s = Some (s', us) -> bal_ok s -> bal_ok s'.
Proof. intros H. apply (sw_run_blocks (keeps bal_ok)) in H; [exact H|..]; auto 8 with frame. Qed.
Lemma bal_ok_tx t s : bal_ok s -> bal_ok (fst (deliver_tx t s)).
Proof. apply (sw_deliver_tx (keeps bal_ok)); auto 8 with frame. Qed.
Lemma bal_ok_valid s a : bal_ok s -> coins_valid (balance s a) = true.
Proof.
  intros H. apply coins_valid_spec. unfold balance. destruct (st_bal s !! a) as [c|] eqn:E; cbn.
  - by apply (H a).
  - intros d n. by rewrite lookup_empty.
Qed.
Lemma bal_ok_nonneg s a d : bal_ok s -> 0 <= bal s a d.
Proof. intros H. apply coins_valid_nonneg. by apply bal_ok_valid. Qed.
Lemma coins_add_valid b c : coins_valid b = true -> coins_valid c = true -> coins_valid (coins_add b c) = true.
Proof.
  rewrite !coins_valid_spec. intros Hb Hc d n. unfold coins_add. rewrite lookup_merge. unfold diag_None.
  destruct (b !! d) as [x|] eqn:E1, (c !! d) as [y|] eqn:E2; cbn; try done; unfold nz;
    destruct (_ =? 0) eqn:E; try done; intros [= <-];
    repeat match goal with H : _ !! d = Some _ |- _ => first [apply Hb in H|apply Hc in H] end; lia.
Qed.
Lemma coins_of_valid d n : 0 <= n -> coins_valid (coins_of d n) = true.
Proof.
  intros H. rewrite coins_valid_spec. unfold coins_of, nz. destruct (n =? 0) eqn:E.
  - intros x y. by rewrite lookup_empty.
  - intros x y. rewrite lookup_singleton_Some. intros [_ <-]. lia.
Qed.

(** ** C09 *)
Lemma aborts_app s l : aborts (s <| st_log := st_log s ++ l |>) = (aborts s + List.length (List.filter is_abort l))%nat.
Proof. unfold aborts. cbn. rewrite List.filter_app, app_length. reflexivity. Qed.
Lemma grows_aborts s s' : grows s s' -> (aborts s <= aborts s')%nat.
Proof. intros [l H]. unfold aborts. rewrite H, List.filter_app, app_length. lia. Qed.
Lemma grows_same s s' : st_log s' = st_log s -> grows s s'.
Proof. intros H. exists []. by rewrite app_nil_r. Qed.
Lemma grows_log s e : grows s (s <| st_log := st_log s ++ [e] |>).
Proof. by exists [e]. Qed.
#[export] Hint Extern 1 (grows _ _) => first [apply grows_log|apply grows_same; reflexivity] : frame.

Definition conserved (s s' : St) : Prop :=
  bal_ok s -> bal_ok s' /\
  ((aborts s < aborts s')%nat \/
   (aborts s = aborts s' /\ forall d, supply s' d - sum_bal s' d = supply s d - sum_bal s d)).
#[export] Instance conserved_preorder : PreOrder conserved.
Proof.
  split.
  - intros s H. split; [done|]. right. done.
  - intros x y z H1 H2 H. destruct (H1 H) as [Hy C1]. destruct (H2 Hy) as [Hz C2].
    split; [done|]. destruct C1 as [L1|[E1 D1]], C2 as [L2|[E2 D2]]; [left; lia..|].
    right. split; [lia|]. intros d. by rewrite D2, D1.
Qed.
Lemma conserved_fields s s' :
  st_bal s' = st_bal s -> st_supply s' = st_supply s -> aborts s' = aborts s -> conserved s s'.
Proof.
  intros Hb Hs Hl H. split; [by eapply bal_ok_fields|]. right. split; [done|].
  intros d. unfold supply. by rewrite Hs, (total_same _ _ Hb).
Qed.
Lemma conserved_log s e : conserved s (s <| st_log := st_log s ++ [e] |>).
Proof.
  intros H. split; [by eapply bal_ok_fields|]. rewrite aborts_app. cbn [List.filter is_abort].
  cbn [List.filter]. destruct (is_abort e); cbn [List.length]; [left; lia|right; split; [lia|done]].
Qed.
(** An error of a write: nothing happened, or the hook failed. *)
Lemma set_balance_err a c s s' e : set_balance a c s = (s', Err e) ->
  (coins_valid c = false /\ s' = s) \/ (coins_valid c = true /\ (aborts s < aborts s')%nat).
Proof.
  intros H. destruct (set_balance_cases a c s) as [(Hv & E & _)|(Hv & HC)].
  { left. rewrite H in E. done. }
  cbn zeta in HC. destruct HC as [[E _]|[[e' E]|[e' E]]]; rewrite H in E; try discriminate.
  injection E as -> _. right. split; [done|]. rewrite aborts_app. cbn [List.filter is_abort].
  cbn [List.length]. assert (aborts (fst (on_balance_changed a (upd_bal s a c))) = aborts s) as ->; [|lia].
  unfold aborts. f_equal. f_equal. exact (on_balance_changed_log a (upd_bal s a c)).
Qed.
Lemma subtract_err a c s s' e : bal_ok s -> subtract_coins a c s = (s', Err e) ->
  s' = s \/ (aborts s < aborts s')%nat.
Proof.
  intros Hok. unfold subtract_coins, bind, ensure, get. destruct (coins_valid c) eqn:Hv; cbn; [|intros [= <- _]; by left].
  destruct (coins_ge (balance s a) c) eqn:G; cbn; [|intros [= <- _]; by left].
  intros H. apply set_balance_err in H as [[_ ->]|[_ H]]; auto.
Qed.
Lemma add_err a c s s' e : bal_ok s -> coins_valid c = true -> add_coins a c s = (s', Err e) -> (aborts s < aborts s')%nat.
Proof.
  intros Hok Hv. unfold add_coins, bind, ensure, get. rewrite Hv. cbn.
  intros H. apply set_balance_err in H as [[Hw _]|[_ H]]; auto.
  rewrite coins_add_valid in Hw; [discriminate| |done]. by apply bal_ok_valid.
Qed.
Lemma bal_ok_set_balance a c : rel (keeps bal_ok) (set_balance a c).
Proof. auto 8 with frame. Qed.
Lemma bal_ok_subtract a c : rel (keeps bal_ok) (subtract_coins a c).
Proof. auto 8 with frame. Qed.
Lemma bal_ok_add a c : rel (keeps bal_ok) (add_coins a c).
Proof. auto 8 with frame. Qed.
Lemma run_keeps {A} (P : St -> Prop) (m : M A) s s' r : rel (keeps P) m -> m s = (s', r) -> P s -> P s'.
Proof. intros H E. specialize (H s). by rewrite E in H. Qed.

Lemma aborts_same s s' : st_log s' = st_log s -> aborts s' = aborts s.
Proof. unfold aborts. by intros ->. Qed.

Lemma cons_send a b c : nprel conserved (send_coins a b c).
Proof.
  intros s s' r H HP Hok.
  assert (Hok' : bal_ok s') by (eapply (run_keeps _ (send_coins a b c)); [auto 8 with frame|exact H|done]).
  split; [done|]. destruct r as [[]|e|e]; [| |by destruct (HP e)].
  - apply send_ok in H as (_ & _ & _ & T & S & L). right. split; [by rewrite (aborts_same s s')|].
    intros d. unfold supply. by rewrite S, T.
  - unfold send_coins, bind in H. destruct (subtract_coins a c s) as [s1 [[]|e1|e1]] eqn:E1.
    + pose proof (run_keeps _ _ _ _ _ (bal_ok_subtract a c) E1 Hok) as Hok1.
      apply subtract_ok in E1 as (V & _ & _ & _ & _ & L). apply add_err in H; [|done..].
      left. rewrite <- (aborts_same s s1); done.
    + injection H as -> _. apply subtract_err in E1 as [->|]; auto.
    + discriminate.
Qed.
Lemma mfor_bal_ok_add (l : list (addr * coins)) : rel (keeps bal_ok) (mfor l (fun e => add_coins (fst e) (snd e))).
Proof. apply rel_mfor; [typeclasses eauto|]. intros. apply bal_ok_add. Qed.
Lemma adds_err l : forall s s' e, bal_ok s -> forallb io_item_valid l = true ->
  mfor l (fun e => add_coins (fst e) (snd e)) s = (s', Err e) -> (aborts s < aborts s')%nat.
Proof.
  induction l as [|[y c] l IH]; intros s s' e Hok Hv H; cbn in H; [discriminate|].
  cbn in Hv. apply andb_prop in Hv as [Hc Hv]. unfold io_item_valid in Hc. cbn in Hc.
  apply andb_prop in Hc as [Hc _]. apply andb_prop in Hc as [_ Hc].
  unfold bind in H. destruct (add_coins y c s) as [s1 [[]|e1|e1]] eqn:E1; [| |discriminate].
  - pose proof (run_keeps _ _ _ _ _ (bal_ok_add y c) E1 Hok) as Hok1.
    apply add_ok in E1 as (_ & _ & _ & _ & L). apply IH in H; [|done..]. by rewrite <- (aborts_same s s1).
  - injection H as -> _. by apply add_err in E1.
Qed.
Lemma cons_io a c o : nprel conserved (input_output_coins [(a, c)] o).
Proof.
  intros s s' r H HP Hok.
  assert (Hok' : bal_ok s') by (eapply (run_keeps _ (input_output_coins [(a, c)] o)); [auto 8 with frame|exact H|done]).
  split; [done|]. destruct r as [[]|e|e]; [| |by destruct (HP e)].
  - apply io_ok in H as (_ & _ & T & S & L). right. split; [by rewrite (aborts_same s s')|].
    intros d. unfold supply. by rewrite S, T.
  - unfold input_output_coins in H. unfold bind at 1 in H. unfold ensure in H.
    destruct (forallb io_item_valid [(a, c)] && forallb io_item_valid o && bool_decide (io_total [(a, c)] = io_total o)) eqn:E.
    2:{ cbn in H. injection H as <- _. right. done. }
    cbn [ret mfor fst snd] in H. apply andb_prop in E as [E _]. apply andb_prop in E as [_ E].
    unfold bind in H. destruct (subtract_coins a c s) as [s1 [[]|e1|e1]] eqn:E1; [| |discriminate].
    + cbn [ret] in H. pose proof (run_keeps _ _ _ _ _ (bal_ok_subtract a c) E1 Hok) as Hok1.
      apply subtract_ok in E1 as (V & _ & _ & _ & _ & L). apply adds_err in H; [|done..].
      left. rewrite <- (aborts_same s s1); done.
    + injection H as -> _. apply subtract_err in E1 as [->|]; auto.
Qed.
Lemma cons_burn a c : nprel conserved (burn_acc_coins a c).
Proof.
  intros s s' r H HP Hok.
  assert (Hok' : bal_ok s') by (eapply (run_keeps _ (burn_acc_coins a c)); [auto 8 with frame|exact H|done]).
  split; [done|]. destruct r as [[]|e|e]; [| |by destruct (HP e)].
  - apply burn_acc_ok in H as (_ & _ & T & S & L). right. split; [by rewrite (aborts_same s s')|].
    intros d. rewrite S, T. lia.
  - unfold burn_acc_coins, bind in H. destruct (subtract_coins a c s) as [s1 [[]|e1|e1]] eqn:E1; [| |discriminate].
    + unfold deflate, bind, get, assert in H. destruct (coins_ge (st_supply s1) c); cbn in H; discriminate.
    + injection H as -> _. apply subtract_err in E1 as [->|]; auto.
Qed.
Lemma convert_ok a d1 n1 d2 n2 s s' : convert a d1 n1 d2 n2 s = (s', Ok tt) ->
  (n1 = 0 /\ s' = s) \/
  (0 < n1 /\ 0 <= n2 /\ n1 <= bal s a d1 /\ n1 <= supply s d1 /\
   (forall x d, bal s' x d = bal s x d - at_ x a (amt (coins_of d1 n1) d) + at_ x a (amt (coins_of d2 n2) d)) /\
   (forall d, sum_bal s' d = sum_bal s d - amt (coins_of d1 n1) d + amt (coins_of d2 n2) d) /\
   (forall d, supply s' d = supply s d - amt (coins_of d1 n1) d + amt (coins_of d2 n2) d) /\ st_log s' = st_log s).
Proof.
  unfold convert. destruct (n1 =? 0) eqn:E0; intros H; mi; [left; split; [lia|done]|]. right.
  repeat match goal with H1 : new_coins _ _ _ = _ |- _ => apply new_coins_ok in H1 as (-> & ? & ->) end.
  match goal with H1 : subtract_coins _ _ _ = _ |- _ => apply subtract_ok in H1 as (_ & G & B1 & T1 & S1 & L1) end.
  match goal with H1 : add_coins _ _ _ = _ |- _ => apply add_ok in H1 as (_ & B2 & T2 & S2 & L2) end.
  match goal with H1 : deflate _ _ = _ |- _ => apply deflate_ok in H1 as (S3 & B3 & L3 & G3) end.
  apply inflate_ok in H as (S4 & B4 & L4).
  assert (HL : coins_of d1 n1 !! d1 = Some n1).
  { unfold coins_of, nz. rewrite E0. apply lookup_singleton. }
  split; [lia|]. split; [done|].
  split; [rewrite coins_ge_spec in G; by apply (G d1 n1)|].
  split. { specialize (G3 _ _ HL). unfold supply in *. by rewrite S2, S1 in G3. }
  split; [intros z d; specialize (B2 z d); rewrite B1 in B2; rewrite <- B2; unfold bal; by rewrite (balance_same _ _ B4), (balance_same _ _ B3)|].
  split; [intros d; rewrite (total_same _ _ B4), (total_same _ _ B3), T2, T1; reflexivity|].
  split; [intros d; rewrite S4, S3; unfold supply; rewrite S2, S1; reflexivity|congruence].
Qed.
Lemma cons_convert a d1 n1 d2 n2 : nprel conserved (convert a d1 n1 d2 n2).
Proof.
  intros s s' r H HP Hok.
  assert (Hok' : bal_ok s') by (eapply (run_keeps _ (convert a d1 n1 d2 n2)); [auto 8 with frame|exact H|done]).
  split; [done|]. destruct r as [[]|e|e]; [| |by destruct (HP e)].
  - apply convert_ok in H as [[-> ->]|(_ & _ & _ & _ & _ & T & S & L)]; right; [done|].
    split; [by rewrite (aborts_same s s')|]. intros d. rewrite S, T. lia.
  - unfold convert in H. destruct (n1 =? 0); [discriminate|]. unfold new_coins, bind in H.
    destruct (0 <=? n1) eqn:N1; cbn [assert ret] in H; [|discriminate].
    destruct (subtract_coins a (coins_of d1 n1) s) as [s1 [[]|e1|e1]] eqn:E1; [| |discriminate].
    2:{ injection H as -> _. apply subtract_err in E1 as [->|]; auto. }
    pose proof (run_keeps _ _ _ _ _ (bal_ok_subtract a _) E1 Hok) as Hok1.
    destruct (0 <=? n2) eqn:N2; cbn [assert ret] in H; [|discriminate].
    apply subtract_ok in E1 as (V & _ & _ & _ & _ & L).
    destruct (add_coins a (coins_of d2 n2) s1) as [s2 [[]|e1|e1]] eqn:E2; [| |discriminate].
    2:{ injection H as -> _. apply add_err in E2; [|done|apply coins_of_valid; lia]. left. rewrite <- (aborts_same s s1); done. }
    unfold deflate, bind, get, assert in H. destruct (coins_ge _ _) in H; cbn in H; discriminate.
Qed.

(** Operations that never return an error *)
Definition noerr {A} (m : M A) : Prop := forall s s' e, m s <> (s', Err e).
Lemma noerr_bind {A B} (m : M A) (f : A -> M B) : noerr m -> (forall a, noerr (f a)) -> noerr (bind m f).
Proof.
  intros Hm Hf s s' e. unfold bind. specialize (Hm s). destruct (m s) as [s1 [a|e1|e1]]; [apply Hf| |discriminate].
  by destruct (Hm s1 e1).
Qed.
Lemma noerr_must {A} (m : M A) : noerr (must m).
Proof. intros s s' e. unfold must. destruct (m s) as [s1 [a|e1|e1]]; discriminate. Qed.
Lemma noerr_ret {A} (a : A) : noerr (ret a).
Proof. intros s s' e. discriminate. Qed.
Lemma noerr_get {A} (f : St -> A) : noerr (get f).
Proof. intros s s' e. discriminate. Qed.
Lemma noerr_modify f : noerr (modify f).
Proof. intros s s' e. discriminate. Qed.
Lemma noerr_lift {A} x (o : option A) : noerr (lift x o).
Proof. destruct o; intros s s' e; discriminate. Qed.
Lemma noerr_assert b x : noerr (assert b x).
Proof. destruct b; intros s s' e; discriminate. Qed.
Lemma noerr_mfor {A} (l : list A) f : (forall x, noerr (f x)) -> noerr (mfor l f).
Proof. intros H. induction l; cbn; [apply noerr_ret|apply noerr_bind; auto]. Qed.
Lemma noerr_mfold {A B} (l : list A) (b : B) f : (forall b x, noerr (f b x)) -> noerr (mfold l b f).
Proof. intros H. revert b. induction l; intros b; cbn; [apply noerr_ret|apply noerr_bind; auto]. Qed.
Ltac noerr :=
  repeat (first
    [ apply noerr_bind; [|intros ?] | apply noerr_must | apply noerr_ret | apply noerr_get | apply noerr_modify
    | apply noerr_lift | apply noerr_assert | apply noerr_mfor; intros ? | apply noerr_mfold; intros ? ?
    | match goal with |- noerr (match ?x with _ => _ end) => destruct x end
    | progress unfold new_coins, tx_fee, inflate, deflate, fr ]).
Lemma noerr_accrue a n : noerr (accrue a n).
Proof. unfold accrue. noerr. Qed.
Lemma noerr_accrue_to_validator a n : noerr (accrue_to_validator a n).
Proof. unfold accrue_to_validator. noerr. Qed.

Lemma coins_ge_amt a b : coins_valid a = true -> coins_ge a b = true -> forall d, amt b d <= amt a d.
Proof.
  intros Ha Hg d. rewrite coins_ge_spec in Hg. unfold amt at 1. destruct (b !! d) as [n|] eqn:E; cbn; [by apply Hg|].
  by apply coins_valid_nonneg.
Qed.
Lemma accrue_ok a n s s' : accrue a n s = (s', Ok tt) ->
  ((n = 0 \/ st_prof s !! a = None) /\ s' = s) \/
  (0 < n /\ is_Some (st_prof s !! a) /\ exists f, fee_of n s = Some f /\ 0 <= f <= n /\
   (forall x, bal s' x uartr = bal s x uartr + at_ x splitter f + at_ x a (n - f)) /\
   (forall x d, d <> uartr -> bal s' x d = bal s x d) /\
   sum_bal s' uartr = sum_bal s uartr + n /\ (forall d, d <> uartr -> sum_bal s' d = sum_bal s d) /\
   supply s' uartr = supply s uartr + n /\ (forall d, d <> uartr -> supply s' d = supply s d) /\
   st_log s' = st_log s).
Proof.
  unfold accrue. destruct (n =? 0) eqn:E0; intros H; mi; [left; split; [lia|done]|].
  destruct (st_prof _ !! a) as [p|] eqn:EP; mi; [right|left; auto].
  match goal with H1 : new_coins _ _ s = _ |- _ => apply new_coins_ok in H1 as (-> & HN & ->) end.
  unfold inflate in *. mi.
  set (s1 := s <| st_supply := coins_add (st_supply s) (coins_of uartr n) |>) in *.
  match goal with H1 : tx_fee n _ = (_, Ok ?v) |- _ => apply tx_fee_ok in H1 as [-> HF]; rename v into f end.
  change (fee_of n s1) with (fee_of n s) in HF.
  split; [lia|]. split; [eauto|]. exists f. split; [done|].
  assert (HS1 : forall d, supply s1 d = supply s d + (if (d =? uartr)%N then n else 0)).
  { intros d. unfold supply, s1. cbn. by rewrite amt_add, amt_coins_of. }
  match goal with H1 : (if f =? 0 then _ else _) _ = (?z, Ok ?v) |- _ => rename H1 into HE, z into s2, v into em end.
  assert (A : 0 <= f <= n /\ (forall d, amt em d = if (d =? uartr)%N then n - f else 0) /\
    (forall x d, bal s2 x d = bal s x d + (if (d =? uartr)%N then at_ x splitter f else 0)) /\
    (forall d, sum_bal s2 d = sum_bal s d + (if (d =? uartr)%N then f else 0)) /\
    st_supply s2 = st_supply s1 /\ st_log s2 = st_log s).
  { destruct (f =? 0) eqn:EF; mi.
    - assert (f = 0) as -> by lia. split; [lia|]. split; [intros d; rewrite amt_coins_of; destruct (d =? uartr)%N; lia|].
      split; [|split; [|done]].
      + intros x d. change (bal s1 x d) with (bal s x d). unfold at_. destruct (d =? uartr)%N, (x =? splitter)%N; lia.
      + intros d. change (sum_bal s1 d) with (sum_bal s d). destruct (d =? uartr)%N; lia.
    - match goal with H1 : new_coins _ _ _ = _ |- _ => apply new_coins_ok in H1 as (-> & Hf & ->) end.
      match goal with H1 : add_coins splitter _ _ = _ |- _ => apply add_ok in H1 as (_ & B2 & T2 & S2 & L2) end.
      match goal with H1 : coins_ge _ _ = true |- _ => rename H1 into HG end.
      pose proof (coins_ge_amt _ _ (coins_of_valid uartr n HN) HG uartr) as HL. rewrite !amt_coins_of in HL. cbn in HL.
      split; [lia|]. split; [intros d; rewrite amt_sub, !amt_coins_of; destruct (d =? uartr)%N; lia|].
      split; [|split; [|split]].
      + intros x d. rewrite B2, amt_coins_of. change (bal s1 x d) with (bal s x d). unfold at_.
        destruct (d =? uartr)%N, (x =? splitter)%N; lia.
      + intros d. rewrite T2, amt_coins_of. reflexivity.
      + exact S2.
      + by rewrite L2. }
  destruct A as (HL & HE' & B2 & T2 & S2 & L2).
  match goal with H1 : add_coins _ _ _ = _ |- _ => apply add_ok in H1 as (_ & B3 & T3 & S3 & L3) end.
  split; [done|].
  split; [intros z; rewrite B3, B2, HE', N.eqb_refl; reflexivity|].
  split. { intros z d Hd. rewrite B3, B2, HE'. assert ((d =? uartr)%N = false) as -> by lia. unfold at_. destruct (z =? a)%N; lia. }
  split; [rewrite T3, T2, HE', N.eqb_refl; lia|].
  split. { intros d Hd. rewrite T3, T2, HE'. assert ((d =? uartr)%N = false) as -> by lia. lia. }
  match goal with B3 : forall x d, bal ?z x d = bal s2 x d + _ |- _ =>
    assert (HS : forall d, supply z d = supply s1 d) by (intros d; unfold supply; by rewrite S3, S2) end.
  split; [rewrite HS, HS1, N.eqb_refl; lia|].
  split. { intros d Hd. rewrite HS, HS1. assert ((d =? uartr)%N = false) as -> by lia. lia. }
  congruence.
Qed.

Lemma conserved_ok s s' : bal_ok s' -> st_log s' = st_log s ->
  (forall d, supply s' d - sum_bal s' d = supply s d - sum_bal s d) -> conserved s s'.
Proof. intros Hok L D _. split; [done|]. right. split; [by rewrite (aborts_same s s')|done]. Qed.
Lemma cons_accrue a n : nprel conserved (accrue a n).
Proof.
  intros s s' r H HP Hok.
  assert (Hok' : bal_ok s') by (eapply (run_keeps _ (accrue a n)); [auto 8 with frame|exact H|done]).
  destruct r as [[]|e|e]; [|by destruct (noerr_accrue a n s s' e)|by destruct (HP e)].
  apply accrue_ok in H as [[_ ->]|(_ & _ & f & _ & _ & _ & _ & T1 & T2 & S1 & S2 & L)]; [split; [done|right; done]|].
  apply conserved_ok; try done. intros d. destruct (decide (d = uartr)) as [->|Hd]; [lia|].
  rewrite T2, S2 by done. lia.
Qed.

(** What the loop over the validators' shares yields *)
Fixpoint shares (l : list (addr * Z * coins)) (a : addr) : Z :=
  match l with [] => 0 | (x, n, _) :: r => at_ a x n + shares r a end.
Fixpoint shares_sum (l : list (addr * Z * coins)) : Z :=
  match l with [] => 0 | (_, n, _) :: r => n + shares_sum r end.
Lemma shares_ok n fees : 
  (forall e, e ∈ fees -> 0 < Frac.fnum (snd e) <= 6 /\ Frac.fden (snd e) = 1000) ->
  forall acc s s' outs,
  mfold fees acc (fun acc e =>
        let! x := fr (vfee_amount (snd e) n) in
        if x =? 0 then ret acc else
        let! c := new_coins uartr x in
        ret (acc ++ [(fst e, x, c)])) s = (s', Ok outs) ->
  s' = s /\ exists new, outs = acc ++ new /\
    (forall a x c, (a, x, c) ∈ new -> 0 < x /\ c = coins_of uartr x) /\
    0 <= shares_sum new /\ 30000 * shares_sum new <= fsum fees * Z.max 0 n /\ (fees <> [] -> n < 2^63).
Proof.
  intros HF. induction fees as [|[a q] fees IH]; intros acc s s' outs H; cbn [mfold] in H.
  - mi. split; [done|]. exists []. split; [by rewrite app_nil_r|]. split; [|cbn; repeat split; [lia..|done]].
    intros a x c Hin. by apply elem_of_nil in Hin.
  - unfold fr in H. mi.
    assert (HF' : forall e, e ∈ fees -> 0 < Frac.fnum (snd e) <= 6 /\ Frac.fden (snd e) = 1000).
    { intros e He. apply HF. by right. }
    destruct (HF (a, q)) as [Hq1 Hq2]; [left|]. destruct q as [k den]. cbn [snd Frac.fnum Frac.fden fst] in *. subst den.
    match goal with H1 : vfee_amount _ n = Some ?y |- _ => rename H1 into HV; rename y into v end.
    assert (HN : - 2^63 <= n < 2^63).
    { unfold vfee_amount in HV. destruct (Frac.div _ _) as [u|]; [|discriminate]. destruct (Frac.reduce u); [|discriminate].
      destruct (Frac.to_int64 n) eqn:En; [|discriminate]. by apply to_int64_some in En as [_ En]. }
    assert (HX : (0 <= n /\ v = k * n / 30000) \/ (n < 0 /\ v <= 0)).
    { destruct (Z_lt_dec n 0) as [Hn|Hn]; [right; split; [done|]; by eapply vfee_amount_neg|left; split; [lia|]].
      rewrite vfee_amount_spec in HV by lia. by injection HV as <-. }
    assert (HX' : 30000 * Z.max 0 v <= k * Z.max 0 n).
    { destruct HX as [[Hn ->]|[Hn Hx]].
      - pose proof (Z.mul_div_le (k * n) 30000 ltac:(lia)). pose proof (Z.div_pos (k * n) 30000 ltac:(nia) ltac:(lia)).
        rewrite !Z.max_r by lia. lia.
      - rewrite !Z.max_l by lia. lia. }
    match goal with H1 : (if v =? 0 then _ else _) _ = _ |- _ => rename H1 into HB; destruct (v =? 0) eqn:EX end.
    + mi. apply IH in H as (-> & new & -> & HA & HS1 & HS2 & _); [|done]. split; [done|]. exists new.
      split; [done|]. split; [done|]. split; [done|]. split; [|intros; lia]. cbn. fold (fsum fees). nia.
    + mi. match goal with H1 : new_coins _ _ _ = _ |- _ => apply new_coins_ok in H1 as (-> & HNN & ->) end.
      apply IH in H as (-> & new & -> & HA & HS1 & HS2 & _); [|done]. split; [done|].
      eexists (_ :: new). split; [by rewrite <- app_assoc|]. split.
      { intros b y c Hin. apply elem_of_cons in Hin as [[= -> -> ->]|Hin]; [split; [lia|done]|]. by eapply HA. }
      cbn. fold (fsum fees). split; [lia|]. split; [nia|lia].
Qed.
Lemma fold_shares l : forall t, fold_left (fun t (e : addr * Z * coins) => t + snd (fst e)) l t = t + shares_sum l.
Proof. induction l as [|[[a x] c] l IH]; intros t; cbn; [lia|]. rewrite IH. lia. Qed.
Lemma shares_add l : forall s s', (forall a x c, (a, x, c) ∈ l -> 0 < x /\ c = coins_of uartr x) ->
  mfor l (fun e => must (add_coins (fst (fst e)) (snd e))) s = (s', Ok tt) ->
  (forall x, bal s' x uartr = bal s x uartr + shares l x) /\
  (forall x d, d <> uartr -> bal s' x d = bal s x d) /\
  sum_bal s' uartr = sum_bal s uartr + shares_sum l /\ (forall d, d <> uartr -> sum_bal s' d = sum_bal s d) /\
  st_supply s' = st_supply s /\ st_log s' = st_log s.
Proof.
  induction l as [|[[a x] c] l IH]; intros s s' HA H; cbn [mfor fst snd] in H.
  - mi. cbn. repeat split; intros; lia.
  - mi. match goal with H1 : add_coins _ _ _ = _ |- _ => apply add_ok in H1 as (_ & B1 & T1 & S1 & L1) end.
    apply IH in H as (B2 & B3 & T2 & T3 & S2 & L2); [|intros b y e Hin; eapply HA; by right].
    destruct (HA a x c) as [HX ->]; [by left|]. cbn [shares shares_sum].
    split; [intros z; rewrite B2, B1, amt_coins_of, N.eqb_refl; lia|].
    split. { intros z d Hd. rewrite B3, B1, amt_coins_of by done. assert ((d =? uartr)%N = false) as -> by lia. unfold at_. destruct (z =? a)%N; lia. }
    split; [rewrite T2, T1, amt_coins_of, N.eqb_refl; lia|].
    split. { intros d Hd. rewrite T3, T1, amt_coins_of by done. assert ((d =? uartr)%N = false) as -> by lia. lia. }
    split; congruence.
Qed.
Definition share_payout (n : Z) (fees : list (addr * frac)) : M unit :=
  let! outs := mfold fees [] (fun acc e =>
        let! x := fr (vfee_amount (snd e) n) in
        if x =? 0 then ret acc else
        let! c := new_coins uartr x in
        ret (acc ++ [(fst e, x, c)])) in
  let sum_bal := Frac.wrap64 (fold_left (fun t e => t + snd (fst e)) outs 0) in
  if sum_bal =? 0 then ret tt else
  do! mfor outs (fun e => must (add_coins (fst (fst e)) (snd e))) in
  let! emission := new_coins uartr sum_bal in
  inflate emission.
Definition payout_with (F : St -> option (list (addr * frac))) (a : addr) (n : Z) : M unit :=
  if n =? 0 then ret tt else
  let! p := get (fun s => st_prof s !! a) in
  match p with
  | None => ret tt
  | Some _ =>
      let! fees := get F in
      let! fees := fr fees in
      share_payout n fees
  end.
Lemma payout_with_inv F a n s s' : payout_with F a n s = (s', Ok tt) ->
  s' = s \/ exists fees, F s = Some fees /\ share_payout n fees s = (s', Ok tt).
Proof.
  unfold payout_with. destruct (n =? 0) eqn:E0; intros H; [mi; by left|].
  apply bind_ok in H as (p & s1 & H1 & H). apply get_ok in H1 as [-> ->].
  destruct (st_prof _ !! a) as [p|] eqn:EP; [|mi; by left].
  apply bind_ok in H as (f & s1 & H1 & H). apply get_ok in H1 as [-> ->].
  apply bind_ok in H as (fees & s1 & H1 & H). unfold fr in H1. apply lift_ok in H1 as [-> H1].
  right. exists fees. split; [exact H1|]. exact H.
Qed.
Lemma accrue_to_validator_inv a n s s' : accrue_to_validator a n s = (s', Ok tt) ->
  s' = s \/ exists fees, vfees_up 20 0 None s (r_referrer (ref_get s a)) = Some fees /\
    share_payout n fees s = (s', Ok tt).
Proof. exact (payout_with_inv (fun s => vfees_up 20 0 None s (r_referrer (ref_get s a))) a n s s'). Qed.
(** What the payment of the validators' shares does *)
Definition paid_shares (n : Z) (outs : list (addr * Z * coins)) (s s' : St) : Prop :=
  (forall b x c, (b, x, c) ∈ outs -> 0 < x /\ c = coins_of uartr x) /\
   30000 * shares_sum outs <= 6 * Z.max 0 n /\
   (forall x, bal s' x uartr = bal s x uartr + shares outs x) /\
   (forall x d, d <> uartr -> bal s' x d = bal s x d) /\
   sum_bal s' uartr = sum_bal s uartr + shares_sum outs /\ (forall d, d <> uartr -> sum_bal s' d = sum_bal s d) /\
   supply s' uartr = supply s uartr + shares_sum outs /\ (forall d, d <> uartr -> supply s' d = supply s d) /\
   st_log s' = st_log s.
Lemma paid_none n s : paid_shares n [] s s.
Proof.
  split; [intros b x c Hin; by apply elem_of_nil in Hin|]. cbn. repeat split; intros; lia.
Qed.
Lemma share_payout_ok n fees s s' :
  (forall e, e ∈ fees -> 0 < Frac.fnum (snd e) <= 6 /\ Frac.fden (snd e) = 1000) -> 0 <= fsum fees <= 6 ->
  share_payout n fees s = (s', Ok tt) -> exists outs, paid_shares n outs s s'.
Proof.
  intros HF HS H. unfold share_payout in H. apply bind_ok in H as (outs & s1 & H1 & H).
  apply shares_ok in H1 as (-> & outs' & -> & HA & HP & HB & HN); [|done].
  rewrite app_nil_l in *. rewrite fold_shares in H. rename outs' into outs.
  assert (HW : 30000 * shares_sum outs <= 6 * Z.max 0 n) by nia.
  assert (W : Frac.wrap64 (0 + shares_sum outs) = shares_sum outs).
  { rewrite FracProofs.wrap64_id; [lia|]. destruct fees as [|e fees]; [cbn in HB; lia|].
    specialize (HN ltac:(done)). change (2^63) with 9223372036854775808 in *. lia. }
  rewrite W in H. clear W HN HB. destruct (shares_sum outs =? 0) eqn:EZ; mi; [exists []; apply paid_none|].
  match goal with H1 : mfor outs _ _ = _ |- _ => apply shares_add in H1 as (B1 & B2 & T1 & T2 & S & L); [|done] end.
  match goal with H1 : new_coins _ _ _ = _ |- _ => apply new_coins_ok in H1 as (-> & _ & ->) end.
  match goal with H1 : inflate _ _ = _ |- _ => apply inflate_ok in H1 as (S2 & B3 & L2) end.
  exists outs. split; [done|]. split; [done|].
  split; [intros x; unfold bal; rewrite (balance_same _ _ B3); apply B1|].
  split; [intros x d Hd; unfold bal; rewrite (balance_same _ _ B3); by apply B2|].
  split; [by rewrite (total_same _ _ B3)|]. split; [intros d Hd; rewrite (total_same _ _ B3); by apply T2|].
  split; [rewrite S2, amt_coins_of, N.eqb_refl; unfold supply; by rewrite S|].
  split; [|congruence]. intros d Hd. rewrite S2, amt_coins_of. assert ((d =? uartr)%N = false) as -> by lia.
  unfold supply. rewrite S. lia.
Qed.
Lemma accrue_to_validator_ok a n s s' : accrue_to_validator a n s = (s', Ok tt) -> exists outs, paid_shares n outs s s'.
Proof.
  intros H. apply accrue_to_validator_inv in H as [->|(fees & HF & H)]; [exists []; apply paid_none|].
  apply vfees_up_spec in HF as (HF & HS0 & HS1); [|cbn; lia]. cbn [base_of] in HS1.
  eapply share_payout_ok; [exact HF|lia|exact H].
Qed.
Lemma cons_accrue_to_validator a n : nprel conserved (accrue_to_validator a n).
Proof.
  intros s s' r H HP Hok.
  assert (Hok' : bal_ok s') by (eapply (run_keeps _ (accrue_to_validator a n)); [auto 8 with frame|exact H|done]).
  destruct r as [[]|e|e]; [|by destruct (noerr_accrue_to_validator a n s s' e)|by destruct (HP e)].
  apply accrue_to_validator_ok in H as (outs & _ & _ & _ & _ & T1 & T2 & S1 & S2 & L).
  apply conserved_ok; try done. intros d. destruct (decide (d = uartr)) as [->|Hd]; [lia|].
  rewrite T2, S2 by done. lia.
Qed.

(** ** Conservation over blocks *)
#[export] Hint Extern 1 (conserved _ _) => first [apply conserved_log|apply conserved_fields; reflexivity] : frame.
Lemma conserved_abort t f s s' e : hooks (t_hook t) = Some f -> f (t_data t) (t_time t) s = (s', e) ->
  conserved s (s' <| st_log := st_log s' ++ [LTaskFailed t] |>).
Proof.
  intros Hf H Hok.
  assert (K : rel (keeps bal_ok) (f (t_data t) (t_time t))) by (eapply sw_hooks; [..|exact Hf]; auto 8 with frame).
  assert (G : rel grows (f (t_data t) (t_time t))) by (eapply sw_hooks; [..|exact Hf]; auto 8 with frame).
  specialize (K s). specialize (G s). rewrite H in K, G. cbn in K, G.
  split; [eapply bal_ok_fields; [|by apply K]; reflexivity|]. left. rewrite aborts_app. cbn [List.filter is_abort List.length].
  apply grows_aborts in G. lia.
Qed.
Lemma conserved_blocks bs s s' us : run_blocks bs s = Some (s', us) -> conserved s s'.
Proof.
  apply sp_run_blocks; try apply _; 
    lazymatch goal with
    | |- context [nprel _ (send_coins _ _ _)] => intros; apply cons_send
    | |- context [nprel _ (input_output_coins _ _)] => intros; apply cons_io
    | |- context [nprel _ (burn_acc_coins _ _)] => intros; apply cons_burn
    | |- context [nprel _ (convert _ _ _ _ _)] => intros; apply cons_convert
    | |- context [nprel _ (accrue _ _)] => intros; apply cons_accrue
    | |- context [nprel _ (accrue_to_validator _ _)] => intros; apply cons_accrue_to_validator
    | |- context [hooks] => intros; eauto using conserved_abort
    | |- context [nprel] => intros; apply nprel_rel; auto 8 with frame
    | |- context [rel] => intros; auto 8 with frame
    | _ => intros; auto 2 with frame
    end.
Qed.

(** ** Transactions *)
Definition same_defect (s s' : St) : Prop :=
  bal_ok s -> bal_ok s' /\ forall d, supply s' d - sum_bal s' d = supply s d - sum_bal s d.
#[export] Instance same_defect_preorder : PreOrder same_defect.
Proof.
  split.
  - intros s H. done.
  - intros x y z H1 H2 H. destruct (H1 H) as [Hy D1]. destruct (H2 Hy) as [Hz D2].
    split; [done|]. intros d. by rewrite D2, D1.
Qed.
Lemma same_defect_fields s s' : st_bal s' = st_bal s -> st_supply s' = st_supply s -> same_defect s s'.
Proof.
  intros Hb Hs H. split; [by eapply bal_ok_fields|].
  intros d. unfold supply. by rewrite Hs, (total_same _ _ Hb).
Qed.
#[export] Hint Extern 1 (same_defect _ _) => (apply same_defect_fields; reflexivity) : frame.
Lemma same_defect_okrel {A} (m : M A) : rel (keeps bal_ok) m ->
  (forall s s' x, m s = (s', Ok x) -> forall d, supply s' d - sum_bal s' d = supply s d - sum_bal s d) -> okrel same_defect m.
Proof.
  intros K H s s' x E Hok. split; [|by eapply H]. specialize (K s). rewrite E in K. by apply K.
Qed.
Ltac defect := intros; apply same_defect_okrel; [auto 8 with frame|intros s s' [] H d].
Lemma sd_send a b c : okrel same_defect (send_coins a b c).
Proof. defect. apply send_ok in H as (_ & _ & _ & T & S & _). unfold supply. by rewrite T, S. Qed.
Lemma sd_io a c o : okrel same_defect (input_output_coins [(a, c)] o).
Proof. defect. apply io_ok in H as (_ & _ & T & S & _). unfold supply. by rewrite T, S. Qed.
Lemma sd_burn a c : okrel same_defect (burn_acc_coins a c).
Proof. defect. apply burn_acc_ok in H as (_ & _ & T & S & _). rewrite T, S. lia. Qed.
Lemma sd_convert a d1 n1 d2 n2 : okrel same_defect (convert a d1 n1 d2 n2).
Proof.
  defect. apply convert_ok in H as [[_ ->]|(_ & _ & _ & _ & _ & T & S & _)]; [done|]. rewrite T, S. lia.
Qed.
Lemma sd_accrue a n : okrel same_defect (accrue a n).
Proof.
  defect. apply accrue_ok in H as [[_ ->]|(_ & _ & f & _ & _ & _ & _ & T1 & T2 & S1 & S2 & _)]; [done|].
  destruct (decide (d = uartr)) as [->|Hd]; [lia|]. rewrite T2, S2 by done. lia.
Qed.
Lemma sd_accrue_to_validator a n : okrel same_defect (accrue_to_validator a n).
Proof.
  defect. apply accrue_to_validator_ok in H as (outs & _ & _ & _ & _ & T1 & T2 & S1 & S2 & L).
  destruct (decide (d = uartr)) as [->|Hd]; [lia|]. rewrite T2, S2 by done. lia.
Qed.
Definition tx_payers (t : tx) : list addr := tx_payer t :: List.concat (map msg_payers (tx_msgs t)).
Lemma deliver_okrel (R : St -> St -> Prop) `{!PreOrder R} t :
  okrel R (ante t) -> (forall m, m ∈ tx_msgs t -> okrel R (run_msg m)) -> forall s, R s (fst (deliver_tx t s)).
Proof.
  intros HA HM s. unfold deliver_tx. destruct (ante t s) as [s1 [[]|e|e]] eqn:E1; cbn; [|reflexivity..].
  assert (R1 : R s s1) by (eapply HA; exact E1).
  assert (HF : okrel R (mfor (tx_msgs t) run_msg)).
  { clear -HM PreOrder0. revert HM. induction (tx_msgs t) as [|m l IH]; intros HM; cbn.
    - apply okrel_rel, rel_ret, _.
    - apply okrel_bind; [done|apply HM; left|]. intros []. apply IH. intros m' Hm. apply HM. by right. }
  destruct (mfor (tx_msgs t) run_msg s1) as [s2 [[]|e|e]] eqn:E2; cbn; auto.
  transitivity s1; [done|]. eapply HF; exact E2.
Qed.
Ltac sweep_tx :=
  try apply _;
  lazymatch goal with
  | |- context [send_coins] => idtac
  | |- context [input_output_coins] => idtac
  | |- context [burn_acc_coins] => idtac
  | |- context [convert] => idtac
  | |- context [accrue] => idtac
  | |- context [accrue_to_validator] => idtac
  | |- context [okrel] => intros; apply okrel_rel; auto 8 with frame
  | |- context [nprel] => intros; apply nprel_rel; auto 8 with frame
  | |- context [rel] => intros; auto 8 with frame
  | _ => intros; auto 2 with frame
  end.
Lemma sd_tx t s : same_defect s (fst (deliver_tx t s)).
Proof.
  apply deliver_okrel; [apply _|eapply (so_ante _ (fun _ => True))|intros m _; eapply (so_run_msg _ (fun _ => True))];
    sweep_tx; auto using sd_send, sd_io, sd_burn, sd_convert, sd_accrue, sd_accrue_to_validator.
Qed.

(** ** Nobody else's coins *)
Section unharmed.
  Variable z : addr.
  Definition unharmed (s s' : St) : Prop :=
    bal_ok s -> acc_exists s z = true -> bal_ok s' /\ acc_exists s' z = true /\ forall d, bal s z d <= bal s' z d.
  #[local] Instance unharmed_preorder : PreOrder unharmed.
  Proof.
    split.
    - intros s H E. split; [done|]. split; [done|]. intros; lia.
    - intros x y w H1 H2 H E. destruct (H1 H E) as (Hy & E1 & D1). destruct (H2 Hy E1) as (Hz & E2 & D2).
      split; [done|]. split; [done|]. intros d. specialize (D1 d). specialize (D2 d). lia.
  Qed.
  Lemma unharmed_fields s s' : st_bal s' = st_bal s -> st_accs s' = st_accs s -> unharmed s s'.
  Proof.
    intros Hb Ha H E. split; [by eapply bal_ok_fields|]. split; [by unfold acc_exists; rewrite Ha|].
    intros d. unfold bal. rewrite (balance_same _ _ Hb). lia.
  Qed.
  #[local] Hint Extern 1 (unharmed _ _) => (apply unharmed_fields; reflexivity) : frame.
  Lemma unharmed_accs s a n : unharmed s (s <| st_accs := <[ a := n ]> (st_accs s) |>).
  Proof.
    intros H E. split; [exact H|]. split; [|intros d; apply Z.le_refl].
    unfold acc_exists in *. cbn. destruct (decide (a = z)) as [->|Hne]; [by rewrite lookup_insert|by rewrite lookup_insert_ne].
  Qed.
  #[local] Hint Resolve unharmed_accs : frame.
  Lemma unharmed_ok {A} (m : M A) : rel (keeps bal_ok) m -> rel (same st_accs) m ->
    (forall s s' x, m s = (s', Ok x) -> bal_ok s -> forall d, bal s z d <= bal s' z d) -> okrel unharmed m.
  Proof.
    intros K F H s s' x E Hok HE. specialize (K s). specialize (F s). rewrite E in K, F. cbn in F. unfold same in F.
    split; [by apply K|]. split; [unfold acc_exists; by rewrite F|by eapply H].
  Qed.
  Ltac ub := intros; apply unharmed_ok; [auto 8 with frame|auto 8 with frame|intros s s' [] H Hok d].
  Lemma at_other x n : x <> z -> at_ z x n = 0.
  Proof. intros. unfold at_. destruct (z =? x)%N eqn:?; [lia|done]. Qed.
  Lemma at_nonneg x n : 0 <= n -> 0 <= at_ z x n.
  Proof. unfold at_. destruct (z =? x)%N; lia. Qed.
  Lemma un_send a b c : a <> z -> okrel unharmed (send_coins a b c).
  Proof.
    intros Ha. ub. apply send_ok in H as (V & _ & B & _). rewrite B, (at_other a) by done.
    pose proof (at_nonneg b (amt c d) (coins_valid_nonneg _ _ V)). lia.
  Qed.
  Lemma un_burn a c : a <> z -> okrel unharmed (burn_acc_coins a c).
  Proof. intros Ha. ub. apply burn_acc_ok in H as (_ & B & _). rewrite B, (at_other a) by done. lia. Qed.
  Lemma share_nonneg l : forallb io_item_valid l = true -> forall d, 0 <= share l z d.
  Proof.
    induction l as [|[x c] l IH]; intros H d; cbn in *; [lia|].
    apply andb_prop in H as [H1 H2]. unfold io_item_valid in H1. cbn in H1. apply andb_prop in H1 as [H1 _].
    apply andb_prop in H1 as [_ H1]. specialize (IH H2 d).
    pose proof (at_nonneg x (amt c d) (coins_valid_nonneg _ _ H1)). lia.
  Qed.
  Lemma un_io a c o : a <> z -> okrel unharmed (input_output_coins [(a, c)] o).
  Proof.
    intros Ha. ub. pose proof H as H'. apply io_ok in H as (_ & B & _). rewrite B. cbn. rewrite (at_other a) by done.
    assert (0 <= share o z d); [|lia]. apply share_nonneg. unfold input_output_coins in H'. mi.
    match goal with E : _ && _ = true |- _ => apply andb_prop in E as [E _]; by apply andb_prop in E as [_ E] end.
  Qed.
  Lemma un_convert a d1 n1 d2 n2 : a <> z -> okrel unharmed (convert a d1 n1 d2 n2).
  Proof.
    intros Ha. ub. apply convert_ok in H as [[_ ->]|(_ & _ & _ & _ & B & _)]; [lia|]. rewrite B, !at_other by done. lia.
  Qed.
  Lemma un_accrue a n : okrel unharmed (accrue a n).
  Proof.
    ub. pose proof H as H'. apply accrue_ok in H as [[_ ->]|(_ & _ & f & _ & Hf & B1 & B2 & _)]; [lia|].
    destruct (decide (d = uartr)) as [->|Hd]; [|rewrite B2 by done; lia]. rewrite B1.
    pose proof (at_nonneg splitter f). pose proof (at_nonneg a (n - f)). lia.
  Qed.
  Lemma un_accrue_to_validator a n : okrel unharmed (accrue_to_validator a n).
  Proof.
    ub. apply accrue_to_validator_ok in H as (outs & HA & _ & B1 & B2 & _).
    destruct (decide (d = uartr)) as [->|Hd]; [|rewrite B2 by done; lia]. rewrite B1.
    assert (0 <= shares outs z); [|lia]. clear -HA. induction outs as [|[[x n] c] l IH]; cbn; [lia|].
    destruct (HA x n c) as [Hn _]; [left|]. pose proof (at_nonneg x n). 
    assert (0 <= shares l z) by (apply IH; intros; eapply HA; by right). lia.
  Qed.
  Lemma un_ante t : tx_payer t <> z -> okrel unharmed (ante t).
  Proof.
    intros Ht. eapply (so_ante _ (fun a => a <> z)); sweep_tx; auto using un_send.
  Qed.
  Lemma un_msg m : signer m <> z -> okrel unharmed (run_msg m).
  Proof.
    intros Hm.
    assert (G : (forall a, a ∈ msg_payers m -> a <> z) -> okrel unharmed (run_msg m)).
    { intros HP. eapply (so_run_msg _ (fun a => a <> z)); sweep_tx;
        auto using un_send, un_io, un_burn, un_convert, un_accrue, un_accrue_to_validator. }
    destruct (decide (z ∈ msg_payers m)) as [Hz|Hz].
    - destruct m; cbn in Hz, Hm; repeat (apply elem_of_cons in Hz as [Hz|Hz]; [|]); try congruence;
        try by apply elem_of_nil in Hz.
      subst a. intros s s' [] H Hok HE. exfalso. cbn in H. unfold msg_create_account in H. mi.
      match goal with H1 : negb (acc_exists _ z) = true |- _ => by rewrite HE in H1 end.
    - apply G. by intros a Ha ->.
  Qed.
  Lemma unharmed_tx t s : z ∉ tx_signers t -> unharmed s (fst (deliver_tx t s)).
  Proof.
    intros Hz. unfold tx_signers in Hz. apply not_elem_of_cons in Hz as [Hz1 Hz2].
    apply deliver_okrel; [apply _|apply un_ante; congruence|].
    intros m Hm. apply un_msg. intros <-. apply Hz2. apply elem_of_list_fmap. eauto.
  Qed.
End unharmed.

(** ** The amount of all coins *)
Definition all_coins (s : St) : Z := sum_bal s uartr + sum_bal s uartrd + sum_bal s uartrr.
Definition no_more (s s' : St) : Prop := bal_ok s -> bal_ok s' /\ all_coins s' <= all_coins s.
#[export] Instance no_more_preorder : PreOrder no_more.
Proof.
  split.
  - intros s H. split; [done|lia].
  - intros x y z H1 H2 H. destruct (H1 H) as [Hy D1]. destruct (H2 Hy) as [Hz D2]. split; [done|lia].
Qed.
Lemma no_more_fields s s' : st_bal s' = st_bal s -> no_more s s'.
Proof. intros Hb H. split; [by eapply bal_ok_fields|]. unfold all_coins. rewrite (total_same _ _ Hb). lia. Qed.
#[export] Hint Extern 1 (no_more _ _) => (apply no_more_fields; reflexivity) : frame.
Lemma no_more_run {A} (m : M A) : rel (keeps bal_ok) m ->
  (forall s s' r, m s = (s', r) -> bal_ok s -> all_coins s' <= all_coins s) -> rel no_more m.
Proof.
  intros K H s Hok. specialize (K s Hok). split; [done|]. eapply H; [|exact Hok]. apply surjective_pairing.
Qed.
Definition amt3 (c : coins) : Z := amt c uartr + amt c uartrd + amt c uartrr.
Lemma set_balance_any a c s s' r : set_balance a c s = (s', r) ->
  st_bal s' = st_bal s \/ st_bal s' = put_bal (st_bal s) a c.
Proof.
  intros H. destruct (set_balance_cases a c s) as [(_ & HS & _)|(_ & HC)]; [left; rewrite H in HS; by cbn in HS; subst|].
  right. pose proof (on_balance_changed_bal a (upd_bal s a c)) as HB. unfold same in HB. cbn zeta in HC.
  destruct HC as [[E _]|[[e E]|[e E]]]; rewrite H in E; injection E as -> _; cbn; exact HB.
Qed.
Lemma put_total s s' a c d : st_bal s' = put_bal (st_bal s) a c -> sum_bal s' d = sum_bal s d - bal s a d + amt c d.
Proof. intros H. unfold sum_bal at 1. rewrite H. apply (upd_bal_total s a c d). Qed.
Lemma subtract_any a c s s' r : subtract_coins a c s = (s', r) -> forall d, sum_bal s' d <= sum_bal s d.
Proof.
  unfold subtract_coins, bind, get, ensure, ret, fail. intros H d.
  destruct (coins_valid c) eqn:V; cbn [fst snd] in H; [|injection H as <- _; lia].
  destruct (coins_ge (balance s a) c) eqn:G; [|injection H as <- _; lia].
  apply set_balance_any in H as [H|H]; [by rewrite (total_same _ _ H)|].
  rewrite (put_total _ _ _ _ _ H), amt_sub. pose proof (coins_valid_nonneg c d V). unfold bal. lia.
Qed.
Lemma add_any a c s s' r : add_coins a c s = (s', r) -> coins_valid c = true -> 
  forall d, sum_bal s' d <= sum_bal s d + amt c d.
Proof.
  unfold add_coins, bind, get, ensure, ret, fail. intros H V d. rewrite V in H.
  pose proof (coins_valid_nonneg c d V).
  apply set_balance_any in H as [H|H]; [rewrite (total_same _ _ H); lia|].
  rewrite (put_total _ _ _ _ _ H), amt_add. unfold bal. lia.
Qed.
Lemma bind_any {A B} (m : M A) (f : A -> M B) s s' r : bind m f s = (s', r) ->
  (exists a s1, m s = (s1, Ok a) /\ f a s1 = (s', r)) \/ exists r', m s = (s', r') /\ forall a, r' <> Ok a.
Proof.
  unfold bind. destruct (m s) as [s1 [a|e|e]]; intros H; [left; eauto|right|right]; injection H as <- <-; eauto.
Qed.
Lemma send_any a b c s s' r : send_coins a b c s = (s', r) -> forall d, sum_bal s' d <= sum_bal s d.
Proof.
  unfold send_coins. intros H d. apply bind_any in H as [([] & s1 & H1 & H)|(r' & H & _)]; [|by eapply subtract_any].
  apply subtract_ok in H1 as (V & _ & _ & T & _). pose proof (add_any _ _ _ _ _ H V d). rewrite T in *. lia.
Qed.
Lemma ins_any l : forall s s' r, mfor l (fun e => subtract_coins (fst e) (snd e)) s = (s', r) ->
  forall d, sum_bal s' d <= sum_bal s d.
Proof.
  induction l as [|[a c] l IH]; intros s s' r H d; cbn in H; [injection H as <- _; lia|].
  apply bind_any in H as [([] & s1 & H1 & H)|(r' & H & _)]; [|by eapply subtract_any].
  apply subtract_any with (d := d) in H1. apply IH with (d := d) in H. lia.
Qed.
Lemma sum_all_nonneg l d : forallb io_item_valid l = true -> 0 <= sum_all l d.
Proof.
  induction l as [|[x c] l IH]; intros H; cbn in *; [lia|]. apply andb_prop in H as [H1 H2].
  unfold io_item_valid in H1. cbn in H1. apply andb_prop in H1 as [H1 _]. apply andb_prop in H1 as [_ H1].
  pose proof (coins_valid_nonneg c d H1). specialize (IH H2). lia.
Qed.
Lemma outs_any l : forall s s' r, forallb io_item_valid l = true ->
  mfor l (fun e => add_coins (fst e) (snd e)) s = (s', r) -> forall d, sum_bal s' d <= sum_bal s d + sum_all l d.
Proof.
  induction l as [|[a c] l IH]; intros s s' r HV H d; cbn in H; [injection H as <- _; cbn; lia|].
  cbn in HV. apply andb_prop in HV as [V1 V2]. unfold io_item_valid in V1. cbn in V1. apply andb_prop in V1 as [V1 _].
  apply andb_prop in V1 as [_ V1]. cbn. pose proof (sum_all_nonneg l d V2).
  apply bind_any in H as [([] & s1 & H1 & H)|(r' & H & _)]; [|pose proof (add_any _ _ _ _ _ H V1 d); cbn in *; lia].
  pose proof (add_any _ _ _ _ _ H1 V1 d). cbn in *. pose proof (IH _ _ _ V2 H d). lia.
Qed.
Lemma io_any i o s s' r : input_output_coins i o s = (s', r) -> forall d, sum_bal s' d <= sum_bal s d.
Proof.
  unfold input_output_coins. intros H d. apply bind_any in H as [([] & s1 & H1 & H)|(r' & H & _)].
  2:{ unfold ensure in H. destruct (_ && _); injection H as <- _; lia. }
  mi. match goal with E : _ && _ = true |- _ => apply andb_prop in E as [E HT]; apply andb_prop in E as [E1 E2] end.
  apply bool_decide_eq_true in HT.
  apply bind_any in H as [([] & s2 & H2 & H)|(r' & H & _)]; [|by eapply ins_any].
  apply ins_ok in H2 as (_ & T & _). pose proof (outs_any _ _ _ _ E2 H d). rewrite T in *.
  assert (sum_all i d = sum_all o d) by (by rewrite <- !io_total_sum, HT). lia.
Qed.
Lemma inflate_any c s s' r : inflate c s = (s', r) -> sum_bal s' = sum_bal s.
Proof. intros H. injection H as <- _. reflexivity. Qed.
Lemma deflate_any c s s' r : deflate c s = (s', r) -> sum_bal s' = sum_bal s.
Proof. unfold deflate, bind, get, assert. destruct (coins_ge _ _); intros H; injection H as <- _; reflexivity. Qed.
Lemma burn_any a c s s' r : burn_acc_coins a c s = (s', r) -> forall d, sum_bal s' d <= sum_bal s d.
Proof.
  unfold burn_acc_coins. intros H d. apply bind_any in H as [([] & s1 & H1 & H)|(r' & H & _)]; [|by eapply subtract_any].
  apply subtract_any with (d := d) in H1. apply deflate_any in H. rewrite H. done.
Qed.
Lemma new_coins_any d n s s' r : new_coins d n s = (s', r) -> s' = s.
Proof. unfold new_coins, bind, assert, ret, panic. destruct (0 <=? n); by intros [= <- _]. Qed.
Definition sum3 (f : N -> Z) : Z := f uartr + f uartrd + f uartrr.
Lemma convert_any a d1 n1 d2 n2 s s' r : d1 ∈ [uartr; uartrd; uartrr] -> d2 ∈ [uartr; uartrd; uartrr] -> n2 <= n1 ->
  convert a d1 n1 d2 n2 s = (s', r) -> all_coins s' <= all_coins s.
Proof.
  assert (C3 : forall d n, d ∈ [uartr; uartrd; uartrr] -> sum3 (amt (coins_of d n)) = n).
  { intros d n Hd. unfold sum3. rewrite !amt_coins_of. repeat (apply elem_of_cons in Hd as [->|Hd]; [cbn; lia|]).
    by apply elem_of_nil in Hd. }
  intros Hd1 Hd2 Hn. unfold convert. destruct (n1 =? 0) eqn:E0; [intros [= <- _]; lia|]. intros H.
  assert (T3 : forall s s', (forall d, sum_bal s' d <= sum_bal s d) -> all_coins s' <= all_coins s).
  { intros x y Hxy. unfold all_coins. pose proof (Hxy uartr). pose proof (Hxy uartrd). pose proof (Hxy uartrr). lia. }
  apply bind_any in H as [(c1 & s1 & H1 & H)|(r' & H & _)].
  2:{ apply new_coins_any in H as ->. lia. }
  apply new_coins_ok in H1 as (-> & HN1 & ->).
  apply bind_any in H as [([] & s2 & H2 & H)|(r' & H & _)]; [|apply T3; by eapply subtract_any].
  apply subtract_ok in H2 as (_ & _ & _ & T2 & _).
  apply bind_any in H as [(c2 & s3 & H3 & H)|(r' & H & _)].
  2:{ apply new_coins_any in H as ->. pose proof (C3 d1 n1 Hd1). unfold all_coins, sum3 in *. rewrite !T2. lia. }
  apply new_coins_ok in H3 as (-> & HN2 & ->).
  assert (TA : forall x, (forall d, sum_bal x d <= sum_bal s2 d + amt (coins_of d2 n2) d) -> all_coins x <= all_coins s).
  { intros x Hx. pose proof (C3 d1 n1 Hd1). pose proof (C3 d2 n2 Hd2).
    pose proof (Hx uartr). pose proof (Hx uartrd). pose proof (Hx uartrr). rewrite T2 in *. unfold all_coins, sum3 in *. lia. }
  assert (V2 : coins_valid (coins_of d2 n2) = true) by (by apply coins_of_valid).
  apply bind_any in H as [([] & s4 & H4 & H)|(r' & H & _)]; [|apply TA; by eapply add_any].
  pose proof (add_any _ _ _ _ _ H4 V2) as T4.
  apply bind_any in H as [([] & s5 & H5 & H)|(r' & H & _)].
  2:{ apply deflate_any in H. apply TA. rewrite H. exact T4. }
  apply deflate_any in H5. apply inflate_any in H. apply TA. rewrite H, H5. exact T4.
Qed.
Lemma nm_send a b c : rel no_more (send_coins a b c).
Proof.
  apply no_more_run; [auto 8 with frame|]. intros s s' r H _. pose proof (send_any _ _ _ _ _ _ H) as T.
  unfold all_coins. pose proof (T uartr). pose proof (T uartrd). pose proof (T uartrr). lia.
Qed.
Lemma nm_io i o : rel no_more (input_output_coins i o).
Proof.
  apply no_more_run; [auto 8 with frame|]. intros s s' r H _. pose proof (io_any _ _ _ _ _ H) as T.
  unfold all_coins. pose proof (T uartr). pose proof (T uartrd). pose proof (T uartrr). lia.
Qed.
Lemma nm_burn a c : rel no_more (burn_acc_coins a c).
Proof.
  apply no_more_run; [auto 8 with frame|]. intros s s' r H _. pose proof (burn_any _ _ _ _ _ H) as T.
  unfold all_coins. pose proof (T uartr). pose proof (T uartrd). pose proof (T uartrr). lia.
Qed.
Lemma nm_convert a d1 n1 d2 n2 : d1 ∈ [uartr; uartrd; uartrr] -> d2 ∈ [uartr; uartrd; uartrr] -> n2 <= n1 ->
  rel no_more (convert a d1 n1 d2 n2).
Proof. intros E1 E2 E3. apply no_more_run; [auto 8 with frame|]. intros s s' r H' _. exact (convert_any a d1 n1 d2 n2 s s' r E1 E2 E3 H'). Qed.
Lemma nm_delegate_coins a n : rel no_more (delegate_coins a n).
Proof. apply nm_convert; [repeat constructor..|lia]. Qed.
Lemma nm_undelegate a n : rel no_more (undelegate a n).
Proof.
  unfold undelegate. apply rel_bind; [apply _|apply nm_convert; [repeat constructor..|lia]|]. intros [].
  rel_auto.
Qed.
Lemma nm_freeze a n m : m <= n -> rel no_more (freeze a n m).
Proof.
  intros. unfold freeze. apply rel_bind; [apply _|apply nm_convert; [repeat constructor..|lia]|]. intros [].
  rel_auto.
Qed.
Definition quiet_msg (m : msg) : bool := match m with MDelegate _ _ | MRevoke _ _ _ => false | _ => true end.
Definition quiet_hook (h : hook) : bool := match h with HAccrue | HBanish => false | _ => true end.
Lemma nm_on_balance_changed a : rel no_more (on_balance_changed a).
Proof. auto 8 with frame. Qed.
#[local] Hint Resolve nm_send nm_io nm_burn nm_delegate_coins nm_undelegate nm_on_balance_changed : frame.
Lemma nm_msg m : quiet_msg m = true -> rel no_more (run_msg m).
Proof. destruct m; try discriminate; intros _; cbn [run_msg]; auto 8 with frame. all: repeat first [solve [auto 8 with frame]|progress rel_struct]. Qed.
Lemma nm_hook h f a t : quiet_hook h = true -> hooks h = Some f -> rel no_more (f a t).
Proof. destruct h; try discriminate; intros _ [= <-]; auto 8 with frame. Qed.
Lemma nm_noding p v e : rel no_more (noding_begin p v e).
Proof. auto 8 with frame. Qed.
Lemma nm_end : rel no_more end_block.
Proof. auto 8 with frame. Qed.
Lemma nm_ante t : rel no_more (ante t).
Proof. auto 8 with frame. Qed.

(** ** Failed transactions *)
Lemma failed_tx_free p m s s' : deliver_tx (mkTx p ∅ [m]) s = (s', false) -> s' = s.
Proof.
  unfold deliver_tx. destruct (ante _ s) as [s1 [[]|e|e]] eqn:E; [|congruence..].
  assert (s1 = s) as ->.
  { unfold ante in E. cbn [tx_fees tx_msgs tx_payer] in E. mi. rewrite decide_True in E by done. by mi. }
  destruct (mfor _ run_msg s) as [s2 [[]|e|e]]; congruence.
Qed.
(** Everything but balances, the supply and what follows from a change of a
    balance: stakes in the referral tree, statuses and their tasks, validators *)
Definition unchanged_modules (s s' : St) : Prop :=
  st_now s' = st_now s /\ st_height s' = st_height s /\
  st_prof s' = st_prof s /\ st_nick s' = st_nick s /\ st_card s' = st_card s /\
  st_del s' = st_del s /\ st_earn s' = st_earn s /\ st_earn_signers s' = st_earn_signers s /\
  st_gov s' = st_gov s /\ st_cur s' = st_cur s /\ st_agreed s' = st_agreed s /\ st_disagreed s' = st_disagreed s /\
  st_start s' = st_start s /\ st_phist s' = st_phist s /\ st_poll s' = st_poll s /\ st_answers s' = st_answers s /\
  st_yes s' = st_yes s /\ st_no s' = st_no s /\ st_pollhist s' = st_pollhist s /\ st_plan s' = st_plan s /\
  st_bp s' = st_bp s /\ st_rp s' = st_rp s /\ st_np s' = st_np s /\ st_dp s' = st_dp s /\ st_pp s' = st_pp s.
#[export] Instance unchanged_preorder : PreOrder unchanged_modules.
Proof.
  split; unfold unchanged_modules.
  - intros s. repeat split.
  - intros x y z H1 H2. repeat match goal with H : _ /\ _ |- _ => destruct H end. repeat split; congruence.
Qed.
#[export] Hint Extern 1 (unchanged_modules _ _) => (repeat split) : frame.
Lemma failed_tx t s s' : deliver_tx t s = (s', false) ->
  s' = s \/
  ((forall x d, bal s' x d = bal s x d - at_ x (tx_payer t) (amt (tx_fees t) d)
                                      + at_ x fee_collector (amt (tx_fees t) d)) /\
   (forall d, supply s' d = supply s d) /\ unchanged_modules s s').
Proof.
  unfold deliver_tx. destruct (ante t s) as [s1 [[]|e|e]] eqn:E; [|intros [= <-]; by left..].
  destruct (mfor (tx_msgs t) run_msg s1) as [s2 [[]|e|e]]; [discriminate|intros [= <-]..].
  all: assert (U : rel unchanged_modules (ante t)) by (auto 8 with frame);
    specialize (U s); rewrite E in U; cbn in U;
    unfold ante in E; mi; destruct (decide (tx_fees t = ∅)) as [HE|HE]; mi; [by left|right];
    apply to_module_ok in E as (_ & _ & B & _ & S & _); split; [exact B|]; split; [|exact U];
    intros d; unfold supply; by rewrite S.
Qed.
Lemma no_more_tx t s : bal_ok s ->
  (forall m, m ∈ tx_msgs t -> match m with MDelegate _ _ | MRevoke _ _ _ => False | _ => True end) ->
  all_coins (fst (deliver_tx t s)) <= all_coins s.
Proof.
  intros Hok HM. apply (deliver_okrel no_more); [apply okrel_rel, nm_ante| |done].
  intros m Hm. apply okrel_rel, nm_msg. specialize (HM m Hm). by destruct m.
Qed.
Lemma accrue_amount a n s s' : accrue a n s = (s', Ok tt) ->
  all_coins s' = all_coins s \/ (0 < n /\ all_coins s' = all_coins s + n).
Proof.
  intros H. apply accrue_ok in H as [[_ ->]|(HN & _ & f & _ & _ & _ & _ & T1 & T2 & _)]; [by left|right].
  split; [done|]. unfold all_coins. rewrite T1, !T2 by done. lia.
Qed.
Lemma shares_amount a n s s' : accrue_to_validator a n s = (s', Ok tt) ->
  all_coins s <= all_coins s' /\ 30000 * (all_coins s' - all_coins s) <= 6 * Z.max 0 n.
Proof.
  intros H. apply accrue_to_validator_ok in H as (outs & HA & HB & _ & _ & T1 & T2 & _).
  assert (0 <= shares_sum outs).
  { clear -HA. induction outs as [|[[x n] c] l IH]; cbn; [lia|].
    destruct (HA x n c) as [Hn _]; [left|]. assert (0 <= shares_sum l) by (apply IH; intros; eapply HA; by right). lia. }
  unfold all_coins. rewrite T1, !T2 by done. lia.
Qed.

(** ** Who changes the parameters of the bank *)
Lemma bp_same_msg m : match m with MVote _ _ | MPropose _ _ _ => False | _ => True end -> rel (same st_bp) (run_msg m).
Proof.
  destruct m; try done; intros _; cbn [run_msg]; auto 8 with frame; repeat first [solve [auto 8 with frame]|progress rel_struct].
Qed.
Lemma bp_same_tx t s :
  (forall m, m ∈ tx_msgs t -> match m with MVote _ _ | MPropose _ _ _ => False | _ => True end) ->
  st_bp (fst (deliver_tx t s)) = st_bp s.
Proof.
  intros HM. apply (deliver_okrel (same st_bp)); [apply okrel_rel; auto 8 with frame|].
  intros m Hm. apply okrel_rel, bp_same_msg. by apply HM.
Qed.
Lemma bp_same_hook h f x t : hooks h = Some f -> h <> HVote -> rel (same st_bp) (f x t).
Proof. destruct h; intros [= <-] Hne; try done; auto 8 with frame. Qed.
Lemma bp_same_noding p v e : rel (same st_bp) (noding_begin p v e).
Proof. auto 8 with frame. Qed.
Lemma bp_same_end : rel (same st_bp) end_block.
Proof. auto 8 with frame. Qed.

(** ** Genesis *)
Lemma bank_init_ok bals s s' : st_bal s = ∅ -> NoDup (map fst bals) ->
  bank_init bals ∅ s = (s', Ok tt) -> bal_ok s' /\ forall d, supply s' d = sum_bal s' d.
Proof.
  intros HE HD. unfold bank_init. intros H. mi. rewrite decide_True by done.
  match goal with H1 : mfor bals _ s = (?z, _) |- _ => rename H1 into HF, z into s1 end.
  assert (G : forall l s s', mfor l (fun e => set_balance (fst e) (snd e)) s = (s', Ok tt) ->
     NoDup (map fst l) -> bal_ok s -> (forall a, a ∈ map fst l -> balance s a = ∅) ->
     bal_ok s' /\ forall d, sum_bal s' d = sum_bal s d + sum_all l d).
  { clear. induction l as [|[a c] l IH]; intros x y HM HN Hx HX; cbn in HM; mi.
    - split; [done|]. intros d. cbn. lia.
    - match goal with H1 : set_balance a c x = (?z, _) |- _ => rename z into x1;
        assert (K : bal_ok x1) by (eapply (run_keeps _ (set_balance a c)); [apply bal_ok_set_balance|exact H1|done]);
        apply set_balance_ok in H1 as (_ & HB & _) end.
      cbn in HN. apply NoDup_cons in HN as [HN1 HN2].
      apply IH in HM as [K2 T2]; [|done|done|].
      + split; [done|]. intros d. rewrite T2, (put_total _ _ _ _ _ HB). cbn.
        assert (bal x a d = 0) as ->; [|lia]. unfold bal. rewrite (HX a) by left. apply amt_empty.
      + intros b Hb. unfold balance. rewrite HB, put_bal_lookup.
        destruct (b =? a)%N eqn:E; [assert (b = a) as -> by lia; done|]. apply HX. by right. }
  apply G in HF as [K T]; [|done|intros a c; rewrite HE, lookup_empty; done|intros a _; unfold balance; by rewrite HE, lookup_empty].
  split; [eapply bal_ok_fields; [|exact K]; reflexivity|].
  intros d. unfold supply. cbn. rewrite io_total_sum. change (sum_all bals d = sum_bal s1 d). rewrite T.
  unfold sum_bal. rewrite HE, map_fold_empty. lia.
Qed.

(** ** The proposer's reward *)
Lemma opt_send a b c s s' : (if decide (c = ∅) then ret tt else send_coins a b c) s = (s', Ok tt) ->
  (forall x d, bal s' x d = bal s x d - at_ x a (amt c d) + at_ x b (amt c d)) /\
  st_supply s' = st_supply s /\ st_bp s' = st_bp s.
Proof.
  destruct (decide (c = ∅)) as [->|]; intros H.
  - mi. split; [|done]. intros x d. rewrite amt_empty. unfold at_. destruct (x =? a)%N, (x =? b)%N; lia.
  - assert (F : rel (same st_bp) (send_coins a b c)) by (auto 8 with frame). specialize (F s). rewrite H in F. cbn in F.
    apply send_ok in H as (_ & _ & B & _ & S & _). done.
Qed.
Lemma opt_burn a c s s' : (if decide (c = ∅) then ret tt else burn_acc_coins a c) s = (s', Ok tt) ->
  (forall x d, bal s' x d = bal s x d - at_ x a (amt c d)) /\
  (forall d, supply s' d = supply s d - amt c d).
Proof.
  destruct (decide (c = ∅)) as [->|]; intros H.
  - mi. split; [intros x d|intros d]; rewrite amt_empty; [unfold at_; destruct (x =? a)%N|]; lia.
  - by apply burn_acc_ok in H as (_ & B & _ & S & _).
Qed.
Lemma reward_exact a s s' : pay_proposer_reward a s = (s', Ok tt) ->
  let company := bp_company (st_bp s) in
  let x := bal s splitter uartr in
  bal_ok s -> a <> splitter -> a <> fee_collector -> company <> splitter -> company <> fee_collector ->
  exists p c b, p + c + b = x /\ 0 <= p /\ 0 <= c /\ 0 <= b /\
    (forall y d, bal s' y d = bal s y d
       + (if (y =? a)%N then bal s fee_collector d + (if (d =? uartr)%N then p else 0) else 0)
       + (if (y =? company)%N then (if (d =? uartr)%N then c else 0) else 0)
       - (if (y =? fee_collector)%N then bal s fee_collector d else 0)
       - (if (y =? splitter)%N then (if (d =? uartr)%N then x else 0) else 0)) /\
    (forall d, supply s' d = supply s d - (if (d =? uartr)%N then b else 0)) /\
    (forall n, Frac.split_fee x (bp_for_proposer (st_bp s)) (bp_for_company (st_bp s)) = Some n ->
       p = Z.min x (fst (fst n)) /\ c = Z.min (x - p) (snd (fst n))).
Proof.
  intros H company x Hok Ha1 Ha2 Hc1 Hc2. unfold pay_proposer_reward, pay_collected in H. mi.
  match goal with H1 : proposed a s = (?z, _) |- _ => rename z into s1;
    assert (F1 : st_bal s1 = st_bal s) by (assert (F : rel (same st_bal) (proposed a)) by (auto 8 with frame); specialize (F s); by rewrite H1 in F);
    assert (F2 : st_bp s1 = st_bp s) by (assert (F : rel (same st_bp) (proposed a)) by (auto 8 with frame); specialize (F s); by rewrite H1 in F);
    assert (F3 : st_supply s1 = st_supply s) by (assert (F : rel (same st_supply) (proposed a)) by (auto 8 with frame); specialize (F s); by rewrite H1 in F)
  end.
  match goal with H1 : (if decide (balance s1 _ = ∅) then _ else _) s1 = (?z, _) |- _ => rename z into s2; apply opt_send in H1 as (B1 & S1 & P1) end.
  rewrite P1, F2 in *.
  change (amt (balance s2 splitter) uartr) with (bal s2 splitter uartr) in *.
  assert (X : bal s2 splitter uartr = x).
  { rewrite B1. unfold bal. rewrite (balance_same _ _ F1). unfold at_.
    destruct (splitter =? fee_collector)%N eqn:E1; [done|]. destruct (splitter =? a)%N eqn:E2; [lia|]. unfold x, bal. lia. }
  rewrite X in *. fold company in H.
  match goal with H1 : Frac.split_fee x _ _ = Some ?v |- _ => rename H1 into HS; destruct v as [[fp fc] fb] end.
  set (p := if x <? fp then x else fp) in *. set (c := if x - p <? fc then x - p else fc) in *. mi.
  repeat match goal with H1 : new_coins _ _ _ = _ |- _ => apply new_coins_ok in H1 as (-> & ? & ->) end.
  repeat match goal with H1 : (if decide _ then ret tt else send_coins _ _ _) _ = _ |- _ => apply opt_send in H1 as (? & ? & ?) end.
  match goal with H1 : (if decide _ then ret tt else burn_acc_coins _ _) _ = _ |- _ => apply opt_burn in H1 as (B4 & S4) end.
  match goal with H1 : forall x d, bal ?z x d = bal s2 x d - _ + _ |- _ => rename z into s3; rename H1 into B2 end.
  match goal with H1 : forall x d, bal ?z x d = bal s3 x d - _ + _ |- _ => rename z into s4; rename H1 into B3 end.
  exists p, c, (x - p - c). split; [lia|]. split; [done|]. split; [done|]. split; [done|].
  split; [|split].
  - intros y d. rewrite B4, B3, B2, B1, !amt_coins_of.
    change (amt (balance s1 fee_collector) d) with (bal s1 fee_collector d).
    assert (E1 : forall z, bal s1 z d = bal s z d) by (intros z; unfold bal; by rewrite (balance_same _ _ F1)). rewrite !E1.
    unfold at_. destruct (y =? splitter)%N eqn:Y1, (y =? a)%N eqn:Y2, (y =? company)%N eqn:Y3, (y =? fee_collector)%N eqn:Y4,
      (d =? uartr)%N; lia.
  - intros d. rewrite S4. unfold supply.
    repeat match goal with H1 : st_supply _ = st_supply _ |- _ => rewrite H1; clear H1 end.
    rewrite amt_coins_of. done.
  - intros n Hn. rewrite HS in Hn. injection Hn as <-. cbn. unfold c, p.
    destruct (x <? fp) eqn:E1; [|destruct (x - fp <? fc) eqn:E2; lia]. destruct (x - x <? fc) eqn:E2; lia.
Qed.
