(** * Settings are not refused *)
From Coq Require Import QArith.
From Verif Require Import Spec_Pure PriceProofs NameProofs NameHist LiveProofs LiveRevoke LiveBuy Spec_Live.
Open Scope Z_scope.

Lemma healthy_nick s m : healthy s -> healthy (s <| st_nick := m |>).
Proof. intros []. constructor; done. Qed.
Lemma wp_touch_any a s : wp (touch_account a) (fun _ _ => True) s.
Proof. unfold wp, touch_account, bind, get. by destruct (acc_exists s a). Qed.

(** Writing a profile with another nickname *)
Lemma wp_nick a o p s : healthy s -> names_ok s -> st_prof s !! a = Some o -> p_card p = p_card o -> p_until p = p_until o ->
  (p_nick p <> p_nick o -> trim s (p_nick p) <> [] ->
     has_prefix artr_prefix (title s (trim s (p_nick p))) = false /\
     (st_nick s !! nick_key s (p_nick p) = None \/ st_nick s !! nick_key s (p_nick p) = Some a) /\ nick_price <= bal s a uartr) ->
  wp (set_profile a p) (fun _ _ => True) s.
Proof.
  intros H HN E N2 N3 HP. destruct (decide (p_nick p = p_nick o)) as [N1|N1].
  { destruct (set_same a o p s HN E N1 N2 N3) as [s' R]. eapply wp_of; [exact R|done]. }
  specialize (HP N1). unfold set_profile. apply wp_bind, wp_get. rewrite E. apply wp_bind, wp_get. apply wp_bind.
  eapply (wp_mono _ (fun _ s' => s' = s)).
  { unfold validate_nickname. unfold nick_key in HP. destruct (trim s (p_nick p)) as [|c n] eqn:T; [by apply wp_ret|]. destruct HP as (P1 & P2 & _); [done|].
    apply wp_bind, wp_get, wp_bind. rewrite P1. apply wp_ensure; [done|]. apply wp_bind, wp_get. unfold nick_owner.
    destruct P2 as [-> | ->]; [by apply wp_ret|]. apply wp_ensure; [apply N.eqb_refl|done]. }
  intros [] ? ->. apply wp_bind.
  eapply (wp_mono _ (fun q _ => p_until q = p_until o)).
  { apply wp_bind. eapply (wp_mono _ (fun _ _ => True)).
    - rewrite decide_False by congruence. apply wp_bind.
      eapply (wp_mono _ (fun _ s' => healthy s' /\ bal s' a uartr = bal s a uartr)).
      + destruct (decide (p_nick o = [])); [by apply wp_ret|]. apply wp_modify. split; [by apply healthy_nick|done].
      + intros [] s1 [H1 B1]. destruct (decide (trim s (p_nick p) = [])) as [T|T]; [by apply wp_ret|]. destruct (HP T) as (_ & _ & L).
        unfold new_coins. apply wp_bind, wp_bind, wp_assert; [done|]. apply wp_ret. apply wp_bind.
        eapply wp_mono; [apply wp_to_module_n; [exact H1|rewrite B1; unfold nick_price in *; lia]|]. intros [] s2 _. by apply wp_modify.
    - intros [] s1 _. rewrite N2, Z.eqb_refl. destruct (p_card o =? 0); [by apply wp_ret|]. apply wp_bind. by apply wp_ret. }
  intros q s1 U. apply wp_bind, wp_modify, wp_bind. eapply wp_mono; [apply wp_touch_any|]. intros [] s2 _. apply wp_bind, wp_get.
  assert (A : p_active (st_now s2) o = p_active (st_now s2) q) by (unfold p_active; by rewrite U). cbv zeta. rewrite A, eqb_reflx. by apply wp_ret.
Qed.

Lemma live_give_storage a x p s : names_ok s -> st_prof s !! a = Some p -> 0 < x < 2^32 ->
  p_storage_cur p <= Z.max (x * gb) (pp_base_storage (st_pp s) * gb) < p_storage_limit p ->
  exists s', msg_give_storage_up a x s = (s', Ok tt).
Proof.
  intros HN E Hx HL. destruct (set_same a p (p <| p_storage_limit := Z.max (x * gb) (pp_base_storage (st_pp s) * gb) |>) s HN E) as [s' R]; [done..|].
  exists s'. unfold msg_give_storage_up. rewrite (run_bind _ _ s s tt) by (assert (uint32 x && (0 <? x) = true) as -> by (unfold uint32; lia); done).
  unfold give_storage_up. rewrite (run_bind _ _ s s p) by (unfold get_profile; unfold bind, get, lift; by rewrite E).
  rewrite (run_bind _ _ s s (st_pp s)) by done. cbv zeta.
  set (l := Z.max (x * gb) (pp_base_storage (st_pp s) * gb)) in *.
  rewrite (run_bind _ _ s s tt) by (assert (negb (l <? p_storage_cur p) = true) as -> by lia; done).
  rewrite (run_bind _ _ s s tt) by (assert (l <? p_storage_limit p = true) as -> by lia; done). exact R.
Qed.

Lemma live_give_im a x p t s : names_ok s -> st_prof s !! a = Some p -> p_im_until p = Some t -> st_now s < t -> 0 <= t < time_limit ->
  0 <= x < p_im_extra p -> x < 2^32 -> exists s', msg_give_im_up a x s = (s', Ok tt).
Proof.
  intros HN E U T HT Hx Hy. unfold msg_give_im_up.
  assert (IA : im_active (st_now s) p = true).
  { unfold im_active. rewrite U. assert (p_im_extra p <> 0) by lia. lia. }
  assert (X : exists s', give_im_up a x s = (s', Ok tt)).
  { unfold give_im_up. rewrite (run_bind _ _ s s p) by (unfold get_profile; unfold bind, get, lift; by rewrite E).
    rewrite (run_bind _ _ s s (st_now s)) by done. cbv zeta. rewrite IA.
    rewrite (run_bind _ _ s s tt) by (assert (x <? p_im_extra p = true) as -> by lia; done).
    destruct (Z.eqb_spec x 0) as [Z|Z].
    - pose proof (wp_delete t HRefreshIm a s HT) as W. apply wp_run in W as (s2 & [] & W & S). apply still_names in S as [HN2 P2]; [|done].
      destruct (set_same a p (p <| p_im_extra := x |> <| p_im_until := None |>) s2 HN2) as [s' R]; [by rewrite P2|done..|].
      exists s'. rewrite (run_bind _ _ s s t) by (unfold lift; cbn [p_im_until]; change (p_im_until (p <| p_im_extra := x |>)) with (p_im_until p); by rewrite U).
      rewrite (run_bind _ _ s s2 tt) by exact W. exact R.
    - destruct (set_same a p (p <| p_im_extra := x |>) s HN E) as [s' R]; [done..|]. by exists s'. }
  destruct X as [s' X]. exists s'. rewrite (run_bind _ _ s s tt) by (assert (uint32 x = true) as -> by (unfold uint32; lia); done). exact X.
Qed.
