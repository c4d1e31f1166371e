(** * C108: what an update does to a profile *)
From Verif Require Import App Spec_Settings PriceProofs NameProofs ConsentProofs Witness Props_Profile.
Open Scope Z_scope.

Lemma asked_fold {A} (f : upd -> option A) (g : profile -> A) :
  (forall p u, g (apply_upd p u) = default (g p) (f u)) -> forall us p, asked f us (g p) (g (fold_left apply_upd us p)).
Proof.
  intros H us p. induction us as [|u us IH] using rev_ind; [right; by split|].
  rewrite fold_left_app. cbn [fold_left]. rewrite H. destruct (f u) as [v|] eqn:E; cbn [default].
  - left. exists us, u, []. by split_and!.
  - destruct IH as [(b & x & c & -> & E1 & E2)|[E1 E2]].
    + left. exists b, x, (c ++ [u]). rewrite <- app_assoc. split_and!; [done|done|]. apply Forall_app. split; [done|]. by constructor.
    + right. split; [|done]. apply Forall_app. split; [done|]. by constructor.
Qed.
Lemma bytes_fold n : forall t, fold_left (fun t c => t + utf8_len c) n t = t + bytes n.
Proof.
  induction n as [|c n IH]; intros t; [cbn; unfold bytes; cbn; lia|]. cbn [fold_left]. rewrite IH. unfold bytes. cbn [map sum fold_right].
  change (fold_right Z.add 0) with sum. set (X := sum _). clearbody X.
  unfold utf8_len. destruct (N.ltb_spec c 128) as [H|H]; [rewrite decide_True by done; lia|rewrite decide_False by lia].
  destruct (N.ltb_spec c 2048) as [H1|H1]; [rewrite decide_True by done; lia|rewrite decide_False by lia].
  destruct (N.ltb_spec c 65536) as [H2|H2]; [rewrite decide_True by done; lia|rewrite decide_False by lia; lia].
Qed.
Lemma prefix_app p : forall n rest, n = p ++ rest -> has_prefix p n = true.
Proof. induction p as [|x p IH]; intros n rest ->; [done|]. cbn. rewrite N.eqb_refl. cbn. by eapply IH. Qed.
Lemma prefix_inv p : forall n, has_prefix p n = true -> exists rest, n = p ++ rest.
Proof.
  induction p as [|x p IH]; intros n H; [by exists n|]. destruct n as [|y n]; [done|]. cbn in H. apply andb_true_iff in H as [E H].
  apply N.eqb_eq in E as ->. apply IH in H as [rest ->]. by exists rest.
Qed.
Lemma proper_nick_ok n : nick_ok n = true <-> proper_nick n.
Proof.
  unfold proper_nick. destruct n as [|c n]; [split; [by left|done]|]. unfold nick_ok. rewrite !andb_true_iff, bytes_fold, forallb_forall, Z.leb_le, negb_true_iff. split.
  - intros [[H1 H2] H3]. right. split_and!; [lia| |].
    + intros x Hx. apply elem_of_list_In, H1, negb_true_iff, bool_decide_eq_false in Hx. exact Hx.
    + intros rest E. apply prefix_app in E. unfold artr_prefix in H3. congruence.
  - intros [H|(H1 & H2 & H3)]; [done|]. split_and!; [|lia|].
    + intros x Hx. apply negb_true_iff, bool_decide_eq_false. apply elem_of_list_In, H2 in Hx. exact Hx.
    + destruct (has_prefix artr_prefix (c :: n)) eqn:E; [|done]. apply prefix_inv in E as [rest E]. by apply H3 in E.
Qed.

(** An update that is accepted asks for something, and only for proper
    nicknames.  Afterwards every switch and the nickname are what was asked for
    last, or as before; nothing else of the profile changes, and no other
    profile. *)
Theorem C108_update : forall a us s s', run_msg (MUpdateProfile a us) s = (s', Ok tt) ->
  us <> [] /\ (forall n, UNick n ∈ us -> proper_nick n) /\
  (exists p p', st_prof s !! a = Some p /\ st_prof s' !! a = Some p' /\
    asked autopay_in us (p_autopay p) (p_autopay p') /\ asked noding_in us (p_noding p) (p_noding p') /\
    asked storage_in us (p_storage p) (p_storage p') /\ asked validator_in us (p_validator p) (p_validator p') /\
    asked vpn_in us (p_vpn p) (p_vpn p') /\ asked im_autopay_in us (p_im_autopay p) (p_im_autopay p') /\
    asked nick_in us (p_nick p) (p_nick p') /\
    (p_until p', p_card p', p_storage_limit p', p_storage_cur p', p_vpn_limit p', p_vpn_cur p', p_im_extra p', p_im_until p') =
    (p_until p, p_card p, p_storage_limit p, p_storage_cur p, p_vpn_limit p, p_vpn_cur p, p_im_extra p, p_im_until p)) /\
  forall b, b <> a -> st_prof s' !! b = st_prof s !! b.
Proof.
  intros a us s s' H. cbn [run_msg] in H. pose proof H as H0. unfold msg_update_profile in H0.
  apply bind_ok in H0 as ([] & s1 & H1 & _). apply ensure_ok in H1 as [-> HU]. apply andb_true_iff in HU as [U1 U2].
  apply update_price in H as (p & E1 & E2 & _). rewrite E2.
  split; [intros ->; by apply negb_true_iff, bool_decide_eq_false in U1|]. split.
  { intros n Hn. rewrite forallb_forall in U2. apply elem_of_list_In, U2 in Hn. by apply proper_nick_ok. }
  split; [|intros b Hb; by rewrite lookup_insert_ne].
  exists p, (fold_left apply_upd us p). split; [done|]. split; [by rewrite lookup_insert|].
  split_and!; try (apply (asked_fold _ _); intros q u; by destruct u).
  clear. revert p. induction us as [|u us IH]; intros p; [done|]. cbn [fold_left]. rewrite IH. by destruct u.
Qed.
Print Assumptions C108_update.

(** Whoever has a profile can turn its switches: such an update is not refused. *)
Theorem C108_switches : forall a us s p, names_ok s -> st_prof s !! a = Some p -> us <> [] -> Forall (fun u => nick_in u = None) us -> exists s', run_msg (MUpdateProfile a us) s = (s', Ok tt).
Proof.
  intros a us s p HN E HU HF. cbn [run_msg]. assert (A := no_profile s HN a p E).
  assert (NN : forall q, p_nick (fold_left apply_upd us q) = p_nick q /\ p_card (fold_left apply_upd us q) = p_card q /\ p_until (fold_left apply_upd us q) = p_until q).
  { clear -HF. induction us as [|u us IH]; intros q; [done|]. apply Forall_cons in HF as [F1 F2]. cbn [fold_left]. destruct (IH F2 (apply_upd q u)) as (-> & -> & ->). by destruct u. }
  destruct (NN p) as (N1 & N2 & N3). clear NN. unfold msg_update_profile.
  assert (OK : negb (bool_decide (List.length us = 0%nat)) && forallb upd_ok us = true).
  { apply andb_true_iff. split; [destruct us; [done|by apply negb_true_iff, bool_decide_eq_false]|]. apply forallb_forall. intros u Hu.
    rewrite Forall_forall in HF. apply elem_of_list_In, HF in Hu. by destruct u. }
  set (p1 := fold_left apply_upd us p) in *.
  assert (V : validate_nickname a (trim s (p_nick p1)) s = (s, Ok tt)).
  { rewrite N1. pose proof (no_nick s HN a p E) as O. pose proof (no_prefix s HN a p E) as P. unfold nick_key in O. unfold validate_nickname.
    destruct (trim s (p_nick p)) as [|c n]; [done|]. assert (EO : nick_owner s (c :: n) = Some a) by (apply O; done).
    cbv beta iota delta [bind get ensure]. rewrite P. cbn [negb]. cbv beta iota delta [ret]. rewrite EO. by rewrite N.eqb_refl. }
  assert (G : get_profile a s = (s, Ok p)) by (unfold get_profile, bind, get, lift; by rewrite E).
  assert (B : forall {A B} (m : M A) (k : A -> M B) s s1 x, m s = (s1, Ok x) -> bind m k s = k x s1) by (intros A' B' m k s0 s1 x Hm; unfold bind; by rewrite Hm).
  eexists. rewrite (B _ _ _ _ _ s tt) by (unfold ensure; by rewrite OK). rewrite (B _ _ _ _ _ s p G). fold p1. unfold set_profile.
  rewrite (B _ _ _ _ _ s (Some p)) by (unfold get; by rewrite E). rewrite (B _ _ _ _ _ s (trim s (p_nick p1))) by done.
  rewrite (B _ _ _ _ _ s tt V).
  rewrite (B _ _ _ _ _ s p1).
  2: { rewrite decide_True by done. rewrite N2, Z.eqb_refl. unfold bind, ret. destruct (Z.eqb_spec (p_card p) 0) as [X|X]; [|done]. f_equal. f_equal. rewrite <- N2. by destruct p1. }
  rewrite (B _ _ _ _ _ (s <| st_prof := <[ a := p1 ]> (st_prof s) |>) tt) by done.
  rewrite (B _ _ _ _ _ (s <| st_prof := <[ a := p1 ]> (st_prof s) |>) tt).
  2: { unfold touch_account, bind, get. change (acc_exists _ a) with (acc_exists s a). by rewrite A. }
  rewrite (B _ _ _ _ _ (s <| st_prof := <[ a := p1 ]> (st_prof s) |>) (st_now s)) by done.
  unfold p_active. rewrite N3. rewrite eqb_reflx. done.
Qed.
Print Assumptions C108_switches.

Definition c108 : St := exec (run_msg (MUpdateProfile 11 [UVpn true; UNick [98; 111; 98]%N; UAutoPay true; UVpn false])) w0.
Example C108_witness : names_ok w0 /\
  (exists s', run_msg (MUpdateProfile 11 [UVpn true; UNick [98; 111; 98]%N; UAutoPay true; UVpn false]) w0 = (s', Ok tt) /\
     option_map (fun p => (p_vpn p, p_autopay p, p_nick p)) (st_prof s' !! 11%N) = Some (false, true, [98; 111; 98]%N)) /\
  is_Some (st_prof w0 !! 11%N) /\ ok (eval (run_msg (MUpdateProfile 11 [])) w0) = false /\
  ok (eval (run_msg (MUpdateProfile 11 [UNick [98; 46; 98]%N])) w0) = false /\ ok (eval (run_msg (MUpdateProfile 11 [UNick [98; 98]%N])) w0) = false.
Proof.
  split; [apply w0_names|]. split; [exists c108; split; [apply exec_ok; by vm_compute|by vm_compute]|].
  split; [vm_compute; by eexists|]. split_and!; by vm_compute.
Qed.
