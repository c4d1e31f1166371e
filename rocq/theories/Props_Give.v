(** * C111: what costs nothing, and free nicknames, are not refused *)
From Coq Require Import QArith.
From Verif Require Import Spec_Pure PriceProofs NameHist LiveProofs LiveBuy LiveSet Props_Live Props_Buy Props_Consent Props_Profile Props_Settings Spec_Settings Spec_Consent Spec_Live Witness.
Open Scope Z_scope.

(** Whoever has a profile and the million of the smallest coin that a nickname costs can
    take any proper nickname that nobody else has, along with any other settings;
    giving the nickname up, or keeping it, costs nothing. *)
Theorem C111_nickname : forall a us p s, healthy s -> names_ok s -> st_prof s !! a = Some p -> us <> [] -> (forall n, UNick n ∈ us -> proper_nick n) ->
  let n := nick_asked us (p_nick p) in
  (n <> p_nick p -> trim s n <> [] ->
     has_prefix artr_prefix (title s (trim s n)) = false /\
     (st_nick s !! nick_key s n = None \/ st_nick s !! nick_key s n = Some a) /\ 1000000 <= bal s a uartr) ->
  exists s', accepted (MUpdateProfile a us) s s'.
Proof.
  intros a us p s H HN E HU HF n HP. apply run_accept; [exact (no_profile s HN a p E)|]. cbn [run_msg].
  assert (W : wp (msg_update_profile a us) (fun _ _ => True) s).
  { unfold msg_update_profile. apply wp_bind, wp_ensure.
    { apply andb_true_iff. split; [destruct us; [done|by apply negb_true_iff, bool_decide_eq_false]|]. apply forallb_forall. intros u Hu.
      apply elem_of_list_In in Hu. destruct u; try done. apply proper_nick_ok, HF, Hu. }
    apply wp_bind, wp_bind, wp_get. apply (wp_lift _ _ p); [done|].
    apply (wp_nick a p); try done.
    - clear. revert p. induction us as [|u us IH]; intros p; [done|]. cbn [fold_left]. rewrite IH. by destruct u.
    - clear. revert p. induction us as [|u us IH]; intros p; [done|]. cbn [fold_left]. rewrite IH. by destruct u.
    - rewrite nick_asked_upd. exact HP. }
  apply wp_run in W as (s' & [] & R & _). by exists s'.
Qed.
Print Assumptions C111_nickname.

(** Storage can be given up down to what is used, and what is included. *)
Theorem C111_storage : forall a x p s, names_ok s -> st_prof s !! a = Some p -> 0 < x < 2^32 ->
  p_storage_cur p <= Z.max (x * gb) (pp_base_storage (st_pp s) * gb) < p_storage_limit p ->
  exists s', accepted (MGiveStorageUp a x) s s'.
Proof.
  intros a x p s HN E Hx HL. apply run_accept; [exact (no_profile s HN a p E)|]. by eapply live_give_storage.
Qed.
Print Assumptions C111_storage.

(** Extra storage for messages that is paid for can be given up, all of it or a part. *)
Theorem C111_im : forall a x p t s, names_ok s -> st_prof s !! a = Some p -> p_im_until p = Some t -> st_now s < t -> 0 <= t < time_limit ->
  0 <= x < p_im_extra p -> x < 2^32 -> exists s', accepted (MGiveImUp a x) s s'.
Proof.
  intros a x p t s HN E U T HT Hx Hy. apply run_accept; [exact (no_profile s HN a p E)|]. by eapply live_give_im.
Qed.
Print Assumptions C111_im.

(** Account 11 of C109, which has 3 GB of extra storage for messages, buys 3 GB of storage and
    may give up 1 GB of it, may give up its extra storage, and may take the name bob. *)
Definition c111bs : list block := c109bs ++ [blk (T0 + 21 * day_ns) [tx1 (MBuyStorage 11 3)]].
Definition c111s : St := after c111bs w0.
Definition c111p : profile := c109p <| p_storage_limit := 8 * gb |>.
Lemma c111_names : runs c111bs w0 = true -> names_ok c111s.
Proof.
  intros R. destruct (after_runs _ _ R) as [us E]. fold c111s in E.
  assert (T : times_from (st_now w0) c111bs) by (vm_compute; repeat split; congruence).
  destruct (names_blocks _ _ _ _ T E w0_names) as (H & _). exact H.
Qed.
Example C111_witness : runs c111bs w0 = true /\ healthy c111s /\ names_ok c111s /\ st_prof c111s !! 11%N = Some c111p /\
  proper_nick [98; 111; 98]%N /\ nick_asked [UVpn true; UNick [98; 111; 98]%N] (p_nick c111p) <> p_nick c111p /\
  trim c111s [98; 111; 98]%N <> [] /\ has_prefix artr_prefix (title c111s (trim c111s [98; 111; 98]%N)) = false /\
  st_nick c111s !! nick_key c111s [98; 111; 98]%N = None /\ 1000000 <= bal c111s 11 uartr /\
  p_storage_cur c111p <= Z.max (7 * gb) (pp_base_storage (st_pp c111s) * gb) < p_storage_limit c111p /\
  p_im_until c111p = Some (T0 + 47 * day_ns) /\ st_now c111s < T0 + 47 * day_ns < time_limit /\ p_im_extra c111p = 3.
Proof.
  assert (R : runs c111bs w0 = true) by (by vm_compute). pose proof (c111_names R) as HN.
  split; [exact R|]. split; [apply healthy_checked, (bool_decide_unpack _); vm_compute; exact I|]. split; [exact HN|].
  split; [by vm_compute|]. split; [apply proper_nick_ok; by vm_compute|]. split; [by vm_compute|]. do 4 (split; [by vm_compute|]).
  split; [split; by vm_compute|]. split; [by vm_compute|]. split; [split; by vm_compute|by vm_compute].
Qed.
