(** * C115: newcomers are not refused *)
From Coq Require Import QArith.
From Verif Require Import Spec_Pure RefProofs NameProofs NameHist LiveProofs LiveBuy LiveJoin Props_Live Props_Buy Props_Profile Spec_Profile Spec_Live Witness.
Open Scope Z_scope.

(** Newcomers may join under [r]: it is at the top, or it is not banished and either active
    or at least thirty days before its removal. *)
Definition takes_newcomers (s : St) (r : addr) : Prop :=
  let x := ref_get s r in
  r_referrer x = nobody \/
  (r_banished x = false /\ (r_active x = true \/ exists t, r_compression_at x = Some t /\ st_now s + 30 * st_day s <= t)).
Lemma takes_open s r : takes_newcomers s r -> registration_closed s (ref_get s r) = false.
Proof.
  unfold takes_newcomers, registration_closed, one_month, one_day. cbv zeta. intros [H|(H1 & H2)]; [rewrite H; by rewrite N.eqb_refl|].
  rewrite H1. destruct H2 as [H2|(t & H2 & H3)]; rewrite H2; [by rewrite andb_false_r|].
  assert (t - 30 * st_day s <? st_now s = false) as -> by lia. cbn [orb]. by rewrite !andb_false_r.
Qed.

(** A registrar (anybody, when registration is free) can register any newcomer that has no
    account, no place in the network and no delegation, under anybody who takes newcomers,
    with any free nickname or none.  The newcomer then has an account and a profile. *)
Theorem C115_join : forall c a r p s, healthy s -> names_ok s -> acc_exists s c = true ->
  c <> nobody -> a <> nobody -> r <> nobody -> r <> a ->
  acc_exists s a = false -> ref_exists s a = false -> delegation s a = 0 -> takes_newcomers s r ->
  c ∈ pp_creators (st_pp s) \/ pp_rename_price (st_pp s) <= 0 ->
  st_now s + 60 * st_day s < time_limit ->
  let q := default p_zero p in
  (forall t, p_until q = Some t -> t <= st_now s) ->
  (trim s (p_nick q) <> [] ->
     has_prefix artr_prefix (title s (trim s (p_nick q))) = false /\ st_nick s !! nick_key s (p_nick q) = None) ->
  exists s', accepted (MCreateAccount c a r p) s s' /\ acc_exists s' a = true /\
    exists p', st_prof s' !! a = Some p' /\ p_nick p' = p_nick q.
Proof.
  intros c a r p s H HN HC H1 H2 H3 H4 H5 H6 H7 H8 H9 HT q HU HP.
  apply (accept (MCreateAccount c a r p) s (fun s' => acc_exists s' a = true /\ exists p', st_prof s' !! a = Some p' /\ p_nick p' = p_nick q)); [exact HC|].
  assert (W : wp (msg_create_account c a r p) (fun _ _ => True) s).
  { apply wp_join; try done; [by apply takes_open|]. unfold p_active. fold q.
    destruct (p_until q) as [t|] eqn:E; [|done]. specialize (HU t eq_refl). lia. }
  cbn [run_msg]. apply wp_run in W as (s' & [] & E & _). eapply wp_of; [exact E|].
  apply names_create in E as (_ & s1 & p' & n & _ & EP & _ & _ & _ & _ & A & P & _); [|done].
  split; [unfold acc_exists; by rewrite A|]. exists p'. rewrite P, lookup_insert. split; [done|]. by rewrite EP.
Qed.
Print Assumptions C115_join.

(** Account 10 registers account 77, called bob, under account 11, who has not paid. *)
Definition c115p : profile := p_zero <| p_nick := [98; 111; 98]%N |>.
Example C115_witness : healthy w0 /\ names_ok w0 /\ acc_exists w0 10 = true /\ acc_exists w0 77 = false /\ ref_exists w0 77 = false /\
  delegation w0 77 = 0 /\ takes_newcomers w0 11 /\ r_active (ref_get w0 11) = false /\ 10%N ∈ pp_creators (st_pp w0) /\
  st_now w0 + 60 * st_day w0 < time_limit /\ p_until c115p = None /\ trim w0 (p_nick c115p) <> [] /\
  has_prefix artr_prefix (title w0 (trim w0 (p_nick c115p))) = false /\ st_nick w0 !! nick_key w0 (p_nick c115p) = None.
Proof.
  split; [apply healthy_checked, (bool_decide_unpack _); vm_compute; exact I|]. split; [apply w0_names|]. do 4 (split; [by vm_compute|]).
  split; [right; split; [by vm_compute|right; exists 1605184000000000000; split; by vm_compute]|]. split; [by vm_compute|].
  split; [apply (bool_decide_unpack _); vm_compute; exact I|]. split_and!; by vm_compute.
Qed.
