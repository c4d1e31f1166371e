(** * The counters of active referrals in all histories: C23 *)
From Coq Require Import QArith.
From Verif Require Import Schedule Blocks Spec_Schedule Spec_Pure PureLemmas LiveRevoke Props_Network Props_Delegating Spec_Live Witness Props_Live.
Open Scope Z_scope.

(** A line of accounts 61 to 68 below 13; 10 has delegated enough for the status
    3, and not enough within eight lines for the status 4.  When 15 is compressed
    the line comes one step nearer to 10; 68, in the tenth line now, revokes more
    than the record of that line says, which becomes negative.  The compression of
    61 would bring 67 into the eighth line, but then the sum over ten lines is
    looked at, which is negative: the compression fails.  61 keeps its referral
    and, when it revokes its delegation, is banished with it. *)
Definition days (a n : nat) : list block := map (fun k => blk (T0 + Z.of_nat k * day_ns) []) (seq a n).
Definition stuck : list block :=
  [blk (T0 + day_ns) (map (fun e => tx1 (MCreateAccount 10 (fst e) (snd e) None)) (team ++ below) ++
      map (fun e => tx1 (MSend 10 (fst e) (uc (artr 100)))) team ++ map (fun e => tx1 (MSend 10 (fst e) (uc (artr 5000)))) below ++
      [tx1 (MSend 10 68 (uc (artr 510000))); tx1 (MSend 10 67 (uc (artr 110000)))] ++
      [tx1 (MDelegate 61 (artr 1000)); tx1 (MDelegate 67 (artr 100000)); tx1 (MDelegate 68 (artr 500000)); tx1 (MDelegate 10 (artr 60000))])] ++
  days 2 57 ++
  [blk (T0 + 59 * day_ns) (map (fun a => tx1 (MPayTariff a 0)) ([11; 12; 13]%N ++ map fst team) ++
     map (fun a => tx1 (MPayTariff a 0)) (List.concat (List.repeat [62; 63; 64; 65; 66; 67; 68]%N 5)));
   blk (T0 + 60 * day_ns) [tx1 (MRevoke 68 (artr 480000) false)];
   blk (T0 + 61 * day_ns) [];
   blk (T0 + 62 * day_ns) [tx1 (MRevoke 61 997000000 false)]] ++
  days 63 30.
(** 68 delegates again, so that the compressions work again; 13, the referrer of
    61, is compressed.  The accounts below 61 are taken for one step nearer to 10,
    but they are not: 61 still names 13. *)
Definition astray : list block := stuck ++ blk (T0 + 93 * day_ns) [tx1 (MDelegate 68 (artr 400000))] :: days 94 56.

(** So the claim fails, even if nobody is registered as their own referrer: 10
    counts one active account in its second line, where there is none. *)
Theorem C23_refuted : exists bs s s' us a k,
  network s /\ times_from (st_now s) bs /\ (forall x, ~ self_made bs s x) /\ run_blocks bs s = Some (s', us) /\
  a <> nobody /\ (k <= 9)%nat /\
  stored_active s' a k <> Z.of_nat (List.length (filter (fun x => active s' x = true) (at_line s' k a))) mod 2 ^ 64.
Proof.
  destruct (after_runs astray w0) as [us H]; [by vm_compute|]. exists astray, w0, (after astray w0), us, 10%N, 2%nat.
  split; [apply network_checked, (bool_decide_unpack _); vm_compute; exact I|].
  split; [vm_compute; repeat split; congruence|].
  split.
  { intros x (c & p & s1 & HI). assert (X : forallb (fun x => match fst x with SMsg (MCreateAccount _ y r _) => negb (y =? r)%N | _ => true end) (steps astray w0) = true)
      by (by vm_compute).
    rewrite forallb_forall in X. apply elem_of_list_In in HI. apply X in HI. cbn [fst] in HI. by rewrite N.eqb_refl in HI. }
  split; [exact H|]. split; [done|]. split; [lia|].
  assert (E : (stored_active (after astray w0) 10 2 =?
    Z.of_nat (List.length (filter (fun x => active (after astray w0) x = true) (at_line (after astray w0) 2 10))) mod 2 ^ 64) = false) by (by vm_compute).
  by apply Z.eqb_neq in E.
Qed.
Print Assumptions C23_refuted.
(** What happens on the way *)
Example C23_astray :
  banished (after stuck w0) 61 = true /\ referrals (after stuck w0) 61 = [62%N] /\ referrer (after stuck w0) 61 = 13%N /\
  active (after stuck w0) 62 = true /\ stored_active (after stuck w0) 10 4 = 1 /\
  referrals (after astray w0) 13 = [] /\ up (after astray w0) 3 62 = 10%N /\ stored_active (after astray w0) 10 2 = 1.
Proof. split_and!; by vm_compute. Qed.
