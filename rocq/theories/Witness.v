(** * A small concrete chain, used to show that the hypotheses of the theorems
    are met and to exhibit counterexamples.  Numbers and parameters are those of
    a plausible network, not of any real one. *)
From Verif Require Export App.

Definition day_ns : Z := 86400000000000.
Definition T0 : Z := 1600000000000000000.       (* September 2020 *)
Definition bp0 : bparams :=
  mkBP 1000 1000000 (Frac.permille 3) 10000000 (Frac.Fr 1 3) (Frac.Fr 1 3) 10%N [].
Definition np0 : nparams :=
  mkNP 2 1 2 5 2 1000000 1000000 10 [(Frac.Fr 1 2, 20); (Frac.Fr 1 2, 15)].
Definition dp0 : dparams :=
  mkDP 1000 (mkRev 14 (Frac.percent_f 5)) (mkRev 7 (Frac.percent_f 10))
       [(0, [Frac.percent_f 3; Frac.percent_f 1; Frac.percent_f 2; Frac.percent_f 1; Frac.percent_f 1]);
        (1000000000, [Frac.percent_f 4; Frac.percent_f 1; Frac.percent_f 2; Frac.percent_f 1; Frac.percent_f 1])].
Definition pp0 : pparams :=
  mkPP [10%N] 1000000 3735928559 [10%N] [10%N] (Frac.Fr 100 1) 199000 1990 1000 7 5 [10%N].
(** ASCII letters *)
Definition to_lower (c : N) : N := if ((65 <=? c) && (c <=? 90))%N then (c + 32)%N else c.
Definition to_upper (c : N) : N := if ((97 <=? c) && (c <=? 122))%N then (c - 32)%N else c.
Definition is_space (c : N) : bool := (c =? 32)%N.

Definition empty_chain : St :=
  mkSt T0 1 ∅ 0 ∅ day_ns ∅ ∅ bp0 ∅ (mkRP 10%N 1000000) ∅ ∅ ∅ ∅ ∅ np0 ∅ dp0 ∅ [10%N] ∅ ∅ ∅ pp0
       [10%N; 11%N] None [] [] 0 ∅ 24 24 None ∅ 0 0 ∅ None
       (fun x => Z.log2 x) to_lower to_upper is_space [].

(** A top-level account 10, which runs a validator with key 100, and 11 to 15 below it: 11 and 12 under 10, 13 and 14
    under 11, 15 under 13. *)
Definition uc (n : Z) : coins := {[ uartr := n ]}.
Definition setup : M unit :=
  do! create_account 10 in
  do! add_top_level 10 in
  do! bank_init [(10%N, uc 1000000000000)] ∅ in
  do! add_to_staff 10 in
  do! switch_on 10 100 in
  do! set_profile 10 (p_zero <| p_until := Some (T0 + 400 * day_ns) |>) in
  do! mfor [(11, 10); (12, 10); (13, 11); (14, 11); (15, 13)]%N (fun e =>
        msg_create_account 10 (fst e) (snd e) None) in
  mfor [11; 12; 13; 14; 15]%N (fun a => msg_send 10 a (uc 20000000000)).
Definition w0 : St := exec setup empty_chain.

(** A block proposed by that validator, without votes or evidence *)
Definition blk (t : Z) (txs : list tx) : block := mkBlock t 100%N [] [] txs.
Definition tx1 (m : msg) : tx := mkTx (signer m) ∅ [m].
(** The state after some blocks ([w0] itself if the node stops). *)
Definition after (bs : list block) (s : St) : St :=
  match run_blocks bs s with Some (s', _) => s' | None => s end.
Definition runs (bs : list block) (s : St) : bool :=
  match run_blocks bs s with Some _ => true | None => false end.
Lemma after_runs bs s : runs bs s = true -> exists us, run_blocks bs s = Some (after bs s, us).
Proof. unfold runs, after. destruct (run_blocks bs s) as [[s' us]|]; [eauto|discriminate]. Qed.
Definition ok {A} (r : res A) : bool := match r with Ok _ => true | _ => false end.
Lemma exec_ok (m : M unit) s : ok (eval m s) = true -> m s = (exec m s, Ok tt).
Proof. unfold eval, exec. destruct (m s) as [s' [[]|e|e]]; cbn; [reflexivity|discriminate|discriminate]. Qed.
Lemma tx_result t s b : snd (deliver_tx t s) = b -> deliver_tx t s = (fst (deliver_tx t s), b).
Proof. intros <-. apply surjective_pairing. Qed.
