(** * What the properties of the upgrade to 2.3.2 talk about *)
From Verif Require Export Spec_Upgrade.

(** The records can be read: they hold eleven sums of coins and of delegations,
    and the referrers they name have records. *)
Record legible (s : St) : Prop := mkLegible {
  lg_lines : forall a, registered s a -> (11 <= List.length (r_coins (ref_get s a)))%nat /\ (11 <= List.length (r_deleg (ref_get s a)))%nat;
  lg_referrer : forall a, registered s a -> referrer s a = nobody \/ registered s (referrer s a);
  lg_nobody : ~ registered s nobody;
  (* going from referrer to referrer comes to an end *)
  lg_ends : forall a, exists n, up s n a = nobody }.
