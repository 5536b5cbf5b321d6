(** More of C91: the settings built into the tiers against what the tiers are given. *)
From Verif Require Import Base Model_Tree Model_Chunk Model_Top Proof_Top Model_Bake.

(** The hashes in a forest of a tier: that of the first tier has those of one batch, any other those of a full tier above. *)
Definition hashes_in_forest (d : nat) : Z := 65535 * foldr Z.mul 1 (take d [5; 255; 255; 255]).

(** C91. For every tier: a forest's hashes can be told apart by the hash numbers and could each have a node number of
    their own; and a tier divides its hashes by one byte more than the tier above it does. *)
Theorem C91_tiers_have_room :
  forall R d, (d < length top_quota)%nat ->
    Z.of_nat top_cap * foldr Z.mul 1 (take d (Z.of_nat <$> top_quota)) = hashes_in_forest d /\
    hashes_in_forest d < pow256 (c_hid (tier_cfg R d)) /\ hashes_in_forest d < pow256 (c_nid (tier_cfg R d)) /\
    pow256 (c_pre (tier_cfg R d)) = 256 ^ Z.of_nat d /\ c_R (tier_cfg R d) = R /\ c_hl (tier_cfg R d) = 32%nat.
Proof.
  intros R d Hd. unfold hashes_in_forest. rewrite top_cap_val.
  unfold top_quota in *. do 4 (destruct d as [|d]; [split; [reflexivity|]; split; [vm_compute; reflexivity|]; split; [vm_compute; reflexivity|]; split; [vm_compute; reflexivity|]; done|]).
  cbn in Hd. lia.
Qed.

Example C91_example_2 : hashes_in_forest 3 = 21307066875 /\ pow256 4 < hashes_in_forest 3 < pow256 5.
Proof. vm_compute. done. Qed.

Print Assumptions C91_tiers_have_room.
