(** What the 16-bit tree is meant to answer. *)
From Verif Require Import Base Model_Tree Spec_Tree.

(** the hashes are presented with consecutive numbers *)
Definition numbered (first : Z) (input : list thash) : Prop := forall i x, input !! i = Some x -> th_pi x = first + Z.of_nat i.

(** [pi] is the lowest number under which [h] was presented *)
Definition earliest (input : list thash) (h : list Z) (pi : Z) : Prop :=
  (exists x, x ∈ input /\ th_hash x = h /\ th_pi x = pi) /\ forall x, x ∈ input -> th_hash x = h -> pi <= th_pi x.

(** how often [h] was presented *)
Definition copies (input : list thash) (h : list Z) : nat := length (filter (fun x => th_hash x = h) input).
