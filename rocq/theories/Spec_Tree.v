(** What the trees are meant to answer. *)
From Verif Require Import Base Model_Tree.

(** no two presented hashes are equal *)
Definition distinct (input : list thash) : Prop := NoDup (th_hash <$> input).

(** byte strings of the right length *)
Definition hashes_ok (hl : nat) (input : list thash) : Prop :=
  forall x, x ∈ input -> length (th_hash x) = hl /\ bytes (th_hash x).

(** the byte positions looked at on the way from the root to the leaf (or dead end) of [q] *)
Fixpoint path_bytes (t : tree) (q : list Z) : list nat :=
  match t with
  | Slots bi f => bi :: path_bytes (f (q !!! bi)) q
  | _ => []
  end.

Definition agree (P : list nat) (a b : list Z) : Prop := forall i, i ∈ P -> a !! i = b !! i.

(** What is assumed of the entropy: never negative, and positive exactly when the byte tells some hashes apart.
    (weddingcake/shallowtree.go:370-386: all counts in one value give log2(1) = 0; two or more values give
    probabilities below 1, whose logarithm is negative.) *)
Definition entropy_ok (ent : list thash -> nat -> Z) : Prop :=
  forall l i, l <> [] -> 0 <= ent l i /\ (0 < ent l i <-> exists x y, x ∈ l /\ y ∈ l /\ th_hash x !!! i <> th_hash y !!! i).

(** What is assumed of the sort: a rearrangement, ascending in the byte. *)
Definition sort_ok (srt : nat -> list thash -> list thash) : Prop :=
  forall i l, srt i l ≡ₚ l /\
    forall a b x y, srt i l !! a = Some x -> srt i l !! b = Some y -> (a <= b)%nat -> th_hash x !!! i <= th_hash y !!! i.
