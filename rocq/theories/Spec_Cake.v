(** What a cake is meant to remember: the list of hashes appended, in order. *)
From Verif Require Import Base Model_Cake.

(** the hashes appended by a history, given the caller's variables at its start *)
Fixpoint appended (vars : gmap nat (list Z)) (ops : list op) : list (list Z) :=
  match ops with
  | [] => []
  | Append h :: ops' => h :: appended vars ops'
  | AppendVar v :: ops' => default [] (vars !! v) :: appended vars ops'
  | SetVar v h :: ops' => appended (<[v := h]> vars) ops'
  | Reopen :: ops' => appended vars ops'
  end.

(** the caller never changes a variable it has appended *)
Fixpoint careful (used : list nat) (ops : list op) : Prop :=
  match ops with
  | [] => True
  | Append _ :: ops' => careful used ops'
  | AppendVar v :: ops' => careful (v :: used) ops'
  | SetVar v _ :: ops' => v ∉ used /\ careful used ops'
  | Reopen :: ops' => careful used ops'
  end.

(** the first and the last place of a hash *)
Definition is_first (hs : list (list Z)) (h : list Z) (i : nat) : Prop := hs !! i = Some h /\ forall j, (j < i)%nat -> hs !! j <> Some h.
Definition is_last (hs : list (list Z)) (h : list Z) (i : nat) : Prop := hs !! i = Some h /\ forall j, (i < j)%nat -> hs !! j <> Some h.

(** the [j]-th batch of [cap] hashes *)
Definition batch (cap j : nat) (hs : list (list Z)) : list (list Z) := take cap (drop (j * cap) hs).
