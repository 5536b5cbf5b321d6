(** What a store of indexed hashes must answer, in terms of the sequence of hashes appended. *)
From Verif Require Import Base Model_Word Model_HashStore.

(** A hash: 32 bytes. *)
Definition is_hash (h : list Z) : Prop := length h = 32%nat /\ bytes h.

(** [r] answers "where does [h] first occur in [l]?" *)
Definition first_occurrence (l : list (list Z)) (h : list Z) (r : fres) : Prop :=
  match r with
  | RFound i => l !! i = Some h /\ forall j, (j < i)%nat -> l !! j <> Some h
  | RAbsent => h ∉ l
  | _ => False
  end.

(** [r] answers "where does [h] last occur in [l]?" *)
Definition last_occurrence (l : list (list Z)) (h : list Z) (r : fres) : Prop :=
  match r with
  | RFound i => l !! i = Some h /\ forall j, (i < j)%nat -> l !! j <> Some h
  | RAbsent => h ∉ l
  | _ => False
  end.

(** The hashes appended by a session. *)
Fixpoint appended (ops : list (option (list Z))) : list (list Z) :=
  match ops with
  | [] => []
  | None :: ops' => appended ops'
  | Some h :: ops' => h :: appended ops'
  end.

(** Parameters for which the chained store works. *)
Definition hs_params (nb nbits cpc : nat) : Prop :=
  (1 <= nb <= 7)%nat /\ (2 <= cpc <= 8)%nat /\ (nb * (cpc + 1) <= 32)%nat /\ (nbits <= 62)%nat.
