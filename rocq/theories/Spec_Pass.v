(** Specification of the indexing runs: what every bin must hold, as a list of (truncated hash, index, sort
    number), and what a good plan is. *)
From Verif Require Import Base Model_Bins Model_Pass.

(** The hashes from index [start] on that belong to slot [k], in index order. *)
Fixpoint hashes_of (p : params) (slot_of : Z -> option nat) (k start : nat) (hs : list (list Z)) : list (list Z * Z * Z) :=
  match hs with
  | [] => []
  | h :: hs' =>
      if decide (slot_of (bin_num p (abbreviated h)) = Some k)
      then (truncated h, Z.of_nat start, sort_num p (abbreviated h)) :: hashes_of p slot_of k (S start) hs'
      else hashes_of p slot_of k (S start) hs'
  end.
(** What a bin says. *)
Definition contents (p : params) (b : bin) : list (list Z * Z * Z) :=
  (fun e => (entry_th e, entry_hi p e, entry_sn p e)) <$> b.

(** Every hash can be stored. *)
Definition hashes_fit (p : params) (hs : list (list Z)) : Prop :=
  (hash_bytes p <= 8)%nat /\ (p_snb p <= 8)%nat /\ Z.of_nat (length hs) <= pow256 (hash_bytes p) /\
  Z.of_nat (length hs) <= 2 ^ 63 /\
  Forall (fun h => length h = 32%nat /\ bytes h /\ 0 <= sort_num p (abbreviated h) < pow256 (p_snb p)) hs.

Definition total (ws : list work) : Z := foldr Z.add 0 (wk_count <$> ws).

(** ** The whole index *)
(** The position of the first occurrence of a hash, -1 if there is none. *)
Fixpoint first_position (h : list Z) (start : nat) (hs : list (list Z)) : Z :=
  match hs with
  | [] => -1
  | x :: hs' => if decide (x = h) then Z.of_nat start else first_position h (S start) hs'
  end.
(** Different hashes differ both in their first 8 bytes and in their last 24. *)
Definition no_collisions (hs : list (list Z)) : Prop :=
  forall h h', h ∈ hs -> h' ∈ hs -> truncated h = truncated h' \/ abbreviated h = abbreviated h' -> h = h'.
(** The first hash does not give an entry made of zeroes. *)
Definition first_hash_visible (p : params) (hs : list (list Z)) : Prop :=
  forall h, hs !! 0%nat = Some h -> ~ (Forall (fun x => x = 0) (truncated h) /\ sort_num p (abbreviated h) = 0).

(** Settings that can hold what they are meant to hold. *)
Definition settings_ok (p : params) : Prop :=
  (exists k, 1 <= k <= 56 /\ p_bins p = 2 ^ k) /\ 2 ^ 64 / p_bins p <= pow256 (p_snb p) /\
  (p_snb p <= 8)%nat /\ (hash_bytes p <= 8)%nat /\ (1 <= p_digits p)%nat /\ 0 <= p_estimate p.
(** A file of hashes that is not too long for the settings. *)
Definition hash_list_ok (p : params) (hs : list (list Z)) : Prop :=
  Forall (fun h => length h = 32%nat /\ bytes h) hs /\
  Z.of_nat (length hs) <= pow256 (hash_bytes p) /\ Z.of_nat (length hs) < 2 ^ 40.

(** Every bin has its own slot: [hashes_of p whole_slot k 0 hs] are the hashes of bin [k]. *)
Definition whole_slot (bn : Z) : option nat := Some (Z.to_nat bn).

(** No execution goes on for ever. *)
Definition no_infinite_run {A} (step : A -> A -> Prop) (start : A) : Prop :=
  forall f : nat -> A, f 0%nat = start -> ~ forall n, step (f n) (f (S n)).
