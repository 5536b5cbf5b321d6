(** Specification of the hash index of indexedhashes3, in terms of lists of hashes and of triples
    (truncated hash, index, sort number). *)
From Coq Require Import Sorting.Sorted.
From Verif Require Import Base Model_Bins.

(** A computed probe position lies inside the searched range. *)
Definition probe_ok (probe : Z -> Z -> Z -> Z -> Z -> Z) : Prop :=
  forall s e a z x, 0 <= s -> s + 1 < e -> e < 2 ^ 40 -> 0 <= a -> a < x -> x < z -> z < 2 ^ 64 ->
    s <= probe s e a z x <= e.

(** The entries of a bin are in the order of their sort numbers. *)
Definition sn_sorted (p : params) (b : bin) : Prop := StronglySorted Z.le (entry_sn p <$> b).

(** Every entry is a whole one made of bytes. *)
Definition entries_ok (p : params) (b : bin) : Prop :=
  Forall (fun e => length e = entry_bytes p /\ bytes e) b.

(** The bin holds an entry for this hash. *)
Definition holds (p : params) (b : bin) (th : list Z) (sn : Z) : Prop :=
  exists e, e ∈ b /\ entry_th e = th /\ entry_sn p e = sn.

(** The index stored with the first entry for this hash, -1 if there is none. *)
Fixpoint first_index (p : params) (b : bin) (th : list Z) (sn : Z) : Z :=
  match b with
  | [] => -1
  | e :: b' => if bool_decide (entry_th e = th /\ entry_sn p e = sn) then entry_hi p e else first_index p b' th sn
  end.

(** At most one entry has this sort number. *)
Definition at_most_one (p : params) (b : bin) (sn : Z) : Prop :=
  forall i j e e', b !! i = Some e -> b !! j = Some e' -> entry_sn p e = sn -> entry_sn p e' = sn -> i = j.

(** ** Sorting and removing duplicates *)
(** Entries with the same truncated hash have the same sort number (in one bin: are the same hash). *)
Definition truncations_distinct (p : params) (b : bin) : Prop :=
  forall e e', e ∈ b -> e' ∈ b -> entry_th e = entry_th e' -> entry_sn p e = entry_sn p e'.
(** Entries with the same sort number have the same truncated hash. *)
Definition sort_numbers_distinct (p : params) (b : bin) : Prop :=
  forall e e', e ∈ b -> e' ∈ b -> entry_sn p e = entry_sn p e' -> entry_th e = entry_th e'.
(** [i] is the least index stored for this hash. *)
Definition least_index (p : params) (b : bin) (th : list Z) (sn i : Z) : Prop :=
  (exists e, e ∈ b /\ entry_th e = th /\ entry_sn p e = sn /\ entry_hi p e = i) /\
  (forall e, e ∈ b -> entry_th e = th -> entry_sn p e = sn -> i <= entry_hi p e).

(** ** Bins in files *)
Definition is_zero_entry (e : list Z) : Prop := Forall (fun x => x = 0) e.
(** The bin can be told from the zeroes after it: the last entry in the bin start is not made of zeroes. *)
Definition ends_visibly (p : params) (b : bin) : Prop :=
  forall e, last (take (p_start p) b) = Some e -> ~ is_zero_entry e.
Definition storable (p : params) (b : bin) : Prop := entries_ok p b /\ ends_visibly p b.

(** Bins are saved one after another, and none ever gets shorter; [bins] is what each bin should hold. *)
Fixpoint growing (p : params) (bins : list bin) (saves : list (nat * bin)) : Prop :=
  match saves with
  | [] => True
  | (bn, b) :: saves' =>
      (exists old, bins !! bn = Some old /\ (length old <= length b)%nat) /\ storable p b /\
      growing p (<[bn := b]> bins) saves'
  end.
Fixpoint final_bins (bins : list bin) (saves : list (nat * bin)) : list bin :=
  match saves with [] => bins | (bn, b) :: saves' => final_bins (<[bn := b]> bins) saves' end.
