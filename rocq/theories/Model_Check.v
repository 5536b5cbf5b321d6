(** Model of the self-check of an index: indexedhashes3/multipasspreloader.go:91-154 (the copy in
    adaptivepasspreloader.go:59-123 is commented out).

    [None] = an error is returned (or the process panics); [Some cs] = the check returns without error, having
    printed the complaints [cs].  [reads] are the pieces of Hashes.hsh that the successive calls of Read deliver;
    a call that delivers nothing, at the end of the file or because of an error, ends the list. *)
From Verif Require Import Base Model_Word Model_Bins.

Inductive complaint := HashDiffers (i : nat) | FoundElsewhere (i : nat) (j : Z).

(** indexedhashes3/multipasspreloader.go:113: bytes asked for by one Read *)
Definition check_chunk : nat := (128 * 32)%nat.
(** What a file gives when no Read fails or falls short *)
Fixpoint file_reads (fuel : nat) (data : list Z) : list (list Z) :=
  match fuel, data with
  | O, _ | _, [] => []
  | S fuel', _ => take check_chunk data :: file_reads fuel' (drop check_chunk data)
  end.

Section Check.
  Context (p : params) (probe : Z -> Z -> Z -> Z -> Z -> Z).

  (** indexedhashes3/multipasspreloader.go:134-154 *)
  Definition test_one (s : hash_store3) (i : nat) (h : list Z) : option (list complaint) :=
    found ← h3_get p s i;
    j ← h3_index_of p probe s h;
    let said := if decide (found = h) then [] else [HashDiffers i] in
    if decide (j = -1) then None
    else Some (said ++ if decide (j = Z.of_nat i) then [] else [FoundElsewhere i j]).

  (** indexedhashes3/multipasspreloader.go:119-127 *)
  Fixpoint test_hashes (s : hash_store3) (i : nat) (hs : list (list Z)) : option (list complaint) :=
    match hs with
    | [] => Some []
    | h :: hs' => cs ← test_one s i h; ds ← test_hashes s (S i) hs'; Some (cs ++ ds)
    end.

  (** indexedhashes3/multipasspreloader.go:111-130: the error of Read is not looked at *)
  Fixpoint test_reads (s : hash_store3) (i : nat) (reads : list (list Z)) : option (list complaint) :=
    match reads with
    | [] | [] :: _ => Some []
    | c :: reads' =>
        if decide (length c mod 32 = 0)%nat then
          cs ← test_hashes s i (to_entries (length c / 32) 32 c);
          ds ← test_reads s (i + length c / 32)%nat reads';
          Some (cs ++ ds)
        else None
    end.

  (** indexedhashes3/multipasspreloader.go:91-132 *)
  Definition test_the_hashes (nums : list Z) (f : bin_files) (reads : list (list Z)) : option (list complaint) :=
    s ← h3_open p nums f false; test_reads s 0 reads.
End Check.
