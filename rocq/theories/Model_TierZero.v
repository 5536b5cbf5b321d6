(** Model of weddingcake/tierzero.go: a hash store kept in memory (a map and a slice) in front of a file of hashes.
    The file is append-optimised (Model_File; by C01 it is a plain byte file to its user), opened for appending:
    the operating system interface then refuses writes at an offset (os.File.WriteAt returns an error).
    Opening for reading only is not modelled separately: it offers no appending. *)
From Verif Require Import Base Model_Word.

(** tierzero.go:12-17; the file's bytes and its count of hashes (wordfile/hashfile.go:7-12) *)
Record tier_zero := mk_tz { tz_map : gmap (list Z) Z; tz_slice : list (list Z); tz_file : hash_file }.

Inductive tzres (A : Type) := TzOk (a : A) | TzErr | TzPanic.
Arguments TzOk {A}. Arguments TzErr {A}. Arguments TzPanic {A}.

(** tierzero.go:51-58; [None] is a read error *)
Fixpoint tz_load (f : hash_file) (i n : nat) (m : gmap (list Z) Z) (s : list (list Z)) : option (gmap (list Z) Z * list (list Z)) :=
  match n with
  | O => Some (m, s)
  | S n' => h ← hf_read f i; tz_load f (S i) n' (<[h := Z.of_nat i]> m) (s ++ [h])
  end.
(** tierzero.go:22-60: the size divided by 32, dropping a remainder *)
Definition tz_open (data : list Z) : option tier_zero :=
  let n := (length data / 32)%nat in
  let f := hf_new data n in
  '(m, s) ← tz_load f 0 n ∅ []; Some (mk_tz m s f).

(** tierzero.go:62-68 *)
Definition tz_index_of (t : tier_zero) (h : list Z) : Z := default (-1) (tz_map t !! h).
(** tierzero.go:70-76: a negative index is below the length, and indexing panics *)
Definition tz_get (t : tier_zero) (i : Z) : tzres (list Z) :=
  if i <? Z.of_nat (length (tz_slice t)) then
    if i <? 0 then TzPanic else match tz_slice t !! Z.to_nat i with Some h => TzOk h | None => TzPanic end
  else TzErr.
(** tierzero.go:78-80 *)
Definition tz_count (t : tier_zero) : Z := Z.of_nat (length (tz_slice t)).
(** tierzero.go:86-94; wordfile/hashfile.go:33-44, 62-69; memfile/appendoptimized.go:59-113: an append if the offset
    is the size of the file, else WriteAt, which a file opened with O_APPEND refuses *)
Definition tz_append (t : tier_zero) (h : list Z) : tier_zero * tzres Z :=
  let m := <[h := tz_count t]> (tz_map t) in
  let s := tz_slice t ++ [h] in
  let f := tz_file t in
  if decide (hf_count f * 32 = length (hf_data f))%nat then
    (mk_tz m s (mk_hf (hf_data f ++ h) (S (hf_count f))), TzOk (Z.of_nat (hf_count f)))
  else (mk_tz m s f, TzErr).
(** tierzero.go:82-84, 139-155: closing and opening again; a file that cannot be read stays closed *)
Definition tz_reopen (t : tier_zero) : option tier_zero := tz_open (hf_data (tz_file t)).

(** Histories *)
Inductive tzop := TzAppend (h : list Z) | TzReopen.
Fixpoint tz_run (t : tier_zero) (ops : list tzop) : option (tier_zero * list (tzres Z)) :=
  match ops with
  | [] => Some (t, [])
  | TzAppend h :: ops' => let '(t1, r) := tz_append t h in '(t2, rs) ← tz_run t1 ops'; Some (t2, r :: rs)
  | TzReopen :: ops' => t1 ← tz_reopen t; tz_run t1 ops'
  end.
