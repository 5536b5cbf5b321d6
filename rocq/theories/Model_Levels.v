(** The files a set of serialised trees is kept in: weddingcake/chunkfiles.go, and the same layout in
    weddingcakeback/donutforestwrite.go and tierbelow.go.

    An information file holds, per chunk (forest), its first index, its number of levels and two sizes per level; per
    level a file holds the index bytes and node bytes of every chunk, one after the other.

    Simplifications: file names are their two digits (the rest is constant); a memory map is the contents of the file
    (a missing level maps to the empty slice); opening and closing succeed. *)
From Verif Require Import Base.

(** a chunk as far as the files are concerned: first global index; per level index bytes and node bytes *)
Record lchunk := mk_lc { lc_first : Z; lc_levels : list (list Z * list Z) }.

Definition fname := (Z * Z)%type.
(** "%02X" (weddingcake/chunkfiles.go:68, 186; weddingcakeback/tierbelow.go:368) *)
Definition hex_name (l : nat) : fname := (Z.of_nat l / 16, Z.of_nat l mod 16).
(** "%02d" (weddingcakeback/donutforestwrite.go:327, 438) *)
Definition dec_name (l : nat) : fname := (Z.of_nat l / 10, Z.of_nat l mod 10).

Record lfiles := mk_lf { lf_info : list Z; lf_level : gmap fname (list Z) }.
Definition lf_empty : lfiles := mk_lf [] ∅.

(** ** Writing *)

(** weddingcake/chunkfiles.go:43-57; weddingcakeback/donutforestwrite.go:164-198 *)
Definition info_sizes (lv : list Z * list Z) : list Z := le_enc 8 (Z.of_nat (length (fst lv))) ++ le_enc 8 (Z.of_nat (length (snd lv))).
Definition info_entry (k : lchunk) : list Z :=
  le_enc 8 (lc_first k) ++ Z.of_nat (length (lc_levels k)) mod 256 :: concat (map info_sizes (lc_levels k)).

(** weddingcake/chunkfiles.go:67-90 (O_APPEND, O_CREATE); weddingcakeback/donutforestwrite.go:325-338, 430-453 *)
Fixpoint append_levels (w : nat -> fname) (l : nat) (lvs : list (list Z * list Z)) (fs : gmap fname (list Z)) : gmap fname (list Z) :=
  match lvs with
  | [] => fs
  | lv :: lvs' => append_levels w (S l) lvs' (<[w l := default [] (fs !! w l) ++ fst lv ++ snd lv]> fs)
  end.
Definition append_chunk (w : nat -> fname) (f : lfiles) (k : lchunk) : lfiles :=
  mk_lf (lf_info f ++ info_entry k) (append_levels w 0 (lc_levels k) (lf_level f)).
Definition append_chunks (w : nat -> fname) (f : lfiles) (ks : list lchunk) : lfiles := foldl (append_chunk w) f ks.

(** ** Reading *)

Inductive rd (A : Type) := ROk (a : A) | RErr | RPanic.
Arguments ROk {A} a. Arguments RErr {A}. Arguments RPanic {A}.

(** weddingcake/chunkfiles.go:175-210: stop at the first level without a file;
    weddingcakeback/tierbelow.go:353-396: [lead], levels missing before the first file found are skipped *)
Fixpoint mmap_levels (r : nat -> fname) (lead : bool) (fs : gmap fname (list Z)) (l : nat) (n : nat) : list (list Z) :=
  match n with
  | O => []
  | S n' =>
      match fs !! r l with
      | Some b => b :: mmap_levels r false fs (S l) n'
      | None => if lead then [] :: mmap_levels r true fs (S l) n' else []
      end
  end.

(** slicing a memory map *)
Definition slice (b : list Z) (off n : nat) : option (list Z) := file_read b off n.

(** weddingcake/chunkfiles.go:145-170; weddingcakeback/tierbelow.go:468-488.  [acc]: bytes already accounted for *)
Fixpoint read_levels (maps : list (list Z)) (info : list Z) (off : nat) (acc : list nat) (l : nat) (n : nat) :
    rd (list (list Z * list Z) * list nat * nat) :=
  match n with
  | O => ROk ([], acc, off)
  | S n' =>
      if (length info - off <? 16)%nat then RErr
      else
        match slice info off 8, slice info (off + 8) 8, maps !! l, acc !! l with
        | Some a, Some b, Some m, Some u =>
            let na := Z.to_nat (le_dec a) in let nb := Z.to_nat (le_dec b) in
            match slice m u na, slice m (u + na) nb with
            | Some ix, Some nd =>
                match read_levels maps info (off + 16) (<[l := (u + na + nb)%nat]> acc) (S l) n' with
                | ROk (lvs, acc', off') => ROk ((ix, nd) :: lvs, acc', off')
                | RErr => RErr
                | RPanic => RPanic
                end
            | _, _ => RPanic
            end
        | _, _, _, _ => RPanic
        end
  end.

Definition empty_chunk : lchunk := mk_lc 0 [].
(** int64 of a uint64 *)
Definition to_int64 (z : Z) : Z := if z <? 2^63 then z else z - 2^64.

(** weddingcake/chunkfiles.go:121-172, where the chunk index stays 0 ([step] = 0);
    weddingcakeback/tierbelow.go:436-500, where it counts ([step] = 1) up to [mx] *)
Fixpoint read_chunks (step : nat) (mx : nat) (maps : list (list Z)) (info : list Z) (fuel : nat) (off idx : nat) (acc : list nat)
    (chunks : list lchunk) : rd (list lchunk) :=
  match fuel with
  | O => ROk chunks
  | S f =>
      if (off <? length info)%nat then
        if (mx <=? idx)%nat then RPanic
        else
          let chunks1 := chunks ++ [empty_chunk] in
          if (length info - off <? 8)%nat then RErr
          else if (length info - (off + 8) <? 1)%nat then RErr
          else
            match slice info off 8, info !! (off + 8)%nat with
            | Some a, Some n =>
                if (length maps <? Z.to_nat n)%nat then RPanic
                else
                  match read_levels maps info (off + 9) acc 0 (Z.to_nat n) with
                  | ROk (lvs, acc', off') =>
                      read_chunks step mx maps info f off' (idx + step) acc' (<[idx := mk_lc (to_int64 (le_dec a)) lvs]> chunks1)
                  | RErr => RErr
                  | RPanic => RPanic
                  end
            | _, _ => RPanic
            end
      else ROk chunks
  end.

Definition reopen (step mx : nat) (r : nat -> fname) (lead : bool) (f : lfiles) : rd (list lchunk) :=
  let maps := mmap_levels r lead (lf_level f) 0 65 in
  match lf_info f with
  | [] => if Nat.eqb (length maps) 0 then ROk [] else RPanic
  | info => read_chunks step mx maps info (S (length info)) 0 0 (replicate 65 0%nat) []
  end.

(** ChunkFilesWrite / ChunkFilesRead.  There is no greatest number of chunks; the index is always 0. *)
Definition chunk_files_write (ks : list lchunk) : lfiles := append_chunks hex_name lf_empty ks.
Definition chunk_files_read (f : lfiles) : rd (list lchunk) := reopen 0 1 hex_name false f.
(** DonutForestWrite.Write / TierBelow.Open, with at most [mx] forests *)
Definition tier_files_write (ks : list lchunk) : lfiles := append_chunks dec_name lf_empty ks.
Definition tier_files_read (mx : nat) (f : lfiles) : rd (list lchunk) := reopen 1 mx hex_name true f.
