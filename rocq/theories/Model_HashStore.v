(** Model of the stores of indexed hashes in indexedhashes/: the linear store, the store with a
    partial-hash lookup table and collision chains, and the in-memory index. *)
From Verif Require Import Base Model_Word.

(** ** BasicHashStore (indexedhashes/basichashstore.go:13-15): a [hash_file]. *)

(** indexedhashes/basichashstore.go:23-30; the index returned is the old count *)
Definition bhs_append (s : hash_file) (h : list Z) : hash_file * nat :=
  (hf_write s h (hf_count s), hf_count s).

(** Result of a lookup: an index, "not present" ([-1, nil]), or an error.  [RPanic] is a Go run time
    panic, [RHang] stands for running out of the (explicit) loop fuel. *)
Inductive fres := RFound (i : nat) | RAbsent | RErr | RPanic | RHang.
#[global] Instance fres_eq_dec : EqDecision fres.
Proof. solve_decision. Defined.

(** indexedhashes/basichashstore.go:33-45, the loop from [index] with [n] turns left *)
Fixpoint bhs_scan (s : hash_file) (h : list Z) (index n : nat) : fres :=
  match n with
  | O => RAbsent
  | S n' =>
      match hf_read s index with
      | None => RErr
      | Some g => if decide (g = h) then RFound index else bhs_scan s h (S index) n'
      end
  end.
Definition bhs_index_of (s : hash_file) (h : list Z) : fres := bhs_scan s h 0 (hf_count s).

(** indexedhashes/basichashstore.go:47-51 *)
Definition bhs_get (s : hash_file) (index : nat) : option (list Z) := hf_read s index.

(** indexedhashes/basichashstore.go:53-55 *)
Definition bhs_count (s : hash_file) : nat := hf_count s.

(** indexedhashes/concretehashstorecreator.go:91-109,135-136: opening counts the whole hashes in the file *)
Definition bhs_open (data : list Z) : hash_file := hf_new data (length data / 32).

(** ** HashStore (indexedhashes/hashstore.go:11-18).  The lookups file and the collisions file are
    byte lists.  [nb] = entryByteCount, [nbits] = partialHashBitCount, [cpc] = collisionsPerChunk.
    Write errors of the operating system are not modelled; reads past the end are. *)
Record hash_store := mk_hs { hs_hashes : hash_file; hs_lkp : list Z; hs_coll : list Z }.

(** indexedhashes/hashstore.go:33 *)
Definition zerobuf : nat := 32.

(** indexedhashes/hashstore.go:53 (and 265): [int64(0x80) << (8 * (NBYTES - 1))] *)
Definition hs_msb (nb : nat) : Z := to_i64 ((128 * 2 ^ (8 * (Z.of_nat nb - 1))) mod 2^64).

(** indexedhashes/hashstore.go:49,54-55,80 (and 274-276): [int64(hashV) & NMASK] *)
Definition hs_key (nbits : nat) (h : list Z) : nat :=
  Z.to_nat (Z.land (to_i64 (le_dec (take 8 h))) (2 ^ Z.of_nat nbits - 1)).

(** An [nb] byte little endian word read into a zeroed [[8]byte], as an [int64]. *)
Definition hs_word (bs : list Z) : Z := to_i64 (le_dec bs).

(** indexedhashes/concretehashstorecreator.go:21-27: the parameters the creator accepts *)
Definition hs_accepts (nb : nat) : bool := bool_decide (nb <= zerobuf)%nat.

(** indexedhashes/concretehashstorecreator.go:53-89, then opened (91-140) *)
Definition hs_create (nb nbits : nat) : hash_store :=
  mk_hs (bhs_open []) (replicate (nb * 2 ^ nbits) 0) [].

(** indexedhashes/concretehashstorecreator.go:91-140 of the three files of a store *)
Definition hs_reopen (s : hash_store) : hash_store :=
  mk_hs (bhs_open (hf_data (hs_hashes s))) (hs_lkp s) (hs_coll s).

(** Where the walk of the chain ends: the collisions file, the chunk and the slot to be written. *)
Inductive walk := WAt (coll : list Z) (chunk j : nat) | WErr | WPanic | WHang.

(** indexedhashes/hashstore.go:167-244: [cb] is [chunkBytes]; one unit of fuel per turn of the loop *)
Fixpoint hs_walk (nb cpc fuel : nat) (coll : list Z) (chunk : nat) (cb : list Z) (j : nat) : walk :=
  match fuel with
  | O => WHang
  | S fuel' =>
      if hs_word (take nb (drop (j * nb) cb)) =? 0 then WAt coll chunk j else
      if decide (S j = cpc) then
        let next := hs_word (take nb (drop (cpc * nb) cb)) in
        if next =? 0 then
          if decide (zerobuf < nb * (cpc + 1))%nat then WPanic else
          let avail := (length coll / (nb * (cpc + 1)))%nat in
          let coll1 := file_write coll (length coll) (replicate (nb * (cpc + 1)) 0) in
          let coll2 := file_write coll1 ((chunk * (cpc + 1) + cpc) * nb) (le_enc nb (Z.of_nat avail + 1)) in
          WAt coll2 avail 0
        else
          let chunk' := Z.to_nat (next - 1) in
          match file_read coll (chunk' * (cpc + 1) * nb) (nb * (cpc + 1)) with
          | None => WErr
          | Some cb' => hs_walk nb cpc fuel' coll chunk' cb' 0
          end
      else hs_walk nb cpc fuel' coll chunk cb (S j)
  end.

(** Enough turns for any chain without a cycle. *)
Definition hs_fuel (s : hash_store) : nat := S (S (length (hs_coll s))).

(** indexedhashes/hashstore.go:35-255 *)
Definition hs_append (nb nbits cpc : nat) (s : hash_store) (h : list Z) : hash_store * fres :=
  let '(hf, valnum) := bhs_append (hs_hashes s) h in
  let s0 := mk_hs hf (hs_lkp s) (hs_coll s) in
  if decide (nb = 0)%nat then (s0, RPanic) else          (* negative shift count, line 53 *)
  let msb := hs_msb nb in
  if msb <=? Z.of_nat valnum then (s0, RErr) else
  if decide (8 < nb)%nat then (s0, RErr) else
  if decide (8 < cpc)%nat then (s0, RErr) else
  let valnum_bytes := le_enc nb (Z.of_nat valnum + 1) in
  let key := hs_key nbits h in
  match file_read (hs_lkp s) (key * nb) nb with
  | None => (s0, RErr)
  | Some lookup_bytes =>
      let lookup := hs_word lookup_bytes in
      if lookup =? 0 then
        (mk_hs hf (file_write (hs_lkp s) (key * nb) valnum_bytes) (hs_coll s), RFound valnum)
      else if Z.land lookup msb =? 0 then
        let size := length (hs_coll s) in
        let avail := (size / (nb * (cpc + 1)))%nat in
        if msb <=? Z.of_nat avail + 1 then (s0, RErr) else
        let lkp1 := file_write (hs_lkp s) (key * nb) (le_enc nb (Z.lor (Z.of_nat avail + 1) msb)) in
        let coll1 := file_write (hs_coll s) size lookup_bytes in
        let coll2 := file_write coll1 (size + nb) valnum_bytes in
        (* zeroBytes[0:(CPC+1-2)*NBYTES], line 140 *)
        if decide (cpc = 0 \/ zerobuf < (cpc - 1) * nb)%nat then (mk_hs hf lkp1 coll2, RPanic) else
        let coll3 := file_write coll2 (size + nb * 2) (replicate ((cpc - 1) * nb) 0) in
        (mk_hs hf lkp1 coll3, RFound valnum)
      else
        let chunk := Z.to_nat (Z.land lookup (Z.lnot msb) - 1) in
        match file_read (hs_coll s) (chunk * (cpc + 1) * nb) (nb * (cpc + 1)) with
        | None => (s0, RErr)
        | Some cb =>
            match hs_walk nb cpc (hs_fuel s) (hs_coll s) chunk cb 0 with
            | WAt coll chunk j =>
                (mk_hs hf (hs_lkp s) (file_write coll ((chunk * (cpc + 1) + j) * nb) valnum_bytes),
                 RFound valnum)
            | WErr => (s0, RErr)
            | WPanic => (s0, RPanic)
            | WHang => (s0, RHang)
            end
        end
  end.

(** indexedhashes/hashstore.go:312-353: one unit of fuel per slot or link read; [link] is a chunk
    number plus one, never zero here *)
Fixpoint hs_find (nb cpc fuel : nat) (s : hash_store) (h : list Z) (link j : nat) : fres :=
  match fuel with
  | O => RHang
  | S fuel' =>
      match file_read (hs_coll s) (((link - 1) * (cpc + 1) + j) * nb) nb with
      | None => RErr
      | Some bs =>
          let collision := hs_word bs in
          if collision =? 0 then RAbsent else
          if decide (j < cpc)%nat then
            match bhs_get (hs_hashes s) (Z.to_nat (collision - 1)) with
            | None => RErr
            | Some g =>
                if decide (g = h) then RFound (Z.to_nat (collision - 1))
                else hs_find nb cpc fuel' s h link (S j)
            end
          else hs_find nb cpc fuel' s h (Z.to_nat collision) 0
      end
  end.

(** indexedhashes/hashstore.go:258-355 *)
Definition hs_index_of (nb nbits cpc : nat) (s : hash_store) (h : list Z) : fres :=
  if decide (nb = 0)%nat then RPanic else
  if decide (8 < nb)%nat then RPanic else                (* lookupBytes[0:NBYTES], line 280 *)
  let msb := hs_msb nb in
  let key := hs_key nbits h in
  match file_read (hs_lkp s) (key * nb) nb with
  | None => RErr
  | Some lookup_bytes =>
      let lookup := hs_word lookup_bytes in
      if Z.land lookup msb =? 0 then
        if lookup =? 0 then RAbsent else
        match bhs_get (hs_hashes s) (Z.to_nat (lookup - 1)) with
        | None => RErr
        | Some g => if decide (g = h) then RFound (Z.to_nat (lookup - 1)) else RAbsent
        end
      else
        let link := Z.to_nat (Z.land lookup (Z.lnot msb)) in
        if decide (link = 0)%nat then RAbsent else hs_find nb cpc (hs_fuel s) s h link 0
  end.

(** indexedhashes/hashstore.go:357-366 *)
Definition hs_get (s : hash_store) (i : nat) : option (list Z) := bhs_get (hs_hashes s) i.
Definition hs_count (s : hash_store) : nat := bhs_count (hs_hashes s).

(** A session: a sequence of appends, with the store closed and opened again wherever [None] appears. *)
Fixpoint hs_run (nb nbits cpc : nat) (s : hash_store) (ops : list (option (list Z)))
  : hash_store * list fres :=
  match ops with
  | [] => (s, [])
  | None :: ops' => hs_run nb nbits cpc (hs_reopen s) ops'
  | Some h :: ops' =>
      let '(s1, r) := hs_append nb nbits cpc s h in
      let '(s2, rs) := hs_run nb nbits cpc s1 ops' in (s2, r :: rs)
  end.

(** ** MemoryIndexedHashes (indexedhashes/memoryindexed.go:7-11) *)
Record mem_store := mk_mi { mi_map : gmap (list Z) nat; mi_store : hash_file; mi_count : nat }.

(** indexedhashes/concretehashstorecreatormemory.go:52-73 and memoryindexed.go:13-18: opening a
    hashes file; the map starts empty and the count starts at zero *)
Definition mi_open (data : list Z) : mem_store := mk_mi ∅ (bhs_open data) 0.

(** indexedhashes/memoryindexed.go:20-28 *)
Definition mi_append (s : mem_store) (h : list Z) : mem_store * nat :=
  let '(hf, index) := bhs_append (mi_store s) h in
  (mk_mi (<[h := mi_count s]> (mi_map s)) hf (S (mi_count s)), index).

(** indexedhashes/memoryindexed.go:34-41 *)
Definition mi_index_of (s : mem_store) (h : list Z) : fres :=
  match mi_map s !! h with Some v => RFound v | None => RAbsent end.

(** indexedhashes/memoryindexed.go:43-49 *)
Definition mi_get (s : mem_store) (i : nat) : option (list Z) := bhs_get (mi_store s) i.
Definition mi_get_count (s : mem_store) : nat := mi_count s.

Fixpoint mi_run (s : mem_store) (hs : list (list Z)) : mem_store * list nat :=
  match hs with
  | [] => (s, [])
  | h :: hs' =>
      let '(s1, i) := mi_append s h in let '(s2, is) := mi_run s1 hs' in (s2, i :: is)
  end.
