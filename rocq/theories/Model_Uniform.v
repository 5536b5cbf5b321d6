(** Model of the uniform hash store: indexedhashes/uniform.go (the store) and
    indexedhashes/multipasspreloader.go (the indexer that fills its files).
    Writes of the operating system are taken to succeed, except for missing folders. *)
From Coq Require Import Floats.SpecFloat.
From Verif Require Import Base Model_Folders Model_Word Model_HashStore.

(** ** Floating point: Go's float64 is IEEE 754 binary64, here the executable one of the standard
    library (rounding to nearest even). *)
Definition f64_of (v : Z) : spec_float := binary_normalize 53 1024 v 0 false.
Definition f64_div : spec_float -> spec_float -> spec_float := SFdiv 53 1024.
Definition f64_add : spec_float -> spec_float -> spec_float := SFadd 53 1024.
Definition f64_half : spec_float := S754_finite false 4503599627370496 (-53).
(** Conversion to an integer drops the fraction; results out of range are not modelled (0). *)
Definition f64_trunc (f : spec_float) : Z :=
  match f with
  | S754_finite false m e => if 0 <=? e then Z.pos m * 2 ^ e else Z.pos m / 2 ^ (- e)
  | _ => 0
  end.

(** uniform.go:63-65: the divider chosen for an estimated number of hashes (at least 150: below that
    the quotient is 2^64 or infinite and the conversion is left open by the language) *)
Definition divider_for (estimate : Z) : Z := f64_trunc (f64_div (f64_of (2^64)) (f64_of (estimate / 75))).

(** multipasspreloader.go:232-234 *)
Definition biggest_plus_one (d : Z) : Z :=
  f64_trunc (f64_add (f64_div (f64_of (2^64)) (f64_of d)) f64_half).

(** ** Files of a store.  Overflow files are named after the bin address (Prop_Folders: the path
    determines it), [ud_dirs] are the folders that exist below BinOverflows, [ud_params] is the
    divider in Params.json ([None]: no readable file).  JSON itself is not modelled. *)
Record udisk := mk_ud {
  ud_hashes : list Z; ud_starts : list Z; ud_over : gmap Z (list Z); ud_dirs : gset (list Z);
  ud_params : option Z }.

(** Paths as lists of character codes, for use as keys *)
Definition chr_code (c : chr) : Z := match c with Dig d => d | Ex => 10 | Sep => 11 end.
Definition folder_of (dd : nat) (a : Z) : list Z :=
  match number_to_path 0 dd a with Some (folders, _, _) => chr_code <$> folders | None => [] end.

Inductive ures (A : Type) := UOk (a : A) | UErr | UPanic.
Arguments UOk {A}. Arguments UErr {A}. Arguments UPanic {A}.

(** uniform.go:202-206, multipasspreloader.go:156-157: the bin address of a hash (uint64) *)
Definition address (d : Z) (h : list Z) : Z := le_dec (take 8 h) / d.

(** ** The indexer *)
(** multipasspreloader.go:59-68.  Slots not yet used are not listed. *)
Definition ent : Type := Z * list Z.   (* index, hash *)
Record ubin := mk_ub { ub_count : Z; ub_slots : list ent; ub_over : list ent }.
Definition ub_empty : ubin := mk_ub 0 [] [].

(** multipasspreloader.go:70: binStartSize *)
Definition bin_size : nat := Z.to_nat 832.

(** multipasspreloader.go:72-78: unused slots hold zero *)
Definition bin_bytes (b : ubin) : list Z :=
  le_enc 8 (ub_count b) ++ le_enc 8 0 ++ concat ((fun e : ent => le_enc 8 (fst e)) <$> ub_slots b)
  ++ replicate ((102 - length (ub_slots b)) * 8) 0.

(** multipasspreloader.go:88-99 and 164-175 *)
Definition bin_has (b : ubin) (h : list Z) : bool :=
  existsb (fun e => bool_decide (snd e = h)) (ub_slots b) ||
  existsb (fun e => bool_decide (snd e = h)) (ub_over b).

(** multipasspreloader.go:162-186 *)
Definition bin_add (b : ubin) (e : ent) : ubin :=
  if bin_has b (snd e) then b else
  if ub_count b <? 102 then mk_ub (ub_count b + 1) (ub_slots b ++ [e]) (ub_over b)
  else mk_ub (ub_count b + 1) (ub_slots b) (ub_over b ++ [e]).

(** multipasspreloader.go:149-162: [bins] are those of the pass, from address [first] on *)
Definition deal (d first : Z) (bins : list ubin) (e : ent) : list ubin :=
  let a := to_i64 (address d (snd e)) in
  if (a <? first) || (first + Z.of_nat (length bins) <=? a) then bins
  else alter (fun b => bin_add b e) (Z.to_nat (a - first)) bins.

(** A chunk as hashes: multipasspreloader.go:138-140 *)
Fixpoint split32 (n : nat) (l : list Z) : list (list Z) :=
  match n with O => [] | S n' => take 32 l :: split32 n' (drop 32 l) end.

(** multipasspreloader.go:122-147: at most 4096 bytes are read at a time; a regular file gives less
    only at its end *)
Definition chunk_bytes : nat := Z.to_nat 4096.
Fixpoint read_in (fuel : nat) (d first : Z) (bins : list ubin) (index : Z) (file : list Z) : ures (list ubin) :=
  match fuel with
  | O => UErr
  | S fuel' =>
      let chunk := take chunk_bytes file in
      if (length chunk =? 0)%nat then UOk bins else
      if negb (length chunk mod 32 =? 0)%nat then UErr else
      let hs := split32 (length chunk / 32) chunk in
      let bins' := fold_left (deal d first) (imap (fun i h => (index + Z.of_nat i, h)) hs) bins in
      read_in fuel' d first bins' (index + Z.of_nat (length hs)) (drop chunk_bytes file)
  end.

(** multipasspreloader.go:188-200 *)
Definition write_starts (first : Z) (bins : list ubin) (starts : list Z) : list Z :=
  fold_left (fun f ib => file_write f (Z.to_nat (832 * (first + Z.of_nat (fst ib)))) (bin_bytes (snd ib)))
            (imap pair bins) starts.

(** multipasspreloader.go:202-230 *)
Definition write_over (dd : nat) (first : Z) (bins : list ubin) (od : gmap Z (list Z) * gset (list Z)) :
    gmap Z (list Z) * gset (list Z) :=
  fold_left (fun od ib =>
      let a := first + Z.of_nat (fst ib) in
      match ub_over (snd ib) with
      | [] => od
      | es => (<[a := concat ((fun e : ent => le_enc 8 (fst e)) <$> es)]> (fst od), {[folder_of dd a]} ∪ snd od)
      end) (imap pair bins) od.

(** multipasspreloader.go:273-294: one pass *)
Definition one_pass (d : Z) (dd : nat) (n per pass : Z) (k : udisk) : ures udisk :=
  let first := pass * per in
  let addresses := if n <? first + per then n - first else per in
  match read_in (S (length (ud_hashes k))) d first (replicate (Z.to_nat addresses) ub_empty) 0 (ud_hashes k) with
  | UOk bins =>
      let '(over, dirs) := write_over dd first bins (ud_over k, ud_dirs k) in
      UOk (mk_ud (ud_hashes k) (write_starts first bins (ud_starts k)) over dirs (ud_params k))
  | UErr => UErr
  | UPanic => UPanic
  end.

Fixpoint run_passes (d : Z) (dd : nat) (n per pass : Z) (todo : nat) (k : udisk) : ures udisk :=
  match todo with
  | O => UOk k
  | S todo' =>
      match one_pass d dd n per pass k with
      | UOk k' => run_passes d dd n per (pass + 1) todo' k'
      | UErr => UErr
      | UPanic => UPanic
      end
  end.

(** multipasspreloader.go:236-302 (CreateInitialFiles, IndexTheHashes).  [bpp] = bytesPerPass *)
Definition index_the_hashes (d : Z) (dd : nat) (bpp : Z) (k : udisk) : ures udisk :=
  let n := biggest_plus_one d in
  let k := mk_ud (ud_hashes k) (replicate (Z.to_nat (832 * n)) 0) (ud_over k) (ud_dirs k) (ud_params k) in
  let per := bpp / 832 in
  if per =? 0 then UPanic else run_passes d dd n per 0 (Z.to_nat (1 + n / per)) k.

(** ** The store *)
Record ustore := mk_us { us_div : Z; us_dd : nat; us_file : hash_file; us_disk : udisk }.

(** uniform.go:147-176; [us_disk] holds the other files, which are read from disk at every use *)
Definition u_open (d : Z) (dd : nat) (k : udisk) : ustore := mk_us d dd (bhs_open (ud_hashes k)) k.

(** uniform.go:306-310; a negative offset is refused by ReadAt *)
Definition u_get (s : ustore) (i : Z) : option (list Z) :=
  if i <? 0 then None else hf_read (us_file s) (Z.to_nat i).

(** uniform.go:312-314 *)
Definition u_count (s : ustore) : nat := hf_count (us_file s).

(** uniform.go:272-282 and 292-302: the loop over the indices stored, read from [bs] at 8 byte steps;
    a slice past the end of [bs] panics *)
Fixpoint u_scan (s : ustore) (q : list Z) (bs : list Z) (i n : nat) : option fres :=
  match n with
  | O => None
  | S n' =>
      match file_read bs (i * 8) 8 with
      | None => Some RPanic
      | Some w =>
          let idx := to_i64 (le_dec w) in
          match u_get s idx with
          | None => Some RErr
          | Some h => if decide (h = q) then Some (RFound (Z.to_nat idx)) else u_scan s q bs (S i) n'
          end
      end
  end.

(** uniform.go:252-304 *)
Definition u_index_of (s : ustore) (q : list Z) : fres :=
  let a := address (us_div s) q in
  let off := to_i64 ((a * 832) mod 2^64) in
  if off <? 0 then RErr else
  match file_read (ud_starts (us_disk s)) (Z.to_nat off) bin_size with
  | None => RErr
  | Some byts =>
      let count := to_i64 (le_dec (take 8 byts)) in
      match u_scan s q (drop 16 byts) 0 (Z.to_nat (count `min` 102)) with
      | Some r => r
      | None =>
          if 102 <? count then
            match ud_over (us_disk s) !! to_i64 a with
            | None => RErr
            | Some file => match u_scan s q file 0 (Z.to_nat (count - 102)) with Some r => r | None => RAbsent end
            end
          else RAbsent
      end
  end.

(** uniform.go:213-250.  The folder made is not the one below BinOverflows that the file goes into. *)
Definition u_append (s : ustore) (h : list Z) : ustore * option nat :=
  let n := hf_count (us_file s) in
  let file := hf_write (us_file s) h n in
  let k := us_disk s in
  let a := to_i64 (address (us_div s) h) in
  let k' := mk_ud (hf_data file) (ud_starts k) (ud_over k) (ud_dirs k) (ud_params k) in
  if decide (folder_of (us_dd s) a ∈ ud_dirs k) then
    let old := default [] (ud_over k !! a) in
    (mk_us (us_div s) (us_dd s) file
       (mk_ud (hf_data file) (ud_starts k) (<[a := old ++ le_enc 8 (Z.of_nat n) ++ h]> (ud_over k)) (ud_dirs k) (ud_params k)),
     Some n)
  else (mk_us (us_div s) (us_dd s) file k', None).

(** uniform.go:332-372: the self test.  A failed GetHashAtIndex leaves the all-zero hash. *)
Fixpoint u_test_loop (s : ustore) (count i n : nat) : ures bool :=
  match n with
  | O => UOk true
  | S n' =>
      match u_get s (Z.of_nat i) with
      | None => UErr
      | Some h =>
          match u_index_of s h with
          | RPanic => UPanic
          | RErr | RHang => UErr
          | r =>
              let j := match r with RFound j => Z.of_nat j | _ => -1 end in
              let h2 := default (replicate 32 0) (u_get s j) in
              if decide (h = h2) then
                if (count / 100 =? 0)%nat then UPanic else u_test_loop s count (S i) n'
              else UOk false
          end
      end
  end.
Definition u_test (s : ustore) : ures bool := u_test_loop s (u_count s) 0 (u_count s).

(** ** Creating a store *)
(** uniform.go:50-74: making the creator object already writes Params.json, if the folder is there *)
Definition u_creator (estimate : Z) (k : option udisk) : Z * option udisk :=
  let d := divider_for estimate in
  (d, (fun k => mk_ud (ud_hashes k) (ud_starts k) (ud_over k) (ud_dirs k) (Some d)) <$> k).

(** uniform.go:26-48: parameters as found in Params.json *)
Definition u_creator_from_file (k : udisk) : option Z := ud_params k.

(** uniform.go:113-141.  os.OpenFile with O_CREATE alone opens for reading only; whether such a file can
    be written depends on the system: [ro_write] (the Go library asks for write access with O_CREATE on
    Windows; POSIX systems refuse the write). *)
Definition u_create (ro_write : bool) (d : Z) (_ : option udisk) : udisk * bool :=
  (mk_ud [] [] ∅ ∅ (if ro_write then Some d else None), ro_write).
