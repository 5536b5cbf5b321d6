(** Models of intarrayarray/varint.go, intarrayarray/intarrayarray.go and indexedhashes/hexstring.go. *)
From Verif Require Import Base.

(** ** intarrayarray/varint.go *)

(** intarrayarray/varint.go:35-50 (ToBytes) *)
Definition varint_enc (v : Z) : list Z :=
  let space := le_enc 8 v in
  if v <? 0xFD then take 1 space
  else if v <=? 0xFFFF then 0xFD :: take 2 space
  else if v <=? 0xFFFFFFFF then 0xFE :: take 4 space
  else 0xFF :: take 8 space.

(** [take] that fails when too short: Go slice expression / index panics *)
Definition take_exact (n : nat) (l : list Z) : option (list Z) :=
  if decide (n <= length l)%nat then Some (take n l) else None.

(** intarrayarray/varint.go:18-33 (FromBytes): value and number of bytes read; [None] = panic
    (index or slice out of range). *)
Definition varint_dec (l : list Z) : option (Z * nat) :=
  match l with
  | [] => None
  | b :: r =>
      if b <? 0xFD then Some (b, 1%nat)
      else if b =? 0xFD then (fun d => (le_dec d, 3%nat)) <$> take_exact 2 r
      else if b =? 0xFE then (fun d => (le_dec d, 5%nat)) <$> take_exact 4 r
      else (fun d => (to_i64 (le_dec d), 9%nat)) <$> take_exact 8 r
  end.

(** ** intarrayarray/intarrayarray.go *)

(** intarrayarray/intarrayarray.go:8-13.  Keys are non-negative int64 (nat). *)
Record iaa := mk_iaa {
  iaa_esize : nat;               (* elementByteSize *)
  iaa_count : nat;               (* arrayCount *)
  iaa_tally : Z;                 (* elementTally *)
  iaa_map : gmap nat (list Z)    (* intToIntArray *)
}.

(** intarrayarray/intarrayarray.go:15-22 *)
Definition iaa_new (count esize : nat) : iaa := mk_iaa esize count 0 ∅.

(** intarrayarray/intarrayarray.go:24-32 *)
Definition iaa_append (a : iaa) (key : nat) (v : Z) : iaa :=
  mk_iaa (iaa_esize a) (iaa_count a) (iaa_tally a + 1)
    (match iaa_map a !! key with
     | Some arr => <[key := arr ++ [v]]> (iaa_map a)
     | None => <[key := [v]]> (iaa_map a)
     end).

(** intarrayarray/intarrayarray.go:34-41 *)
Definition iaa_get (a : iaa) (key : nat) : list Z := default [] (iaa_map a !! key).

(** intarrayarray/intarrayarray.go:43-79: the bytes written to the file (buffer capacity is only an
    allocation hint and is not modelled). *)
Definition iaa_save_one (es : nat) (arr : list Z) : list Z :=
  varint_enc (Z.of_nat (length arr)) ++ concat (map (fun v => take es (le_enc 8 v)) arr).
Definition iaa_save (a : iaa) : list Z :=
  concat (map (fun i => iaa_save_one (iaa_esize a) (iaa_get a i)) (seq 0 (iaa_count a))).

(** intarrayarray/intarrayarray.go:100-109: read [n] elements; [None] = slice out of range panic *)
Fixpoint iaa_load_elems (es n : nat) (l : list Z) : option (list Z * list Z) :=
  match n with
  | O => Some ([], l)
  | S n' =>
      match take_exact es l with
      | None => None
      | Some d =>
          match iaa_load_elems es n' (drop es l) with
          | None => None
          | Some (arr, rest) => Some (to_i64 (le_dec (d ++ replicate (8 - es) 0)) :: arr, rest)
          end
      end
  end.

(** intarrayarray/intarrayarray.go:94-112: the loop over arrays [i, i+n); a negative size panics
    in make. *)
Fixpoint iaa_load_arrays (es i n : nat) (l : list Z) (m : gmap nat (list Z)) (tally : Z)
  : option (gmap nat (list Z) * Z) :=
  match n with
  | O => Some (m, tally)
  | S n' =>
      match varint_dec l with
      | None => None
      | Some (size, used) =>
          if size <? 0 then None else
          match iaa_load_elems es (Z.to_nat size) (drop used l) with
          | None => None
          | Some (arr, rest) => iaa_load_arrays es (S i) n' rest (<[i := arr]> m) (tally + size)
          end
      end
  end.

(** intarrayarray/intarrayarray.go:81-114 *)
Definition iaa_load (a : iaa) (file : list Z) : option iaa :=
  match iaa_load_arrays (iaa_esize a) 0 (iaa_count a) file ∅ 0 with
  | Some (m, t) => Some (mk_iaa (iaa_esize a) (iaa_count a) t m)
  | None => None
  end.

(** ** indexedhashes/hexstring.go *)

(** indexedhashes/hexstring.go:116-127 *)
Definition ascii_to_nibble (c : Z) : Z :=
  if (0x30 <=? c) && (c <=? 0x39) then c - 0x30
  else if (0x41 <=? c) && (c <=? 0x46) then c - (0x41 - 0x0A)
  else if (0x61 <=? c) && (c <=? 0x66) then c - (0x61 - 0x0A)
  else 0.

(** indexedhashes/hexstring.go:104-114: entry (msb character, lsb character) of the table;
    the nibbles are below 16, so shift-and-or is 16*m+l. *)
Definition hex_lookup (msb lsb : Z) : Z := 16 * ascii_to_nibble msb + ascii_to_nibble lsb.

(** indexedhashes/hexstring.go:64-102: byte [i] comes from characters 62-2i and 63-2i;
    [None] = error (length is not 64). *)
Definition hash_of_hex (text : list Z) : option (list Z) :=
  if decide (length text = 64)%nat then
    Some (map (fun i => hex_lookup (default 0 (text !! (62 - 2 * i)%nat)) (default 0 (text !! (63 - 2 * i)%nat)))
              (seq 0 32))
  else None.

(** encoding/hex: lower case digits *)
Definition hex_digit (n : Z) : Z := if n <? 10 then 0x30 + n else 0x61 + (n - 10).
Definition hex_encode (l : list Z) : list Z :=
  concat (map (fun b => [hex_digit (b / 16); hex_digit (b mod 16)]) l).

(** indexedhashes/hexstring.go:137-143; corereader2/utils.go:5-13 is the same *)
Definition hex_of_hash (h : list Z) : list Z :=
  hex_encode (map (fun i => default 0 (h !! (31 - i)%nat)) (seq 0 32)).
