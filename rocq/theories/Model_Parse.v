(** Model of the binary transaction and block parser (intrinsicobjects/).
    Positions in the block are [Z] (Go [int]); a panic (slice bounds) is [None].  A Go slice
    expression is taken to be bounded by the length of the block (the block slices handed to the
    parser have no spare capacity). *)
From Verif Require Import Base.

(** bin[a:a+n] *)
Definition sub (bin : list Z) (a : Z) (n : nat) : option (list Z) :=
  if (0 <=? a) && (a + Z.of_nat n <=? Z.of_nat (length bin))
  then Some (take n (drop (Z.to_nat a) bin)) else None.
(** bin[a] *)
Definition byte_at (bin : list Z) (a : Z) : option Z :=
  if 0 <=? a then bin !! Z.to_nat a else None.

(** Go [int32(x)] of a length *)
Definition to_i32 (v : Z) : Z := let u := v mod 2^32 in if u <? 2^31 then u else u - 2^32.

(** intrinsicobjects/binaryblock.go:96-108 ReadCompactSize: value and bytes consumed *)
Definition read_compact (bin : list Z) (off : Z) : option (Z * Z) :=
  first ← byte_at bin off;
  if first <? 253 then Some (first, 1)
  else if first =? 253 then b ← sub bin (off + 1) 2; Some (le_dec b, 3)
  else if first =? 254 then b ← sub bin (off + 1) 4; Some (le_dec b, 5)
  else b ← sub bin (off + 1) 8; Some (le_dec b, 9).

(** intrinsicobjects/intrinsictransaction.go:35-44 *)
Record txi := mk_txi { txi_txid : list Z; txi_vout : Z }.
Record txo := mk_txo { txo_value : Z; txo_start : Z; txo_len : Z }.

(** intrinsicobjects/multitransactionstorage.go:11-15 *)
Record storage := mk_storage { st_txis : list txi; st_txos : list txo; st_scripts : list Z }.
Definition st_empty : storage := mk_storage [] [] [].

(** intrinsicobjects/intrinsictransaction.go:11-24 *)
Record trans := mk_trans {
  tr_txid : list Z; tr_version : Z; tr_segwit : bool;
  tr_txis_start : Z; tr_txis_count : Z; tr_txos_start : Z; tr_txos_count : Z;
  tr_size : Z; tr_weight : Z; tr_vsize : Z; tr_stripped : Z }.

(** intrinsicobjects/binarytransaction.go:45-68, [n] inputs left *)
Fixpoint parse_txis (bin : list Z) (n : nat) (i : Z) (acc : list txi) : option (Z * list txi) :=
  match n with
  | O => Some (i, acc)
  | S n' =>
      txid ← sub bin i 32;
      vout ← sub bin (i + 32) 4;
      '(ss, k) ← read_compact bin (i + 36);
      parse_txis bin n' (i + 36 + k + to_i64 ss + 4) (acc ++ [mk_txi txid (le_dec vout)])
  end.

(** intrinsicobjects/binarytransaction.go:78-99, [n] outputs left *)
Fixpoint parse_txos (bin : list Z) (n : nat) (i : Z) (acc : list txo) (scripts : list Z)
  : option (Z * list txo * list Z) :=
  match n with
  | O => Some (i, acc, scripts)
  | S n' =>
      value ← sub bin i 8;
      '(spk, k) ← read_compact bin (i + 8);
      (* bin[byteIndex : byteIndex+int(spkLen)] panics for a negative length *)
      if to_i64 spk <? 0 then None else
      script ← sub bin (i + 8 + k) (Z.to_nat (to_i64 spk));
      parse_txos bin n' (i + 8 + k + to_i64 spk)
        (acc ++ [mk_txo (to_i64 (le_dec value)) (to_i32 (Z.of_nat (length scripts)))
                        (to_i32 (Z.of_nat (length script)))])
        (scripts ++ script)
  end.

(** intrinsicobjects/binarytransaction.go:112-120, [n] items left *)
Fixpoint skip_items (bin : list Z) (n : nat) (i : Z) : option Z :=
  match n with
  | O => Some i
  | S n' => '(len, k) ← read_compact bin i; skip_items bin n' (i + k + to_i64 len)
  end.

(** intrinsicobjects/binarytransaction.go:106-121, [n] witness stacks left *)
Fixpoint skip_witness (bin : list Z) (n : nat) (i : Z) : option Z :=
  match n with
  | O => Some i
  | S n' =>
      '(items, k) ← read_compact bin i;
      i1 ← skip_items bin (Z.to_nat items) (i + k);
      skip_witness bin n' i1
  end.

(** bin[a:b] *)
Definition slice (bin : list Z) (a b : Z) : option (list Z) :=
  if b <? a then None else sub bin a (Z.to_nat (b - a)).

(** intrinsicobjects/binarytransaction.go:10-152.  [sha] is SHA-256.  Returns the transaction, the
    storage and the number of bytes read. *)
Definition parse_trans (sha : list Z -> list Z) (bin : list Z) (start : Z) (st : storage)
  : option (trans * storage * Z) :=
  vbytes ← sub bin start 4;
  let i := start + 4 in
  b0 ← byte_at bin i;
  (* bin[byteIndex+1] is only looked at when the first byte is zero *)
  segwit ← (if b0 =? 0 then b1 ← byte_at bin (i + 1); Some (negb (b1 =? 0)) else Some false);
  let i1 := if (segwit : bool) then i + 2 else i in
  let stripped0 := if (segwit : bool) then 2 else 0 in
  '(ntxi, k) ← read_compact bin i1;
  '(i2, txis) ← parse_txis bin (Z.to_nat ntxi) (i1 + k) (st_txis st);
  '(ntxo, k') ← read_compact bin i2;
  '(i3, txos, scripts) ← parse_txos bin (Z.to_nat ntxo) (i2 + k') (st_txos st) (st_scripts st);
  i4 ← (if (segwit : bool) then skip_witness bin (Z.to_nat ntxi) i3 else Some i3);
  let stripped := stripped0 + (i4 - i3) in
  body ← slice bin i1 i3;
  lock ← sub bin i4 4;
  let size := i4 + 4 - start in
  let ssize := size - stripped in
  let weight := ssize * 3 + size in
  Some (mk_trans (sha (sha (vbytes ++ body ++ lock))) (le_dec vbytes) segwit
          (Z.of_nat (length (st_txis st))) (to_i64 ntxi)
          (Z.of_nat (length (st_txos st))) (to_i64 ntxo)
          size weight ((weight + 3) `quot` 4) ssize,
        mk_storage txis txos scripts, size).

(** intrinsicobjects/intrinsicblock.go:11-27; the difficulty (floating point) is left out *)
Record block := mk_block {
  bk_hash : list Z; bk_version : Z; bk_prev : list Z; bk_merkle : list Z; bk_time : Z; bk_nbits : Z;
  bk_nonce : Z; bk_trans : list trans; bk_size : Z; bk_weight : Z; bk_stripped : Z; bk_storage : storage }.

(** intrinsicobjects/binaryblock.go:64-69, [n] transactions left *)
Fixpoint parse_all (sha : list Z -> list Z) (bin : list Z) (n : nat) (i : Z) (st : storage)
    (acc : list trans) (weight stripped : Z) : option (storage * list trans * Z * Z) :=
  match n with
  | O => Some (st, acc, weight, stripped)
  | S n' =>
      '(t, st', k) ← parse_trans sha bin i st;
      parse_all sha bin n' (i + k) st' (acc ++ [t]) (weight + tr_weight t) (stripped + tr_stripped t)
  end.

(** intrinsicobjects/binaryblock.go:9-72 *)
Definition parse_block (sha : list Z -> list Z) (bin : list Z) : option block :=
  header ← sub bin 0 80;
  let hash := sha (sha header) in
  '(ntx, k) ← read_compact bin 80;
  '(st, ts, weight, stripped) ← parse_all sha bin (Z.to_nat ntx) (80 + k) st_empty [] (80 * 4 + 4 * k) (80 + k);
  Some (mk_block hash (le_dec (take 4 header)) (take 32 (drop 4 header)) (take 32 (drop 36 header))
          (le_dec (take 4 (drop 68 header))) (le_dec (take 4 (drop 72 header)))
          (le_dec (take 4 (drop 76 header))) ts (Z.of_nat (length bin)) weight stripped st).

(** intrinsicobjects/intrinsictransaction.go:28-33 GetTxi, GetTxo, and the script of an output as its
    users slice it: Scripts[start : start+len] *)
Definition get_txi (st : storage) (t : trans) (i : nat) : option txi :=
  st_txis st !! Z.to_nat (tr_txis_start t + Z.of_nat i).
Definition get_txo (st : storage) (t : trans) (i : nat) : option txo :=
  st_txos st !! Z.to_nat (tr_txos_start t + Z.of_nat i).
Definition get_script (st : storage) (o : txo) : option (list Z) :=
  slice (st_scripts st) (txo_start o) (txo_start o + txo_len o).
