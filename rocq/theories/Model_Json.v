(** Model of the JSON transaction parser (intrinsicobjects/jsontransaction.go), after encoding/json has
    turned the text into a [JsonTransEssential].  Strings are lists of character codes. *)
From Verif Require Import Base Model_Codec Model_Parse.

(** intrinsicobjects/jsontransaction.go:92-119; [V] is the type of the floating point [value] field;
    locktime, address and type are not read *)
Record json_txi := mk_jti { ji_txid : list Z; ji_vout : Z }.
Record json_txo {V : Type} := mk_jto { jo_value : V; jo_hex : list Z }.
Arguments json_txo : clear implicits.
Arguments mk_jto {V}.
Record json_trans {V : Type} := mk_jt {
  jt_txid : list Z; jt_vin : list json_txi; jt_vout : list (json_txo V);
  jt_version : Z; jt_size : Z; jt_vsize : Z; jt_weight : Z }.
Arguments json_trans : clear implicits.
Arguments mk_jt {V}.

(** encoding/hex.DecodeString: digits in either case, an even number of them, else an error *)
Definition hex_value (c : Z) : option Z :=
  if (0x30 <=? c) && (c <=? 0x39) then Some (c - 0x30)
  else if (0x61 <=? c) && (c <=? 0x66) then Some (c - 0x61 + 10)
  else if (0x41 <=? c) && (c <=? 0x46) then Some (c - 0x41 + 10)
  else None.
Fixpoint hex_decode (l : list Z) : option (list Z) :=
  match l with
  | [] => Some []
  | [_] => None
  | a :: b :: l' => x ← hex_value a; y ← hex_value b; r ← hex_decode l'; Some (16 * x + y :: r)
  end.

(** intrinsicobjects/jsontransaction.go:41-56 *)
Fixpoint json_txis (vin : list json_txi) (acc : list txi) : option (list txi) :=
  match vin with
  | [] => Some acc
  | j :: vin' =>
      txid ← (if decide (ji_txid j = []) then Some (replicate 32 0) else hash_of_hex (ji_txid j));
      json_txis vin' (acc ++ [mk_txi txid (ji_vout j)])
  end.

Section Json.
  Context {V : Type} (sats : V -> Z).  (* int64(math.Round(value * satoshisPerBitcoin)), line 63 *)

  (** intrinsicobjects/jsontransaction.go:60-76 *)
  Fixpoint json_txos (vout : list (json_txo V)) (acc : list txo) (scripts : list Z)
    : option (list txo * list Z) :=
    match vout with
    | [] => Some (acc, scripts)
    | j :: vout' =>
        script ← hex_decode (jo_hex j);
        json_txos vout'
          (acc ++ [mk_txo (sats (jo_value j)) (to_i32 (Z.of_nat (length scripts))) (to_i32 (Z.of_nat (length script)))])
          (scripts ++ script)
    end.

  (** intrinsicobjects/jsontransaction.go:25-84 *)
  Definition parse_json (j : json_trans V) (st : storage) : option (trans * storage) :=
    txid ← hash_of_hex (jt_txid j);
    txis ← json_txis (jt_vin j) (st_txis st);
    '(txos, scripts) ← json_txos (jt_vout j) (st_txos st) (st_scripts st);
    let s0 := (jt_weight j - jt_size j) `quot` 3 in
    let stripped := if (jt_weight j =? 0) || (s0 =? 0) then jt_size j else s0 in
    Some (mk_trans txid (jt_version j mod 2^32) (jt_vsize j <? jt_size j)
            (Z.of_nat (length (st_txis st))) (Z.of_nat (length (jt_vin j)))
            (Z.of_nat (length (st_txos st))) (Z.of_nat (length (jt_vout j)))
            (jt_size j) (jt_weight j) (jt_vsize j) stripped,
          mk_storage txis txos scripts).
End Json.
