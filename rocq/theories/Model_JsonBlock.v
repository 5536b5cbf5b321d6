(** Model of the JSON block parser (intrinsicobjects/jsonblock.go), after encoding/json has turned the text
    into a [JsonBlockEssential].  The difficulty (floating point, taken over as is) is left out; what an
    unsuccessful parse leaves in the target is not modelled. *)
From Verif Require Import Base Model_Codec Model_Parse Model_Json.

(** intrinsicobjects/jsonblock.go:68-87; height and mediantime are not read *)
Record json_block {V : Type} := mk_jb {
  jb_hash : list Z; jb_prev : list Z; jb_tx : list (json_trans V); jb_merkle : list Z;
  jb_version : Z; jb_time : Z; jb_nonce : Z; jb_strippedsize : Z; jb_size : Z; jb_weight : Z; jb_bits : list Z }.
Arguments json_block : clear implicits.
Arguments mk_jb {V}.

(** strconv.ParseUint(s, 16, 32): hexadecimal digits in either case, no prefix, not empty, below 2^32 *)
Fixpoint hex_number (s : list Z) (acc : Z) : option Z :=
  match s with
  | [] => Some acc
  | c :: s' => v ← hex_value c; let n := 16 * acc + v in if n <? 2^32 then hex_number s' n else None
  end.
Definition parse_hex32 (s : list Z) : option Z := match s with [] => None | _ => hex_number s 0 end.

Section JsonBlock.
  Context {V : Type} (sats : V -> Z).  (* as in Model_Json *)

  (** intrinsicobjects/jsonblock.go:54-59 *)
  Fixpoint json_all (txs : list (json_trans V)) (st : storage) (acc : list trans) : option (list trans * storage) :=
    match txs with
    | [] => Some (acc, st)
    | j :: txs' => '(t, st') ← parse_json sats j st; json_all txs' st' (acc ++ [t])
    end.

  (** intrinsicobjects/jsonblock.go:10-61.  The storage is emptied first (11-15).  Conversions to uint32
      keep the low 32 bits; int is 64 bits wide. *)
  Definition parse_json_block (j : json_block V) : option block :=
    hash ← hash_of_hex (jb_hash j);
    prev ← (if decide (jb_prev j = []) then Some (replicate 32 0) else hash_of_hex (jb_prev j));
    merkle ← hash_of_hex (jb_merkle j);
    nbits ← parse_hex32 (jb_bits j);
    '(ts, st) ← json_all (jb_tx j) st_empty [];
    Some (mk_block hash (jb_version j mod 2^32) prev merkle (jb_time j mod 2^32) nbits (jb_nonce j mod 2^32)
            ts (jb_size j) (jb_weight j) (jb_strippedsize j) st).
End JsonBlock.
