(** Identifiers: conversions between the ways of numbering hashes, and their storage in N bytes.
    weddingcakeback/hashidconversions.go, weddingcakeback/types.go, weddingcake/chunk.go, weddingcake/types.go.

    int64 and uint64 arithmetic wraps.  A panic is [None]. *)
From Verif Require Import Base.

Definition i64 (z : Z) : Z := to_i64 (to_u64 z).

(** ** Conversions (weddingcakeback) *)

(** hashidconversions.go:11-13 *)
Definition global_of_single (s : Z) : Z := i64 (to_i64 s - 1).
(** hashidconversions.go:30-32 *)
Definition single_of_global (g : Z) : Z := to_u64 (i64 (g + 1)).
(** hashidconversions.go:24-26 (a TierTopIndex is an int) *)
Definition global_of_top (t off : Z) : Z := i64 (off + t).
(** hashidconversions.go:27-29 *)
Definition top_of_global (g off : Z) : Z := i64 (g - off).
(** hashidconversions.go:18-20 *)
Definition global_in_range (g off count : Z) : bool := (off <=? g) && (g <? i64 (off + count)).
(** hashidconversions.go:37-47 *)
Definition hid_of_global (g off : Z) : option Z :=
  if g =? -1 then Some 0 else if g <? off then None else Some (to_u64 (i64 (i64 (g - off) + 1))).
(** hashidconversions.go:49-56 *)
Definition global_of_hid (h off : Z) : Z := if h =? 0 then -1 else i64 (i64 (to_i64 h - 1) + off).

(** ** Conversions (weddingcake) *)

(** weddingcake/chunk.go:26-40 *)
Definition chunk_hid_of_global (g off : Z) : option Z :=
  if g =? -1 then Some 0
  else let h := i64 (i64 (g - off) + 1) in
       if h <? 1 then None else if 2^32 - 1 <? h then None else Some (h mod 2^32).
(** weddingcake/chunk.go:42-49 *)
Definition chunk_global_of_hid (h off : Z) : Z := if h =? 0 then -1 else i64 (i64 (h - 1) + off).

(** ** N-byte storage *)

Inductive idw := ID16 | ID24 | ID32 | ID40.
Definition storage (w : idw) : nat := match w with ID16 => 2 | ID24 => 3 | ID32 => 4 | ID40 => 5 end.

(** byte(id >> n) *)
Definition byte_at (id n : Z) : Z := Z.shiftr id n mod 256.

(** weddingcakeback/types.go:47-48, 59-63, 88-89, 100-105, weddingcake/types.go:34, 41-46, 55: the bytes written *)
Definition id_bytes (w : idw) (id : Z) : list Z :=
  match w with
  | ID16 => le_enc 2 (id mod 2^16)
  | ID24 => let v := id mod 2^32 in [byte_at v 0; byte_at v 8; byte_at v 16]
  | ID32 => le_enc 4 (id mod 2^32)
  | ID40 => [byte_at id 0; byte_at id 8; byte_at id 16; byte_at id 24; byte_at id 32]
  end.
(** weddingcakeback/types.go:49-51, 64-78, 90-92, 106-114: the checks *)
Definition id_too_large (w : idw) (id : Z) : bool :=
  match w with
  | ID16 => negb (to_u64 (id - id mod 2^16) =? 0)
  | ID24 => negb (byte_at id 24 =? 0) || negb (byte_at id 32 =? 0) || negb (byte_at id 40 =? 0) || negb (byte_at id 48 =? 0) || negb (byte_at id 56 =? 0)
  | ID32 => negb (to_u64 (id - id mod 2^32) =? 0)
  | ID40 => negb (byte_at id 40 =? 0) || negb (byte_at id 48 =? 0) || negb (byte_at id 56 =? 0)
  end.
(** [checked]: weddingcakeback panics on an identifier too large, weddingcake does not look *)
Definition id_write (checked : bool) (w : idw) (id : Z) : option (list Z) :=
  if checked && id_too_large w id then None else Some (id_bytes w id).

(** weddingcakeback/types.go:53, 80-82, 94, 116-119; weddingcake/types.go:35, 47-49, 56 *)
Definition id_read (w : idw) (b : list Z) : Z :=
  let at_ i := nth i b 0 in
  match w with
  | ID16 => le_dec (take 2 b)
  | ID24 => Z.lor (Z.lor (at_ 0%nat) (Z.shiftl (at_ 1%nat) 8)) (Z.shiftl (at_ 2%nat) 16)
  | ID32 => le_dec (take 4 b)
  | ID40 => Z.lor (Z.lor (Z.lor (Z.lor (at_ 0%nat) (Z.shiftl (at_ 1%nat) 8)) (Z.shiftl (at_ 2%nat) 16)) (Z.shiftl (at_ 3%nat) 24)) (Z.shiftl (at_ 4%nat) 32)
  end.
