(** Specifications for the codecs. *)
From Verif Require Import Base.

(** Value kept by a field of [es] bytes, read back as a Go int64. *)
Definition stored_as (es : nat) (v : Z) : Z := to_i64 (v mod pow256 es).

(** Hexadecimal characters, and lower-casing of a character. *)
Definition is_hex_char (c : Z) : Prop :=
  (48 <= c <= 57) \/ (65 <= c <= 70) \/ (97 <= c <= 102).
Definition lower (c : Z) : Z := if decide (65 <= c <= 90) then c + 32 else c.

(** [p] is a strict prefix of [l] *)
Definition strict_prefix (p l : list Z) : Prop := exists t, t <> [] /\ l = p ++ t.
