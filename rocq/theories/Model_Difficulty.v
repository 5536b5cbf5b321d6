(** Model of the difficulty of a block read from its bytes (intrinsicobjects/binaryblock.go:74-93) and of the
    integer that is stored for it (intrinsicobjectscri/block.go:52, intrinsicobjectschi/chain.go:134).
    Go's float64 is IEEE 754 binary64, here the executable one of the standard library (nearest, ties to even). *)
From Coq Require Import Floats.SpecFloat.
From Verif Require Import Base Model_Uniform.

(** binaryblock.go:75-83: big integers; shifting right drops bits *)
Definition target_of (nbits : Z) : Z :=
  let exponent := nbits / 2^24 in
  let mantissa := nbits mod 2^24 in
  if 3 <? exponent then mantissa * 2^(8 * (exponent - 3))
  else if exponent <? 3 then mantissa / 2^(8 * (3 - exponent))
  else mantissa.
(** binaryblock.go:86 *)
Definition gen_target : Z := 0xffff * 2^208.
(** binaryblock.go:88-92: SetInt is exact, Float64 rounds to nearest even (infinity if too big) *)
Definition difficulty (nbits : Z) : spec_float := f64_div (f64_of gen_target) (f64_of (target_of nbits)).

(** int64(math.Round(f)): half away from zero; the result is open if it does not fit ([None]) *)
Definition f64_round (f : spec_float) : option Z :=
  match f with
  | S754_zero _ => Some 0
  | S754_finite s m e =>
      let a := if 0 <=? e then Z.pos m * 2^e else (2 * Z.pos m + 2^(-e)) / 2^(-e + 1) in
      let v := if s then - a else a in
      if (- 2^63 <=? v) && (v <? 2^63) then Some v else None
  | _ => None
  end.
Definition stored_difficulty (nbits : Z) : option Z := f64_round (difficulty nbits).
