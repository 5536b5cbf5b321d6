(** Baking the top tier of a cake into the first tier below it, with the parameters of the code:
    weddingcakeback/cakeconfig.go:28-52, tiertop.go, donutforestwrite.go:28-228.

    Baking into deeper tiers and looking things up in them stay parameters ([deep], [deepf]). *)
From Verif Require Import Base Model_Tree Model_Chunk.

(** tiertop.go:182, 207 and cakeconfig.go:38-50 *)
Definition top_cap : nat := Z.to_nat 65535.
Definition top_quota : list nat := [5; 255; 255; 255]%nat.

(** cakeconfig.go:32-39: 16-bit identifiers, no prefix, 32-byte hashes (tiertop.go:189-193) *)
Definition tier0 (R : nat) : config := mk_config true R 10 2 2 32 0.

Section Top.
  Context (ent : list thash -> nat -> Z) (srt : nat -> list thash -> list thash) (R : nat).

  (** tiertop.go:237-251, hashidconversions.go: presentation indices count from 1 *)
  Definition top_input (off : Z) (sh : list (list Z)) : list thash := imap (fun i h => mk_th h (off + Z.of_nat i + 1)) sh.

  (** donutforestwrite.go:28-228: one tree; opening the new tier refuses more than ten levels (C67) *)
  Definition bake_top (off : Z) (sh : list (list Z)) : option forest :=
    t ← generate ent srt R 0 32 (top_input off sh);
    f ← bake (tier0 R) (tier_lid off) [t];
    if (10 <? length (f_levels f))%nat then None else Some f.

  Definition cake_bake (deep : nat -> Z -> list (Z * forest) -> list (list Z) -> option forest)
      (d : nat) (off : Z) (sf : list (Z * forest)) (sh : list (list Z)) : option forest :=
    match d with O => bake_top off sh | S _ => deep d off sf sh end.
  (** tierbelow.go:192-247 for one forest; the first tier has no prefix, so its jump table has one entry *)
  Definition cake_find (deepf : nat -> forest -> list Z -> option Z) (d : nat) (f : forest) (q : list Z) : option Z :=
    match d with O => forest_find (tier0 R) f 0 q | S _ => deepf d f q end.
End Top.
