(** Specification of the integer array map stores: a history of appends. *)
From Verif Require Import Base.

(** A value that an element of [es] bytes holds exactly. *)
Definition elem_fits (es : nat) (v : Z) : Prop :=
  ((es < 8)%nat /\ 0 <= v < pow256 es) \/ (es = 8%nat /\ is_i64 v).

(** A legal append: key (int64, not negative) and value. *)
Definition good_append (es : nat) (kv : Z * Z) : Prop := 0 <= kv.1 < 2^63 /\ elem_fits es kv.2.

(** The array under a key: the values appended under it, in order. *)
Definition array_of (hist : list (Z * Z)) (key : Z) : list Z :=
  map snd (filter (fun kv => kv.1 = key) hist).

(** Two keys kept in the same file: they agree in all but the last [fd] decimal digits. *)
Definition same_file (fd : nat) (a b : Z) : Prop := a / 10 ^ Z.of_nat fd = b / 10 ^ Z.of_nat fd.
Definition file_used (fd : nat) (hist : list (Z * Z)) (key : Z) : Prop :=
  Exists (fun kv => same_file fd kv.1 key) hist.
Global Instance file_used_dec fd hist key : Decision (file_used fd hist key).
Proof. unfold file_used, same_file. apply _. Defined.
