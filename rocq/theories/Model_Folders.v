(** Model of numberedfolders/numberedfolders.go. *)
From Verif Require Import Base.

(** Characters of the paths: decimal digits, the placeholder 'x', the path separator. *)
Inductive chr := Dig (d : Z) | Ex | Sep.
Global Instance chr_eq_dec : EqDecision chr.
Proof. solve_decision. Defined.

(** numberedfolders/numberedfolders.go:26-35: entry [b] of bigitStrings(n), i.e.
    fmt.Sprintf("%0nd", b) for 0 <= b < 10^n (for n = 0 the only entry is "0"). *)
Fixpoint digits_lsb (n : nat) (b : Z) : list chr :=
  match n with O => [] | S n' => Dig (b mod 10) :: digits_lsb n' (b / 10) end.
Definition bigit_str (n : nat) (b : Z) : list chr :=
  match n with O => [Dig 0] | _ => reverse (digits_lsb n b) end.

(** numberedfolders/numberedfolders.go:55-80: the do..while loop gathering big digits, least
    significant first.  [fd], [dd] = digits per file / per folder.  Exhausted fuel = the loop did
    not end ([None]). *)
Fixpoint bigits (fuel : nat) (fd dd : nat) (first : bool) (num : Z) : option (list (list chr)) :=
  match fuel with
  | O => None
  | S fuel' =>
      let n := if first && (0 <? fd)%nat then fd else dd in
      let entries := 10 ^ Z.of_nat n in
      let bigit := num mod entries in
      let str := bigit_str n bigit in
      let num' := (num - bigit) / entries in
      if 0 <? num' then cons str <$> bigits fuel' fd dd false num' else Some [str]
  end.

(** numberedfolders/numberedfolders.go:82-93 *)
Definition file_name (fd : nat) (arr : list (list chr)) : list chr :=
  concat (reverse (imap (fun i b => if (i =? 0)%nat && (0 <? fd)%nat then replicate fd Ex else b) arr)).

(** numberedfolders/numberedfolders.go:109-120 and 141-152: name of the folder at a level *)
Definition folder_name (fd dd : nat) (arr : list (list chr)) (level : nat) : list chr :=
  concat (map (fun sig =>
     if (sig =? 0)%nat then replicate (if (fd =? 0)%nat then dd else fd) Ex
     else if (sig <=? level)%nat then replicate dd Ex
     else default [] (arr !! sig)) (reverse (seq 0 (length arr)))).

(** joining with the separator: lines 121-125 and 153-157 *)
Fixpoint join (l : list (list chr)) : list chr :=
  match l with [] => [] | [a] => a | a :: l' => a ++ [Sep] ++ join l' end.

(** numberedfolders/numberedfolders.go:102-126 (levels n-1..0) and 134-158 (levels n-1..1) *)
Definition folder_path (fd dd : nat) (arr : list (list chr)) : list chr :=
  join (map (folder_name fd dd arr)
    (reverse (if (fd =? 0)%nat then seq 0 (length arr) else seq 1 (length arr - 1)))).

(** strconv.Atoi after replacing 'x' by '0' (lines 127, 159-161) *)
Definition atoi (l : list chr) : Z :=
  fold_left (fun acc c => 10 * acc + match c with Dig d => d | _ => 0 end) l 0.

(** numberedfolders/numberedfolders.go:54-164.  An int64 has at most 19 decimal digits, so with at
    least one digit per folder 20 rounds always suffice. *)
Definition number_to_path (fd dd : nat) (num : Z) : option (list chr * list chr * Z) :=
  match bigits 20 fd dd true num with
  | None => None
  | Some arr =>
      let fn := file_name fd arr in
      Some (folder_path fd dd arr, fn, atoi fn)
  end.
