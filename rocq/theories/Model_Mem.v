(** Model of memfile/fixedsize.go: a lookup file held in memory, used by indexedhashes/concretehashstorecreator.go:114-115.

    From outside /repo: os.ReadFile returns a slice with room to spare ([spare] bytes, at least one), and a slice
    expression may reach into that room; beyond it, or below zero, it panics.
    Simplifications: writing the file at Close succeeds. *)
From Verif Require Import Base Model_File.

(** memfile/fixedsize.go:8-12.  [m_arr]: buffer up to its capacity; [m_len]: its length; [m_disk]: the file *)
Record mem_file := mk_mem { m_arr : list Z; m_len : nat; m_disk : list Z }.

(** memfile/fixedsize.go:18-25 *)
Definition mem_open (data : list Z) (spare : nat) : mem_file := mk_mem (data ++ replicate spare 0) (length data) data.

Inductive mres := MRead (d : list Z) | MWrote (n : nat) | MSynced | MPanic.

(** memfile/fixedsize.go:27-33: the slice expression; [copy] then copies all of it *)
Definition mem_read (m : mem_file) (off : Z) (n : nat) : mres :=
  if decide (0 <= off /\ off + Z.of_nat n <= Z.of_nat (length (m_arr m))) then MRead (take n (drop (Z.to_nat off) (m_arr m))) else MPanic.
(** memfile/fixedsize.go:35-41 *)
Definition mem_write (m : mem_file) (off : Z) (d : list Z) : mem_file * mres :=
  if decide (0 <= off /\ off + Z.of_nat (length d) <= Z.of_nat (length (m_arr m)))
  then (mk_mem (take (Z.to_nat off) (m_arr m) ++ d ++ drop (Z.to_nat off + length d) (m_arr m)) (m_len m) (m_disk m), MWrote (length d))
  else (m, MPanic).
(** memfile/fixedsize.go:47-49: nothing happens *)
Definition mem_sync (m : mem_file) : mem_file := m.
(** memfile/fixedsize.go:43-45 *)
Definition mem_close (m : mem_file) : mem_file := mk_mem (m_arr m) (m_len m) (take (m_len m) (m_arr m)).

Inductive mop := MemRead (off : Z) (n : nat) | MemWrite (off : Z) (d : list Z) | MemSync.
Definition mem_step (m : mem_file) (o : mop) : mem_file * mres :=
  match o with
  | MemRead off n => (m, mem_read m off n)
  | MemWrite off d => mem_write m off d
  | MemSync => (mem_sync m, MSynced)
  end.
Fixpoint mem_run (m : mem_file) (ops : list mop) : mem_file * list mres :=
  match ops with
  | [] => (m, [])
  | o :: ops' => let '(m1, r) := mem_step m o in let '(m2, rs) := mem_run m1 ops' in (m2, r :: rs)
  end.
