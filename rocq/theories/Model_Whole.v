(** Model of reading a word file in one go (wordfile/wordfile.go:86-103) on the file it is opened on
    (wordfile/concretewordfilecreator.go:75-101: an append-optimised file, whose os.File is read directly), on a mapped
    one (wordfile/wordfile.go:33-42), and of memfile/filewithsize.go:34.

    Simplifications: those of Model_File. *)
From Verif Require Import Base Model_File Model_Word.

(** wordfile/wordfile.go:86-103: the size of the os.File, then that many bytes from its seek position; buffered bytes
    are not flushed first.  [None] = error *)
Definition whole (w : nat) (a : ao_file) : ao_file * option (list Z) :=
  let c := os_content (ao_os a) in
  let got := drop (os_pos (ao_os a)) c in
  let o' := mk_os (os_init (ao_os a)) (os_log (ao_os a)) (os_pos (ao_os a) `max` length c) in
  (mk_ao o' (ao_buf a) (ao_next a) (ao_total a), if decide (length got = length c) then Some (wf_read_whole w c) else None).

(** Calls on the opened word file: wordfile/wordfile.go:44-80 *)
Inductive call := Word (o : wop) | Sync | Whole.
Definition call_step (cap w : nat) (a : ao_file) (c : call) : ao_file :=
  match c with
  | Word (WWrite v off) => ao_write_at cap a (take w (le_enc 8 v)) (off * w)
  | Word (WRead off) => (ao_read_at a (off * w) w).1
  | Word WCount => a
  | Sync => ao_sync a
  | Whole => (whole w a).1
  end.
Definition calls (cap w : nat) (a : ao_file) (cs : list call) : ao_file := fold_left (call_step cap w) cs a.

(** wordfile/wordfile.go:87 with the nil os.File of NewWordFileEx (33-42): Stat gives an error and no FileInfo, and
    asking that for its size panics.  [None] = panic *)
Definition mapped_whole (underlying : option (list Z)) (w : nat) : option (list Z) :=
  match underlying with None => None | Some c => Some (wf_read_whole w c) end.

(** memfile/filewithsize.go:34 calls itself.  [fuel]: how deep the stack is; [None]: it ran out *)
Fixpoint fws_read_all (fuel : nat) (data : list Z) : option (list Z) :=
  match fuel with O => None | S fuel' => fws_read_all fuel' data end.
