(** Model of memfile/mmapfile.go, memfile/filewithsize.go, wordfile/concretemmapcreator.go and of the choice
    between mapped and ordinary word files (wordfile/concretewordfilecreator.go:21-38,
    chainstorage/concreteappendablechainfactory.go:57-143, 499-718).

    Here word offsets are Go's int64, so that negative and overflowing positions are covered; Model_Word has
    natural offsets.  From outside /repo: mmap-go's Map fails on an empty file (mmap(2): EINVAL for length 0;
    CreateFileMapping: ERROR_FILE_INVALID), os.File.ReadAt reports an error for a negative position, slicing
    with a negative bound panics.
    Simplified: other system calls succeed; the file is not changed by others while it is mapped. *)
From Verif Require Import Base Model_Word Model_MapStore Model_Chain.

(** What a read may do *)
Inductive rres := RVal (v : Z) | RErr | RPanic.

(** memfile/mmapfile.go:20-30 *)
Definition map_file (data : list Z) : option (list Z) := if decide (data = []) then None else Some data.

(** wordfile/concretemmapcreator.go:65-85, 95-108 and wordfile/wordfile.go:33-42 *)
Definition mm_open (w : nat) (data : list Z) : option word_file :=
  if decide (length data mod w = 0)%nat then
    d ← map_file data; Some (wf_new d w (length data / w))
  else None.

(** The position in the file: off*wf.wordSize in int64 (wordfile/wordfile.go:45) *)
Definition position (wf : word_file) (off : Z) : Z := to_i64 (to_u64 (off * Z.of_nat (wf_size wf))).

(** Copying what there is into scratch8[0:w], and decoding all 8 bytes (wordfile/wordfile.go:44-51) *)
Definition fill (wf : word_file) (at_ : nat) : word_file * rres :=
  let got := take (wf_size wf) (drop at_ (wf_data wf)) in
  let scratch := got ++ drop (length got) (wf_scratch wf) in
  (mk_wf (wf_data wf) (wf_size wf) (wf_count wf) scratch,
   if decide (length got < wf_size wf)%nat then RErr else RVal (to_i64 (le_dec scratch))).

(** memfile/mmapfile.go:32-41 under wordfile/wordfile.go:44-51 *)
Definition mm_read (wf : word_file) (off : Z) : word_file * rres :=
  let p := position wf off in
  if Z.of_nat (length (wf_data wf)) <=? p then (wf, RErr) else
  if p <? 0 then (wf, RPanic) else fill wf (Z.to_nat p).

(** memfile/filewithsize.go:22-24 (os.File.ReadAt) under wordfile/wordfile.go:44-51 *)
Definition os_read (wf : word_file) (off : Z) : word_file * rres :=
  let p := position wf off in
  if p <? 0 then (wf, RErr) else fill wf (Z.to_nat p).

(** A sequence of reads on one opened file; a panic ends it. *)
Fixpoint reads (rd1 : word_file -> Z -> word_file * rres) (wf : word_file) (offs : list Z) : list rres :=
  match offs with
  | [] => []
  | off :: offs' =>
      let '(wf', r) := rd1 wf off in
      r :: match r with RPanic => [] | _ => reads rd1 wf' offs' end
  end.

(** openReadOnlyPrivate of a chain made with holdInRamDANGER (concreteappendablechainfactory.go:504-718): the
    twelve fixed files have to open (525-667), the non-essential ints may be missing (690-715), the additional
    outputs and the hash stores are opened as ever. *)
Definition open_in_ram (ix : stores) (s : cst) : option view :=
  let files := omap (fun wf => mm_open (wf_size wf) (wf_data wf)) (s_files s) in
  if forallb (fun f => bool_decide (is_Some (files !! f))) fixed_files
  then Some (mk_view files (v_more (open_read_only ix s)) ix) else None.
