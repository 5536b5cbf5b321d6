(** Model of memfile/appendoptimized.go: a random access file that buffers appends.

    OS level (trusted reading of os.File): the state is the initial content of the file and the log
    of primitive pwrite/write calls issued so far; the content seen by every process is the log
    applied in order.  [os_pos] is the seek position used by bufio's Write calls and ReadFull.
    Simplified: system calls do not fail; offsets are non-negative (nat). *)
From Verif Require Import Base.

Record os_file := mk_os {
  os_init : list Z;
  os_log : list (nat * list Z);
  os_pos : nat
}.

Definition apply_log (f : list Z) (log : list (nat * list Z)) : list Z :=
  fold_left (fun f w => file_write f w.1 w.2) log f.

Definition os_content (o : os_file) : list Z := apply_log (os_init o) (os_log o).

(** os.File.WriteAt *)
Definition os_write_at (o : os_file) (off : nat) (d : list Z) : os_file :=
  mk_os (os_init o) (os_log o ++ [(off, d)]) (os_pos o).
(** os.File.Write: at the seek position, which advances *)
Definition os_write (o : os_file) (d : list Z) : os_file :=
  mk_os (os_init o) (os_log o ++ [(os_pos o, d)]) (os_pos o + length d).
(** os.File.Seek(0, io.SeekEnd) *)
Definition os_seek_end (o : os_file) : os_file :=
  mk_os (os_init o) (os_log o) (length (os_content o)).

(** memfile/appendoptimized.go:9-14.  [ao_buf = None] is a nil bufferedWriter; [Some b] is a
    bufio.Writer holding the not yet flushed bytes [b]. *)
Record ao_file := mk_ao {
  ao_os : os_file;
  ao_buf : option (list Z);
  ao_next : nat;   (* nextAppendOffset *)
  ao_total : nat   (* totalSize *)
}.

(** memfile/appendoptimized.go:20-30 *)
Definition ao_new (f : list Z) : ao_file := mk_ao (mk_os f [] 0) None 0 (length f).

(** bufio.Writer.Flush (Go library): one Write of the buffered bytes, if any. *)
Definition bufio_flush (o : os_file) (b : list Z) : os_file :=
  match b with [] => o | _ => os_write o b end.

(** bufio.Writer.Write(p) with buffer capacity [cap] (Go library; the loop
    "while len(p) > Available()" runs at most twice: fill and flush, then a direct write when the
    rest still exceeds the now empty buffer). *)
Definition bufio_write (cap : nat) (o : os_file) (b p : list Z) : os_file * list Z :=
  if decide (cap - length b < length p)%nat then
    match b with
    | [] => (os_write o p, [])
    | _ =>
        let k := (cap - length b)%nat in
        let o1 := bufio_flush o (b ++ take k p) in
        let p1 := drop k p in
        if decide (cap < length p1)%nat then (os_write o1 p1, []) else (o1, p1)
    end
  else (o, b ++ p).

(** memfile/appendoptimized.go:127-136 *)
Definition ao_flush (a : ao_file) : ao_file :=
  match ao_buf a with
  | Some b => mk_ao (bufio_flush (ao_os a) b) None (ao_next a) (ao_total a)
  | None => a
  end.

(** memfile/appendoptimized.go:59-113 *)
Definition ao_write_at (cap : nat) (a : ao_file) (p : list Z) (off : nat) : ao_file :=
  match ao_buf a with
  | Some b =>
      if decide (off = ao_next a) then
        let '(o', b') := bufio_write cap (ao_os a) b p in
        mk_ao o' (Some b') (ao_next a + length p) (ao_total a + length p)
      else
        let a1 := ao_flush a in
        mk_ao (os_write_at (ao_os a1) off p) None (ao_next a1) (ao_total a1 `max` (off + length p))
  | None =>
      if decide (off = ao_total a) then
        let '(o', b') := bufio_write cap (os_seek_end (ao_os a)) [] p in
        mk_ao o' (Some b') (off + length p) (ao_total a + length p)
      else
        mk_ao (os_write_at (ao_os a) off p) None (ao_next a) (ao_total a `max` (off + length p))
  end.

(** memfile/appendoptimized.go:32-42.  The answer is the bytes read; fewer than [n] bytes
    means io.EOF was returned with them. *)
Definition ao_read_at (a : ao_file) (off n : nat) : ao_file * list Z :=
  let a1 := ao_flush a in (a1, take n (drop off (os_content (ao_os a1)))).

(** memfile/appendoptimized.go:138-148 (fsync itself does not change what is read) *)
Definition ao_sync (a : ao_file) : ao_file := ao_flush a.

(** memfile/appendoptimized.go:44-57: Sync, stat the size, then ReadFull *from the seek position*;
    [None] = error (EOF or unexpected EOF). *)
Definition ao_read_all (a : ao_file) : ao_file * option (list Z) :=
  let a1 := ao_sync a in
  let c := os_content (ao_os a1) in
  let got := drop (os_pos (ao_os a1)) c in
  let o' := mk_os (os_init (ao_os a1)) (os_log (ao_os a1)) (os_pos (ao_os a1) `max` length c) in
  (mk_ao o' (ao_buf a1) (ao_next a1) (ao_total a1),
   if decide (length got = length c) then Some got else None).

(** memfile/appendoptimized.go:115-121: what is on disk after Close *)
Definition ao_close (a : ao_file) : list Z := os_content (ao_os (ao_flush a)).

(** memfile/appendoptimized.go:123-125 *)
Definition ao_size (a : ao_file) : nat := ao_total a.

(** ** Histories of API calls *)
Inductive fop :=
| FWrite (off : nat) (d : list Z)
| FRead (off n : nat)
| FSync
| FSize.

Inductive fout :=
| OutWrote (n : nat)
| OutRead (d : list Z)
| OutSynced
| OutSize (n : nat).

Definition ao_step (cap : nat) (a : ao_file) (op : fop) : ao_file * fout :=
  match op with
  | FWrite off d => (ao_write_at cap a d off, OutWrote (length d))
  | FRead off n => let '(a', d) := ao_read_at a off n in (a', OutRead d)
  | FSync => (ao_sync a, OutSynced)
  | FSize => (a, OutSize (ao_size a))
  end.

Fixpoint ao_run (cap : nat) (a : ao_file) (ops : list fop) : ao_file * list fout :=
  match ops with
  | [] => (a, [])
  | op :: ops' =>
      let '(a1, o) := ao_step cap a op in
      let '(a2, os) := ao_run cap a1 ops' in (a2, o :: os)
  end.

(** ** Crashes. *)
(** The process dies somewhere between state [a1] and the later state [a2]: the primitive writes
    issued are a prefix of the log of [a2] (at least those of [a1]), the last one possibly torn at
    any byte. *)
Definition crash_after (a1 a2 : ao_file) (f : list Z) : Prop :=
  exists k j, (length (os_log (ao_os a1)) <= k)%nat /\
 f = apply_log (os_init (ao_os a2))
    (take k (os_log (ao_os a2)) ++
       match os_log (ao_os a2) !! k with Some (off, d) => [(off, take j d)] | None => [] end).

(** Power loss: of the primitive writes issued after [a1], any subset reached the disk, each
    possibly torn. *)
Inductive torn : list (nat * list Z) -> list (nat * list Z) -> Prop :=
| torn_nil : torn [] []
| torn_skip w l l' : torn l l' -> torn (w :: l) l'
| torn_keep off d j l l' : torn l l' -> torn ((off, d) :: l) ((off, take j d) :: l').

Definition torn_after (a1 a2 : ao_file) (f : list Z) : Prop :=
  exists log', torn (drop (length (os_log (ao_os a1))) (os_log (ao_os a2))) log' /\
              f = apply_log (os_content (ao_os a1)) log'.
