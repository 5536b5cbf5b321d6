(** Model of wordfile/wordfile.go, wordfile/memshadowedwordfile.go, wordfile/hashfile.go and of the
    opening logic of wordfile/concretewordfilecreator.go.
    The LookupFile underneath is a plain byte file; property C01 justifies this for the
    append-optimised file, os.File and FileWithSize are plain files already.
    Simplified: offsets are non-negative (nat); system calls do not fail except for EOF. *)
From Verif Require Import Base.

(** wordfile/wordfile.go:12-20.  [wf_scratch] is scratch8 (8 bytes), which persists between calls. *)
Record word_file := mk_wf {
  wf_data : list Z;
  wf_size : nat;     (* wordSize *)
  wf_count : nat;    (* wordCount *)
  wf_scratch : list Z
}.

(** wordfile/wordfile.go:22-31 *)
Definition wf_new (data : list Z) (w count : nat) : word_file :=
  mk_wf data w count (replicate 8 0).

Inductive wres := WErr | WVal (v : Z).

(** wordfile/wordfile.go:44-51: ReadAt fills scratch8[0:w] (partially at EOF), the other bytes of
    scratch8 keep what the previous call left there; all 8 bytes are decoded. *)
Definition wf_read (wf : word_file) (off : nat) : word_file * wres :=
  let got := take (wf_size wf) (drop (off * wf_size wf) (wf_data wf)) in
  let scratch := got ++ drop (length got) (wf_scratch wf) in
  (mk_wf (wf_data wf) (wf_size wf) (wf_count wf) scratch,
   if decide (length got < wf_size wf)%nat then WErr else WVal (to_i64 (le_dec scratch))).

(** wordfile/wordfile.go:53-63 *)
Definition wf_write (wf : word_file) (val : Z) (off : nat) : word_file :=
  let scratch := le_enc 8 val in
  mk_wf (file_write (wf_data wf) (off * wf_size wf) (take (wf_size wf) scratch))
        (wf_size wf) (wf_count wf `max` S off) scratch.

(** wordfile/concretewordfilecreator.go:75-101 and 126-139 (not shadowed): [None] = error
    "file is not a whole number of words". *)
Definition wf_open (w : nat) (data : list Z) : option word_file :=
  if decide (length data mod w = 0)%nat then Some (wf_new data w (length data / w)) else None.

(** wordfile/concretewordfilecreator.go:140-162 *)
Definition wf_create_zeros (w count : nat) : list Z := replicate (count * w) 0.

(** wordfile/wordfile.go:86-103, from seek position 0 with nothing buffered. *)
Definition wf_read_whole (w : nat) (data : list Z) : list Z :=
  map (fun i => to_i64 (le_dec (take w (drop (i * w) data) ++ replicate (8 - w) 0)))
      (seq 0 (length data / w)).

(** API calls *)
Inductive wop := WWrite (val : Z) (off : nat) | WRead (off : nat) | WCount.
Inductive wout := OWrote | ORes (r : wres) | OCount (n : nat) | OPanic.

Definition wf_step (wf : word_file) (op : wop) : word_file * wout :=
  match op with
  | WWrite v off => (wf_write wf v off, OWrote)
  | WRead off => let '(wf', r) := wf_read wf off in (wf', ORes r)
  | WCount => (wf, OCount (wf_count wf))
  end.
Fixpoint wf_run (wf : word_file) (ops : list wop) : word_file * list wout :=
  match ops with
  | [] => (wf, [])
  | op :: ops' =>
      let '(wf1, o) := wf_step wf op in let '(wf2, os) := wf_run wf1 ops' in (wf2, o :: os)
  end.

(** wordfile/memshadowedwordfile.go:8-11 *)
Record shadow_file := mk_sf { sf_wf : word_file; sf_shadow : list Z }.

(** wordfile/memshadowedwordfile.go:13-25: read every word; [None] = error *)
Fixpoint sf_load (wf : word_file) (i n : nat) : option (word_file * list Z) :=
  match n with
  | O => Some (wf, [])
  | S n' =>
      match wf_read wf i with
      | (wf', WVal v) =>
          match sf_load wf' (S i) n' with Some (wf'', l) => Some (wf'', v :: l) | None => None end
      | (_, WErr) => None
      end
  end.
Definition sf_new (data : list Z) (w count : nat) : option shadow_file :=
  match sf_load (wf_new data w count) 0 count with
  | Some (wf, l) => Some (mk_sf wf l)
  | None => None
  end.

(** wordfile/memshadowedwordfile.go:27-30: [None] = index out of range panic *)
Definition sf_read (sf : shadow_file) (off : nat) : option Z := sf_shadow sf !! off.

(** wordfile/memshadowedwordfile.go:36-49 *)
Definition sf_write (sf : shadow_file) (val : Z) (off : nat) : shadow_file :=
  let ext := sf_shadow sf ++ replicate (S off - length (sf_shadow sf)) 0 in
  mk_sf (wf_write (sf_wf sf) val off) (<[off := val]> ext).

Definition sf_step (sf : shadow_file) (op : wop) : shadow_file * wout :=
  match op with
  | WWrite v off => (sf_write sf v off, OWrote)
  | WRead off => (sf, match sf_read sf off with Some v => ORes (WVal v) | None => OPanic end)
  | WCount => (sf, OCount (wf_count (sf_wf sf)))
  end.
Fixpoint sf_run (sf : shadow_file) (ops : list wop) : shadow_file * list wout :=
  match ops with
  | [] => (sf, [])
  | op :: ops' =>
      let '(sf1, o) := sf_step sf op in let '(sf2, os) := sf_run sf1 ops' in (sf2, o :: os)
  end.

(** wordfile/hashfile.go:7-12 (the scratch buffer is fully overwritten before every use, so it is
    not part of the state) *)
Record hash_file := mk_hf { hf_data : list Z; hf_count : nat }.

(** wordfile/hashfile.go:14-20 *)
Definition hf_new (data : list Z) (count : nat) : hash_file := mk_hf data count.

(** wordfile/hashfile.go:22-31; [None] = error *)
Definition hf_read (hf : hash_file) (off : nat) : option (list Z) :=
  let got := take 32 (drop (off * 32) (hf_data hf)) in
  if decide (length got = 32)%nat then Some got else None.

(** wordfile/hashfile.go:33-44 *)
Definition hf_write (hf : hash_file) (val : list Z) (off : nat) : hash_file :=
  mk_hf (file_write (hf_data hf) (off * 32) val) (hf_count hf `max` S off).

(** wordfile/hashfile.go:62-69 *)
Definition hf_append (hf : hash_file) (val : list Z) : hash_file * nat :=
  (hf_write hf val (hf_count hf), hf_count hf).

Inductive hop := HAppend (h : list Z) | HRead (off : nat) | HWrite (h : list Z) (off : nat) | HCount.
Inductive hout := OIndex (n : nat) | OHash (h : option (list Z)) | OHWrote | OHCount (n : nat).
Definition hf_step (hf : hash_file) (op : hop) : hash_file * hout :=
  match op with
  | HAppend h => let '(hf', n) := hf_append hf h in (hf', OIndex n)
  | HRead off => (hf, OHash (hf_read hf off))
  | HWrite h off => (hf_write hf h off, OHWrote)
  | HCount => (hf, OHCount (hf_count hf))
  end.
Fixpoint hf_run (hf : hash_file) (ops : list hop) : hash_file * list hout :=
  match ops with
  | [] => (hf, [])
  | op :: ops' =>
      let '(hf1, o) := hf_step hf op in let '(hf2, os) := hf_run hf1 ops' in (hf2, o :: os)
  end.
