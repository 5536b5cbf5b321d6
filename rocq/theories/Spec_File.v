(** Independent specification of a plain random access byte file, by history.
    A history is the list of writes performed, *most recent first*. *)
From Verif Require Import Base Model_File.

Definition writes := list (nat * list Z).

(** Highest byte ever written plus one (or the initial size). *)
Fixpoint spec_size (init : list Z) (ws : writes) : nat :=
  match ws with
  | [] => length init
  | (off, d) :: ws' =>
      match d with [] => spec_size init ws' | _ => spec_size init ws' `max` (off + length d) end
  end%nat.

(** The byte at offset [i]: from the most recent write covering [i], else the initial content,
    else zero. *)
Fixpoint spec_byte (init : list Z) (ws : writes) (i : nat) : Z :=
  match ws with
  | [] => default 0 (init !! i)
  | (off, d) :: ws' =>
      if decide (off <= i < off + length d)%nat then default 0 (d !! (i - off)%nat)
      else spec_byte init ws' i
  end.

(** All the bytes of the file. *)
Definition spec_content (init : list Z) (ws : writes) : list Z :=
  map (spec_byte init ws) (seq 0 (spec_size init ws)).

(** A read of [n] bytes at [off]: the bytes at those offsets, stopping at the end of the file. *)
Definition spec_read (init : list Z) (ws : writes) (off n : nat) : list Z :=
  map (spec_byte init ws) (seq off (n `min` (spec_size init ws - off))).

(** ** The plain file as a machine answering the same calls as the model
    (from Model_File only the types of calls and answers are used). *)
Definition spec_hist_step (ws : writes) (op : fop) : writes :=
  match op with FWrite off d => (off, d) :: ws | _ => ws end.
Fixpoint spec_hist (ws : writes) (ops : list fop) : writes :=
  match ops with [] => ws | op :: ops' => spec_hist (spec_hist_step ws op) ops' end.
Definition spec_out (init : list Z) (ws : writes) (op : fop) : fout :=
  match op with
  | FWrite off d => OutWrote (length d)
  | FRead off n => OutRead (spec_read init ws off n)
  | FSync => OutSynced
  | FSize => OutSize (spec_size init ws)
  end.
Fixpoint spec_outs (init : list Z) (ws : writes) (ops : list fop) : list fout :=
  match ops with
  | [] => []
  | op :: ops' => spec_out init ws op :: spec_outs init (spec_hist_step ws op) ops'
  end.

(** Every write writes at least one byte. *)
Definition nonempty_writes (ops : list fop) : Prop :=
  Forall (fun op => match op with FWrite _ d => d <> [] | _ => True end) ops.

(** Calls that force buffered appends out. *)
Definition is_sync_point (op : fop) : Prop :=
  match op with FSync => True | FRead _ _ => True | _ => False end.

(** Some write among [ops] covers byte [i]. *)
Definition covered_by (ops : list fop) (i : nat) : Prop :=
  exists off d, FWrite off d ∈ ops /\ (off <= i < off + length d)%nat.

(** Every write among [ops] starts exactly at the end of the file at that time ([n] = size). *)
Fixpoint appends_only (n : nat) (ops : list fop) : Prop :=
  match ops with
  | [] => True
  | FWrite off d :: ops' => off = n /\ appends_only (n + length d) ops'
  | _ :: ops' => appends_only n ops'
  end.

(** The bytes written by [ops], in order. *)
Fixpoint written (ops : list fop) : list Z :=
  match ops with
  | [] => []
  | FWrite off d :: ops' => d ++ written ops'
  | _ :: ops' => written ops'
  end.
