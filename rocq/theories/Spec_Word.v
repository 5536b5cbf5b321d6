(** Specification of arrays of words / hashes addressed by index, by history
    (writes listed most recent first). *)
From Verif Require Import Base Model_Word.

(** Values a word of [w] bytes can hold (8-byte words hold any int64). *)
Definition fits (w : nat) (v : Z) : Prop :=
  if decide (w = 8)%nat then is_i64 v else 0 <= v < pow256 w.

Section Array.
  Context {A : Type} (dflt : A) (init : list A).
  Fixpoint arr_count (ws : list (nat * A)) : nat :=
    match ws with [] => length init | (off, _) :: ws' => arr_count ws' `max` S off end%nat.
  (** last value written at [i], else the initial one, else the default *)
  Fixpoint arr_at (ws : list (nat * A)) (i : nat) : A :=
    match ws with
    | [] => default dflt (init !! i)
    | (off, v) :: ws' => if decide (off = i) then v else arr_at ws' i
    end.
  Definition arr_get (ws : list (nat * A)) (i : nat) : option A :=
    if decide (i < arr_count ws)%nat then Some (arr_at ws i) else None.
  Definition arr_all (ws : list (nat * A)) : list A := map (arr_at ws) (seq 0 (arr_count ws)).
End Array.

(** The word array as a machine *)
Definition w_hist (ws : list (nat * Z)) (op : wop) : list (nat * Z) :=
  match op with WWrite v off => (off, v) :: ws | _ => ws end.
Definition w_out (past_end : wout) (init : list Z) (ws : list (nat * Z)) (op : wop) : wout :=
  match op with
  | WWrite _ _ => OWrote
  | WRead i => match arr_get 0 init ws i with Some v => ORes (WVal v) | None => past_end end
  | WCount => OCount (arr_count init ws)
  end.
Fixpoint w_outs (past_end : wout) (init : list Z) (ws : list (nat * Z)) (ops : list wop) : list wout :=
  match ops with
  | [] => []
  | op :: ops' => w_out past_end init ws op :: w_outs past_end init (w_hist ws op) ops'
  end.
Fixpoint w_hists (ws : list (nat * Z)) (ops : list wop) : list (nat * Z) :=
  match ops with [] => ws | op :: ops' => w_hists (w_hist ws op) ops' end.

Definition fitting_writes (w : nat) (ops : list wop) : Prop :=
  Forall (fun op => match op with WWrite v _ => fits w v | _ => True end) ops.

(** A file whose content is exactly the words [l] *)
Definition word_bytes (w : nat) (l : list Z) : list Z := concat (map (le_enc w) l).

(** Hash list: records of 32 bytes *)
Definition is_hash (h : list Z) : Prop := length h = 32%nat /\ bytes h.
Definition h_hist (init : list (list Z)) (ws : list (nat * list Z)) (op : hop) : list (nat * list Z) :=
  match op with
  | HAppend h => (arr_count init ws, h) :: ws
  | HWrite h off => (off, h) :: ws
  | _ => ws
  end.
Definition h_out (init : list (list Z)) (ws : list (nat * list Z)) (op : hop) : hout :=
  match op with
  | HAppend h => OIndex (arr_count init ws)
  | HWrite _ _ => OHWrote
  | HRead i => OHash (arr_get (replicate 32 0) init ws i)
  | HCount => OHCount (arr_count init ws)
  end.
Fixpoint h_outs (init : list (list Z)) (ws : list (nat * list Z)) (ops : list hop) : list hout :=
  match ops with
  | [] => []
  | op :: ops' => h_out init ws op :: h_outs init (h_hist init ws op) ops'
  end.
Fixpoint h_hists (init : list (list Z)) (ws : list (nat * list Z)) (ops : list hop) : list (nat * list Z) :=
  match ops with [] => ws | op :: ops' => h_hists init (h_hist init ws op) ops' end.
Definition hash_ops (ops : list hop) : Prop :=
  Forall (fun op => match op with HAppend h => length h = 32%nat | HWrite h _ => length h = 32%nat | _ => True end) ops.
