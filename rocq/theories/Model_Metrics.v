(** Measuring future subtrees before their format is designed: weddingcake/treelayoutdesigner.go and
    weddingcakeback/bakingdesigner.go:98-125, 222-261.

    The two files hold one algorithm.  In weddingcake the levels of a subtree start at 0 and the caller's base level is
    added when counting; in weddingcakeback the levels start at the number of prefix bytes and nothing is added.  The
    counters are uint32 in weddingcake (types.go:8, nodeformat.go:11) and uint64 in weddingcakeback (weddingcakeback/types.go:15-16):
    [cap] is the value at which they wrap.

    Not modelled: PanicIfDuplicates, called for one tier (bakingdesigner.go:104-106): the construction of the tree
    panics for the same lists (C27). *)
From Verif Require Import Base Model_Tree Model_Chunk.

(** weddingcake/treelayoutdesigner.go:36-49: for every level, how many nodes have how many slots in use *)
Definition metrics := Z -> nat -> Z.
Definition no_metrics : metrics := fun _ _ => 0.

(** weddingcake/treelayoutdesigner.go:48, 61: 65 levels; [None] is the index-out-of-range panic *)
Definition bump (cap : Z) (l : Z) (k : nat) (m : metrics) : option metrics :=
  if l <? 65 then Some (fun l' k' => if (l' =? l) && Nat.eqb k' k then (m l k + 1) mod cap else m l' k') else None.

(** levels are bytes *)
Definition byte_add (a b : Z) : Z := (a + b) mod 256.

(** weddingcake/treelayoutdesigner.go:53-71, weddingcakeback/bakingdesigner.go:243-261; [lvl] is root.Level *)
Fixpoint measure (cap base : Z) (t : tree) (lvl : Z) (m : metrics) : option metrics :=
  match t with
  | Empty => Some m
  | Leaf _ _ _ => bump cap (byte_add lvl base) (active t) m
  | Slots _ f =>
      m' ← bump cap (byte_add lvl base) (active t) m;
      foldl (fun acc v => m'' ← acc; measure cap base (f v) (byte_add lvl 1) m'') (Some m') byte_vals
  end.

Section Record.
  Context (ent : list thash -> nat -> Z) (srt : nat -> list thash -> list thash) (R pre hl : nat) (cap base : Z).

  (** weddingcake/treelayoutdesigner.go:15-31, weddingcakeback/bakingdesigner.go:101-125 *)
  Definition record (hashes : list thash) (m : metrics) : option metrics :=
    match hashes with
    | [] => Some m
    | _ => t ← generate ent srt R pre hl hashes; measure cap base t (Z.of_nat pre) m
    end.

  (** one call after another, as weddingcakeback/bakingdesigner.go:74-77 makes them *)
  Fixpoint record_all (groups : list (list thash)) (m : metrics) : option metrics :=
    match groups with
    | [] => Some m
    | g :: gs => m' ← record g m; record_all gs m'
    end.
End Record.
