(** What the sequencer, the block pipeline and the memory blocker should do, in words that do not
    mention their internals. *)
From Verif Require Import Base.

(** The numbers first, first+1, ..., first+n-1 *)
Definition consecutive (first : Z) (n : nat) : list Z := (fun i => first + Z.of_nat i) <$> seq 0 n.

(** A list of items carries consecutive numbers from [first] on. *)
Definition in_sequence {T} (num : T -> Z) (first : Z) (l : list T) : Prop :=
  num <$> l = consecutive first (length l).

(** Some number between [first] and the number of a present item is not present. *)
Definition gap_below {T} (num : T -> Z) (first : Z) (l : list T) : Prop :=
  exists v k, v ∈ l /\ first <= k < num v /\ k ∉ num <$> l.

(** Executions of a transition system *)
Definition terminates {S} (step : S -> S -> Prop) (s : S) : Prop := Acc (fun b a => step a b) s.
Definition stuck {S} (step : S -> S -> Prop) (s : S) : Prop := forall s', ~ step s s'.
