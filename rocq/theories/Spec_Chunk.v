(** What serialised trees promise (C29-C31, C37-C39). *)
From Verif Require Import Base Model_Tree Model_Chunk.

(** The configurations the packages offer: identifiers of two to four (five) bytes, hashes of at most 64 bytes. *)
Record config_ok (c : config) : Prop := {
  ok_nid : (2 <= c_nid c <= 5)%nat;
  ok_hid : (2 <= c_hid c <= 5)%nat;
  ok_R : (c_R c <= c_hl c)%nat;
  ok_hl : (1 <= c_hl c <= 64)%nat;
  ok_pre : (c_pre c <= c_hl c)%nat;
  ok_K : (5 <= c_K c <= 255)%nat;
  ok_narrow : c_back c = false -> (c_nid c <= 4 /\ c_hid c <= 4)%nat
}.

(** The capacities formats are used with. *)
Definition cap_ok (s : nspec) : Prop :=
  match s_fmt s with
  | FTiny => (2 <= s_cap s <= 5)%nat
  | FMedium => (6 <= s_cap s <= 244)%nat
  | _ => True
  end.

(** How many of the 256 slots are in use. *)
Definition used (ch : Z -> option Z) : nat := length (filter (fun v => is_Some (ch v)) (seqZ 0 256)).
(** A node fits a format: all its children have a place. *)
Definition fits (ch : Z -> option Z) (s : nspec) : Prop :=
  cap_ok s /\ s_fmt s <> FLeaf /\ (s_fmt s <> FFull -> (used ch <= s_cap s)%nat).

(** The greatest number of bytes a node can take. *)
Definition node_limit (c : config) : nat := (34 + 256 * c_nid c + c_R c + c_hid c)%nat.

(** ** Groups of node formats *)
Definition covers (g : group) (k : nat) : Prop := (g_start g <= k < g_end g)%nat.
Global Instance covers_dec g k : Decision (covers g k).
Proof. unfold covers. apply _. Defined.
(** A slot count is stored in the format made for it, with room for all slots. *)
Definition format_for (s : nspec) (k : nat) : Prop :=
  match s_fmt s with
  | FLeaf => k = 0%nat
  | FTiny => (2 <= k <= 5)%nat /\ (k <= s_cap s)%nat
  | FMedium => (6 <= k <= 244)%nat /\ (k <= s_cap s)%nat
  | FFull => (245 <= k <= 256)%nat
  end.
(** the number of nodes whose slot count lies in a range *)
Definition nodes_in (hist : nat -> nat) (a b : nat) : nat := sum_list (hist <$> seq a (b - a)).

(** The presentation indices at the leaves of a tree, slots in order. *)
Fixpoint tree_pis (t : tree) : list Z :=
  match t with
  | Empty => []
  | Leaf _ pi _ => [pi]
  | Slots _ f => concat (map (fun v => tree_pis (f v)) byte_vals)
  end.
