(** What visiting a chain block by block and streaming block hashes should give. *)
From Verif Require Import Base Model_Holder.

(** The chain starts with a genesis hash and every block names its predecessor. *)
Definition genesis_first (bs : list blk) : Prop :=
  exists b, bs !! 0%nat = Some b /\ take 4 (bk_hash b) = [0x6f; 0xe2; 0x8c; 0x0a].
Definition linked (bs : list blk) : Prop :=
  forall i b c, bs !! i = Some b -> bs !! S i = Some c -> bk_prev c = bk_hash b.

(** Number of transactions in the first [h] blocks *)
Definition trans_before (bs : list blk) (h : nat) : nat := length (concat (bk_txids <$> take h bs)).

(** The last (at most eleven) timestamps up to block [i] *)
Definition last_eleven (ts : list Z) (i : nat) : list Z := drop (S i - 11) (take (S i) ts).

(** [m] is the element of rank [r] (counted from 0) of [w] in increasing order. *)
Definition has_rank (w : list Z) (r : nat) (m : Z) : Prop :=
  m ∈ w /\ (length (filter (fun x => (x < m)%Z) w) <= r < length (filter (fun x => (x <= m)%Z) w))%nat.

(** A chain of 80 byte headers whose bytes 4..36 are the hash of the previous header ([hash] is the
    double SHA256); a server that answers requests for headers. *)
Definition header_chain (hash : list Z -> list Z) (hs : list (list Z)) : Prop :=
  Forall (fun h => length h = 80%nat) hs /\ NoDup (hash <$> hs) /\
  forall i h g, hs !! i = Some h -> hs !! S i = Some g -> take 32 (drop 4 g) = hash h.

Definition answers (hash : list Z -> list Z) (hs : list (list Z)) (server : list Z -> list Z) : Prop :=
  forall i h, hs !! i = Some h -> server (hash h) = concat (take (Z.to_nat 1002) (drop i hs)).
