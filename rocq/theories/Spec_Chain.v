(** What a stored chain must show, in terms of the blocks that were appended. *)
From Verif Require Import Base Spec_Word Model_Chain.

Definition txs_of (bs : list cblock) : list ctx := concat (map b_txs bs).
Definition outs_of (ts : list ctx) : list cout := concat (map t_outs ts).
(** Numbers of transactions, outputs: consecutive from 0 in the order of the chain *)
Definition trans_number (bs : list cblock) (block nth : Z) : Z :=
  Z.of_nat (length (txs_of (take (Z.to_nat block) bs))) + nth.

(** Index of the first occurrence, -1 when absent *)
Definition first_of (l : list hash) (h : hash) : Z :=
  match list_find (eq h) l with Some (i, _) => Z.of_nat i | None => -1 end.

(** A hash store which finds first occurrences in the list [l], both ways *)
Definition finds (s : hstore) (l : list hash) : Prop :=
  hs_count s = Z.of_nat (length l) /\ (forall h, hs_index s h = first_of l h) /\
  (forall (i : nat) h, l !! i = Some h -> first_of l h = Z.of_nat i -> hs_at s (Z.of_nat i) = Some h).
(** A hash store which holds the list [l] and finds first occurrences *)
Definition faithful (s : hstore) (l : list hash) : Prop :=
  hs_count s = Z.of_nat (length l) /\ (forall h, hs_index s h = first_of l h) /\
  (forall i : nat, hs_at s (Z.of_nat i) = l !! i).

(** The hashes of a chain, in order *)
Definition block_hashes (bs : list cblock) : list hash := map b_hash bs.
Definition tx_hashes (bs : list cblock) : list hash := map t_hash (txs_of bs).
Definition addr_hashes (bs : list cblock) : list hash := map o_addr (outs_of (txs_of bs)).
Definition indexed (ix : stores) (bs : list cblock) : Prop :=
  faithful (ix_blk ix) (block_hashes bs) /\ faithful (ix_trn ix) (tx_hashes bs) /\ finds (ix_adr ix) (addr_hashes bs).

(** What a walk over the chain shows: the source of an input is given by transaction number, the inputs of
    the first transaction of a block do not exist when the handles interface is used. *)
Definition source_number (bs : list cblock) (s : source) : Z :=
  match s with
  | SrcHeight h => h
  | SrcPath b n => trans_number bs b n
  | SrcHash h => first_of (tx_hashes bs) h
  end.
Definition shown_ins (u : setup) (coinbase : bool) (t : ctx) : list cin :=
  if u_chi u then (if coinbase then [] else t_ins t) else t_ins t.
Definition shown_tx (u : setup) (bs : list cblock) (nth : nat) (t : ctx) : hash * list (Z * Z) * list (Z * hash) :=
  (t_hash t, map (fun i => (source_number bs (i_src i), i_vout i)) (shown_ins u (bool_decide (nth = 0%nat)) t),
   map (fun o => (o_sats o, o_addr o)) (t_outs t)).
Definition shown_block (u : setup) (bs : list cblock) (b : cblock) :=
  (b_hash b, imap (shown_tx u bs) (b_txs b)).
Definition shown_chain (u : setup) (bs : list cblock) := map (shown_block u bs) bs.

(** The outputs paying an address, by number *)
Definition outputs_paying (l : list hash) (h : hash) : list Z :=
  map Z.of_nat (filter (fun i => l !! i = Some h) (seq 0 (length l))).
(** Outputs paying an address that was paid before *)
Definition reused (l : list hash) : list (Z * Z) :=
  omap (fun i => h ← l !! i; if decide (first_of l h = Z.of_nat i) then None else Some (first_of l h, Z.of_nat i))
       (seq 0 (length l)).

(** Chains whose numbers fit the files: every block has a transaction and the requested ints, inputs
    refer to known transactions, and so on. *)
Record storable (u : setup) (bs : list cblock) : Prop := {
  so_blocks : Forall (fun b => b_txs b <> []) bs;
  so_names : NoDup (u_blk u) /\ NoDup (u_trn u);
  so_blk_ints : Forall (fun b => Forall (fun n => exists v, b_ints b !! n = Some v /\ fits (width (BlkInt n)) v) (u_blk u)) bs;
  so_trn_ints : Forall (fun t => Forall (fun n => exists v, t_ints t !! n = Some v /\ fits (width (TrnInt n)) v) (u_trn u)) (txs_of bs);
  so_txs : Z.of_nat (length (txs_of bs)) < 2^32;
  so_ins : Z.of_nat (length (concat (map t_ins (txs_of bs)))) < 2^40;
  so_outs : Z.of_nat (length (outs_of (txs_of bs))) < 2^40;
  so_reused : Z.of_nat (length (reused (addr_hashes bs))) < more_limit;
  so_in : forall k b n t i, bs !! k = Some b -> b_txs b !! n = Some t -> i ∈ shown_ins u (bool_decide (n = 0%nat)) t ->
    0 <= i_vout i < 2^32 /\ 0 <= source_number bs (i_src i) < 2^32 /\
    match i_src i with SrcPath sb _ => 0 <= sb <= Z.of_nat k | _ => True end;
  so_out : Forall (fun o => 0 <= o_sats o < 2^56) (outs_of (txs_of bs))
}.
