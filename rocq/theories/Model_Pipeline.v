(** Model of the way from the bytes of blocks to the stored chain: jobs/intrinsicparallel.go:276-627 (first and
    third phase, with both interfaces), the interfaces themselves (intrinsicobjectschi/chain.go:120-223,
    intrinsicobjectscri/block.go, transaction.go, intrinsicobjectscri/chain.go:115-189) on top of the parsers (Model_Parse,
    Model_JsonBlock), the block holders (Model_Holder) and the storage (Model_Chain).

    Left out here because they have models of their own: fetching the blocks (Model_Holder), workers and
    sequencer (Model_Seq), the indexing of the gathered hashes (the stores [ix] are given).
    Sync and progress have no effect on what is stored. *)
From Coq Require Import Floats.SpecFloat.
From Verif Require Import Base Model_Word Model_MapStore Model_Parse Model_Difficulty Model_Chain.
From Verif Require Model_Holder.

(** The integer stored for the difficulty; [odd] is what int64(float) gives for a float that is out of range,
    which Go leaves open *)
Definition difficulty_int (odd : Z) (nbits : Z) : Z := default odd (stored_difficulty nbits).

Section Pipeline.
  (** HashOfBytes (indexedhashes/hashofbytes.go): one SHA-256; and int64(math.Round(Difficulty)) of a block with
      given difficulty bits (intrinsicobjectschi/chain.go:135, intrinsicobjectscri/block.go:53): [difficulty_int] for parsed bytes, while JSON
      brings its own number *)
  Context (sha : list Z -> list Z) (diff : Z -> Z).

  (** ** Handles interface (chi) *)
  (** intrinsicobjectschi/chain.go:216-221: bytes start, ..., start+length-1 one after the other; int32 arithmetic *)
  Definition chi_script (scripts : list Z) (o : txo) : option (list Z) :=
    mapM (fun i => byte_at scripts (txo_start o + Z.of_nat i))
      (seq 0 (Z.to_nat (to_i32 (txo_start o + txo_len o) - txo_start o))).
  (** intrinsicobjectschi/chain.go:185-200 *)
  Definition chi_in (st : storage) (t : trans) (i : nat) : option cin :=
    x ← get_txi st t i; Some (mk_cin (SrcHash (txi_txid x)) (txi_vout x)).
  (** intrinsicobjectschi/chain.go:202-223, concreteappendablechain.go:887-892 *)
  Definition chi_out (st : storage) (t : trans) (i : nat) : option cout :=
    o ← get_txo st t i; s ← chi_script (st_scripts st) o; Some (mk_cout (txo_value o) (sha s)).
  (** intrinsicobjectschi/chain.go:146-183; the same numbers in intrinsicobjectscri/transaction.go:55-57 *)
  Definition tx_ints (t : trans) : gmap nat Z := {[ 1%nat := tr_size t; 2%nat := tr_vsize t; 3%nat := tr_weight t ]}.
  Definition chi_trans (st : storage) (n : nat) (t : trans) : option ctx :=
    ins ← (if decide (n = 0%nat) then Some [] else mapM (chi_in st t) (seq 0 (Z.to_nat (tr_txis_count t))));
    outs ← mapM (chi_out st t) (seq 0 (Z.to_nat (tr_txos_count t)));
    Some (mk_ctx (tr_txid t) (tx_ints t) ins outs).
  (** intrinsicobjectschi/chain.go:120-144; the same numbers in intrinsicobjectscri/block.go:46-53 *)
  Definition blk_ints (b : block) (median : Z) : gmap nat Z :=
    {[ 1%nat := bk_time b; 2%nat := diff (bk_nbits b); 3%nat := median;
       5%nat := bk_stripped b; 6%nat := bk_size b; 7%nat := bk_weight b ]}.
  Definition chi_block (b : block) (median : Z) : option cblock :=
    ts ← mapM (fun p => chi_trans (bk_storage b) p.1 p.2) (imap pair (bk_trans b));
    Some (mk_cblock (bk_hash b) (blk_ints b median) ts).

  (** ** Objects interface (cri) *)
  (** intrinsicobjectscri/block.go:31-43: txid to index in the block *)
  Definition txid_map (ts : list trans) : gmap (list Z) nat :=
    foldl (fun m p => <[tr_txid p.2 := p.1]> m) ∅ (imap pair ts).
  (** intrinsicobjectscri/transaction.go:138-147 *)
  Definition cri_out (st : storage) (t : trans) (i : nat) : option cout :=
    o ← get_txo st t i; s ← get_script st o; Some (mk_cout (txo_value o) (sha s)).
  (** intrinsicobjectscri/transaction.go:23-60, 110-115: the inputs of the first transaction are left out *)
  Definition cri_trans (st : storage) (n : nat) (t : trans) : option ctx :=
    ins ← (if decide (n = 0%nat) then Some [] else mapM (chi_in st t) (seq 0 (Z.to_nat (tr_txis_count t))));
    outs ← mapM (cri_out st t) (seq 0 (Z.to_nat (tr_txos_count t)));
    Some (mk_ctx (tr_txid t) (tx_ints t) ins outs).
  (** intrinsicobjectscri/chain.go:133-148: a transaction of the block is found by its txid *)
  Definition cri_find (b : block) (t : trans) : option ctx :=
    n ← txid_map (bk_trans b) !! tr_txid t; t' ← bk_trans b !! n; cri_trans (bk_storage b) n t'.
  Definition cri_block (b : block) (median : Z) : option cblock :=
    ts ← mapM (cri_find b) (bk_trans b);
    Some (mk_cblock (bk_hash b) (blk_ints b median) ts).

  (** ** The phases *)
  (** jobs/intrinsicparallel.go:226-229: delegated indexing, the requested ints in the numbering of Model_Chain *)
  Definition job_setup (chi : bool) : setup := mk_setup true chi [1; 3; 2; 5; 6; 7]%nat [1; 2; 3]%nat.

  (** What the block holder sees of a block *)
  Definition held (b : block) : Model_Holder.blk :=
    Model_Holder.mk_blk (bk_hash b) (bk_prev b) (bk_time b) (map tr_txid (bk_trans b)).

  Definition view_block (chi : bool) : block -> Z -> option cblock := if chi then chi_block else cri_block.
  Fixpoint view_blocks (chi : bool) (bs : list block) (meds : list Z) : option (list cblock) :=
    match bs, meds with
    | [], [] => Some []
    | b :: bs', m :: meds' => c ← view_block chi b m; cs ← view_blocks chi bs' meds'; Some (c :: cs)
    | _, _ => None
    end.
  (** The chain as the holder presents it, block after block *)
  Definition presented (chi : bool) (indexed : bool) (bs : list block) : option (list cblock) :=
    match Model_Holder.visit (if chi then Model_Holder.Chi else Model_Holder.Cri) indexed (map held bs) with
    | Some (_, _, meds) => view_blocks chi bs meds
    | None => None
    end.

  (** jobs/intrinsicparallel.go:276-441: the first phase gathers the hashes of all blocks *)
  Definition phase_one (chi : bool) (bs : list block) : option (hash_file * hash_file * hash_file) :=
    cs ← presented chi false bs; gather_hashes cs (hf_new [] 0, hf_new [] 0, hf_new [] 0).
  (** jobs/intrinsicparallel.go:205-273, 443-627: the third phase stores the chain *)
  Definition phase_three (chi : bool) (ix : stores) (bs : list block) (s : cst) : option cst :=
    cs ← presented chi true bs; run_chain (job_setup chi) ix cs s.
End Pipeline.
