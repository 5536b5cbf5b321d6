(** Model of the second phase of the job, jobs/intrinsicparallel.go:61-202, on top of the indexing runs of
    Model_Pass and the index store of Model_Bins: which settings are used, what is read from the hash files of
    the first phase, and what the third phase sees of the finished indexes.

    Both variants: in passes over ranges of bins (multipasspreloader.go), and adaptive (adaptivepasspreloader.go). *)
From Verif Require Import Base Model_Word Model_Bins Model_Pass Model_Adaptive Model_Chain.

(** jobs/intrinsicparallel.go:75-87: settings for blocks, transactions, addresses *)
Definition block_params (years : Z) : params :=
  if years =? 2 then mk_params 17 100888 2 256 440 7 else mk_params 31 1169006653 2 65536 29 6.
Definition trans_params (years : Z) : params :=
  if years =? 2 then mk_params 18 219927 2 65536 10 6 else mk_params 31 1169006653 2 16777216 101 5.
Definition address_params (years : Z) : params :=
  if years =? 2 then mk_params 19 269406 2 65536 9 6 else mk_params 32 3244977536 2 16777216 236 5.

(** indexedhashes3/singlepass.go:78-87: 32 bytes at a time; a rest of fewer bytes is an error *)
Definition hashes_in (data : list Z) : option (list (list Z)) :=
  if decide (length data mod 32 = 0)%nat then Some (to_entries (length data / 32) 32 data) else None.

(** indexedhashes3/binbytes.go:22-39: the bins left over from the last use, cleared, as many as needed *)
Definition reuse (old : list bin) (n : nat) : list bin :=
  let cleared := map (fun _ => []) old in
  take n (cleared ++ replicate (n - length cleared) []).

(** jobs/intrinsicparallel.go:89, useAdaptivePassPhase2; [order] is how the adaptive indexer sorts bins *)
Inductive indexer := MultiPass | Adaptive (order : list work -> list work).

(** jobs/intrinsicparallel.go:90-176 for one of the three hash files: BinNums and the other files after the run.
    The allowance is gbMem gigabytes (multipasspreloader.go:30). *)
Definition phase_two (ixr : indexer) (p : params) (srt : bin -> bin) (data : list Z) (threads : nat) (gb : Z) (nums : list Z) (f : bin_files) : Prop :=
  match ixr with
  | MultiPass =>
      exists hs rs ns, hashes_in data = Some hs /\ pass_ranges p (gb * 1024 * 1024 * 1024) = Some rs /\
        multipass p srt hs threads rs (initial_files p ∅) [] f ns /\ nums = concat (map (le_enc (bin_room p)) ns)
  | Adaptive order => adaptive_run p srt order data threads gb nums f
  end.

(** indexedhashes3/hashstore.go:50-151 as the chain storage uses it; a hash is an array of 32 bytes *)
Definition job_store (p : params) (probe : Z -> Z -> Z -> Z -> Z -> Z) (s : hash_store3) : hstore :=
  mk_hs (fun h => if decide (length h = 32%nat /\ bytes h) then default (-1) (h3_index_of p probe s h) else -1)
    (Z.of_nat (h3_count s)) (fun i => if decide (0 <= i) then h3_get p s (Z.to_nat i) else None).
