(** What a stored chain must say, in terms of the blocks of the Bitcoin wire format. *)
From Verif Require Import Base Spec_Parse Model_Chain Spec_Chain.

(** A block: header and transactions *)
Notation wblock := (wheader * list wtrans)%type.

Section Spec.
  Context (sha : list Z -> list Z).

  Definition block_id (h : wheader) : hash := sha (sha (ser_header h)).
  Definition txid (t : wtrans) : hash := sha (sha (ser_stripped t)).
  Definition all_txs (W : list wblock) : list wtrans := concat (map snd W).
  Definition block_ids (W : list wblock) : list hash := map (fun w => block_id w.1) W.
  Definition txids (W : list wblock) : list hash := map txid (all_txs W).
  (** The program names the receiver of an output by the hash of the script. *)
  Definition receivers (W : list wblock) : list hash :=
    map (fun o => sha (wo_script o)) (concat (map wt_outs (all_txs W))).

  (** What a walk shows of the transaction number [n] of a block: identifier; inputs, as number of the source
      transaction (the first one with that identifier) and number of its output, none for the first
      transaction; outputs, as value and receiver. *)
  Definition told_tx (W : list wblock) (n : nat) (t : wtrans) : hash * list (Z * Z) * list (Z * hash) :=
    (txid t,
     if decide (n = 0%nat) then [] else map (fun i => (first_of (txids W) (wi_txid i), wi_vout i)) (wt_ins t),
     map (fun o => (wo_value o, sha (wo_script o))) (wt_outs t)).
  Definition told_block (W : list wblock) (w : wblock) := (block_id w.1, imap (told_tx W) w.2).

  (** The same when only the first transaction with an identifier keeps it, and the others show zeroes. *)
  Definition seen_id (W : list wblock) (j : nat) (t : wtrans) : hash :=
    if decide (first_of (txids W) (txid t) = Z.of_nat j) then txid t else replicate 32 0.
  Definition seen_block (W : list wblock) (k : nat) (w : wblock) :=
    (block_id w.1, imap (fun n t => (seen_id W (length (all_txs (take k W)) + n) t, (told_tx W n t).1.2, (told_tx W n t).2)) w.2).

  Definition size_of (t : wtrans) : Z := Z.of_nat (length (ser_trans t)).
  Definition weight_of (t : wtrans) : Z := 3 * Z.of_nat (length (ser_stripped t)) + size_of t.

  (** Chains that can be stored: linked blocks from the genesis block on, well-formed, none empty or huge;
      inputs (but for the first transaction of a block) name transactions of the chain; the numbers fit. *)
  Record valid_chain (W : list wblock) : Prop := {
    vc_first : exists w, W !! 0%nat = Some w /\ take 4 (block_id w.1) = [0x6f; 0xe2; 0x8c; 0x0a];
    vc_linked : forall k w w', W !! k = Some w -> W !! S k = Some w' -> wh_prev w'.1 = block_id w.1;
    vc_wf : Forall (fun w => wf_header w.1 /\ Forall wf_trans w.2 /\ w.2 <> [] /\
                             Z.of_nat (length (ser_block w.1 w.2)) < 2^30) W;
    vc_ids : NoDup (block_ids W);
    vc_txs : Z.of_nat (length (all_txs W)) < 2^32;
    vc_ins : Z.of_nat (length (concat (map wt_ins (all_txs W)))) < 2^40;
    vc_outs : Z.of_nat (length (concat (map wt_outs (all_txs W)))) < 2^40;
    vc_reused : Z.of_nat (length (reused (receivers W))) < 1600000000;
    vc_spends : forall k w n t i, W !! k = Some w -> w.2 !! n = Some t -> n <> 0%nat -> i ∈ wt_ins t ->
      wi_txid i ∈ txids W;
    vc_values : Forall (fun o => 0 <= wo_value o < 2^56) (concat (map wt_outs (all_txs W)))
  }.
End Spec.
