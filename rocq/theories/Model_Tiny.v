(** Model of tinychain: a chain held in memory (block.go, blockchain.go, handles.go, transaction.go, txi.go, txo.go), the
    built-in chain of instances.go, and what AppendBlock (chainstorage/concreteappendablechain.go:85-575) does with such
    a chain as its source.

    Simplified: heights are unbounded (int64 in Go); an index out of range ends the run ([None]), as does an error; the
    hash of a number (indexedhashes.HashOfInt) is a function given from outside; the goroutine for the inputs runs before
    the outputs (C46). *)
From Verif Require Import Base Model_Word Model_MapStore Model_Chain.

(** handles.go:48-118: block and transaction handles are heights; inputs and outputs are named by transaction and index *)
Record spot := mk_spot { p_trans : Z; p_index : Z }.
(** txi.go:7-10, txo.go:9-12, transaction.go:6-10, block.go:5-8, blockchain.go:9-12 *)
Record min := mk_min { mi_own : spot; mi_source : spot }.
Record mout := mk_mout { mo_own : spot; mo_sats : Z }.
Record mtx := mk_mtx { mt_height : Z; mt_ins : list min; mt_outs : list mout }.
Record mblock := mk_mblock { mb_height : Z; mb_txs : list mtx }.
Record mchain := mk_mchain { mc_blocks : list mblock; mc_txs : list mtx }.

(** a slice indexed by an int64 *)
Definition at_ {A} (l : list A) (i : Z) : option A := if i <? 0 then None else l !! Z.to_nat i.

Section Navigate.
  Context (c : mchain).
  (** blockchain.go:19-24, handles.go:34-36, 53-55 *)
  Definition m_invalid : Z := -1.
  Definition m_is_invalid (h : Z) : bool := bool_decide (h = -1).
  (** blockchain.go:26-28 *)
  Definition m_genesis : option Z := b ← at_ (mc_blocks c) 0; Some (mb_height b).
  (** blockchain.go:30-39 *)
  Definition m_parent (h : Z) : option Z :=
    if 0 <=? h - 1 then b ← at_ (mc_blocks c) (h - 1); Some (mb_height b) else Some m_invalid.
  (** blockchain.go:74-81 *)
  Definition m_block (h : Z) : option mblock := at_ (mc_blocks c) h.
  (** block.go:10-16 *)
  Definition m_trans_count (b : mblock) : Z := Z.of_nat (length (mb_txs b)).
  Definition m_nth_trans (b : mblock) (n : Z) : option Z := t ← at_ (mb_txs b) n; Some (mt_height t).
  (** blockchain.go:41-52 *)
  Definition m_genesis_trans : option Z := h ← m_genesis; b ← m_block h; m_nth_trans b 0.
  (** blockchain.go:54-66 *)
  Definition m_prev_trans (h : Z) : Z := h - 1.
  (** blockchain.go:83-90 *)
  Definition m_trans (h : Z) : option mtx := at_ (mc_txs c) h.
  (** transaction.go:17-31 *)
  Definition m_nth_txi (t : mtx) (n : Z) : option spot := i ← at_ (mt_ins t) n; Some (mi_own i).
  Definition m_nth_txo (t : mtx) (n : Z) : option spot := o ← at_ (mt_outs t) n; Some (mo_own o).
  (** blockchain.go:92-122 *)
  Definition m_txo (p : spot) : option mout := t ← at_ (mc_txs c) (p_trans p); at_ (mt_outs t) (p_index p).
  Definition m_txi (p : spot) : option min := t ← at_ (mc_txs c) (p_trans p); at_ (mt_ins t) (p_index p).
  (** blockchain.go:129-132 *)
  Definition m_latest : option Z := b ← at_ (mc_blocks c) (Z.of_nat (length (mc_blocks c)) - 1); Some (mb_height b).
  (** blockchain.go:134-147 *)
  Definition m_next (h : Z) : Z := if bool_decide (h + 1 = Z.of_nat (length (mc_blocks c))) then -1 else h + 1.
  (** blockchain.go:149-154 *)
  Definition m_latest_trans : Z := Z.of_nat (length (mc_txs c)) - 1.
  (** blockchain.go:156-169 *)
  Definition m_next_trans (h : Z) : Z := if bool_decide (h + 1 = Z.of_nat (length (mc_txs c))) then -1 else h + 1.

  (** the loop of a user: from a handle on until the invalid handle, looking at everything on the way *)
  Fixpoint m_walk {A} (visit : Z -> option A) (step : Z -> option Z) (fuel : nat) (h : Z) : option (list A) :=
    if m_is_invalid h then Some [] else
    match fuel with
    | O => None
    | S fuel' => a ← visit h; h' ← step h; l ← m_walk visit step fuel' h'; Some (a :: l)
    end.
End Navigate.

(** ** The built-in chain (instances.go) *)
Definition o_spot (t i sats : Z) : mout := mk_mout (mk_spot t i) sats.
Definition i_spot (t i st si : Z) : min := mk_min (mk_spot t i) (mk_spot st si).
(** lines 7-22 *)
Definition tx_b0_t0 := mk_mtx 0 [] [o_spot 0 0 50].
(** lines 24-37 *)
Definition tx_b1_t0 := mk_mtx 1 [] [o_spot 1 0 55].
(** lines 39-60 *)
Definition tx_b1_t1 := mk_mtx 2 [i_spot 2 0 0 0] [o_spot 2 0 20; o_spot 2 1 25].
(** lines 68-81 *)
Definition tx_b2_t0 := mk_mtx 3 [] [o_spot 3 0 50].
(** lines 83-101: spends the output of the next transaction *)
Definition tx_b2_t1 := mk_mtx 4 [i_spot 4 0 5 0] [o_spot 4 0 40].
(** lines 103-122 *)
Definition tx_b2_t2 := mk_mtx 5 [i_spot 5 0 2 0; i_spot 5 1 2 1] [o_spot 5 0 45].
(** lines 18-22, 62-66, 124-134 *)
Definition the_tiny_chain : mchain :=
  mk_mchain [mk_mblock 0 [tx_b0_t0]; mk_mblock 1 [tx_b1_t0; tx_b1_t1]; mk_mblock 2 [tx_b2_t0; tx_b2_t1; tx_b2_t2]]
            [tx_b0_t0; tx_b1_t0; tx_b1_t1; tx_b2_t0; tx_b2_t1; tx_b2_t2].

(** ** Storing it *)
Section Store.
  Context (u : setup) (ix : stores) (hash_of : Z -> hash) (c : mchain).

  (** block.go:18-23 (size, time) and transaction.go:33-38 (version, vsize), numbered as in Model_Chain *)
  Definition m_block_ints : gmap nat Z := {[ 6%nat := 285; 1%nat := 12345 ]}.
  Definition m_trans_ints : gmap nat Z := {[ 0%nat := 2; 2%nat := 123 ]}.

  (** concreteappendablechain.go:199-232, 160-162 *)
  Definition m_frame (blk h : Z) : prog :=
    match m_trans c h with
    | None => PFail
    | Some t =>
        let tn := hs_index (ix_trn ix) (hash_of (mt_height t)) in
        if bool_decide (mt_height t = tn) then
          PAct (AWrite ParBlk blk tn) (fun _ => if bool_decide (h = tn) then PRet tn else PFail)
        else PFail
    end.
  Definition m_frames (blk : Z) (hs : list Z) : prog :=
    match hs with
    | [] => PFail
    | h0 :: hs' =>
        pbind (m_frame blk h0) (fun tn =>
        PAct (ACheckTrans tn) (fun _ =>
        PAct (AWrite FirstTrans tn blk) (fun _ =>
        pbind (pseq (map (m_frame blk) hs')) (fun _ => PRet tn))))
    end.
  (** concreteappendablechain.go:302-318, 376-462: the source is named by the height of its transaction *)
  Definition m_app_txi (tr : Z) (own : spot) : prog :=
    match m_txi c own with
    | None => PFail
    | Some i => p_txi ix tr (mk_cin (SrcHeight (p_trans (mi_source i))) (p_index (mi_source i)))
    end.
  (** concreteappendablechain.go:350-363, 464-496: the amount and the parent are written, then txo.go:18-20 always
      gives an error *)
  Definition m_app_txo (tr : Z) (own : spot) : prog :=
    match m_txo c own with
    | None => PFail
    | Some o =>
        PAct (ACount TxoSats) (fun n =>
        PAct (AWrite TxoSats (mo_sats o) n) (fun _ =>
        PAct (AWrite ParTxo tr n) (fun _ => PFail)))
    end.
  (** concreteappendablechain.go:261-374 *)
  Definition m_contents (tr h : Z) : prog :=
    match m_trans c h with
    | None => PFail
    | Some t =>
        pbind (p_ints (u_trn u) TrnInt m_trans_ints tr) (fun _ =>
        pbind (PAct (ACount TxiTx) (fun n =>
               PAct (AWrite FirstTxi n tr) (fun _ => pseq (map (fun i => m_app_txi tr (mi_own i)) (mt_ins t))))) (fun _ =>
        PAct (ACount TxoSats) (fun n =>
        PAct (ACheckPrev n tr) (fun _ =>
        PAct (AWrite FirstTxo n tr) (fun _ =>
        PAct (ASetPrev n tr) (fun _ => pseq (map (fun o => m_app_txo tr (mo_own o)) (mt_outs t))))))))
    end.
  (** concreteappendablechain.go:85-197, indexing not delegated *)
  Definition m_append (h : Z) : prog :=
    match m_block c h with
    | None => PFail
    | Some b =>
        let blk := hs_index (ix_blk ix) (hash_of (mb_height b)) in
        if bool_decide (blk = -1) then PFail else
        if bool_decide (h <> blk) then PFail else
        pbind (p_ints (u_blk u) BlkInt m_block_ints blk) (fun _ =>
        pbind (m_frames blk (map mt_height (mb_txs b))) (fun first =>
        pseq (imap (fun k t => m_contents (first + Z.of_nat k) (mt_height t)) (mb_txs b))))
    end.
End Store.

(** What a program leaves in the files, also when it fails; the second result says whether it worked. *)
Fixpoint leaves (p : prog) (s : cst) : cst * bool :=
  match p with
  | PRet _ => (s, true)
  | PFail => (s, false)
  | PAct a k => match do_act a s with Some (s', r) => leaves (k r) s' | None => (s, false) end
  end.

(** concretehasheschain.go:28-113: the hash pre-pass asks every output for its address too *)
Definition m_hashes_block (hash_of : Z -> hash) (c : mchain) (h : Z) : option (hash * list hash) :=
  b ← m_block c h;
  if bool_decide (mb_txs b = []) then None else
  ts ← mapM (fun x => t ← m_trans c (mt_height x);
                      if bool_decide (mt_outs t = []) then Some (hash_of (mt_height x)) else None) (mb_txs b);
  Some (hash_of (mb_height b), ts).
