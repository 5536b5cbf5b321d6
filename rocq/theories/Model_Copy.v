(** Model of a stored chain as the source of another chain: what the readers of chainstorage (block.go,
    transaction.go, address.go, handles.go, concretereadablechain.go) hand to AppendBlock
    (concreteappendablechain.go:85-575) and to AppendHashesCri (concretehasheschain.go:28-113).

    A stored chain numbers its blocks, transactions, inputs and outputs, so here the checks that Model_Chain leaves out
    are put in.  They are made before a word is written and again afterwards; here only afterwards, which comes to the
    same because a failed check ends the run.  The source is read first and written afterwards; in Go this alternates,
    but the two chains are in different folders.  Transactions are indexed by the chain that is written
    (transactionIndexingIsDelegated is false), as a stored chain does not index for others. *)
From Verif Require Import Base Model_Word Model_MapStore Model_Chain.

(** ** What the source hands over *)
Record sent_tx := mk_sent_tx { n_tx : ctx; n_no : Z (* Height() *); n_ins : list Z (* TxiHeight() *); n_outs : list Z (* TxoHeight() *) }.
Record sent_block := mk_sent_block { n_hash : hash; n_ints : gmap nat Z; n_bno : Z; n_txs : list sent_tx }.
Definition plain (b : sent_block) : cblock := mk_cblock (n_hash b) (n_ints b) (map n_tx (n_txs b)).

Section Source.
  (** the chain that is read, with the ints it stores *)
  Context (u : setup) (vw : view).

  (** block.go:70-80, transaction.go:155-165 *)
  Definition src_ints (names : list nat) (file : nat -> fid) (h : Z) : option (gmap nat Z) :=
    l ← mapM (fun n => v ← rd vw (file n) h; Some (n, v)) names; Some (list_to_map l).
  (** transaction.go:102-114, 201-224, concretereadablechain.go:107-110: the source has its number, not its hash *)
  Definition src_in (h : Z) : option cin := x ← txi_source vw h; Some (mk_cin (SrcHeight x.1) x.2).
  (** transaction.go:142-154, 257-275, concretereadablechain.go:128-131, 149-165, address.go:75-80 *)
  Definition src_out (h : Z) : option cout :=
    s ← txo_sats vw h; a ← txo_address vw h; ah ← address_hash vw a; Some (mk_cout s ah).
  (** transaction.go:50-60, 76-154 *)
  Definition src_trans (h : Z) : option sent_tx :=
    th ← trans_hash vw h;
    ints ← src_ints (u_trn u) TrnInt h;
    ni ← txi_count vw h; is ← mapM (nth_txi vw h) (indices ni); ins ← mapM src_in is;
    no ← txo_count vw h; os ← mapM (nth_txo vw h) (indices no); outs ← mapM src_out os;
    Some (mk_sent_tx (mk_ctx th ints ins outs) h is os).
  (** block.go:15-80 *)
  Definition src_block (h : Z) : option sent_block :=
    bh ← block_hash vw h;
    ints ← src_ints (u_blk u) BlkInt h;
    nt ← trans_count vw h; ts ← mapM (nth_trans vw h) (indices nt); txs ← mapM src_trans ts;
    Some (mk_sent_block bh ints h txs).
  (** GenesisBlock and NextBlock until the invalid handle *)
  Definition src_chain (fuel : nat) : option (list sent_block) := walk (next_block vw) src_block fuel genesis.

  (** concretehasheschain.go:28-113: the hashes are taken from the handles.  The handle of an address comes from
      transaction.go:265-275 and does not specify the hash, which concretehasheschain.go:102-104 answers with a panic. *)
  Definition handle_hash (a : Z) : option hash := None.
  Definition src_hashes_trans (h : Z) : option (hash * list hash) :=
    th ← trans_hash vw h; no ← txo_count vw h;
    ads ← mapM (fun i => o ← nth_txo vw h i; a ← txo_address vw o; handle_hash a) (indices no);
    Some (th, ads).
  Definition src_hashes_block (h : Z) : option (hash * list (hash * list hash)) :=
    bh ← block_hash vw h; nt ← trans_count vw h;
    if bool_decide (nt = 0) then None else
    ts ← mapM (fun i => t ← nth_trans vw h i; src_hashes_trans t) (indices nt); Some (bh, ts).
  Definition src_hashes (fuel : nat) := walk (next_block vw) src_hashes_block fuel genesis.
End Source.

(** ** Writing it *)
Section Target.
  Context (u : setup) (ix : stores).

  (** concreteappendablechain.go:376-462, 310-320 *)
  Definition q_txi (tr no : Z) (i : cin) : prog :=
    pbind (p_txi ix tr i) (fun n => if bool_decide (no = n) then PRet n else PFail).
  (** concreteappendablechain.go:464-575, 357-363 *)
  Definition q_txo (tr no : Z) (o : cout) : prog :=
    pbind (p_txo ix tr o) (fun n => if bool_decide (no = n) then PRet n else PFail).
  (** concreteappendablechain.go:285-323 *)
  Definition q_ins (tr : Z) (t : sent_tx) : prog :=
    PAct (ACount TxiTx) (fun n =>
    PAct (AWrite FirstTxi n tr) (fun _ => pseq (zip_with (q_txi tr) (n_ins t) (t_ins (n_tx t))))).
  (** concreteappendablechain.go:325-365 *)
  Definition q_outs (tr : Z) (t : sent_tx) : prog :=
    PAct (ACount TxoSats) (fun n =>
    PAct (ACheckPrev n tr) (fun _ =>
    PAct (AWrite FirstTxo n tr) (fun _ =>
    PAct (ASetPrev n tr) (fun _ => pseq (zip_with (q_txo tr) (n_outs t) (t_outs (n_tx t))))))).
  (** concreteappendablechain.go:261-374 *)
  Definition q_contents (tr : Z) (t : sent_tx) : prog :=
    pbind (p_ints (u_trn u) TrnInt (t_ints (n_tx t)) tr) (fun _ =>
    pbind (q_ins tr t) (fun _ => q_outs tr t)).
  (** concreteappendablechain.go:199-232, 160-162 *)
  Definition q_frame (blk : Z) (t : sent_tx) : prog :=
    let tn := hs_index (ix_trn ix) (t_hash (n_tx t)) in
    if bool_decide (n_no t = tn) then PAct (AWrite ParBlk blk tn) (fun _ => PRet tn) else PFail.
  (** concreteappendablechain.go:133-169 *)
  Definition q_frames (blk : Z) (ts : list sent_tx) : prog :=
    match ts with
    | [] => PFail
    | t0 :: ts' =>
        pbind (q_frame blk t0) (fun tn =>
        PAct (ACheckTrans tn) (fun _ =>
        PAct (AWrite FirstTrans tn blk) (fun _ =>
        pbind (pseq (map (q_frame blk) ts')) (fun _ => PRet tn))))
    end.
  (** concreteappendablechain.go:85-197 *)
  Definition q_block (b : sent_block) : prog :=
    let blk := hs_index (ix_blk ix) (n_hash b) in
    if bool_decide (blk = -1) then PFail else
    if bool_decide (n_bno b <> blk) then PFail else
    pbind (p_ints (u_blk u) BlkInt (n_ints b) blk) (fun _ =>
    pbind (q_frames blk (n_txs b)) (fun first =>
    pseq (imap (fun t tx => q_contents (first + Z.of_nat t) tx) (n_txs b)))).
  (** one block after the other *)
  Fixpoint run_copy (bs : list sent_block) (s : cst) : option cst :=
    match bs with
    | [] => Some s
    | b :: bs' => match exec (q_block b) s with Some (s', _) => run_copy bs' s' | None => None end
    end.
End Target.
