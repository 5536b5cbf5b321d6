(** Model of chainstorage: concreteappendablechain.go (AppendBlock, AppendBlockChi and everything below
    them), concretereadablechain.go, block.go, transaction.go, address.go, concretehasheschain.go, the
    file layout of concreteappendablechainfactory.go, and of the transaction indexing of
    intrinsicobjectschi/chain.go:225-253 and intrinsicobjectscri/chain.go:244-272.

    Word files are those of Model_Word, the store of additional outputs is the cached store of
    Model_MapStore, the three hash stores are read-only lookups given from outside (they are filled and
    indexed by earlier passes).
    Simplified: an error and a panic both end the run ([None]); the checks that fail when the source chain
    itself numbers its transactions, inputs or outputs and numbers them otherwise are left out (Chi sources
    never number them), except for the block height; non-essential ints are written in a fixed order (Go
    iterates over a map; they go to different files). *)
From Verif Require Import Base Model_Word Model_MapStore.

Notation hash := (list Z).

(** ** What is appended *)

(** The ways a source transaction is named (concreteappendablechain.go:395-425); the Chi path always has
    the hash (818-822). *)
Inductive source := SrcHeight (h : Z) | SrcPath (block nth : Z) | SrcHash (h : hash).
Record cin := mk_cin { i_src : source; i_vout : Z }.
Record cout := mk_cout { o_sats : Z; o_addr : hash (* hash of the script *) }.
Record ctx := mk_ctx { t_hash : hash; t_ints : gmap nat Z; t_ins : list cin; t_outs : list cout }.
Record cblock := mk_cblock { b_hash : hash; b_ints : gmap nat Z; b_txs : list ctx }.

(** ** Files (concreteappendablechainfactory.go:104-137).  Non-essential ints are numbered:
    blocks 0 version, 1 time, 2 difficulty, 3 mediantime, 4 nonce, 5 strippedsize, 6 size, 7 weight;
    transactions 0 version, 1 size, 2 vsize, 3 weight, 4 locktime. *)
Inductive fid :=
| FirstTrans | FirstTxi | FirstTxo | TxiTx | TxiVout | TxoSats | TxoAddr | TxoSpent | AddrFirst
| ParBlk | ParTxi | ParTxo | BlkInt (n : nat) | TrnInt (n : nat).
Global Instance fid_eq : EqDecision fid. Proof. solve_decision. Defined.
Global Instance fid_countable : Countable fid.
Proof.
  refine (inj_countable' (fun f => match f with
      | FirstTrans => (0, 0) | FirstTxi => (1, 0) | FirstTxo => (2, 0) | TxiTx => (3, 0) | TxiVout => (4, 0)
      | TxoSats => (5, 0) | TxoAddr => (6, 0) | TxoSpent => (7, 0) | AddrFirst => (8, 0) | ParBlk => (9, 0)
      | ParTxi => (10, 0) | ParTxo => (11, 0) | BlkInt n => (12, n) | TrnInt n => (13, n) end%nat)
    (fun p => match p with
      | (0, _) => FirstTrans | (1, _) => FirstTxi | (2, _) => FirstTxo | (3, _) => TxiTx | (4, _) => TxiVout
      | (5, _) => TxoSats | (6, _) => TxoAddr | (7, _) => TxoSpent | (8, _) => AddrFirst | (9, _) => ParBlk
      | (10, _) => ParTxi | (11, _) => ParTxo | (12, n) => BlkInt n | (_, n) => TrnInt n end%nat) _).
  by intros [].
Defined.

Definition width (f : fid) : nat :=
  match f with
  | FirstTrans => 4 | FirstTxi => 5 | FirstTxo => 5 | TxiTx => 4 | TxiVout => 4 | TxoSats => 7
  | TxoAddr => 5 | TxoSpent => 5 | AddrFirst => 5 | ParBlk => 4 | ParTxi => 5 | ParTxo => 5
  | BlkInt 2 => 8 | BlkInt _ => 4 | TrnInt _ => 4
  end.
(** additionaltxos: 5 digits per file, 2 per folder, 5 byte elements, cache of 8000000000 / 5 elements
    (concreteappendablechainfactory.go:120; intarrayarray/concretemapstorecreator.go:47-58) *)
Definition more_cfg : cfg := mk_cfg 5 2 5.
Definition more_limit : Z := 1600000000.

(** Settings: transactions indexed by the source (delegated), handles interface (Chi), the requested
    non-essential ints. *)
Record setup := mk_setup { u_deleg : bool; u_chi : bool; u_blk : list nat; u_trn : list nat }.
Definition fixed_files : list fid :=
  [FirstTrans; FirstTxi; FirstTxo; TxiTx; TxiVout; TxoSats; TxoAddr; TxoSpent; AddrFirst; ParBlk; ParTxi; ParTxo].
Definition all_files (u : setup) : list fid := fixed_files ++ map BlkInt (u_blk u) ++ map TrnInt (u_trn u).

(** The files, the additional outputs, and the package variables PrevFirstTxo and PrevTrans
    (concreteappendablechain.go:19-48). *)
Record cst := mk_cst { s_files : gmap fid word_file; s_more : cms; s_prev_txo : Z; s_prev_trans : Z }.

(** CreateFromHashStores and openPrivate (concreteappendablechainfactory.go:171-264, 282-497), with the
    package variables as they happen to be. *)
Definition c_create (u : setup) (prev_txo prev_trans : Z) : cst :=
  mk_cst (list_to_map (map (fun f => (f, wf_new [] (width f) 0)) (all_files u)))
         (cms_open more_cfg more_limit create_disk) prev_txo prev_trans.

(** The hash stores. *)
Record hstore := mk_hs { hs_index : hash -> Z (* IndexOfHash, -1 = not found *);
                         hs_count : Z; hs_at : Z -> option hash }.
Record stores := mk_stores { ix_blk : hstore; ix_trn : hstore; ix_adr : hstore }.

(** ** Atomic actions: the calls on files, and the accesses to the package variables *)
Inductive act :=
| ACount (f : fid) | ARead (f : fid) (i : Z) | AWrite (f : fid) (v i : Z)
| AMore (k v : Z)                       (* addrAdditionalTxos.AppendToArray *)
| ACheckTrans (tr : Z)                  (* panics when tr < PrevTrans *)
| ACheckPrev (n tr : Z)                 (* lines 334-341, 764-771 *)
| ASetPrev (n tr : Z).

Definition with_files (s : cst) (m : gmap fid word_file) : cst := mk_cst m (s_more s) (s_prev_txo s) (s_prev_trans s).
Definition do_act (a : act) (s : cst) : option (cst * Z) :=
  match a with
  | ACount f => wf ← s_files s !! f; Some (s, Z.of_nat (wf_count wf))
  | ARead f i =>
      wf ← s_files s !! f;
      if i <? 0 then None else
      match wf_read wf (Z.to_nat i) with
      | (wf', WVal v) => Some (with_files s (<[f := wf']> (s_files s)), v)
      | (_, WErr) => None
      end
  | AWrite f v i =>
      wf ← s_files s !! f;
      if i <? 0 then None else Some (with_files s (<[f := wf_write wf v (Z.to_nat i)]> (s_files s)), 0)
  | AMore k v => m ← cms_append (s_more s) k v; Some (mk_cst (s_files s) m (s_prev_txo s) (s_prev_trans s), 0)
  | ACheckTrans tr => if tr <? s_prev_trans s then None else Some (s, 0)
  | ACheckPrev n tr =>
      if bool_decide (s_prev_txo s <> -1) && ((n <? s_prev_txo s) || (tr <? s_prev_trans s)) then None else Some (s, 0)
  | ASetPrev n tr => Some (mk_cst (s_files s) (s_more s) n tr, 0)
  end.

(** Programs: sequences of atomic actions whose answers decide what comes next. *)
Inductive prog := PRet (v : Z) | PFail | PAct (a : act) (k : Z -> prog).
Fixpoint pbind (p : prog) (q : Z -> prog) : prog :=
  match p with PRet v => q v | PFail => PFail | PAct a k => PAct a (fun r => pbind (k r) q) end.
Fixpoint exec (p : prog) (s : cst) : option (cst * Z) :=
  match p with
  | PRet v => Some (s, v)
  | PFail => None
  | PAct a k => match do_act a s with Some (s', r) => exec (k r) s' | None => None end
  end.
Fixpoint pseq (ps : list prog) : prog :=
  match ps with [] => PRet 0 | p :: ps' => pbind p (fun _ => pseq ps') end.

Section Programs.
  Context (u : setup) (ix : stores).

  (** concreteappendablechain.go:376-462 (appendTxi), 799-864 (appendTxiChi) *)
  Definition p_source (src : source) (k : Z -> prog) : prog :=
    match src with
    | SrcHeight h => k h
    | SrcPath b n => PAct (ARead FirstTrans b) (fun v => k (v + n))
    | SrcHash h => k (hs_index (ix_trn ix) h)
    end.
  Definition p_txi (tr : Z) (i : cin) : prog :=
    p_source (i_src i) (fun src =>
    PAct (ACount TxiTx) (fun n =>
    PAct (AWrite TxiTx src n) (fun _ =>
    PAct (AWrite TxiVout (i_vout i) n) (fun _ =>
    PAct (AWrite ParTxi tr n) (fun _ => PRet n))))).

  (** testpoints/testpoints.go:7 *)
  Definition test_point : Z := 264249.

  (** concreteappendablechain.go:464-575 (appendTxo), 866-971 (appendTxoChi) *)
  Definition p_txo (tr : Z) (o : cout) : prog :=
    PAct (ACount TxoSats) (fun n =>
    PAct (AWrite TxoSats (o_sats o) n) (fun _ =>
    PAct (AWrite ParTxo tr n) (fun _ =>
    let a := hs_index (ix_adr ix) (o_addr o) in
    if bool_decide (a = -1) then PFail else
    PAct (ACount AddrFirst) (fun c =>
    let rest :=
      PAct (AWrite TxoAddr a n) (fun _ =>
      PAct (AWrite TxoSpent 0 n) (fun _ => PRet n)) in
    if bool_decide (a < c) then PAct (AMore a n) (fun _ => rest)
    else PAct (AWrite AddrFirst n a) (fun _ =>
         if bool_decide (a = test_point)
         then PAct (ARead AddrFirst a) (fun v => if bool_decide (v <> n \/ v = 0) then PFail else rest)
         else rest))))).

  (** The inputs that are stored: the handles interface throws away those of the first transaction of a
      block (741-755) *)
  Definition kept_ins (coinbase : bool) (t : ctx) : list cin := if u_chi u && coinbase then [] else t_ins t.

  (** concreteappendablechain.go:285-323, 729-757: the goroutine for the inputs *)
  Definition p_ins (tr : Z) (coinbase : bool) (t : ctx) : prog :=
    PAct (ACount TxiTx) (fun n =>
    PAct (AWrite FirstTxi n tr) (fun _ => pseq (map (p_txi tr) (kept_ins coinbase t)))).

  (** concreteappendablechain.go:325-365, 759-788: the outputs *)
  Definition p_outs (tr : Z) (t : ctx) : prog :=
    PAct (ACount TxoSats) (fun n =>
    PAct (ACheckPrev n tr) (fun _ =>
    PAct (AWrite FirstTxo n tr) (fun _ =>
    PAct (ASetPrev n tr) (fun _ => pseq (map (p_txo tr) (t_outs t)))))).

  (** lines 118-131, 268-281, 617-627, 715-725 *)
  Definition p_ints (names : list nat) (file : nat -> fid) (vals : gmap nat Z) (at_ : Z) : prog :=
    pseq (map (fun name => match vals !! name with
                           | Some v => PAct (AWrite (file name) v at_) PRet
                           | None => PFail end) names).

  (** concreteappendablechain.go:261-374, 712-797, with the two concurrent parts one after the other;
      property C46 is about the other interleavings. *)
  Definition p_contents (tr : Z) (coinbase : bool) (t : ctx) : prog :=
    pbind (p_ints (u_trn u) TrnInt (t_ints t) tr) (fun _ =>
    pbind (p_ins tr coinbase t) (fun _ => p_outs tr t)).

  (** concreteappendablechain.go:199-259, 685-710 *)
  Definition p_frame (blk nth : Z) (t : ctx) : prog :=
    if u_deleg u then PAct (ARead FirstTrans blk) (fun v => PRet (v + nth))
    else let tn := hs_index (ix_trn ix) (t_hash t) in PAct (AWrite ParBlk blk tn) (fun _ => PRet tn).

  (** concreteappendablechain.go:142-169, 635-662: the first transaction's number *)
  Definition p_frames (blk : Z) (ts : list ctx) : prog :=
    match ts with
    | [] => PFail
    | t0 :: ts' =>
        pbind (p_frame blk 0 t0) (fun tn =>
        PAct (ACheckTrans tn) (fun _ =>
        pbind (if u_deleg u then PRet 0 else PAct (AWrite FirstTrans tn blk) PRet) (fun _ =>
        pbind (pseq (imap (fun i t => p_frame blk (Z.of_nat i + 1) t) ts')) (fun _ => PRet tn))))
    end.

  (** concreteappendablechain.go:85-197 (AppendBlock), 577-683 (AppendBlockChi) *)
  Definition p_block (height : Z) (b : cblock) : prog :=
    let blk := hs_index (ix_blk ix) (b_hash b) in
    if bool_decide (blk = -1) then PFail else
    if bool_decide (height <> blk) then PFail else
    pbind (p_ints (u_blk u) BlkInt (b_ints b) blk) (fun _ =>
    pbind (p_frames blk (b_txs b)) (fun first =>
    pseq (imap (fun t tx => p_contents (first + Z.of_nat t) (bool_decide (t = 0%nat)) tx) (b_txs b)))).

  (** intrinsicobjectschi/chain.go:225-253: the source writes the delegated files when it receives a
      block; [last] is latestTransactionVisited *)
  Definition p_gather (height last : Z) (b : cblock) : prog :=
    if u_deleg u then
      PAct (AWrite FirstTrans (last + 1) height) (fun _ =>
      pseq (imap (fun i (_ : ctx) => PAct (AWrite ParBlk height (last + 1 + Z.of_nat i)) PRet) (b_txs b)))
    else PRet 0.

  (** jobs/intrinsicparallel.go:489-532, 584-623: the main loop *)
  Fixpoint run_from (height last : Z) (bs : list cblock) (s : cst) : option cst :=
    match bs with
    | [] => Some s
    | b :: bs' =>
        match exec (p_gather height last b) s with
        | None => None
        | Some (s1, _) =>
            match exec (p_block height b) s1 with
            | None => None
            | Some (s2, _) => run_from (height + 1) (last + Z.of_nat (length (b_txs b))) bs' s2
            end
        end
    end.
  Definition run_chain (bs : list cblock) (s : cst) : option cst := run_from 0 (-1) bs s.
End Programs.

(** ** The hash pre-pass (concretehasheschain.go:28-178) on three hash lists *)
Definition append_hashes (b : cblock) (fs : hash_file * hash_file * hash_file) : option (hash_file * hash_file * hash_file) :=
  let '(fb, ft, fa) := fs in
  if bool_decide (b_txs b = []) then None else
  let '(ft', fa') := fold_left (fun '(ft, fa) t =>
      ((hf_append ft (t_hash t)).1, fold_left (fun fa o => (hf_append fa (o_addr o)).1) (t_outs t) fa))
    (b_txs b) (ft, fa) in
  Some ((hf_append fb (b_hash b)).1, ft', fa').
(** concretehasheschainfactory.go:45-123 then jobs/intrinsicparallel.go:324-349, 406-437 *)
Fixpoint gather_hashes (bs : list cblock) (fs : hash_file * hash_file * hash_file) : option (hash_file * hash_file * hash_file) :=
  match bs with
  | [] => Some fs
  | b :: bs' => match append_hashes b fs with Some fs' => gather_hashes bs' fs' | None => None end
  end.

(** ** Reading *)

(** concretereadablechain.go:12-31.  A missing file is a nil interface: calling it panics. *)
Record view := mk_view { v_files : gmap fid word_file; v_more : Z -> option (option (list Z)); v_ix : stores }.

(** openReadOnlyPrivate (concreteappendablechainfactory.go:504-718) after Close: the bytes of the files opened
    afresh, the additional outputs read from disk *)
Definition open_read_only (ix : stores) (s : cst) : view :=
  mk_view (omap (fun wf => wf_open (wf_size wf) (wf_data wf)) (s_files s)) (fun k => snd <$> ms_get (ms_open more_cfg (k_disk (cms_flush (s_more s)))) k) ix.
(** GetAsConcreteReadableChain (concreteappendablechain.go:53-79): the parents files are not handed over *)
Definition as_readable (ix : stores) (s : cst) : view :=
  mk_view (delete ParBlk (delete ParTxi (delete ParTxo (s_files s))))
          (fun k => snd <$> cms_get (s_more s) k) ix.

Section Readers.
  Context (vw : view).
  (** ReadWordAt and CountWords on a field file.  Reading changes only the scratch bytes, which by C03 does
      not affect later reads. *)
  Definition rd (f : fid) (i : Z) : option Z :=
    wf ← v_files vw !! f;
    if i <? 0 then None else
    match (wf_read wf (Z.to_nat i)).2 with WVal v => Some v | WErr => None end.
  Definition cnt (f : fid) : option Z := wf ← v_files vw !! f; Some (Z.of_nat (wf_count wf)).
  Definition nblk : Z := hs_count (ix_blk (v_ix vw)).
  Definition ntrn : Z := hs_count (ix_trn (v_ix vw)).

  (** concretereadablechain.go:41-66, 169-230: navigation; heights, -1 is the invalid handle *)
  Definition genesis : Z := 0.
  Definition parent_block (h : Z) : Z := if bool_decide (h = -1) then -1 else h - 1.
  Definition latest_block : Z := if bool_decide (nblk = 0) then -1 else nblk - 1.
  Definition next_block (h : Z) : Z := if bool_decide (nblk <= h + 1) then -1 else h + 1.
  Definition previous_trans (h : Z) : Z := if bool_decide (h = -1) then -1 else h - 1.
  Definition latest_trans : Z := if bool_decide (ntrn = 0) then -1 else ntrn - 1.
  Definition next_trans (h : Z) : Z := if bool_decide (ntrn <= h + 1) then -1 else h + 1.

  (** block.go:36-69 *)
  Definition block_hash (h : Z) : option hash := hs_at (ix_blk (v_ix vw)) h.
  Definition trans_count (h : Z) : option Z :=
    first ← rd FirstTrans h;
    if bool_decide (h + 1 < nblk) then (nxt ← rd FirstTrans (h + 1); Some (nxt - first)) else Some (ntrn - first).
  Definition nth_trans (h n : Z) : option Z := first ← rd FirstTrans h; Some (first + n).
  (** block.go:70-80 and transaction.go:155-165 *)
  Definition block_int (name : nat) (h : Z) : option Z := rd (BlkInt name) h.
  Definition trans_int (name : nat) (h : Z) : option Z := rd (TrnInt name) h.

  (** transaction.go:53-60 *)
  Definition trans_hash (h : Z) : option hash := hs_at (ix_trn (v_ix vw)) h.
  (** transaction.go:76-114 *)
  Definition txi_count (h : Z) : option Z :=
    total ← cnt TxiTx; first ← rd FirstTxi h;
    if bool_decide (h + 1 < ntrn) then (nxt ← rd FirstTxi (h + 1); Some (nxt - first)) else Some (total - first).
  Definition nth_txi (h n : Z) : option Z := first ← rd FirstTxi h; Some (first + n).
  (** transaction.go:116-154 *)
  Definition txo_count (h : Z) : option Z :=
    total ← cnt TxoSats; first ← rd FirstTxo h;
    if bool_decide (h + 1 < ntrn) then (nxt ← rd FirstTxo (h + 1); Some (nxt - first)) else Some (total - first).
  Definition nth_txo (h n : Z) : option Z := first ← rd FirstTxo h; Some (first + n).
  (** transaction.go:201-224 *)
  Definition txi_source (h : Z) : option (Z * Z) := t ← rd TxiTx h; v ← rd TxiVout h; Some (t, v).
  (** concretereadablechain.go:128-147: an output named by transaction and index *)
  Definition txo_of_parent (tr index : Z) : option Z := first ← rd FirstTxo tr; Some (first + index).
  (** transaction.go:257-275 and address.go:16-49 (only the part that finds the hash) *)
  Definition txo_sats (h : Z) : option Z := rd TxoSats h.
  Definition txo_address (h : Z) : option Z := rd TxoAddr h.
  (** transaction.go:14-46 (AllTxoSatoshis) *)
  Definition all_sats (h : Z) : option (list Z) :=
    n ← cnt FirstTxo; first ← rd FirstTxo h;
    last ← (if bool_decide (h = n - 1) then cnt TxoSats else rd FirstTxo (h + 1));
    mapM (fun i => txo_sats (first + Z.of_nat i)) (seq 0 (Z.to_nat (last - first))).

  (** concretereadablechain.go:312-320 *)
  Definition parent_block_of_trans (h : Z) : option Z := rd ParBlk h.
  Definition parent_trans_of_txi (h : Z) : option Z := rd ParTxi h.
  Definition parent_trans_of_txo (h : Z) : option Z := rd ParTxo h.

  (** address.go:16-59: the hash and the outputs of an address given by height; [None] = error or panic *)
  Definition address_hash (a : Z) : option hash := hs_at (ix_adr (v_ix vw)) a.
  Definition address_txos (a : Z) : option (list Z) :=
    _ ← address_hash a;
    first ← rd AddrFirst a;
    match v_more vw a with Some (Some more) => Some (first :: more) | _ => None end.

  (** ** What a user who walks the chain sees *)
  Definition read_in (h : Z) : option (Z * Z) := txi_source h.
  Definition read_out (h : Z) : option (Z * hash) :=
    s ← txo_sats h; a ← txo_address h; ah ← address_hash a; Some (s, ah).
  Definition indices (n : Z) : list Z := map Z.of_nat (seq 0 (Z.to_nat n)).
  Definition read_trans (h : Z) : option (hash * list (Z * Z) * list (Z * hash)) :=
    th ← trans_hash h;
    ni ← txi_count h;
    ins ← mapM (fun i => ti ← nth_txi h i; read_in ti) (indices ni);
    no ← txo_count h;
    outs ← mapM (fun i => to ← nth_txo h i; read_out to) (indices no);
    Some (th, ins, outs).
  Definition read_block (h : Z) : option (hash * list (hash * list (Z * Z) * list (Z * hash))) :=
    bh ← block_hash h;
    nt ← trans_count h;
    ts ← mapM (fun i => t ← nth_trans h i; read_trans t) (indices nt);
    Some (bh, ts).
  (** walk from a block to the next (or previous) one until the invalid handle; [fuel] bounds the walk *)
  Fixpoint walk {A} (step : Z -> Z) (visit : Z -> option A) (fuel : nat) (h : Z) : option (list A) :=
    if bool_decide (h = -1) then Some [] else
    match fuel with
    | O => None
    | S fuel' => a ← visit h; rest ← walk step visit fuel' (step h); Some (a :: rest)
    end.
End Readers.
