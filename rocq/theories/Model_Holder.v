(** Models of intrinsicobjectschi/chain.go and intrinsicobjectscri/chain.go (OneBlockHolder), and of
    corereader2/blockhashes.go (the stream of block hashes). *)
From stdpp Require Import sorting.
From Verif Require Import Base.

(** ** OneBlockHolder
    Of an intrinsic block only hash, previous hash, time and transaction ids matter here. *)
Record blk := mk_blk { bk_hash : list Z; bk_prev : list Z; bk_time : Z; bk_txids : list (list Z) }.

(** Calls made on the ITransactionIndexer, transactionindexing/transactionindexing.go:5-13; they are
    taken to succeed. *)
Inductive tev :=
  | EFirst (block first : Z)          (* StoreBlockHeightToFirstTrans *)
  | EParent (trans block : Z)         (* StoreTransHeightToParentBlock *)
  | EHash (id : list Z) (trans : Z).  (* StoreTransHashToHeight *)

(** intrinsicobjectschi/chain.go:15-23, intrinsicobjectscri/chain.go:18-30 *)
Record holder := mk_holder {
  hd_cur : option (blk * Z * Z);      (* block, height, median time *)
  hd_window : list Z;                 (* timestampsForMedian *)
  hd_indexed : bool;                  (* is there a transaction indexer *)
  hd_latest : Z;                      (* latestTransactionVisited *)
  hd_log : list tev                   (* calls on the indexer so far *)
}.

(** intrinsicobjectschi/chain.go:28-39, intrinsicobjectscri/chain.go:32-44 *)
Definition holder_new (indexed : bool) : holder := mk_holder None [] indexed (-1) [].

(** intrinsicobjectschi/chain.go:255-277, intrinsicobjectscri/chain.go:274-296 (PostIntrinsicCalculateMedianTime): new window, median.
    sort.Slice on numbers: any correct sorting gives the same list. *)
Definition median_time (window : list Z) (t : Z) : list Z * Z :=
  let w := window ++ [t] in
  let w := if decide (11 < length w)%nat then drop 1 w else w in
  let sorted := merge_sort Z.le w in
  (w, nth (length w / 2) sorted 0).

(** intrinsicobjectschi/chain.go:238-250, intrinsicobjectscri/chain.go:257-269: the loop over the transactions *)
Fixpoint gather_loop (height : Z) (trans : Z) (ids : list (list Z)) : list tev * Z :=
  match ids with
  | [] => ([], trans)
  | id :: ids' =>
      let '(log, last) := gather_loop height (trans + 1) ids' in
      (EParent (trans + 1) height :: EHash id (trans + 1) :: log, last)
  end.

(** intrinsicobjectschi/chain.go:225-253, intrinsicobjectscri/chain.go:244-272 (PostIntrinsicGatherTransHashes) *)
Definition gather (s : holder) (b : blk) (height : Z) : holder :=
  if hd_indexed s then
    let '(log, last) := gather_loop height (hd_latest s) (bk_txids b) in
    mk_holder (hd_cur s) (hd_window s) (hd_indexed s) last
              (hd_log s ++ EFirst height (hd_latest s + 1) :: log)
  else s.

(** A handle is the block's height (chi) or hash (cri). *)
Inductive flavour := Chi | Cri.
Inductive bhandle := HNum (n : Z) | HHash (h : list Z) | HInvalid.
Inductive hres := HOk (s : holder) (h : bhandle) | HPanic.

(** intrinsicobjectschi/handles.go:14-31 (makeBlockHandle, isInvalidBlockHandle); cri blocks are their own handles *)
Definition make_handle (fl : flavour) (b : blk) (height : Z) : option bhandle :=
  match fl with
  | Chi => if (height <? 0) || (0xFFFFFFFF <? height) then None
           else if height =? 0xFFFFFFFF then Some HInvalid else Some (HNum height)
  | Cri => Some (HHash (bk_hash b))
  end.

(** intrinsicobjectschi/chain.go:41-80, intrinsicobjectscri/chain.go:61-99.  A closed channel gives nil, whose Time is then read. *)
Definition genesis (fl : flavour) (s : holder) (b : option blk) : hres :=
  match hd_cur s, b with
  | Some _, _ => HPanic
  | None, None => HPanic
  | None, Some b =>
      let '(w, m) := median_time (hd_window s) (bk_time b) in
      let s := gather (mk_holder (Some (b, 0, m)) w (hd_indexed s) (hd_latest s) (hd_log s)) b 0 in
      if decide (take 4 (bk_hash b) = [0x6f; 0xe2; 0x8c; 0x0a])
      then match make_handle fl b 0 with Some h => HOk s h | None => HPanic end
      else HPanic
  end.

(** The check that the handle given is the one held: intrinsicobjectschi/chain.go:83-84, intrinsicobjectscri/chain.go:202-207 *)
Definition holds_block (fl : flavour) (b : blk) (height : Z) (h : bhandle) : bool :=
  match h with
  | HNum n => n =? height
  | HHash x => bool_decide (x = bk_hash b)
  | HInvalid => match fl with Chi => height =? 0xFFFFFFFF | Cri => false end
  end.

(** intrinsicobjectschi/chain.go:82-110, intrinsicobjectscri/chain.go:201-234 *)
Definition next_block (fl : flavour) (s : holder) (h : bhandle) (b : option blk) : hres :=
  match hd_cur s with
  | None => HPanic
  | Some (cur, height, _) =>
      if holds_block fl cur height h then
        match b with
        | None => HOk s HInvalid
        | Some b =>
            let '(w, m) := median_time (hd_window s) (bk_time b) in
            let s := mk_holder (Some (b, height + 1, m)) w (hd_indexed s) (hd_latest s) (hd_log s) in
            if decide (bk_prev b = bk_hash cur) then
              let s := gather s b (height + 1) in
              match make_handle fl b (height + 1) with Some h => HOk s h | None => HPanic end
            else HPanic
        end
      else HPanic
  end.

(** The use made of it by jobs/intrinsicparallel.go:326-352, 408-437: ask for the genesis block, then for each
    next block with the handle just received.  [meds] collects the median times on the way. *)
Fixpoint visit_rest (fl : flavour) (s : holder) (h : bhandle) (bs : list blk) : option (holder * bhandle * list Z) :=
  match bs with
  | [] => Some (s, h, [])
  | b :: bs' =>
      match next_block fl s h (Some b) with
      | HPanic => None
      | HOk s' h' =>
          match visit_rest fl s' h' bs' with
          | None => None
          | Some (s'', h'', meds) => Some (s'', h'', from_option snd 0 (hd_cur s') :: meds)
          end
      end
  end.
Definition visit (fl : flavour) (indexed : bool) (bs : list blk) : option (holder * bhandle * list Z) :=
  match bs with
  | [] => None
  | b :: bs' =>
      match genesis fl (holder_new indexed) (Some b) with
      | HPanic => None
      | HOk s h =>
          match visit_rest fl s h bs' with
          | None => None
          | Some (s', h', meds) => Some (s', h', from_option snd 0 (hd_cur s) :: meds)
          end
      end
  end.

(** ** Stream of block hashes, corereader2/blockhashes.go *)
Definition batch_headers : nat := Z.to_nat 1002.

(** blockhashes.go:46-49: ReadFull into a zeroed buffer; its error is overwritten by that of Close *)
Definition read_full (body : list Z) : list Z :=
  take (batch_headers * 80) (body ++ replicate (batch_headers * 80) 0).

(** blockhashes.go:62: bytes offset+4 .. offset+36 of the k-th header *)
Definition prev_hash_of (buf : list Z) (k : nat) : list Z := take 32 (drop (k * 80 + 4) buf).

(** blockhashes.go:33-90.  [server h] is the body sent for the request of 1002 headers from block [h];
    requests are taken to succeed.  [n] > 0 is the number of hashes wanted, [sent] those sent so far;
    the result is what is sent on the channel before it is closed.  Every round but the last sends
    1000 hashes, so [n] rounds are enough. *)
Fixpoint stream_loop (fuel : nat) (server : list Z -> list Z) (req : list Z) (n sent : nat) : list (list Z) :=
  match fuel with
  | O => []
  | S fuel' =>
      let buf := read_full (server req) in
      let m := ((batch_headers - 2) `min` (n - sent))%nat in
      let hashes := (fun k => prev_hash_of buf (k + 1)) <$> seq 0 m in
      if decide (sent + m = n)%nat then hashes
      else hashes ++ stream_loop fuel' server (prev_hash_of buf (batch_headers - 1)) n (sent + m)
  end.

(** blockhashes.go:12-16, 31 *)
Definition stream_hashes (server : list Z -> list Z) (genesis : list Z) (n : nat) : list (list Z) :=
  if decide (n = 0%nat) then [] else stream_loop n server genesis n 0.
