(** Model of the handles of chainstorage: handles.go, concretereadablechain.go:41-308, address.go and the
    functions of block.go and transaction.go that hand out handles.

    A handle carries a pointer to its chain, which may be nil: using it then crashes.
    Simplified: a file read that fails is reported ([Fails]); the files handed to a reader are those of
    Model_Chain. *)
From Verif Require Import Base Model_Word Model_Chain.

Inductive ans (A : Type) := Ans (a : A) | Fails | Crashes.
Global Arguments Ans {A} a. Global Arguments Fails {A}. Global Arguments Crashes {A}.
Definition abind {A B} (x : ans A) (f : A -> ans B) : ans B :=
  match x with Ans a => f a | Fails => Fails | Crashes => Crashes end.
Definition of_opt {A} (x : option A) : ans A := match x with Some a => Ans a | None => Fails end.

(** handles.go:9-20, 59-62: BlockHandle and TransHandle; [d_data] says whether the pointer is set *)
Record handle := mk_handle { d_height : Z; d_hash : hash; d_has_height : bool; d_has_hash : bool; d_data : bool }.
(** the zero value of the array type Sha256 *)
Definition zero_hash : hash := replicate 32 0.

(** Block handles with the block hashes, transaction handles with the transaction hashes: the code is the same
    twice over. *)
Section Kind.
  Context (s : hstore).

  (** handles.go:27-35, 69-77 *)
  Definition handle_height (h : handle) : ans Z :=
    if d_has_height h then Ans (d_height h) else if d_data h then Ans (hs_index s (d_hash h)) else Crashes.
  (** handles.go:36-44, 78-86 *)
  Definition handle_hash (h : handle) : ans hash :=
    if d_has_hash h then Ans (d_hash h) else if d_data h then of_opt (hs_at s (d_height h)) else Crashes.
  (** handles.go:54-56, 96 *)
  Definition handle_invalid (h : handle) : ans bool := abind (handle_height h) (fun i => Ans (bool_decide (i = -1))).

  (** concretereadablechain.go:232-247 (also 41-43, 54-56, 169-174) *)
  Definition by_height (i : Z) : handle := mk_handle i zero_hash true false true.
  Definition first_handle : handle := by_height 0.
  Definition invalid_handle : handle := by_height (-1).
  (** concretereadablechain.go:286-308: the pointer is not set *)
  Definition by_hash (h : hash) : ans handle :=
    let i := hs_index s h in
    if bool_decide (i = -1) then Fails else Ans (mk_handle i zero_hash true false false).
  (** concretereadablechain.go:44-53, 57-66 *)
  Definition before (h : handle) : ans handle :=
    abind (handle_invalid h) (fun bad =>
    if bad then Ans invalid_handle else abind (handle_height h) (fun i => Ans (by_height (i - 1)))).
  (** concretereadablechain.go:176-187, 204-215 *)
  Definition latest : handle := if bool_decide (hs_count s = 0) then invalid_handle else by_height (hs_count s - 1).
  (** concretereadablechain.go:189-202, 217-230 *)
  Definition after (h : handle) : ans handle :=
    abind (handle_height h) (fun i =>
    Ans (if bool_decide (hs_count s <= i + 1) then invalid_handle else by_height (i + 1))).
  (** concretereadablechain.go:70-105: HeightSpecified always says true (handles.go:45-47, 87-89); the item is its number *)
  Definition item (h : handle) : ans Z := handle_height h.
  (** block.go:18-22, transaction.go:53-60 *)
  Definition item_hash (i : Z) : ans hash := of_opt (hs_at s i).
End Kind.

(** handles.go:98-110: input and output handles *)
Record txx := mk_txx { x_trans : handle; x_index : Z; x_height : Z; x_by_trans : bool; x_by_height : bool }.
Definition no_trans : handle := mk_handle 0 zero_hash false false false.
(** concretereadablechain.go:248-263, transaction.go:109-114, 149-154, address.go:68-72 *)
Definition txx_by_height (i : Z) : txx := mk_txx no_trans 0 i false true.
Definition txx_by_trans (t : handle) (n : Z) : txx := mk_txx t n (-1) true false.

Section View.
  Context (vw : view).
  (** concretereadablechain.go:107-147 *)
  Definition txx_item (f : fid) (x : txx) : ans Z :=
    if x_by_height x then Ans (x_height x) else
    if x_by_trans x then
      abind (item (ix_trn (v_ix vw)) (x_trans x)) (fun t =>
      abind (of_opt (rd vw f t)) (fun first => Ans (first + x_index x)))
    else Crashes.
  Definition txi_item (x : txx) : ans Z := txx_item FirstTxi x.
  Definition txo_item (x : txx) : ans Z := txx_item FirstTxo x.
  (** transaction.go:201-224 *)
  Definition source_handle (i : Z) : ans txx :=
    abind (of_opt (rd vw TxiTx i)) (fun t => abind (of_opt (rd vw TxiVout i)) (fun v => Ans (txx_by_trans (by_height t) v))).
  (** block.go:62-69, transaction.go:102-114, 142-154 *)
  Definition nth_trans_handle (b n : Z) : ans handle := abind (of_opt (nth_trans vw b n)) (fun i => Ans (by_height i)).
  Definition nth_txi_handle (t n : Z) : ans txx := abind (of_opt (nth_txi vw t n)) (fun i => Ans (txx_by_height i)).
  Definition nth_txo_handle (t n : Z) : ans txx := abind (of_opt (nth_txo vw t n)) (fun i => Ans (txx_by_height i)).

  (** handles.go:166-187, address.go:9-14: an address handle has no pointer, the address object has one.
      [r_txos]: populated, with these outputs *)
  Record adr := mk_adr { g_height : Z; g_hash : hash; g_has_height : bool; g_has_hash : bool }.
  Record address := mk_address { r_handle : adr; r_populated : bool; r_txos : list Z }.
  (** concretereadablechain.go:264-280 *)
  Definition adr_by_height (i : Z) : adr := mk_adr i zero_hash true false.
  Definition adr_by_hash (h : hash) : ans adr :=
    let i := hs_index (ix_adr (v_ix vw)) h in
    if bool_decide (i = -1) then Fails else Ans (mk_adr i zero_hash true false).
  (** transaction.go:265-275 *)
  Definition txo_address_handle (o : Z) : ans adr := abind (of_opt (rd vw TxoAddr o)) (fun a => Ans (adr_by_height a)).
  (** concretereadablechain.go:149-165 *)
  Definition address_object (g : adr) : address :=
    mk_address (mk_adr (if g_has_height g then g_height g else 0) (if g_has_hash g then g_hash g else zero_hash)
                       (g_has_height g) (g_has_hash g)) false [].
  (** address.go:16-49; the second result says whether it worked *)
  Definition populate (a : address) : address * bool :=
    let g := r_handle a in
    let i := if g_has_height g then g_height g else hs_index (ix_adr (v_ix vw)) (g_hash g) in
    match (if g_has_hash g then Some g
           else match hs_at (ix_adr (v_ix vw)) i with
                | Some h => Some (mk_adr (g_height g) h (g_has_height g) true)
                | None => None end) with
    | None => (mk_address g (r_populated a) [], false)
    | Some g' =>
        match rd vw AddrFirst i with
        | None => (mk_address g' (r_populated a) [], false)
        | Some first =>
            match v_more vw i with
            | Some (Some more) => (mk_address g' true (first :: more), true)
            | _ => (mk_address g' (r_populated a) [first], false)
            end
        end
    end.
  Definition ready (a : address) : address * bool := if r_populated a then (a, true) else populate a.
  (** address.go:51-73: the object changes *)
  Definition address_count (a : address) : address * ans Z :=
    let '(a', ok) := ready a in (a', if ok then Ans (Z.of_nat (length (r_txos a'))) else Fails).
  Definition address_nth (a : address) (n : Z) : address * ans txx :=
    let '(a', ok) := ready a in
    (a', if ok then (if n <? 0 then Crashes else
                     match r_txos a' !! Z.to_nat n with Some o => Ans (txx_by_height o) | None => Crashes end)
         else Fails).
  (** address.go:75-80: the error is ignored *)
  Definition address_own_hash (a : address) : address * hash := let a' := (ready a).1 in (a', g_hash (r_handle a')).
  (** a user's queries of one address object, one after the other *)
  Inductive query := QCount | QNth (n : Z) | QHash.
  Inductive reply := RCount (a : ans Z) | RNth (a : ans txx) | RHash (h : hash).
  Definition ask (a : address) (q : query) : address * reply :=
    match q with
    | QCount => let '(a', x) := address_count a in (a', RCount x)
    | QNth n => let '(a', x) := address_nth a n in (a', RNth x)
    | QHash => let '(a', x) := address_own_hash a in (a', RHash x)
    end.
  Fixpoint ask_all (a : address) (qs : list query) : list reply :=
    match qs with [] => [] | q :: qs' => let '(a', x) := ask a q in x :: ask_all a' qs' end.
End View.
