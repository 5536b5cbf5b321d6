(** Model of indexedhashes3: parameters, hash splitting, bin entries, searching and sorting a bin, the bin
    files and the hash store on top of them.

    A Go [bin] is one slice of bytes; every function below works on whole entries of
    [BytesPerBinEntry] bytes, so a bin is a list of entries, each a list of bytes ([concat] of them is the
    slice).  Panics, errors of the file system calls (reading past the end) and loops that do not end are
    [None]. *)
From Coq Require Import Sorting.Sorted.
From Verif Require Import Base Model_Word Model_Folders Model_MapStore.

(** ** Parameters *)

(** indexedhashes3/params.go:3-21 without the derived values; HashCountEstimate only sizes buffers and
    passes *)
Record params := mk_params {
  p_bits : Z;          (* BitsPerHashIndex *)
  p_estimate : Z;      (* HashCountEstimate *)
  p_digits : nat;      (* DigitsPerNumberedFolder *)
  p_bins : Z;          (* NumberOfBins *)
  p_start : nat;       (* EntriesInBinStart *)
  p_snb : nat          (* BytesPerSortNum *)
}.

(** indexedhashes3/params.go:27-46, 56: panics for an odd number of bins, for sort numbers of more than
    eight bytes, and (division by zero) for no bins *)
Definition new_params (bits estimate : Z) (digits : nat) (bins : Z) (start snb : nat) : option params :=
  if (bins `rem` 2 =? 1) || (8 <? snb)%nat || (bins =? 0) then None
  else Some (mk_params bits estimate digits bins start snb).

(** indexedhashes3/params.go:49-55: the least number of bytes, below eight, that holds the bin numbers *)
Definition bin_room (p : params) : nat :=
  default 0%nat (head (filter (fun n => p_bins p <= pow256 n) (seq 0 8))).
(** indexedhashes3/params.go:56 *)
Definition divider (p : params) : Z := 2^63 / (p_bins p / 2).
(** indexedhashes3/params.go:61 *)
Definition hash_bytes (p : params) : nat := Z.to_nat ((p_bits p - 1) `quot` 8 + 1).
(** indexedhashes3/params.go:58 *)
Definition entry_bytes (p : params) : nat := (24 + p_snb p + hash_bytes p)%nat.

(** indexedhashes3/sensibleparams.go:19-94: the shipped parameters (bits, bins, entries in bin start, bytes per
    sort number) *)
Definition shipped : list params :=
  [ mk_params 32 3244977536 2 16777216 236 5; mk_params 31 1169006653 2 16777216 101 5;
    mk_params 31 1169006653 2 65536 29 6; mk_params 19 269406 2 65536 9 6;
    mk_params 18 219927 2 65536 10 6; mk_params 17 100888 2 256 440 7 ].

(** ** Splitting hashes *)

(** indexedhashes3/hash.go:11-15, 17-19 *)
Definition truncated (h : list Z) : list Z := take 24 (drop 8 h).
Definition abbreviated (h : list Z) : Z := le_dec (take 8 h).
(** indexedhashes3/hash.go:21-26 *)
Definition rebuild (th : list Z) (a : Z) : list Z := le_enc 8 a ++ th.
(** indexedhashes3/abbreviatedhash.go:11-14, 16-19, 7-9 *)
Definition bin_num (p : params) (a : Z) : Z := a / divider p.
Definition sort_num (p : params) (a : Z) : Z := a mod divider p.
Definition abbreviation_of (p : params) (bn sn : Z) : Z := (bn * divider p + sn) mod 2^64.

(** ** Entries *)

(** indexedhashes3/binentrybytes.go:21-53 *)
Definition entry_enc (p : params) (th : list Z) (hi sn : Z) : option (list Z) :=
  let hb := le_enc 8 hi in
  let sb := le_enc 8 sn in
  if decide (8 < hash_bytes p)%nat then None else
  if negb (forallb (Z.eqb 0) (drop (hash_bytes p) hb)) then None else
  if negb (forallb (Z.eqb 0) (drop (p_snb p) sb)) then None else
  Some (take 24 th ++ take (hash_bytes p) hb ++ take (p_snb p) sb).
(** indexedhashes3/binentrybytes.go:55-59 *)
Definition entry_th (e : list Z) : list Z := take 24 e.
(** indexedhashes3/binentrybytes.go:61-72 (copied to the front of eight zero bytes) *)
Definition entry_hi (p : params) (e : list Z) : Z := to_i64 (le_dec (take (hash_bytes p) (drop 24 e))).
Definition entry_sn (p : params) (e : list Z) : Z := le_dec (take (p_snb p) (drop (24 + hash_bytes p) e)).

Notation bin := (list (list Z)).

(** ** Searching *)
Section Search.
  (** [probe start end snStart snEnd sn] is the index computed in floating point on lines 208-211 of
      binbytes.go; Prop_Probe.v has the actual formula. *)
  Context (p : params) (probe : Z -> Z -> Z -> Z -> Z -> Z).

  (** indexedhashes3/binbytes.go:53-56 with the sort number decoded; [None] = slice out of range *)
  Definition sn_at (b : bin) (i : Z) : option Z :=
    if i <? 0 then None else entry_sn p <$> b !! Z.to_nat i.

  (** indexedhashes3/binbytes.go:222-228 *)
  Fixpoint step_back (fuel : nat) (b : bin) (sn i : Z) : option Z :=
    match fuel with
    | O => None
    | S fuel' =>
        v ← sn_at b (i - 1);
        if v =? sn then step_back fuel' b sn (i - 1) else Some (i - 1)
    end.

  (** indexedhashes3/binbytes.go:165-231 *)
  Definition home_in (b : bin) (s e sn : Z) : option (Z * Z) :=
    if s =? e then None else
    a ← sn_at b s;
    if sn <=? a then Some (s, s) else
    z ← sn_at b e;
    if z <? sn then Some (e + 1, e + 1) else
    if z =? a then None else
    if z <? a then None else
    if sn <? z then
      if e - s =? 1 then Some (e, e) else
      let m0 := probe s e a z sn in
      let m := if m0 =? s then m0 + 1 else if m0 =? e then m0 - 1 else m0 in
      v ← sn_at b m;
      if v <? sn then Some (m, e)
      else if sn <? v then Some (s, m)
      else Some (m, m)
    else
      i ← step_back (Z.to_nat (e + 1)) b sn e; Some (i + 1, i + 1).

  (** indexedhashes3/binbytes.go:155-157; every round shrinks the range, so as many rounds as there are
      entries are enough *)
  Fixpoint find_loop (fuel : nat) (b : bin) (s e sn : Z) : option Z :=
    if s =? e then Some s else
    match fuel with
    | O => None
    | S fuel' => '(s', e') ← home_in b s e sn; find_loop fuel' b s' e' sn
    end.

  (** indexedhashes3/binbytes.go:139-159 *)
  Definition find_index (b : bin) (sn : Z) : option Z :=
    match b with
    | [] => Some 0
    | _ =>
        let e := Z.of_nat (length b) - 1 in
        if e =? 0 then a ← sn_at b 0; if a <? sn then Some 1 else find_loop (length b) b 0 e sn
        else find_loop (length b) b 0 e sn
    end.

  (** indexedhashes3/binbytes.go:99-110: the loop from the entry found *)
  Fixpoint scan (es : bin) (th : list Z) (sn : Z) : Z :=
    match es with
    | [] => -1
    | e :: es' =>
        if bool_decide (entry_sn p e <> sn) then -1
        else if bool_decide (entry_th e = th) then entry_hi p e
        else scan es' th sn
    end.
  (** indexedhashes3/binbytes.go:95-111 *)
  Definition lookup_by_hash (b : bin) (th : list Z) (sn : Z) : option Z :=
    i ← find_index b sn; Some (scan (drop (Z.to_nat i) b) th sn).

  (** indexedhashes3/binbytes.go:67-93.  The bytes after the insertion point move up by one entry. *)
  Definition insert_entry (b : bin) (sn hi : Z) (th : list Z) : option bin :=
    e ← entry_enc p th hi sn;
    i ← find_index b sn;
    if Z.of_nat (length b) <? i then None else
    Some (take (Z.to_nat i) b ++ e :: drop (Z.to_nat i) b).
End Search.

(** indexedhashes3/binbytes.go:116-132: all zeroes when the index is not in the bin *)
Fixpoint lookup_by_index (p : params) (b : bin) (hi bn : Z) : list Z :=
  match b with
  | [] => replicate 32 0
  | e :: b' =>
      if bool_decide (entry_hi p e = hi) then rebuild (entry_th e) (abbreviation_of p bn (entry_sn p e))
      else lookup_by_index p b' hi bn
  end.

(** ** Sorting and removing duplicates *)

(** indexedhashes3/binbytes.go:239-242 *)
Definition append_entry (p : params) (b : bin) (sn hi : Z) (th : list Z) : option bin :=
  e ← entry_enc p th hi sn; Some (b ++ [e]).

(** indexedhashes3/binbytes.go:244-268 compareBinEntries(a, b) <= 0 *)
Definition entry_le (p : params) (a b : list Z) : Prop :=
  entry_sn p a < entry_sn p b \/ (entry_sn p a = entry_sn p b /\ entry_hi p a <= entry_hi p b).
(** What sort.Sort promises (it is not stable): a permutation in order.  Everything below is for an
    arbitrary [srt] that keeps this promise. *)
Definition sorts (p : params) (srt : bin -> bin) : Prop :=
  forall b, srt b ≡ₚ b /\ StronglySorted (entry_le p) (srt b).

(** indexedhashes3/binbytes.go:318-332: [last] is the truncated hash of the last entry kept *)
Fixpoint dedup_from (last : list Z) (b : bin) : bin :=
  match b with
  | [] => []
  | e :: b' => if decide (entry_th e = last) then dedup_from last b' else e :: dedup_from (entry_th e) b'
  end.
(** indexedhashes3/binbytes.go:294-336 *)
Definition sort_dedup (srt : bin -> bin) (b : bin) : bin :=
  if decide (length b <= 1)%nat then b else
  match srt b with [] => [] | e :: b' => e :: dedup_from (entry_th e) b' end.

(** ** Files *)

(** BinStarts.bes and the files below BinOverflows *)
Record bin_files := mk_files { f_starts : list Z; f_over : gmap (list chr * list chr) (list Z) }.

(** indexedhashes3/overflowfiles.go:13-27 (below the BinOverflows folder) *)
Definition overflow_path (p : params) (bn : Z) : option (list chr * list chr) :=
  '(folders, file, _) ← number_to_path 0 (p_digits p) bn; Some (folders, file).

(** indexedhashes3/binfiles.go:125-131: the loop over the bytes before position [n] *)
Fixpoint zero_tail (data : list Z) (n : nat) : nat :=
  match n with
  | O => O
  | S n' => if bool_decide (data !! n' = Some 0) then S (zero_tail data n') else O
  end.
(** indexedhashes3/binfiles.go:101-134; LeadingZeros64 of a non-zero number is 63 minus its logarithm *)
Fixpoint zero_chunks (fuel : nat) (data : list Z) (n : nat) : nat :=
  match fuel with
  | O => O
  | S fuel' =>
      if decide (8 <= n)%nat then
        let chunk := le_dec (take 8 (drop (n - 8) data)) in
        if chunk =? 0 then (8 + zero_chunks fuel' data (n - 8))%nat
        else Z.to_nat ((63 - Z.log2 chunk) / 8)
      else zero_tail data n
  end.
Definition count_zero_bytes_at_end (data : list Z) : nat := zero_chunks (S (length data)) data (length data).

(** a slice of bytes seen as entries *)
Fixpoint to_entries (n w : nat) (l : list Z) : bin :=
  match n with O => [] | S n' => take w l :: to_entries n' w (drop w l) end.
Definition entries_of (p : params) (l : list Z) : bin := to_entries (length l / entry_bytes p) (entry_bytes p) l.

(** indexedhashes3/binfiles.go:21-50 (and 52-79, the same again) *)
Definition load_from_slice (p : params) (f : bin_files) (raw : list Z) (bn : Z) : option bin :=
  let zero_entries := (count_zero_bytes_at_end raw / entry_bytes p)%nat in
  if decide (0 < zero_entries)%nat then
    Some (entries_of p (take (entry_bytes p * (p_start p - zero_entries)) raw))
  else
    path ← overflow_path p bn;
    Some (entries_of p (raw ++ default [] (f_over f !! path))).
(** indexedhashes3/binfiles.go:11-19 *)
Definition load_bin (p : params) (f : bin_files) (bn : Z) : option bin :=
  if bn <? 0 then None else
  raw ← file_read (f_starts f) (Z.to_nat bn * entry_bytes p * p_start p) (entry_bytes p * p_start p);
  load_from_slice p f raw bn.

(** indexedhashes3/binfiles.go:81-98, [n] bins left, reading from byte [off] on *)
Fixpoint load_all (p : params) (f : bin_files) (n : nat) (bn : Z) (off : nat) : option (list bin) :=
  match n with
  | O => Some []
  | S n' =>
      raw ← file_read (f_starts f) off (entry_bytes p * p_start p);
      b ← load_from_slice p f raw bn;
      bs ← load_all p f n' (bn + 1) (off + entry_bytes p * p_start p);
      Some (b :: bs)
  end.

(** indexedhashes3/binfiles.go:137-162 *)
Definition save_bin (p : params) (f : bin_files) (bn : Z) (b : bin) : option bin_files :=
  let kept := (length b `min` p_start p)%nat in
  over ← (if decide (p_start p < length b)%nat
          then path ← overflow_path p bn; Some (<[path := concat (drop kept b)]> (f_over f))
          else Some (f_over f));
  if bn <? 0 then None else
  Some (mk_files (file_write (f_starts f) (Z.to_nat bn * p_start p * entry_bytes p) (concat (take kept b))) over).

(** indexedhashes3/multipasspreloader.go:156-189 (and adaptivepasspreloader.go:125-158): BinStarts is made
    afresh, BinOverflows is created if missing, so overflow files already there stay *)
Definition initial_files (p : params) (old : gmap (list chr * list chr) (list Z)) : bin_files :=
  mk_files (replicate (Z.to_nat (p_bins p) * p_start p * entry_bytes p) 0) old.

(** ** The hash store *)

(** indexedhashes3/hashstore.go:11-19 *)
Record hash_store3 := mk_hs3 { h3_nums : word_file; h3_files : bin_files; h3_ram : option (list bin) }.

Section Store.
  Context (p : params) (probe : Z -> Z -> Z -> Z -> Z -> Z).

  (** indexedhashes3/hashstore.go:25-48, hashstorecreator.go:137-148: opening, with or without the bins in
      memory *)
  Definition h3_open (nums : list Z) (f : bin_files) (in_ram : bool) : option hash_store3 :=
    wf ← wf_open (bin_room p) nums;
    if in_ram then bs ← load_all p f (Z.to_nat (p_bins p)) 0 0; Some (mk_hs3 wf f (Some bs))
    else Some (mk_hs3 wf f None).

  (** indexedhashes3/hashstorecreator.go:115-135: both files created; BinStarts gets the size of ONE bin
      start *)
  Definition h3_create : list Z * bin_files :=
    ([], mk_files (replicate (entry_bytes p * p_start p) 0) ∅).

  (** indexedhashes3/hashstore.go:105-127 *)
  Definition h3_index_of (s : hash_store3) (h : list Z) : option Z :=
    let bn := bin_num p (abbreviated h) in
    b ← match h3_ram s with
        | Some bs => bs !! Z.to_nat bn
        | None => load_bin p (h3_files s) bn
        end;
    lookup_by_hash p probe b (truncated h) (sort_num p (abbreviated h)).

  (** indexedhashes3/hashstore.go:129-143 *)
  Definition h3_get (s : hash_store3) (i : nat) : option (list Z) :=
    match wf_read (h3_nums s) i with
    | (_, WVal bn) => b ← load_bin p (h3_files s) bn; Some (lookup_by_index p b (Z.of_nat i) bn)
    | (_, WErr) => None
    end.

  (** indexedhashes3/hashstore.go:145-151 *)
  Definition h3_count (s : hash_store3) : nat := wf_count (h3_nums s).

  (** indexedhashes3/hashstore.go:66-103.  The answer is the index, [None] an error; the bin number has
      then already been written. *)
  Definition h3_append (s : hash_store3) (h : list Z) : hash_store3 * option nat :=
    match h3_ram s with
    | Some _ => (s, None)
    | None =>
        let bn := bin_num p (abbreviated h) in
        let sn := sort_num p (abbreviated h) in
        let n := wf_count (h3_nums s) in
        let wf := wf_write (h3_nums s) bn n in
        let r := (b ← load_bin p (h3_files s) bn;
                  b' ← insert_entry p probe b sn (Z.of_nat n) (truncated h);
                  save_bin p (h3_files s) bn b') in
        match r with
        | None => (mk_hs3 wf (h3_files s) None, None)
        | Some f => (mk_hs3 wf f None, Some n)
        end
    end.
End Store.
