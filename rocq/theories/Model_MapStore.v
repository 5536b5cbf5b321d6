(** Models of intarrayarray/intarraymapstore.go and intarrayarray/cachedintarraymapstore.go. *)
From Verif Require Import Base Model_Codec Model_Folders.

Global Instance chr_countable : Countable chr.
Proof.
  refine (inj_countable' (fun c => match c with Dig d => Some (Some d) | Ex => Some None | Sep => None end)
    (fun o => match o with Some (Some d) => Dig d | Some None => Ex | None => Sep end) _).
  by intros [].
Defined.

(** A file path: folders below the store's own folder, and file name.  The Go code compares the
    joined strings; [C09_path_string_determines_slot] shows that this is the same. *)
Notation path := (list chr * list chr)%type.

(** The part of the disk below folder/name. *)
Record disk := mk_disk { d_dirs : gset (list chr); d_files : gmap path (list Z) }.

(** os.MkdirAll: the folder and all its ancestors *)
Fixpoint ancestors (p : list chr) : list (list chr) :=
  match p with
  | [] => []
  | Sep :: p' => [] :: map (cons Sep) (ancestors p')
  | c :: p' => map (cons c) (ancestors p')
  end.
Definition mkdir_all (d : disk) (p : list chr) : disk :=
  mk_disk (d_dirs d ∪ list_to_set (p :: ancestors p)) (d_files d).

(** os.WriteFile fails exactly when the folder does not exist (other I/O errors not modelled). *)
Definition write_file (d : disk) (p : path) (b : list Z) : option disk :=
  if decide (p.1 ∈ d_dirs d) then Some (mk_disk (d_dirs d) (<[p := b]> (d_files d))) else None.

(** Configuration: digits per file, digits per folder, element size.
    concretemapstorecreator.go:19-28, 52, 65 *)
Record cfg := mk_cfg { c_fd : nat; c_dd : nat; c_es : nat }.
Definition c_count (c : cfg) : nat := Z.to_nat (10 ^ Z.of_nat (c_fd c)).
Definition c_new (c : cfg) : iaa := iaa_new (c_count c) (c_es c).
(** arrayKey % arrayCountPerFile *)
Definition c_idx (c : cfg) (key : Z) : nat := Z.to_nat (key mod 10 ^ Z.of_nat (c_fd c)).

(** LoadFile (intarrayarray.go:81-114) as used by the stores: a missing file is an error which leaves
    the arrays empty; [None] = panic on a malformed file.  The boolean says "no error". *)
Definition load_file (a : iaa) (d : disk) (p : path) : option (iaa * bool) :=
  match d_files d !! p with
  | None => Some (iaa_new (iaa_count a) (iaa_esize a), false)
  | Some b => match iaa_load a b with Some a' => Some (a', true) | None => None end
  end.

(** ** intarrayarray/intarraymapstore.go *)

(** intarrayarray/intarraymapstore.go:8-19 ("" paths are [None]) *)
Record ms := mk_ms {
  m_cfg : cfg; m_disk : disk;
  m_latest : option path; m_latest_num : Z; m_latest_a : iaa;
  m_older : option path; m_older_a : iaa
}.

(** concretemapstorecreator.go:34-45: CreateMap *)
Definition create_disk : disk := mk_disk {[ [] ]} ∅.
(** concretemapstorecreator.go:61-71, 74-84: OpenMap (not cached), OpenMapReadOnly *)
Definition ms_open (c : cfg) (d : disk) : ms := mk_ms c d None 0 (c_new c) None (c_new c).

(** intarrayarray/intarraymapstore.go:126-143 (FlushFile), 145-147 (Sync); boolean = no error *)
Definition ms_flush (s : ms) : ms * bool :=
  let after_older :=
    match m_older s with
    | None => Some s
    | Some p =>
        match write_file (m_disk s) p (iaa_save (m_older_a s)) with
        | None => None
        | Some d => Some (mk_ms (m_cfg s) d (m_latest s) (m_latest_num s) (m_latest_a s) None (m_older_a s))
        end
    end in
  match after_older with
  | None => (s, false)
  | Some s1 =>
      match m_latest s1 with
      | None => (s1, true)
      | Some p =>
          match write_file (m_disk s1) p (iaa_save (m_latest_a s1)) with
          | None => (s1, false)
          | Some d => (mk_ms (m_cfg s1) d None 0 (m_latest_a s1) (m_older s1) (m_older_a s1), true)
          end
      end
  end.

(** intarrayarray/intarraymapstore.go:35-54 (GetArray): [None] = panic; second component [None] = error *)
Definition ms_get (s : ms) (key : Z) : option (ms * option (list Z)) :=
  let '(s1, ok) := ms_flush s in
  if negb ok then Some (s1, None) else
  match number_to_path (c_fd (m_cfg s)) (c_dd (m_cfg s)) key with
  | None => None
  | Some (folders, file, _) =>
      match load_file (c_new (m_cfg s)) (m_disk s1) (folders, file) with
      | None => None
      | Some (_, false) => Some (s1, None)
      | Some (a, true) => Some (s1, Some (iaa_get a (c_idx (m_cfg s) key)))
      end
  end.

(** intarrayarray/intarraymapstore.go:56-124 (AppendToArray): [None] = panic; boolean = no error *)
Definition ms_append (s : ms) (key v : Z) : option (ms * bool) :=
  let c := m_cfg s in
  match number_to_path (c_fd c) (c_dd c) key with
  | None => None
  | Some (folders, file, num) =>
      let p := (folders, file) in
      if decide (m_latest s = Some p) then                                    (* 61-65 *)
        Some (mk_ms c (m_disk s) (m_latest s) (m_latest_num s) (iaa_append (m_latest_a s) (c_idx c key) v)
                    (m_older s) (m_older_a s), true)
      else if m_latest_num s <? num then                                      (* 67-88 *)
        let d := match m_latest s with                                        (* 69-72, error ignored *)
                 | Some q => default (m_disk s) (write_file (m_disk s) q (iaa_save (m_latest_a s)))
                 | None => m_disk s end in
        let d := mkdir_all d folders in                                       (* 75 *)
        match load_file (m_latest_a s) d p with                               (* 82 *)
        | None => None
        | Some (a, _) =>
            Some (mk_ms c d (Some p) num (iaa_append a (c_idx c key) v) (m_older s) (m_older_a s), true)
        end
      else if decide (m_older s = Some p) then                                (* 93-96 *)
        Some (mk_ms c (m_disk s) (m_latest s) (m_latest_num s) (m_latest_a s)
                    (m_older s) (iaa_append (m_older_a s) (c_idx c key) v), true)
      else
        let d := match m_older s with                                         (* 98-109 *)
                 | Some q =>
                     let d1 := mkdir_all (m_disk s) folders in
                     match write_file d1 q (iaa_save (m_older_a s)) with
                     | Some d2 => inl d2
                     | None => inr d1
                     end
                 | None => inl (m_disk s) end in
        match d with
        | inr d1 => Some (mk_ms c d1 (m_latest s) (m_latest_num s) (m_latest_a s) (m_older s) (m_older_a s), false)
        | inl d2 =>
            match load_file (m_older_a s) d2 p with                           (* 113 *)
            | None => None
            | Some (a, _) =>
                Some (mk_ms c d2 (m_latest s) (m_latest_num s) (m_latest_a s)
                            (Some p) (iaa_append a (c_idx c key) v), true)
            end
        end
  end.

(** ** intarrayarray/cachedintarraymapstore.go *)

(** One entry of the three maps of cachedintarraymapstore.go:17-21.  The Go map stores the
    IntArrayArray struct by value: its inner map is shared with the copies handed out, its
    elementTally is not.  So [iaa_map] follows the appends while [iaa_tally] keeps the value it had
    when the file was loaded. *)
Record centry := mk_ce { ce_path : path; ce_a : iaa; ce_access : Z }.

(** cachedintarraymapstore.go:8-22 *)
Record cms := mk_cms {
  k_cfg : cfg; k_disk : disk; k_limit : Z;
  k_count : Z;         (* cacheElementCount *)
  k_counter : Z;       (* lastAccessCounter *)
  k_entries : list centry
}.

(** concretemapstorecreator.go:48-59 ([limit] = 8000000000 / elementByteSize) *)
Definition cms_open (c : cfg) (limit : Z) (d : disk) : cms := mk_cms c d limit 0 0 [].

Definition ce_find (p : path) (l : list centry) : option centry := head (filter (fun e => ce_path e = p) l).
Definition ce_delete (p : path) (l : list centry) : list centry := filter (fun e => ce_path e <> p) l.

(** cachedintarraymapstore.go:98-106: the entry with the least access number below the counter,
    other than the excluded one.  Access numbers of different entries differ (see
    [cms_inv]), so the Go map's iteration order does not matter. *)
Definition pick_oldest (counter : Z) (excl : path) (l : list centry) : option centry :=
  fold_left (fun best e =>
    if bool_decide (ce_access e < match best with Some b => ce_access b | None => counter end /\ ce_path e <> excl)
    then Some e else best) l None.

(** cachedintarraymapstore.go:97-126 (trimCache) inside the loop of lines 91-93.  When no entry can be
    chosen, the name is "", MkdirAll("") fails, nothing changes and the loop runs for ever: [None]. *)
Fixpoint trim_loop (fuel : nat) (excl : path) (s : cms) : option cms :=
  if k_count s <? k_limit s then Some s else
  match fuel with
  | O => None
  | S fuel' =>
      match pick_oldest (k_counter s) excl (k_entries s) with
      | None => None
      | Some e =>
          let d1 := mkdir_all (k_disk s) (ce_path e).1 in
          match write_file d1 (ce_path e) (iaa_save (ce_a e)) with
          | None => None
          | Some d2 =>
              trim_loop fuel' excl
                (mk_cms (k_cfg s) d2 (k_limit s) (k_count s - iaa_tally (ce_a e)) (k_counter s)
                        (ce_delete (ce_path e) (k_entries s)))
          end
      end
  end.

(** cachedintarraymapstore.go:64-95 (loadIntoCache).  Every round of the loop removes an entry, so
    the number of entries bounds the rounds of a loop that ends. *)
Definition load_into_cache (s : cms) (p : path) : option cms :=
  match ce_find p (k_entries s) with
  | Some _ => Some s
  | None =>
      match load_file (c_new (k_cfg s)) (k_disk s) p with
      | None => None
      | Some (a, _) =>
          let s1 := mk_cms (k_cfg s) (k_disk s) (k_limit s) (k_count s + iaa_tally a) (k_counter s)
                           (k_entries s ++ [mk_ce p a 0]) in
          trim_loop (length (k_entries s1)) p s1
      end
  end.

(** cachedintarraymapstore.go:128-151 (AppendToArray); [None] = panic or never returns *)
Definition cms_append (s : cms) (key v : Z) : option cms :=
  let c := k_cfg s in
  match number_to_path (c_fd c) (c_dd c) key with
  | None => None
  | Some (p, _) =>
      match load_into_cache s p with
      | None => None
      | Some s1 =>
          let upd e := if decide (ce_path e = p)
                       then mk_ce p (mk_iaa (iaa_esize (ce_a e)) (iaa_count (ce_a e)) (iaa_tally (ce_a e))
                                            (iaa_map (iaa_append (ce_a e) (c_idx c key) v))) (k_counter s1 + 1)
                       else e in
          Some (mk_cms c (k_disk s1) (k_limit s1) (k_count s1 + 1) (k_counter s1 + 1) (map upd (k_entries s1)))
      end
  end.

(** cachedintarraymapstore.go:153-174 (FlushFile): MkdirAll and SaveFile for every entry *)
Definition cms_flush (s : cms) : cms :=
  mk_cms (k_cfg s)
    (fold_left (fun d e => let d1 := mkdir_all d (ce_path e).1 in
                           default d1 (write_file d1 (ce_path e) (iaa_save (ce_a e))))
       (k_entries s) (k_disk s))
    (k_limit s) 0 0 [].

(** cachedintarraymapstore.go:43-62 (GetArray) *)
Definition cms_get (s : cms) (key : Z) : option (cms * option (list Z)) :=
  let s1 := cms_flush s in
  let c := k_cfg s in
  match number_to_path (c_fd c) (c_dd c) key with
  | None => None
  | Some (p, _) =>
      match load_file (c_new c) (k_disk s1) p with
      | None => None
      | Some (_, false) => Some (s1, None)
      | Some (a, true) => Some (s1, Some (iaa_get a (c_idx c key)))
      end
  end.
