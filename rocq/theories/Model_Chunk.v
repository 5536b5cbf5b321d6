(** Serialised trees: weddingcake/{nodeformat,chunklevel,chunk,treeshape}.go and weddingcakeback/{nodeformats,
    bakingdesign,bakingdesigner,donutforestwrite,donutforestread,tierbelow}.go.

    The second package is a revision of the first: 64-bit instead of 32-bit words, other padding bytes, identifier
    widths checked on writing, and several trees (a forest, one per hash prefix) sharing the files of their levels.
    One model covers both; [c_back] says which one is meant, and a chunk is a forest of one tree without a prefix.

    A node is named by its key: the number of its tree followed by the byte values on the path from the root.  Go
    panics (explicit ones, slices out of range, nil pointers) are [None].

    Simplifications: node counters are unbounded until they are compared with the limits; the level files are
    byte lists; the stable sort of the groups is an insertion sort (the result of a stable sort is unique). *)
From Verif Require Import Base Model_Tree.

Record config := mk_config {
  c_back : bool;   (* weddingcakeback or weddingcake *)
  c_R : nat;       (* ReassuranceBytesCount *)
  c_K : nat;       (* NodeFormatSpecsPerLevel *)
  c_nid : nat;     (* NodeIdConfig.StorageBytes() *)
  c_hid : nat;     (* HashIndexIdConfig.StorageBytes() *)
  c_hl : nat;      (* HashLength *)
  c_pre : nat      (* PrefixBytesCount *)
}.

(** weddingcake/types.go:8-15, weddingcakeback/types.go:15-27: the greatest NodeId / HashIndexId / byte count *)
Definition c_max (c : config) : Z := if c_back c then 2^64 - 1 else 2^32 - 1.
Definition wrap (c : config) (z : Z) : Z := z mod (c_max c + 1).

(** ** N-byte identifiers *)

(** weddingcake/types.go:33-56 (truncates), weddingcakeback/types.go:46-119 (panics when too large) *)
Definition write_id (back : bool) (n : nat) (id : Z) : option (list Z) :=
  if back && (pow256 n <=? id) then None else Some (le_enc n id).
(** ReadID of a slice of the node bytes; slicing out of range panics *)
Definition read_id (n : nat) (b : list Z) (off : nat) : option Z := le_dec <$> file_read b off n.

(** ** Node formats *)

Inductive fmt := FTiny | FMedium | FFull | FLeaf.
Global Instance fmt_eq_dec : EqDecision fmt.
Proof. solve_decision. Defined.

(** weddingcake/nodeformat.go:37-40 *)
Record nspec := mk_spec { s_fmt : fmt; s_cap : nat }.
(** weddingcake/nodeformat.go:65-71 *)
Record group := mk_group { g_start : nat; g_end : nat; g_count : nat; g_spec : nspec; g_bytes : Z }.

(** weddingcake/nodeformat.go:42-63, weddingcakeback/nodeformats.go:22-43 *)
Definition byte_size (c : config) (s : nspec) : nat :=
  match s_fmt s with
  | FTiny => (1 + s_cap s * (1 + c_nid c))%nat
  | FMedium => (1 + 1 + 32 + s_cap s * c_nid c)%nat
  | FFull => (1 + 1 + 256 * c_nid c)%nat
  | FLeaf => (c_R c + c_hid c)%nat
  end.

(** weddingcake/nodeformat.go:77-99, weddingcakeback/bakingdesigner.go:263-285 *)
Definition propose_format (k : nat) : option nspec :=
  if Nat.eqb k 0 then Some (mk_spec FLeaf k)
  else if Nat.eqb k 1 then None
  else if (k <=? 5)%nat then Some (mk_spec FTiny k)
  else if (245 <=? k)%nat then Some (mk_spec FFull 256)
  else Some (mk_spec FMedium k).

(** weddingcake/nodeformat.go:73-75 with the panics at 112 and 140 *)
Definition sized (c : config) (st en cnt : nat) (s : nspec) : option group :=
  let b := Z.of_nat (cnt * byte_size c s) in
  if c_max c <? b then None else Some (mk_group st en cnt s b).

(** weddingcake/nodeformat.go:101-120, weddingcakeback/bakingdesigner.go:167-185; [hist k]: nodes with [k] slots *)
Fixpoint propose_groups (c : config) (hist : nat -> nat) (ks : list nat) : option (list group) :=
  match ks with
  | [] => Some []
  | k :: ks' =>
      if Nat.eqb (hist k) 0 then propose_groups c hist ks'
      else s ← propose_format k;
           g ← sized c k (S k) (hist k) s;
           gs ← propose_groups c hist ks';
           Some (g :: gs)
  end.

(** weddingcake/nodeformat.go:122-145, weddingcakeback/bakingdesigner.go:321-346 *)
Definition merge_groups (c : config) (l r : group) : option group :=
  if (g_start r <? g_end l)%nat then None
  else sized c (g_start l) (g_end r) (g_count l + g_count r) (mk_spec (s_fmt (g_spec l)) (s_cap (g_spec r))).

(** weddingcake/nodeformat.go:147-170: the cheapest merge of neighbours so far: its cost, and its place and result *)
Fixpoint best_merge (c : config) (i : nat) (gs : list group) (best : Z * option (nat * group)) : option (Z * option (nat * group)) :=
  match gs with
  | l :: ((r :: _) as gs') =>
      if decide (s_fmt (g_spec r) = s_fmt (g_spec l)) then
        m ← merge_groups c l r;
        let cost := wrap c (g_bytes m - wrap c (g_bytes l + g_bytes r)) in
        best_merge c (S i) gs' (if cost <? fst best then (cost, Some (i, m)) else best)
      else best_merge c (S i) gs' best
  | _ => Some best
  end.
(** weddingcake/nodeformat.go:168-178; [Some None]: nothing could be merged *)
Definition refine (c : config) (gs : list group) : option (option (list group)) :=
  r ← best_merge c 0 gs (c_max c, None);
  match snd r with
  | None => Some None
  | Some (i, m) => Some (Some (take i gs ++ m :: drop (i + 2) gs))
  end.
(** weddingcake/nodeformat.go:267-277; every round removes a group, so [length gs] rounds suffice *)
Fixpoint reduce (c : config) (fuel : nat) (gs : list group) : option (list group) :=
  if (length gs <=? c_K c)%nat then Some gs
  else match fuel with
       | O => None
       | S f => r ← refine c gs; match r with None => None | Some gs' => reduce c f gs' end
       end.

(** weddingcake/nodeformat.go:289-300 *)
Definition is_tiny (g : group) : bool := bool_decide (s_fmt (g_spec g) = FTiny).
Definition group_less (a b : group) : bool :=
  if Bool.eqb (is_tiny a) (is_tiny b) then (g_count b <? g_count a)%nat else is_tiny b.
Fixpoint ins_group (x : group) (l : list group) : list group :=
  match l with
  | [] => [x]
  | y :: l' => if group_less y x then y :: ins_group x l' else x :: l
  end.
Definition sort_groups (l : list group) : list group := foldr ins_group [] l.

(** weddingcake/nodeformat.go:249-304, weddingcakeback/bakingdesigner.go:157-216, for one level *)
Definition design_level (c : config) (hist : nat -> nat) : option (list group) :=
  gs ← propose_groups c hist (seq 0 257);
  gs' ← reduce c (length gs) gs;
  Some (sort_groups gs').

(** weddingcake/nodeformat.go:216-220, weddingcakeback/bakingdesign.go:38-42: the last group whose range holds the
    slot count, else the array's initial 0 *)
Fixpoint slot_group_from (i : nat) (gs : list group) (k : nat) (acc : nat) : nat :=
  match gs with
  | [] => acc
  | g :: gs' => slot_group_from (S i) gs' k (if (g_start g <=? k)%nat && (k <? g_end g)%nat then i else acc)
  end.
Definition slot_group (gs : list group) (k : nat) : nat := slot_group_from 0 gs k 0.

(** weddingcake/nodeformat.go:197-228: first identifier and number of identifiers of each group *)
Fixpoint alloc_init (c : config) (next : Z) (gs : list group) : option (list (Z * Z)) :=
  match gs with
  | [] => Some []
  | g :: gs' =>
      let n := Z.of_nat (g_count g) in
      if c_max c <? next + n then None
      else r ← alloc_init c (next + n) gs'; Some ((next, n) :: r)
  end.

(** ** The nodes of a tree *)

Definition key := list Z.
Definition byte_vals : list Z := seqZ 0 256.

(** weddingcake/shallowtree.go:248-260 *)
Definition active (t : tree) : nat :=
  match t with Slots _ f => length (filter (fun v => is_node (f v) = true) byte_vals) | _ => 0%nat end.

(** weddingcake/shallowtree.go:201-238: the stack makes it a preorder, the last slot first *)
Fixpoint visit (k : key) (t : tree) : list (key * tree) :=
  match t with
  | Empty => []
  | Leaf _ _ _ => [(k, t)]
  | Slots _ f => (k, t) :: concat (map (fun v => visit (k ++ [v]) (f v)) (rev byte_vals))
  end.

(** Node.Level; a key holds the tree number as well *)
Definition level (c : config) (k : key) : nat := (c_pre c + (length k - 1))%nat.
Definition on_level (c : config) (l : nat) (ns : list (key * tree)) : list (key * tree) :=
  filter (fun n => level c (fst n) = l) ns.
(** weddingcake/treeshape.go:40-55, weddingcakeback/bakingdesigner.go:137-152 *)
Definition levels_count (c : config) (ns : list (key * tree)) : nat :=
  foldr (fun n m => Nat.max (S (level c (fst n))) m) 0%nat ns.
Definition histogram (ns : list (key * tree)) (k : nat) : nat := length (filter (fun n => active (snd n) = k) ns).

(** weddingcake/nodeformat.go:306-314, weddingcakeback/bakingdesigner.go:128-219 *)
Definition design (c : config) (ns : list (key * tree)) : option (list (list group)) :=
  if (c_K c <? 5)%nat then None
  else mapM (fun l => design_level c (histogram (on_level c l ns))) (seq 0 (levels_count c ns)).

(** weddingcake/nodeformat.go:230-247, called for the nodes of a level in turn (chunk.go:209-214) *)
Fixpoint alloc_nodes (gs : list group) (st : list (Z * Z)) (ns : list (key * tree)) : option (list (key * Z) * list (Z * Z)) :=
  match ns with
  | [] => Some ([], st)
  | n :: ns' =>
      let g := slot_group gs (active (snd n)) in
      match st !! g with
      | None => None
      | Some (nx, av) =>
          if av =? 0 then None
          else r ← alloc_nodes gs (<[g := (nx + 1, av - 1)]> st) ns';
               Some ((fst n, nx) :: fst r, snd r)
      end
  end.

(** the map from nodes to identifiers *)
Fixpoint id_of (m : list (key * Z)) (k : key) : option Z :=
  match m with
  | [] => None
  | (k', id) :: m' => if decide (k' = k) then Some id else id_of m' k
  end.

(** ** Encoding nodes.  [ch v] is the identifier of the child in slot [v], [None] for an empty slot. *)

Fixpoint bits_to_Z (l : list bool) : Z := match l with [] => 0 | b :: l' => Z.b2z b + 2 * bits_to_Z l' end.

(** weddingcake/chunk.go:284-315, weddingcakeback/donutforestwrite.go:490-526 *)
Definition encode_full (c : config) (bi : Z) (ch : Z -> option Z) : option (list Z) :=
  ids ← mapM (fun v => write_id (c_back c) (c_nid c) (default 0 (ch v))) byte_vals;
  Some ((if c_back c then 170 else 0) :: bi :: concat ids).

(** the 32 flag bytes (chunk.go:335-347); byte [b] is the or of its bits *)
Definition flag_byte (ch : Z -> option Z) (b : Z) : Z :=
  bits_to_Z (map (fun j => bool_decide (is_Some (ch (8 * b + j)))) (seqZ 0 8)).
Definition flag_bytes (ch : Z -> option Z) : list Z := map (flag_byte ch) (seqZ 0 32).
(** weddingcake/chunk.go:317-367, weddingcakeback/donutforestwrite.go:528-583 *)
Definition encode_medium (c : config) (cap : nat) (bi : Z) (ch : Z -> option Z) : option (list Z) :=
  ids ← mapM (write_id (c_back c) (c_nid c)) (omap ch byte_vals);
  if (cap <? length ids)%nat then None
  else Some ((if c_back c then 85 else 0) :: bi :: flag_bytes ch ++ concat ids ++ replicate ((cap - length ids) * c_nid c) 0).

(** weddingcake/chunk.go:369-403, weddingcakeback/donutforestwrite.go:585-627 *)
Definition tiny_entry (c : config) (ch : Z -> option Z) (v : Z) : option (list Z) :=
  match ch v with None => Some [] | Some id => b ← write_id (c_back c) (c_nid c) id; Some (v :: b) end.
Definition encode_tiny (c : config) (cap : nat) (bi : Z) (ch : Z -> option Z) : option (list Z) :=
  if (46 <? 1 + (1 + c_nid c) * cap)%nat then None
  else es ← mapM (tiny_entry c ch) byte_vals;
       if (46 <? 1 + length (concat es))%nat then None
       else Some (take (1 + (1 + c_nid c) * cap) (bi :: concat es ++ replicate 46 0)).

(** weddingcake/chunk.go:256-282, weddingcakeback/donutforestwrite.go:455-488; [lid]: the identifier stored for the
    presentation index of the leaf, [None] for a panic *)
Definition encode_leaf (c : config) (lid : Z -> option Z) (re : list Z) (pi : Z) : option (list Z) :=
  id ← lid pi;
  b ← write_id (c_back c) (c_hid c) id;
  Some (re ++ replicate (c_R c - length re) 0 ++ b).

(** The identifiers of the children; a child missing from the map, or mapped to 0, is a panic *)
Definition child_ids (m : list (key * Z)) (k : key) (f : Z -> tree) : option (Z -> option Z) :=
  if forallb (fun v => if is_node (f v) then match id_of m (k ++ [v]) with Some id => negb (id =? 0) | None => false end else true) byte_vals
  then Some (fun v => if is_node (f v) then id_of m (k ++ [v]) else None) else None.

(** weddingcake/chunk.go:229-242 *)
Definition encode_slots (c : config) (s : nspec) (bi : Z) (ch : Z -> option Z) : option (list Z) :=
  match s_fmt s with
  | FTiny => encode_tiny c (s_cap s) bi ch
  | FMedium => encode_medium c (s_cap s) bi ch
  | FFull => encode_full c bi ch
  | FLeaf => None
  end.
Definition encode_node (c : config) (lid : Z -> option Z) (m : list (key * Z)) (s : nspec) (n : key * tree) : option (list Z) :=
  match snd n with
  | Empty => None
  | Leaf re pi _ => if decide (s_fmt s = FLeaf) then encode_leaf c lid re pi else None
  | Slots bi f => ch ← child_ids m (fst n) f; encode_slots c s (Z.of_nat bi) ch
  end.

(** weddingcake/chunk.go:216-244: the nodes of one tree on one level, group by group *)
Fixpoint encode_groups (c : config) (lid : Z -> option Z) (m : list (key * Z)) (all : list group) (i : nat) (gs : list group)
    (ns : list (key * tree)) : option (list Z) :=
  match gs with
  | [] => Some []
  | g :: gs' =>
      b ← mapM (encode_node c lid m (g_spec g)) (filter (fun n => slot_group all (active (snd n)) = i) ns);
      r ← encode_groups c lid m all (S i) gs' ns;
      Some (concat b ++ r)
  end.

(** weddingcake/chunk.go:155-180: the four bytes describing a group *)
Definition spec_word (c : config) (s : nspec) : Z :=
  match s_fmt s with
  | FFull | FLeaf => Z.of_nat (byte_size c s)
  | FMedium => Z.lor (Z.of_nat (s_cap s) * 2^16) (Z.of_nat (byte_size c s))
  | FTiny => Z.lor (Z.of_nat (s_cap s) * 2^24) (Z.of_nat (byte_size c s))
  end.
(** weddingcake/chunk.go:129-187, weddingcakeback/donutforestwrite.go:267-341 *)
Definition index_entry (c : config) (g : group) : option (list Z) :=
  b ← write_id (c_back c) (c_nid c) (Z.of_nat (g_count g)); Some (b ++ le_enc 4 (spec_word c (g_spec g))).
Definition index_bytes (c : config) (gs : list group) : option (list Z) :=
  es ← mapM (index_entry c) gs; Some (le_enc 2 (Z.of_nat (length gs)) ++ concat es).

(** One tree: identifiers on every level, then the bytes of every level and the identifier of the root
    (weddingcake/chunk.go:189-247, weddingcakeback/donutforestwrite.go:345-428).  The code goes through the levels
    bottom-up; a level needs only its own allocations and the identifiers of the level below. *)
Definition tree_nodes (i : nat) (t : tree) : list (key * tree) := visit [Z.of_nat i] t.

Fixpoint alloc_levels (c : config) (l : nat) (ds : list (list group)) (sts : list (list (Z * Z))) (ns : list (key * tree)) :
    option (list (list (key * Z)) * list (list (Z * Z))) :=
  match ds, sts with
  | gs :: ds', st :: sts' =>
      r ← alloc_nodes gs st (on_level c l ns);
      rs ← alloc_levels c (S l) ds' sts' ns;
      Some (fst r :: fst rs, snd r :: snd rs)
  | _, _ => Some ([], [])
  end.
Fixpoint encode_levels (c : config) (lid : Z -> option Z) (l : nat) (ds : list (list group)) (ms : list (list (key * Z)))
    (ns : list (key * tree)) : option (list (list Z)) :=
  match ds with
  | [] => Some []
  | gs :: ds' =>
      b ← encode_groups c lid (default [] (ms !! S l)) gs 0 gs (on_level c l ns);
      r ← encode_levels c lid (S l) ds' ms ns;
      Some (b :: r)
  end.

Record forest_state := mk_fs { fs_alloc : list (list (Z * Z)); fs_bytes : list (list Z); fs_roots : list Z }.

Definition add_tree (c : config) (lid : Z -> option Z) (ds : list (list group)) (s : forest_state) (it : nat * tree) : option forest_state :=
  let ns := tree_nodes (fst it) (snd it) in
  a ← alloc_levels c 0 ds (fs_alloc s) ns;
  b ← encode_levels c lid 0 ds (fst a) ns;
  Some (mk_fs (snd a) (zip_with app (fs_bytes s) b)
              (fs_roots s ++ [default 0 (id_of (default [] (fst a !! c_pre c)) [Z.of_nat (fst it)])])).

Fixpoint add_trees (c : config) (lid : Z -> option Z) (ds : list (list group)) (s : forest_state) (ts : list (nat * tree)) : option forest_state :=
  match ts with
  | [] => Some s
  | it :: ts' => s' ← add_tree c lid ds s it; add_trees c lid ds s' ts'
  end.

Definition number {A} (l : list A) : list (nat * A) := imap (fun i x => (i, x)) l.
Definition forest_nodes (ts : list tree) : list (key * tree) := concat (map (fun it => tree_nodes (fst it) (snd it)) (number ts)).

(** A baked forest: per level its index bytes and its node bytes, and the jump table *)
Record forest := mk_forest { f_levels : list (list Z * list Z); f_jump : list Z }.

(** weddingcakeback/donutforestwrite.go:61-147 for given trees; weddingcake/chunk.go:77-89 *)
Definition bake (c : config) (lid : Z -> option Z) (ts : list tree) : option forest :=
  ds ← design c (forest_nodes ts);
  al ← mapM (alloc_init c 1) ds;
  ix ← mapM (index_bytes c) ds;
  s ← add_trees c lid ds (mk_fs al (map (fun _ => []) ds) []) (number ts);
  (* weddingcake/chunk.go:248-252: the bytes counted in advance (chunklevel.go:215-234) must have been filled *)
  if c_back c || bool_decide (map (fun b => Z.of_nat (length b)) (fs_bytes s) = map (fun gs => foldr Z.add 0 (map g_bytes gs)) ds)
  then Some (mk_forest (zip ix (fs_bytes s)) (fs_roots s)) else None.

(** ** Reading *)

(** weddingcake/chunklevel.go:41-78, weddingcakeback/donutforestread.go:38-75; outer [None]: slice out of range,
    [Some None]: not found *)
Fixpoint extract_from (c : config) (ix nb : list Z) (fuel : nat) (off : nat) (cur : Z) (pos : Z) (id : Z) : option (option (Z * list Z)) :=
  match fuel with
  | O => Some None
  | S f =>
      cnt ← read_id (c_nid c) ix off;
      sp ← read_id 4 ix (off + c_nid c);
      let size := Z.land sp 65535 in
      if id <? wrap c (cur + cnt) then
        let o := wrap c (pos + wrap c (wrap c (id - cur) * size)) in
        b ← file_read nb (Z.to_nat o) (Z.to_nat size);
        Some (Some (sp, b))
      else extract_from c ix nb f (off + c_nid c + 4) (wrap c (cur + cnt)) (wrap c (pos + wrap c (cnt * size))) id
  end.
Definition extract_node (c : config) (lv : list Z * list Z) (id : Z) : option (option (Z * list Z)) :=
  n ← read_id 2 (fst lv) 0;
  extract_from c (fst lv) (snd lv) (Z.to_nat n) 2 1 0 id.

Definition popcount (z : Z) : nat := length (filter (fun i => Z.testbit z i = true) (seqZ 0 64)).

(** weddingcake/chunklevel.go:104-129, weddingcakeback/donutforestread.go:101-126: byte index, medium slots, tiny slots *)
Definition full_word (c : config) : Z := Z.of_nat (1 + 1 + 256 * c_nid c).
Definition medium_slots (sp : Z) : Z := Z.shiftr (Z.land sp 16711680) 16.
Definition tiny_slots (sp : Z) : Z := Z.shiftr (Z.land sp 4278190080) 24.
Definition byte_index (c : config) (sp : Z) (b : list Z) : option Z :=
  if sp =? full_word c then
    p ← b !! 0%nat; if p =? (if c_back c then 170 else 0) then b !! 1%nat else None
  else if 0 <? medium_slots sp then
    p ← b !! 0%nat; if p =? (if c_back c then 85 else 0) then b !! 1%nat else None
  else if 0 <? tiny_slots sp then b !! 0%nat
  else None.

(** weddingcake/chunklevel.go:200-209 *)
Fixpoint tiny_scan (c : config) (b : list Z) (n : nat) (off : nat) (v : Z) : option Z :=
  match n with
  | O => Some 0
  | S n' =>
      x ← b !! off;
      if x =? v then read_id (c_nid c) b (S off) else tiny_scan c b n' (S off + c_nid c) v
  end.
(** weddingcake/chunklevel.go:134-212, weddingcakeback/donutforestread.go:131-209 *)
Definition next_id (c : config) (sp : Z) (b : list Z) (v : Z) : option Z :=
  if sp =? full_word c then read_id (c_nid c) b (2 + Z.to_nat v * c_nid c)
  else if 0 <? medium_slots sp then
    fb ← b !! (2 + Z.to_nat (v / 8))%nat;
    if negb (Z.testbit fb (v mod 8)) then Some 0
    else
      u0 ← read_id 8 b 2; u1 ← read_id 8 b 10; u2 ← read_id 8 b 18; u3 ← read_id 8 b 26;
      let mask := 2 ^ (v mod 64) - 1 in
      let ones := if v / 64 =? 0 then popcount (Z.land u0 mask)
                  else if v / 64 =? 1 then (popcount u0 + popcount (Z.land u1 mask))%nat
                  else if v / 64 =? 2 then (popcount u0 + popcount u1 + popcount (Z.land u2 mask))%nat
                  else (popcount u0 + popcount u1 + popcount u2 + popcount (Z.land u3 mask))%nat in
      read_id (c_nid c) b (34 + ones * c_nid c)
  else if 0 <? tiny_slots sp then tiny_scan c b (Z.to_nat (tiny_slots sp)) 1 v
  else None.

(** weddingcake/chunk.go:443-463, weddingcakeback/tierbelow.go:295-316: the reassurance bytes *)
Fixpoint reassured (fl : list bool) (h re : list Z) : bool :=
  match fl, h, re with
  | true :: fl', x :: h', r :: re' => if x =? r then reassured fl' h' re' else false
  | false :: fl', _ :: h', _ => reassured fl' h' re
  | _, _, _ => true
  end.

(** weddingcake/chunk.go:426-488, weddingcakeback/tierbelow.go:274-351; [Some 0] is "no match" *)
Fixpoint find_in (c : config) (lvs : list (list Z * list Z)) (id : Z) (fl : list bool) (q : list Z) : option Z :=
  match lvs with
  | [] => None
  | lv :: lvs' =>
      e ← extract_node c lv id;
      match e with
      | None => None
      | Some (sp, b) =>
          if sp =? Z.of_nat (c_R c + c_hid c) then
            re ← file_read b 0 (c_R c);
            h ← read_id (c_hid c) b (c_R c);
            Some (if reassured fl q re then h else 0)
          else
            bi ← byte_index c sp b;
            v ← q !! Z.to_nat bi;
            nx ← next_id c sp b v;
            match fl !! Z.to_nat bi with
            | Some true => if nx =? 0 then Some 0 else find_in c lvs' nx (flip (Z.to_nat bi) fl) q
            | _ => if c_back c then None else if nx =? 0 then Some 0 else None
            end
      end
  end.

(** weddingcakeback/donutforestread.go:213-291: all children of a node *)
Definition nonzero (l : list Z) : list Z := filter (fun x => x <> 0) l.
Definition all_ids (c : config) (sp : Z) (b : list Z) : option (list Z) :=
  if sp =? full_word c then nonzero <$> mapM (fun v => read_id (c_nid c) b (2 + Z.to_nat v * c_nid c)) byte_vals
  else if 0 <? medium_slots sp then
    u0 ← read_id 8 b 2; u1 ← read_id 8 b 10; u2 ← read_id 8 b 18; u3 ← read_id 8 b 26;
    nonzero <$> mapM (fun i => read_id (c_nid c) b (34 + i * c_nid c)) (seq 0 (popcount u0 + popcount u1 + popcount u2 + popcount u3))
  else if 0 <? tiny_slots sp then
    nonzero <$> mapM (fun i => read_id (c_nid c) b (2 + i * (1 + c_nid c))) (seq 0 (Z.to_nat (tiny_slots sp)))
  else None.

(** weddingcakeback/tierbelowsource.go:90-118: the hash identifiers at the leaves below a node; [lvs] are the levels from
    that of the node downwards *)
Fixpoint leaves_from (c : config) (lvs : list (list Z * list Z)) (id : Z) : option (list Z) :=
  match lvs with
  | [] => None
  | lv :: lvs' =>
      e ← extract_node c lv id;
      match e with
      | None => None (* an all-zero node: "Unrecognized format" *)
      | Some (sp, b) =>
          if sp =? Z.of_nat (c_R c + c_hid c) then
            h ← read_id (c_hid c) b (c_R c); Some [h]
          else
            bi ← byte_index c sp b;
            ids ← all_ids c sp b;
            ls ← mapM (leaves_from c lvs') ids;
            Some (concat ls)
      end
  end.

(** ** Chunks *)

(** weddingcake/chunk.go:26-49 *)
Definition hash_index_id (mx first g : Z) : option Z :=
  if g =? -1 then Some 0
  else let h := g - first + 1 in if h <? 1 then None else if mx <? h then None else Some h.
Definition global_index (first h : Z) : Z := if h =? 0 then -1 else h - 1 + first.

(** weddingcake/chunk.go:266-273 *)
Definition chunk_lid (c : config) (pi : Z) : option Z := if pi =? 0 then None else if c_max c <? pi then None else Some pi.

(** weddingcake/chunk.go:101-116 *)
Definition leaf_ok (c : config) (n : key * tree) : bool :=
  match snd n with
  | Leaf re pi _ => (length re <=? c_R c)%nat && negb (pi =? 0) && (pi <=? c_max c)
  | _ => true
  end.

Record chunk := mk_chunk { k_first : Z; k_forest : forest }.

(** weddingcake/chunk.go:77-99 *)
Definition local_hashes (c : config) (first : Z) (input : list thash) : option (list thash) :=
  mapM (fun x => h ← hash_index_id (c_max c) first (th_pi x); Some (mk_th (th_hash x) h)) input.
Definition prepare (ent : list thash -> nat -> Z) (srt : nat -> list thash -> list thash) (c : config) (input : list thash) : option chunk :=
  let first := match input with [] => 0 | x :: _ => th_pi x end in
  loc ← local_hashes c first input;
  t ← generate ent srt (c_R c) 0 (c_hl c) loc;
  if forallb (leaf_ok c) (tree_nodes 0 t) then
    f ← bake c (chunk_lid c) [t]; Some (mk_chunk first f)
  else None.

(** weddingcake/chunk.go:405-424: the root has identifier 1 on level 0 *)
Definition chunk_find (c : config) (f : forest) (q : list Z) : option Z :=
  match f_levels f with
  | [] => Some 0
  | lvs => find_in c lvs 1 (flags_init (c_hl c) 0) q
  end.
(** weddingcake/chunk.go:21-24; the outer [None] is a panic *)
Definition chunk_lookup (c : config) (k : chunk) (q : list Z) : option Z := global_index (k_first k) <$> chunk_find c (k_forest k) q.
(** weddingcakeback/tierbelow.go:192-247, for one forest, given the place in the jump table *)
Definition forest_find (c : config) (f : forest) (place : nat) (q : list Z) : option Z :=
  root ← f_jump f !! place;
  if root =? 0 then Some 0
  else find_in c (drop (c_pre c) (f_levels f)) root (flags_init (c_hl c) (c_pre c)) q.

(** ** Forests in a tier (weddingcakeback) *)

(** weddingcakeback/donutforestwrite.go:82, 117-133: root identifiers are appended while the trees of the source tier
    ([index], itself a jump table position) are split on the next byte [t]: the position is [256 * index + t] *)
Definition jump_written (pre : nat) (h : list Z) : Z := foldl (fun i t => i * 256 + t) 0 (take pre h).
(** weddingcakeback/tierbelow.go:201-212 *)
Fixpoint jump_read (pre : nat) (mult : Z) (h : list Z) : Z :=
  match pre, h with
  | S p, b :: h' => b * mult + jump_read p (mult * 256) h'
  | _, _ => 0
  end.

(** weddingcakeback/donutforestwrite.go:475-486, hashidconversions.go:11-13, 37-47 *)
Definition tier_lid (off : Z) (pi : Z) : option Z :=
  if pi =? 0 then None
  else let g := pi - 1 in
       if g =? -1 then Some 0 else if g <? off then None else Some (g - off + 1).
