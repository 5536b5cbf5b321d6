(** The fixed-size nodes of indexedhashestree/multiplefixednodesize.go: a 16-bit tree written as bytes, and read back.

    Simplifications: byte offsets and node numbers are unbounded (the tree has at most 65535 nodes of at most 513 bytes,
    so neither the uint16 nor the int32 counters wrap; [generated] in Proof_Pool bounds the nodes); a byte offset
    of -1 is [None]; panics (unsuitable node, index out of range) are [None]; the bit flags of a medium node are read
    in one pass over the 256 byte values (the code skips a flag byte that is zero, reading nothing, as here).
    [nodeLevelBytes] only re-slices the bytes by level; the offsets at which the levels start are modelled. *)
From Verif Require Import Base Model_Tree Model_Pool.

(** indexedhashestree/multiplefixednodesize.go:100-103 *)
Inductive fmt := Tiny | Medium | Full | Duplicate.
Global Instance fmt_eq_dec : EqDecision fmt.
Proof. solve_decision. Defined.
Definition fmt_code (f : fmt) : nat := match f with Tiny => 1 | Medium => 2 | Full => 3 | Duplicate => 4 end.

(** indexedhashestree/multiplefixednodesize.go:41-78 *)
Record spec := mk_spec { s_level : nat; s_fmt : fmt; s_size : nat }.
Global Instance spec_eq_dec : EqDecision spec.
Proof. solve_decision. Defined.
Definition byte_size (s : spec) : nat :=
  match s_fmt s with
  | Tiny => 1 + s_size s * 3
  | Medium => 1 + 32 + s_size s * 2
  | Full => 1 + 256 * 2
  | Duplicate => 2
  end.

(** indexedhashestree/multiplefixednodesize.go:87-98 *)
Definition less (a b : spec) : bool :=
  if negb (Nat.eqb (s_level a) (s_level b)) then (s_level a <? s_level b)%nat
  else if negb (Nat.eqb (byte_size a) (byte_size b)) then (byte_size a <? byte_size b)%nat
  else if negb (Nat.eqb (fmt_code (s_fmt a)) (fmt_code (s_fmt b))) then (fmt_code (s_fmt a) <? fmt_code (s_fmt b))%nat
  else (s_size a <? s_size b)%nat.

(** indexedhashestree/multiplefixednodesize.go:107-137, in the order left by the sort *)
Definition level_specs (lv : nat) : list spec :=
  mk_spec lv Duplicate 1 :: ((mk_spec lv Tiny) <$> [2; 3; 4; 5]%nat) ++ ((mk_spec lv Medium) <$> [90; 100; 105; 108; 112; 118; 126; 130]%nat) ++ [mk_spec lv Full 256].
Definition config_a : list spec := concat (level_specs <$> seq 0 32).
(** the same lines, in the order they are appended *)
Definition code_specs (lv : nat) : list spec :=
  ((mk_spec lv Tiny) <$> [2; 3; 4; 5]%nat) ++ ((mk_spec lv Medium) <$> [90; 100; 105; 108; 112; 118; 126; 130]%nat) ++ [mk_spec lv Full 256] ++ [mk_spec lv Duplicate 1].
Definition config_code : list spec := concat (code_specs <$> seq 0 32).

(** indexedhashestree/multiplefixednodesize.go:141-157; [None] is the panic *)
Definition suitable (cp : list spec) (lv slots : nat) : option spec :=
  foldl (fun best s =>
    if (slots <=? s_size s)%nat && negb (bool_decide (s_fmt s = Duplicate)) && Nat.eqb (s_level s) lv then
      match best with
      | None => Some s
      | Some b => if (byte_size s <? byte_size b)%nat then Some s else best
      end
    else best) None cp.
(** indexedhashestree/multiplefixednodesize.go:158-169 *)
Definition suitable_duplicate (cp : list spec) (lv : nat) : option spec :=
  foldl (fun best s => if bool_decide (s_fmt s = Duplicate) && Nat.eqb (s_level s) lv then Some s else best) None cp.

(** the byte values with a lookup (indexedhashestree/multiplefixednodesize.go:191-195, 284-302) *)
Definition used (look : Z -> Z) : list nat := filter (fun v : nat => look (Z.of_nat v) <> 0) (seq 0 256).

(** indexedhashestree/multiplefixednodesize.go:173-200 *)
Record reconf := mk_reconf { r_old : nat; r_node : pnode; r_spec : spec }.
Definition reconf_of (cp : list spec) (i : nat) (nd : pnode) : option reconf :=
  s ← if Nat.eqb (n_byte nd) 32 then suitable_duplicate cp (n_level nd) else suitable cp (n_level nd) (length (used (n_look nd)));
  Some (mk_reconf i nd s).
Definition reconfs (cp : list spec) (t : pool) : option (list reconf) := mapM (fun p => reconf_of cp p.1 p.2) (imap pair (t_nodes t)).

(** *** Writing *)
(** how many at the front have this spec *)
Fixpoint front (s : spec) (rs : list reconf) : nat :=
  match rs with
  | [] => 0
  | r :: rs' => if bool_decide (r_spec r = s) then S (front s rs') else 0
  end.
(** indexedhashestree/multiplefixednodesize.go:213-234: the first node id and the byte offset of every spec *)
Fixpoint layout (cp : list spec) (rs : list reconf) (next off : nat) : list (nat * nat) :=
  match cp with
  | [] => []
  | s :: cp' => let k := front s rs in ((next + 1)%nat, off) :: layout cp' (drop k rs) (next + k) (off + k * byte_size s)
  end.

(** indexedhashestree/multiplefixednodesize.go:213-239: the byte offsets at which the levels [cur + 1] to 32 start *)
Fixpoint level_offs (cp : list spec) (rs : list reconf) (off cur : nat) : list nat :=
  match cp with
  | [] => replicate (32 - cur) off
  | s :: cp' =>
      let k := front s rs in
      let nl := match rs with r :: _ => s_level (r_spec r) | [] => cur end in
      replicate (nl - cur) off ++ level_offs cp' (drop k rs) (off + k * byte_size s) (Nat.max cur nl)
  end.

(** indexedhashestree/multiplefixednodesize.go:251-256: numbered from one *)
Definition new_id (rs : list reconf) (old : nat) : nat :=
  match list_find (fun r => r_old r = old) rs with Some (i, _) => S i | None => 0 end.
(** indexedhashestree/multiplefixednodesize.go:284-302 *)
Definition relink (count : Z) (rs : list reconf) (e : Z) : Z :=
  if e =? 0 then 0 else if e <=? count then e else u16 (65536 - Z.of_nat (new_id rs (Z.to_nat (65536 - e)))).

(** two bytes, low byte first (indexedhashestree/multiplefixednodesize.go:315-316 and the like) *)
Definition le2 (z : Z) : list Z := [z mod 256; (z / 256) mod 256].

(** indexedhashestree/multiplefixednodesize.go:328-334 *)
Definition flag_bytes (vs : list nat) : list Z :=
  foldl (fun bb v => <[(v / 8)%nat := Z.lor (bb !!! (v / 8)%nat) (Z.shiftl 1 (Z.of_nat (v mod 8)))]> bb) (replicate 32 0) vs.

(** indexedhashestree/multiplefixednodesize.go:305-372 *)
Definition node_bytes (count : Z) (rs : list reconf) (r : reconf) : list Z :=
  let look := fun v => relink count rs (n_look (r_node r) v) in
  let vs := used (n_look (r_node r)) in
  let b := Z.of_nat (n_byte (r_node r)) in
  match s_fmt (r_spec r) with
  | Tiny => b :: concat ((fun i => match vs !! i with Some v => Z.of_nat v :: le2 (look (Z.of_nat v)) | None => [0; 0; 0] end) <$> seq 0 (s_size (r_spec r)))
  | Medium => b :: flag_bytes vs ++ concat ((fun i => match vs !! i with Some v => le2 (look (Z.of_nat v)) | None => [0; 0] end) <$> seq 0 (s_size (r_spec r)))
  | Full => b :: concat ((fun v => le2 (look (Z.of_nat v))) <$> seq 0 256)
  | Duplicate => le2 (look 0)
  end.

(** indexedhashestree/multiplefixednodesize.go:261-376, with the checks at lines 265 and 268 *)
Fixpoint emit (count : Z) (all : list reconf) (cp : list spec) (lay : list (nat * nat)) (rs : list reconf) (bs : list Z) (next : nat) : option (list Z) :=
  match cp, lay with
  | s :: cp', (fid, off) :: lay' =>
      if Nat.eqb (length bs) off && Nat.eqb (next + 1) fid then
        let k := front s rs in emit count all cp' lay' (drop k rs) (bs ++ concat (node_bytes count all <$> take k rs)) (next + k)
      else None
  | _, _ => Some bs
  end.

(** indexedhashestree/multiplefixednodesize.go:31-39 *)
Record container := mk_container { c_first : Z; c_count : Z; c_root : nat; c_layout : list (nat * nat); c_bytes : list Z }.

(** indexedhashestree/multiplefixednodesize.go:203-378; [rs] already sorted; without nodes there is no root to number *)
Definition serialize (cp : list spec) (rs : list reconf) (t : pool) : option container :=
  match rs with
  | [] => None
  | _ =>
      let lay := layout cp rs 0 0 in
      bs ← emit (t_count t) rs cp lay rs [] 0;
      Some (mk_container (t_first t) (t_count t) (new_id rs 0) lay bs)
  end.

(** The bytes of the first levels (indexedhashestree/multiplefixednodesize.go:241-244: [nodeLevelBytes] are consecutive
    slices of the bytes, cut at these offsets), as loaded into a container with fewer levels. *)
Definition level_offset (cp : list spec) (rs : list reconf) (L : nat) : nat := match L with O => 0 | S L' => level_offs cp rs 0 0 !!! L' end.
Definition first_levels (cp : list spec) (rs : list reconf) (L : nat) (c : container) : container :=
  mk_container (c_first c) (c_count c) (c_root c) (c_layout c) (take (level_offset cp rs L) (c_bytes c)).

(** *** Reading *)
(** indexedhashestree/multiplefixednodesize.go:381-410: the spec, and the byte offset if it is loaded *)
Fixpoint locate_from (s : spec) (fid off : nat) (rest : list (spec * (nat * nat))) (id : nat) : spec * nat :=
  match rest with
  | [] => (s, (off + (id - fid) * byte_size s)%nat)
  | (s', (fid', off')) :: rest' => if (id <? fid')%nat then (s, (off + (id - fid) * byte_size s)%nat) else locate_from s' fid' off' rest' id
  end.
Definition locate (cp : list spec) (c : container) (id : nat) : option (spec * option nat) :=
  match zip cp (c_layout c) with
  | [] => None
  | (s, (fid, off)) :: rest =>
      let '(s', o) := locate_from s fid off rest id in
      Some (s', if (length (c_bytes c) <=? o)%nat then None else Some o)
  end.

Definition read2 (bs : list Z) (o : nat) : option Z := a ← bs !! o; b ← bs !! S o; Some (a + b * 256).

(** indexedhashestree/multiplefixednodesize.go:437-446 *)
Fixpoint read_tiny (bs : list Z) (o n : nat) (look : Z -> Z) : option (Z -> Z) :=
  match n with
  | O => Some look
  | S n' => v ← bs !! o; e ← read2 bs (S o); read_tiny bs (o + 3) n' (put look v e)
  end.
(** indexedhashestree/multiplefixednodesize.go:447-468 *)
Fixpoint read_medium (bs : list Z) (flags o : nat) (vs : list nat) (look : Z -> Z) : option (Z -> Z) :=
  match vs with
  | [] => Some look
  | v :: vs' =>
      f ← bs !! (flags + v / 8)%nat;
      if Z.testbit f (Z.of_nat (v mod 8)) then e ← read2 bs o; read_medium bs flags (o + 2) vs' (put look (Z.of_nat v) e)
      else read_medium bs flags o vs' look
  end.
(** indexedhashestree/multiplefixednodesize.go:469-476 *)
Fixpoint read_full (bs : list Z) (o : nat) (vs : list nat) (look : Z -> Z) : option (Z -> Z) :=
  match vs with
  | [] => Some look
  | v :: vs' => e ← read2 bs o; read_full bs (o + 2) vs' (put look (Z.of_nat v) e)
  end.
Definition read_node (bs : list Z) (s : spec) (o : nat) : option (Z -> Z) :=
  match s_fmt s with
  | Tiny => read_tiny bs (S o) (s_size s) blank
  | Medium => read_medium bs (S o) (o + 33) (seq 0 256) blank
  | Full => read_full bs (S o) (seq 0 256) blank
  | Duplicate => None
  end.

(** indexedhashestree/multiplefixednodesize.go:423-506: index, duplicate mark, bytes examined *)
Fixpoint descend (cp : list spec) (c : container) (fuel : nat) (id : nat) (bits : Z) (q : list Z) : option (Z * bool * Z) :=
  match fuel with
  | O => None
  | S fuel' =>
      '(s, oo) ← locate cp c id;
      match oo with
      | None => Some (-2, false, bits)
      | Some o =>
          if bool_decide (s_fmt s = Duplicate) then
            e ← read2 (c_bytes c) o; Some (c_first c + u16 (e - 1), true, bits)
          else
            b ← c_bytes c !! o;
            look ← read_node (c_bytes c) s o;
            h ← q !! Z.to_nat b;
            let bits' := Z.lor bits (Z.shiftl 1 b) in
            let e := look h in
            if e =? 0 then Some (-1, false, bits')
            else if e <=? c_count c then Some (c_first c + (e - 1), false, bits')
            else if bits' =? 4294967295 then Some (-1, true, bits')
            else descend cp c fuel' (Z.to_nat (u16 (65536 - e))) bits' q
      end
  end.
(** indexedhashestree/multiplefixednodesize.go:416-421 *)
Definition container_lookup (cp : list spec) (c : container) (q : list Z) : option (Z * bool * Z) :=
  if c_count c =? 0 then Some (-1, false, 0) else descend cp c 33 (c_root c) 0 q.
