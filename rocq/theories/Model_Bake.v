(** Baking a tier below the top into the next one: weddingcakeback/tierbelowsource.go, bakingdesigner.go:32-125,
    donutforestwrite.go:28-228, with the parameters of cakeconfig.go:28-53.  With this the parameters [deep] and
    [deepf] of Model_Top are what the code does.

    Simplifications: as in Model_Cake and Model_Chunk; the jump table is a list of numbers. *)
From Verif Require Import Base Model_Tree Model_Chunk Model_Top.

(** cakeconfig.go:37-53 *)
Definition tier_cfg (R d : nat) : config :=
  match d with
  | O => tier0 R
  | S O => mk_config true R 10 3 3 32 1
  | S (S O) => mk_config true R 10 4 4 32 2
  | _ => mk_config true R 10 5 5 32 3
  end.

Section Bake.
  Context (ent : list thash -> nat -> Z) (srt : nat -> list thash -> list thash) (R : nat).

  (** tierbelowsource.go:62-85: the hash of a leaf, read from the hashes file of the tier, and its index.
      hashidconversions.go:30-32, 49-56.  [base]: first index of the tier; [first]: of the forest *)
  Definition leaf_pair (base first : Z) (hashes : list (list Z)) (id : Z) : option thash :=
    let g := if id =? 0 then -1 else id - 1 + first in
    let i := g - base in
    if i <? 0 then None else h ← hashes !! Z.to_nat i; Some (mk_th h (g + 1)).

  (** tierbelowsource.go:53-87 *)
  Definition gather_forest (c : config) (base : Z) (hashes : list (list Z)) (place : nat) (ff : Z * forest) : option (list thash) :=
    root ← f_jump (snd ff) !! place;
    if root =? 0 then Some []
    else ids ← leaves_from c (drop (c_pre c) (f_levels (snd ff))) root; mapM (leaf_pair base (fst ff) hashes) ids.
  (** tierbelowsource.go:25-87, 138-143 *)
  Definition gather (c : config) (fs : list (Z * forest)) (hashes : list (list Z)) (place : nat) : option (list thash) :=
    match fs with
    | [] => None
    | ff :: _ => ls ← mapM (gather_forest c (fst ff) hashes place) fs; Some (concat ls)
    end.

  (** donutforestwrite.go:76-100, bakingdesigner.go:44-70: one bucket for every value of the last prefix byte *)
  Definition bucket (i : nat) (l : list thash) (v : Z) : list thash := filter (fun x => th_hash x !!! i = v) l.
  Definition buckets (i : nat) (ls : list (list thash)) : list (list thash) := concat (map (fun l => map (bucket i l) byte_vals) ls).

  (** bakingdesigner.go:81-125 (only for the second tier), donutforestwrite.go:61-147; more than ten levels: C67 *)
  Definition bake_tier (d : nat) (off : Z) (sf : list (Z * forest)) (sh : list (list Z)) : option forest :=
    let c := tier_cfg R d in
    let src := tier_cfg R (d - 1) in
    ls ← mapM (gather src sf sh) (seq 0 (Z.to_nat (pow256 (c_pre src))));
    let bs := buckets (c_pre c - 1) ls in
    if Nat.eqb d 1 && negb (forallb (fun b => bool_decide (NoDup (th_hash <$> b))) bs) then None
    else
      ts ← mapM (generate ent srt R (c_pre c) 32) bs;
      f ← bake c (tier_lid off) ts;
      if (10 <? length (f_levels f))%nat then None else Some f.

  (** tierbelow.go:192-247 for one forest *)
  Definition tier_find (d : nat) (f : forest) (q : list Z) : option Z :=
    forest_find (tier_cfg R d) f (Z.to_nat (jump_read (c_pre (tier_cfg R d)) 1 q)) q.
End Bake.
