(** The 16-bit tree of indexedhashestree/shallowtree.go: nodes in a pool, named by their place in it.

    Bytes, entropies and sorting are as in Model_Tree (the entropy and the sort are the same functions there:
    indexedhashestree/shallowtree.go:148-150, 255-272).

    Simplifications: the lookups of a node are a function of the byte value; they are put into the pool when the node
    is complete (nothing reads them earlier); an overflow is [None]. *)
From Verif Require Import Base Model_Tree.

Definition u16 (z : Z) : Z := z mod 65536.

(** indexedhashestree/shallowtree.go:26-36 *)
Record pnode := mk_pnode { n_level : nat; n_byte : nat; n_look : Z -> Z }.
Record pool := mk_pool { t_first : Z; t_count : Z; t_nodes : list pnode }.

Definition put (f : Z -> Z) (v x : Z) : Z -> Z := fun w => if w =? v then x else f w.
Definition blank : Z -> Z := fun _ => 0.

Section Build.
  Context (ent : list thash -> nat -> Z) (srt : nat -> list thash -> list thash) (first count : Z).

  (** indexedhashestree/shallowtree.go:128-134 *)
  Definition lowest (l : list thash) : Z :=
    match l with [] => 0 | x :: l' => foldl (fun m y => if th_pi y <? m then th_pi y else m) (th_pi x) l' end.

  (** indexedhashestree/shallowtree.go:111-139: a lone hash, or hashes that cannot be told apart *)
  Definition dead_end (l : list thash) (level : nat) : pnode :=
    match l, level with
    | [x], O => mk_pnode 0 0 (put blank (th_hash x !!! 0%nat) (u16 (th_pi x - first + 1)))
    | _, _ => mk_pnode level 32 (put blank 0 (u16 (lowest l - first + 1)))
    end.

  (** indexedhashestree/shallowtree.go:152-193 *)
  Fixpoint fill (child : list thash -> list pnode -> option (list pnode)) (bi : nat) (s : list thash) (vs : list nat) (look : Z -> Z) (ns : list pnode) :
      option ((Z -> Z) * list pnode) :=
    match vs with
    | [] => Some (look, ns)
    | v :: vs' =>
        match run bi (Z.of_nat v) s with
        | [] => fill child bi s vs' (put look (Z.of_nat v) 0) ns
        | [x] => fill child bi s vs' (put look (Z.of_nat v) (u16 (th_pi x - first + 1))) ns
        | l' =>
            match child l' ns with
            | None => None
            | Some ns' =>
                let e := u16 (65536 - Z.of_nat (length ns)) in
                if e <=? count then None else fill child bi s vs' (put look (Z.of_nat v) e) ns'
            end
        end
    end.

  (** indexedhashestree/shallowtree.go:87-195; the new node is the one after [ns] *)
  Fixpoint grow (fuel : nat) (l : list thash) (fl : list bool) (level : nat) (ns : list pnode) : option (list pnode) :=
    match fuel with
    | O => None
    | S fuel' =>
        match choose ent l fl with
        | None => Some (ns ++ [dead_end l level])
        | Some bi =>
            match fill (fun l' ns' => grow fuel' l' (flip bi fl) (S level) ns') bi (srt bi l) (seq 0 256) blank (ns ++ [mk_pnode level bi blank]) with
            | None => None
            | Some (look, ns') => Some (<[length ns := mk_pnode level bi look]> ns')
            end
        end
    end.
End Build.

(** indexedhashestree/shallowtree.go:57-84; 33 levels at most *)
Definition pool_generate (ent : list thash -> nat -> Z) (srt : nat -> list thash -> list thash) (input : list thash) : option pool :=
  match input with
  | [] => Some (mk_pool 0 0 [])
  | x :: _ =>
      let count := Z.of_nat (length input) in
      if 65536 <=? count then None
      else ns ← grow ent srt (th_pi x) count 33 input (flags_init 32 0) 0 [];
           Some (mk_pool (th_pi x) count ns)
  end.

(** indexedhashestree/shallowtree.go:212-251: [n] bytes left; the answer, and whether the hash is a repeated one;
    [None] is a panic *)
Fixpoint walk (t : pool) (n : nat) (idx : nat) (q : list Z) : option (Z * bool) :=
  match n with
  | O => Some (-1, true) (* "a link too far" *)
  | S n' =>
      nd ← t_nodes t !! idx;
      if Nat.eqb (n_byte nd) 32 then
        let e := n_look nd 0 in
        if e =? 0 then None else if e <=? t_count t then Some (t_first t + (e - 1), true) else None
      else
        let e := n_look nd (q !!! n_byte nd) in
        if e =? 0 then Some (-1, false)
        else if e <=? t_count t then Some (t_first t + (e - 1), false)
        else walk t n' (Z.to_nat (u16 (65536 - e))) q
  end.
Definition pool_lookup (t : pool) (q : list Z) : option (Z * bool) :=
  if t_count t =? 0 then Some (-1, false) else walk t 32 0 q.
