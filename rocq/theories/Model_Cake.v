(** The cake: a top tier in memory above tiers of baked forests.
    weddingcakefront/cake.go, weddingcakeback/tiertop.go, tierbelow.go, tierbelowsource.go, donutforestwrite.go.

    The capacity of the top tier and the quotas of the tiers are parameters (65535; 5, 255, 255, 255 in the code).
    Baking one forest ([bakeF]: build the trees, serialise, write, read back; [None] is a panic) and looking a hash up
    in one forest ([findF]; [None] is a panic, 0 is "no match") are parameters here; Prop_Cake plugs in the model of
    Model_Chunk for the first tier.

    The caller's variables are a memory: the top tier keeps the slice it was handed, which shares the caller's array.

    Simplifications: int64 does not overflow (fewer than 2^63 hashes); files are what was written to them (C01, C02);
    a closed tier is one without its file. *)
From Verif Require Import Base.

Section Cake.
  Context {F : Type}.
  Context (cap : nat) (quota : list nat).
  (** destination tier, first index, forests and hashes of the source tier (no forests: the top tier) *)
  Context (bakeF : nat -> Z -> list (Z * F) -> list (list Z) -> option F).
  (** tier, forest, hash *)
  Context (findF : nat -> F -> list Z -> option Z).

  (** what [theSlice] holds: an array of its own, or one shared with a variable of the caller *)
  Inductive cell := Own (h : list Z) | Shared (v : nat).
  (** a TierBelow object; [o_file] is [None] after CloseThis (and for an empty tier) *)
  Record obj := mk_obj { o_tier : nat; o_forests : list (Z * F); o_file : option (list (list Z)) }.
  (** the folder of a tier: forests and hashes; nothing: no folder *)
  Notation folder := (list (Z * F) * list (list Z))%type.

  Record cake := mk_cake {
    k_slice : list cell;                (* TierTop.theSlice *)
    k_map : gmap (list Z) nat;          (* TierTop.theMap *)
    k_file : list (list Z);             (* TierTop/Hashes.hsh *)
    k_first : Z;                        (* firstGlobalPresentationIndex *)
    k_chain : list obj;                 (* nextTier, its nextTier, ... *)
    k_disk : list folder;               (* Tier0, Tier1, ... *)
    k_vars : gmap nat (list Z)          (* the caller's variables *)
  }.

  Inductive res (A : Type) := Ok (a : A) | Missing | Panic.
  Global Arguments Ok {A} a. Global Arguments Missing {A}. Global Arguments Panic {A}.

  Definition deref (vars : gmap nat (list Z)) (c : cell) : list Z :=
    match c with Own h => h | Shared v => default [] (vars !! v) end.

  (** tiertop.go:115-124: later occurrences replace earlier ones *)
  Definition map_of (hs : list (list Z)) : gmap (list Z) nat := foldl (fun m ih => <[snd ih := fst ih]> m) ∅ (imap pair hs).

  (** tiertop.go:38-70: every tier in turn, empty ones as well *)
  Definition open_tier (i : nat) (d : folder) : obj := mk_obj i (fst d) (if fst d then None else Some (snd d)).
  Definition reopen (k : cake) : cake :=
    mk_cake (Own <$> k_file k) (map_of (k_file k)) (k_file k) (k_first k) (imap open_tier (k_disk k)) (k_disk k) (k_vars k).

  (** tiertopcreator.go:32-58 and tiertop.go:38-70 *)
  Definition create : cake := reopen (mk_cake [] ∅ [] 0 [] (replicate (length quota) ([], [])) ∅).

  (** tierbelow.go:158-187 *)
  Definition close (o : obj) : obj := mk_obj (o_tier o) (o_forests o) None.
  Definition close_head (ch : list obj) : list obj := match ch with [] => [] | o :: ch' => close o :: ch' end.

  (** donutforestwrite.go:28-261: into tier [d] and, when that fills up, on into the next.  [sf], [sh]: forests and hashes of
      the source; [file]: its Hashes.hsh.  [rest]: the chain below the source.  Result: folders and the chain below the source. *)
  Fixpoint write (n : nat) (d : nat) (off : Z) (sf : list (Z * F)) (sh file : list (list Z)) (rest : list obj) (disk : list folder) :
      option (list folder * list obj) :=
    match n with
    | O => None (* tierbelowsource.go:15-17: there is no next tier *)
    | S n' =>
        match disk !! d, quota !! d, bakeF d off sf sh with
        | Some (fs, hs), Some q, Some f =>
            let fs' := fs ++ [(off, f)] in let hs' := hs ++ file in
            let disk' := <[d := (fs', hs')]> disk in
            let rest' := close_head rest in
            if Nat.eqb (length fs') q then
              (* the new tier is baked in turn, its folder removed, and it becomes an empty one *)
              match write n' (S d) (fst (hd (off, f) fs')) fs' hs' hs' rest' disk' with
              | Some (disk'', ch) => Some (<[d := ([], [])]> disk'', mk_obj d [] None :: ch)
              | None => None
              end
            else Some (disk', mk_obj d fs' (Some hs') :: rest')
        | _, _, _ => None
        end
    end.

  (** tiertop.go:180-216; [c] is what the slice handed in is, [h] what it holds *)
  Definition append (k : cake) (c : cell) (h : list Z) : res (cake * Z) :=
    let index := length (k_slice k) in
    if (cap <=? index)%nat then Panic
    else
      let slice := k_slice k ++ [c] in
      let m := <[h := index]> (k_map k) in
      let file := k_file k ++ [h] in
      let r := k_first k + Z.of_nat index in
      if Nat.eqb (S index) cap then
        match write (length quota) 0 (k_first k) [] (deref (k_vars k) <$> slice) file (k_chain k) (k_disk k) with
        | Some (disk, ch) => Ok (mk_cake [] ∅ [] (k_first k + Z.of_nat (length file)) ch disk (k_vars k), r)
        | None => Panic
        end
      else Ok (mk_cake slice m file (k_first k) (k_chain k) (k_disk k) (k_vars k), r).

  (** ** Reading *)

  (** tierbelow.go:224-245 *)
  Fixpoint find_forests (t : nat) (fs : list (Z * F)) (q : list Z) : res Z :=
    match fs with
    | [] => Missing
    | (f0, f) :: fs' =>
        match findF t f q with
        | None => Panic
        | Some h => if h =? 0 then find_forests t fs' q else Ok (h - 1 + f0)
        end
    end.
  (** tierbelow.go:192-247: without its jump table every forest panics *)
  Definition find_obj (o : obj) (q : list Z) : res Z :=
    match o_forests o, o_file o with
    | [], _ => Missing
    | _, None => Panic
    | fs, Some _ => find_forests (o_tier o) fs q
    end.
  Fixpoint find_chain (ch : list obj) (q : list Z) : res Z :=
    match ch with
    | [] => Missing
    | o :: ch' => match find_obj o q with Missing => find_chain ch' q | r => r end
    end.
  (** cake.go:27-51, tiertop.go:130-142; [Missing] is answered as -1 *)
  Definition index_of (k : cake) (q : list Z) : res Z :=
    match k_map k !! q with
    | Some i => Ok (k_first k + Z.of_nat i)
    | None => match find_chain (k_chain k) q with Missing => Ok (-1) | r => r end
    end.

  (** tierbelow.go:250-268: without its file the count panics *)
  Definition get_obj (o : obj) (i : Z) : res (list Z) :=
    match o_forests o, o_file o with
    | [], _ => Missing
    | _, None => Panic
    | (f0, _) :: _, Some hs =>
        if (f0 <=? i) && (i <? f0 + Z.of_nat (length hs)) then
          match hs !! Z.to_nat (i - f0) with Some h => Ok h | None => Missing end
        else Missing
    end.
  Fixpoint get_chain (ch : list obj) (i : Z) : res (list Z) :=
    match ch with
    | [] => Missing
    | o :: ch' => match get_obj o i with Missing => get_chain ch' i | r => r end
    end.
  (** tiertop.go:145-152: the offset is passed negated *)
  Definition get_top (k : cake) (i : Z) : res (list Z) :=
    if (k_first k <=? i) && (i <? k_first k + Z.of_nat (length (k_slice k))) then
      let j := i - - k_first k in
      match (if j <? 0 then None else k_slice k !! Z.to_nat j) with
      | Some c => Ok (deref (k_vars k) c)
      | None => Panic
      end
    else Missing.
  (** cake.go:53-70; [Missing] is the error "Hash not found for index" *)
  Definition get_at (k : cake) (i : Z) : res (list Z) :=
    match get_top k i with Missing => get_chain (k_chain k) i | r => r end.

  (** ** Histories *)

  Inductive op :=
  | Append (h : list Z)      (* a variable the caller never touches again *)
  | AppendVar (v : nat)      (* a variable the caller keeps *)
  | SetVar (v : nat) (h : list Z)
  | Reopen.

  Definition step (k : cake) (o : op) : res cake :=
    match o with
    | Append h => match append k (Own h) h with Ok (k', _) => Ok k' | Missing => Missing | Panic => Panic end
    | AppendVar v => let h := default [] (k_vars k !! v) in
                     match append k (Shared v) h with Ok (k', _) => Ok k' | Missing => Missing | Panic => Panic end
    | SetVar v h => Ok (mk_cake (k_slice k) (k_map k) (k_file k) (k_first k) (k_chain k) (k_disk k) (<[v := h]> (k_vars k)))
    | Reopen => Ok (reopen k)
    end.
  Fixpoint run (k : cake) (ops : list op) : res cake :=
    match ops with
    | [] => Ok k
    | o :: ops' => match step k o with Ok k' => run k' ops' | Missing => Missing | Panic => Panic end
    end.
End Cake.
