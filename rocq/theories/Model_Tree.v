(** The trees of weddingcake/shallowtree.go and weddingcakeback/singletree.go.

    The two files hold one algorithm: SingleTree adds a prefix of [pre] bytes that is never branched on and keeps
    the whole hash in its leaves; ShallowTree is [pre = 0] and does not read the stored hash.  One model serves
    both.

    Simplifications: nodes are values instead of pointers; the 64 "unused byte" flag bits are a list of as many
    booleans as the hash has bytes; Node.Level is the length of the path from the root (plus [pre]). *)
From Verif Require Import Base.

(** weddingcake/shallowtree.go:59-62, weddingcakeback/singletree.go:76-80 *)
Record thash := mk_th { th_hash : list Z; th_pi : Z }.

(** weddingcake/shallowtree.go:30-51: a slot is empty or points to a leaf node or to a slots node *)
Inductive tree :=
| Empty
| Leaf (re : list Z) (pi : Z) (h : list Z)
| Slots (bi : nat) (slot : Z -> tree).

Definition is_node (t : tree) : bool := match t with Empty => false | _ => true end.

(** flipping bit [i] of the flags (weddingcake/shallowtree.go:181, 302) *)
Definition flip (i : nat) (fl : list bool) : list bool :=
  match fl !! i with Some b => <[i := negb b]> fl | None => fl end.

(** weddingcake/shallowtree.go:108-114; weddingcakeback/singletree.go:134-141 *)
Definition flags_init (hl pre : nat) : list bool := replicate pre false ++ replicate (hl - pre) true.

(** weddingcake/shallowtree.go:157-175 (and 329-350 when building): the first unexamined bytes, at most [n] *)
Fixpoint reassure (n : nat) (fl : list bool) (h : list Z) : list Z :=
  match fl, h with
  | true :: fl', x :: h' => match n with O => [] | S n' => x :: reassure n' fl' h' end
  | false :: fl', _ :: h' => reassure n fl' h'
  | _, _ => []
  end.

Section Build.
  (** [ent l i]: the entropy of partitioning [l] by byte [i], as the bit pattern of the non-negative float64 (their
      order is the order of the patterns); [srt i l]: the result of the stable sort by byte [i] *)
  Context (ent : list thash -> nat -> Z) (srt : nat -> list thash -> list thash) (R : nat).

  (** weddingcake/shallowtree.go:277-291 *)
  Fixpoint pick_from (l : list thash) (i : nat) (fl : list bool) (best : option nat * Z) : option nat * Z :=
    match fl with
    | [] => best
    | b :: fl' =>
        let best' := if b then (let e := ent l i in if snd best <? e then (Some i, e) else best) else best in
        pick_from l (S i) fl' best'
    end.

  (** weddingcake/shallowtree.go:293-298: [None] is the panic about duplicate hashes *)
  Definition choose (l : list thash) (fl : list bool) : option nat :=
    let r := pick_from l 0 fl (None, 0) in
    if snd r =? 0 then None else fst r.

  Fixpoint skip_while (bi : nat) (v : Z) (l : list thash) : list thash :=
    match l with
    | [] => []
    | x :: l' => if th_hash x !!! bi =? v then skip_while bi v l' else l
    end.
  Fixpoint take_while (bi : nat) (v : Z) (l : list thash) : list thash :=
    match l with
    | [] => []
    | x :: l' => if th_hash x !!! bi =? v then x :: take_while bi v l' else []
    end.

  (** weddingcake/shallowtree.go:313-320: where the scan of the sorted hashes stands when byte value [v] is reached *)
  Fixpoint advance (bi : nat) (v : nat) (l : list thash) : list thash :=
    match v with
    | O => l
    | S v' => skip_while bi (Z.of_nat v') (advance bi v' l)
    end.
  (** ... and the run of hashes with that value *)
  Definition run (bi : nat) (v : Z) (l : list thash) : list thash := take_while bi v (advance bi (Z.to_nat v) l).

  (** weddingcake/shallowtree.go:265-366, weddingcakeback/singletree.go:321-432 *)
  Fixpoint gen (fuel : nat) (l : list thash) (fl : list bool) : tree :=
    match fuel with
    | O => Empty
    | S fuel' =>
        match choose l fl with
        | None => Empty
        | Some bi =>
            let fl' := flip bi fl in
            let s := srt bi l in
            Slots bi (fun v =>
              if (0 <=? v) && (v <? 256) then
                match run bi v s with
                | [] => Empty
                | [x] => Leaf (reassure R fl' (th_hash x)) (th_pi x) (th_hash x)
                | l' => gen fuel' l' fl'
                end
              else Empty)
        end
    end.

  (** whether the construction ends without a panic *)
  Fixpoint gen_ok (fuel : nat) (l : list thash) (fl : list bool) : bool :=
    match fuel with
    | O => false
    | S fuel' =>
        match choose l fl with
        | None => false
        | Some bi =>
            let fl' := flip bi fl in
            let s := srt bi l in
            forallb (fun v => match run bi (Z.of_nat v) s with (_ :: _ :: _) as l' => gen_ok fuel' l' fl' | _ => true end) (seq 0 256)
        end
    end.

  (** weddingcake/shallowtree.go:65-118, weddingcakeback/singletree.go:83-146; [None] is a panic *)
  Definition generate (pre hl : nat) (input : list thash) : option tree :=
    if (pre <=? hl)%nat && (1 <=? hl)%nat && (hl <=? 64)%nat && (R <=? hl)%nat &&
       forallb (fun x => Nat.eqb (length (th_hash x)) hl) input then
      match input with
      | [] => Some Empty
      | [x] => Some (Leaf (take R (th_hash x)) (th_pi x) (th_hash x))
      | _ => let fl := flags_init hl pre in
             if gen_ok (S hl) input fl then Some (gen (S hl) input fl) else None
      end
    else None.
End Build.

(** ** Lookups *)

Inductive answer := NotFound | Found (pi : Z) | Crash.

(** weddingcake/shallowtree.go:153-175; [None] is the panic "No bytes left to examine for reassurance" *)
Fixpoint check (fl : list bool) (h re : list Z) : option bool :=
  match re with
  | [] => Some true
  | r :: re' =>
      match fl, h with
      | true :: fl', x :: h' => if x =? r then check fl' h' re' else Some false
      | false :: fl', _ :: h' => check fl' h' re
      | _, _ => None
      end
  end.

(** weddingcake/shallowtree.go:130-188 *)
Fixpoint shallow_lookup (t : tree) (fl : list bool) (q : list Z) : answer :=
  match t with
  | Empty => NotFound
  | Leaf re pi _ => match check fl q re with None => Crash | Some false => NotFound | Some true => Found pi end
  | Slots bi f => shallow_lookup (f (q !!! bi)) (flip bi fl) q
  end.

(** weddingcakeback/singletree.go:150-223 *)
Fixpoint single_lookup (pre : nat) (t : tree) (fl : list bool) (q : list Z) : answer :=
  match t with
  | Empty => NotFound
  | Leaf _ pi h => if decide (h = q) then Found pi else NotFound
  | Slots bi f =>
      if (bi <? pre)%nat then Crash
      else match fl !! bi with
           | Some true => single_lookup pre (f (q !!! bi)) (flip bi fl) q
           | _ => Crash
           end
  end.
