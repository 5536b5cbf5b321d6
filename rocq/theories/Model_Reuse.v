(** Model of the memory of the bins, used again in every pass: indexedhashes3/binbytes.go:10-51 with the appends and
    the shortening of binbytes.go:239-242, 294-336 as they act on Go slices.

    The heap has byte arrays and bins (a bin: the array its slice looks at, and the length of the slice; all slices
    start at the front of their array).  The outer slice is its array of pointers and its length.  [None] = panic.
    How much room [append] adds when it moves to a new array is given by the caller ([spare]). *)
From Verif Require Import Base.

Record mem := mk_mem { m_arr : gmap nat (list Z); m_bin : gmap nat (nat * nat); m_back : list nat; m_len : nat }.

(** make([]byte, 0, cap) in a new bin; the bin's pointer appended to the outer slice
    (indexedhashes3/binbytes.go:28-31, 44-49) *)
Definition add_bin (cap spare : nat) (m : mem) : mem :=
  let a := fresh (dom (m_arr m)) in
  let b := fresh (dom (m_bin m)) in
  mk_mem (<[a := replicate cap 0]> (m_arr m)) (<[b := (a, 0%nat)]> (m_bin m))
    (if decide (m_len m < length (m_back m))%nat then <[m_len m := b]> (m_back m) else m_back m ++ b :: replicate spare 0%nat)
    (S (m_len m)).
Fixpoint add_bins (k cap spare : nat) (m : mem) : mem :=
  match k with O => m | S k' => add_bins k' cap spare (add_bin cap spare m) end.

(** indexedhashes3/binbytes.go:41-51 *)
Definition new_bins (n cap : nat) : mem := add_bins n cap 0 (mk_mem ∅ ∅ [] 0).

(** indexedhashes3/binbytes.go:24-26 *)
Definition empty_bin (b : nat) (bins : gmap nat (nat * nat)) : gmap nat (nat * nat) := alter (fun s => (fst s, 0%nat)) b bins.
Definition empty_bins (m : mem) : mem :=
  mk_mem (m_arr m) (foldr empty_bin (m_bin m) (take (m_len m) (m_back m))) (m_back m) (m_len m).

(** indexedhashes3/binbytes.go:22-39 *)
Definition reuse (n cap spare : nat) (m : mem) : option mem :=
  let m1 := empty_bins m in
  let m2 := add_bins (n - m_len m1) cap spare m1 in
  if decide (n <= length (m_back m2))%nat then Some (mk_mem (m_arr m2) (m_bin m2) (m_back m2) n) else None.

(** a.bins[slot]: outside the slice is a panic *)
Definition bin_at (m : mem) (slot : nat) : option nat := if decide (slot < m_len m)%nat then m_back m !! slot else None.

(** append(b.bytes, bs...) (indexedhashes3/binbytes.go:239-242): in place when there is room, else in a new array *)
Definition append_bytes (slot : nat) (bs : list Z) (spare : nat) (m : mem) : option mem :=
  b ← bin_at m slot;
  s ← m_bin m !! b;
  let '(a, n) := s in
  arr ← m_arr m !! a;
  if decide (n + length bs <= length arr)%nat then
    Some (mk_mem (<[a := take n arr ++ bs ++ drop (n + length bs) arr]> (m_arr m)) (<[b := (a, (n + length bs)%nat)]> (m_bin m)) (m_back m) (m_len m))
  else
    let a' := fresh (dom (m_arr m)) in
    Some (mk_mem (<[a' := take n arr ++ bs ++ replicate spare 0]> (m_arr m)) (<[b := (a', (n + length bs)%nat)]> (m_bin m)) (m_back m) (m_len m)).

(** Sorting in place and shortening (indexedhashes3/binbytes.go:294-336): the first bytes become [new], the others up
    to the old length are left over from the sorting, the slice gets the length of [new] *)
Definition rewrite_bytes (slot : nat) (new junk : list Z) (m : mem) : option mem :=
  b ← bin_at m slot;
  s ← m_bin m !! b;
  let '(a, n) := s in
  arr ← m_arr m !! a;
  if decide (length new + length junk = n)%nat then
    Some (mk_mem (<[a := new ++ junk ++ drop n arr]> (m_arr m)) (<[b := (a, length new)]> (m_bin m)) (m_back m) (m_len m))
  else None.

(** What is seen in the bins *)
Definition bytes_of (m : mem) (b : nat) : option (list Z) := s ← m_bin m !! b; arr ← m_arr m !! fst s; Some (take (snd s) arr).
Definition seen (m : mem) : option (list (list Z)) := mapM (bytes_of m) (take (m_len m) (m_back m)).

(** What the passes of the indexing runs do, one after the other; the runs for addresses, transactions and blocks share
    the bins (jobs/intrinsicparallel.go:132-156, indexedhashes3/singlepass.go:33-36) *)
Inductive deed :=
| Pass (n cap spare : nat)
| Append (slot : nat) (bs : list Z) (spare : nat)
| Rewrite (slot : nat) (new junk : list Z).
Definition perform (d : deed) (m : mem) : option mem :=
  match d with
  | Pass n cap spare => reuse n cap spare m
  | Append slot bs spare => append_bytes slot bs spare m
  | Rewrite slot new junk => rewrite_bytes slot new junk m
  end.
Fixpoint perform_all (ds : list deed) (m : mem) : option mem :=
  match ds with [] => Some m | d :: ds' => m' ← perform d m; perform_all ds' m' end.
