(** Model of the indexing runs of indexedhashes3: fan-out of the hashes to workers (multi-pass and adaptive),
    parallel sorting, the pass ranges, the adaptive planner.

    Goroutines are steps of a transition relation; any interleaving of the steps is an execution.  A panic in
    any goroutine ends the program ([st_crashed]). *)
From Verif Require Import Base Model_Word Model_Bins.

(** ** Fan-out *)

(** indexedhashes3/singlepass.go:49-55, adaptivepass.go:247-252: what is sent for one hash.  The slot is the
    bin pointer (singlepass) or the bin number (adaptivepass); singlepass computes the truncated hash before
    sending, adaptivepass after receiving. *)
Record item := mk_item { it_slot : nat; it_sn : Z; it_hi : Z; it_th : list Z }.

Record fan_state := mk_fan {
  st_pos : nat;                (* hashes read so far *)
  st_nums : list Z;            (* bin numbers written *)
  st_queues : list (list item);(* the workers' channels *)
  st_closed : list bool;       (* closed channels *)
  st_closing : nat;            (* channels the reader has closed *)
  st_done : list bool;         (* workers that have ended *)
  st_bins : list bin;
  st_crashed : bool }.

Section FanOut.
  (** [slot_of] says which of the bins of this pass a bin number belongs to, [owner] which worker has a bin,
      [cap] is the size of the channels *)
  Context (p : params) (hs : list (list Z)) (write_nums : bool).
  Context (slot_of : Z -> option nat) (owner : nat -> nat) (cap threads : nat).

  Definition set_crashed (s : fan_state) : fan_state :=
    mk_fan (st_pos s) (st_nums s) (st_queues s) (st_closed s) (st_closing s) (st_done s) (st_bins s) true.

  (** singlepass.go:93-99, adaptivepass.go:365-370: bin number [hi] goes to word [hi]; the reader counts up from
      zero, so the words are appended *)
  Definition nums_after (s : fan_state) (bn : Z) : list Z :=
    if write_nums then st_nums s ++ [bn] else st_nums s.

  Inductive fan_step : fan_state -> fan_state -> Prop :=
  (** singlepass.go:101-105, adaptivepass.go:372-374: not a bin of this pass *)
  | step_skip s h bn :
      st_crashed s = false -> hs !! st_pos s = Some h -> bn = bin_num p (abbreviated h) -> slot_of bn = None ->
      fan_step s (mk_fan (S (st_pos s)) (nums_after s bn) (st_queues s) (st_closed s) (st_closing s) (st_done s) (st_bins s) false)
  (** singlepass.go:107-118, adaptivepass.go:374-382: waits while the channel is full *)
  | step_send s h bn k w q :
      st_crashed s = false -> hs !! st_pos s = Some h -> bn = bin_num p (abbreviated h) -> slot_of bn = Some k ->
      owner k = w -> st_queues s !! w = Some q -> st_closed s !! w = Some false -> (length q < cap)%nat ->
      fan_step s (mk_fan (S (st_pos s)) (nums_after s bn)
        (<[w := q ++ [mk_item k (sort_num p (abbreviated h)) (Z.of_nat (st_pos s)) (truncated h)]]> (st_queues s))
        (st_closed s) (st_closing s) (st_done s) (st_bins s) false)
  (** sending on a closed channel panics *)
  | step_send_closed s h k :
      st_crashed s = false -> hs !! st_pos s = Some h -> slot_of (bin_num p (abbreviated h)) = Some k ->
      st_closed s !! owner k = Some true -> fan_step s (set_crashed s)
  (** singlepass.go:120-123, adaptivepass.go:394-397, one channel at a time *)
  | step_close s :
      st_crashed s = false -> st_pos s = length hs -> (st_closing s < threads)%nat ->
      st_closed s !! st_closing s = Some false ->
      fan_step s (mk_fan (st_pos s) (st_nums s) (st_queues s) (<[st_closing s := true]> (st_closed s))
        (S (st_closing s)) (st_done s) (st_bins s) false)
  (** closing a closed channel panics *)
  | step_close_closed s :
      st_crashed s = false -> st_pos s = length hs -> (st_closing s < threads)%nat ->
      st_closed s !! st_closing s = Some true -> fan_step s (set_crashed s)
  (** singlepass.go:65-67, 130-135; adaptivepass.go:296-311: one worker takes one item *)
  | step_recv s w it q b b' :
      st_crashed s = false -> st_done s !! w = Some false -> st_queues s !! w = Some (it :: q) ->
      st_bins s !! it_slot it = Some b -> append_entry p b (it_sn it) (it_hi it) (it_th it) = Some b' ->
      fan_step s (mk_fan (st_pos s) (st_nums s) (<[w := q]> (st_queues s)) (st_closed s) (st_closing s) (st_done s)
        (<[it_slot it := b']> (st_bins s)) false)
  (** the entry does not fit its fields.  adaptivepass.go:277-282 recovers from this panic and loses the
      worker's bins; that is not modelled further *)
  | step_recv_panic s w it q b :
      st_crashed s = false -> st_done s !! w = Some false -> st_queues s !! w = Some (it :: q) ->
      st_bins s !! it_slot it = Some b -> append_entry p b (it_sn it) (it_hi it) (it_th it) = None ->
      fan_step s (set_crashed s)
  (** the range loop ends when the channel is closed and drained *)
  | step_done s w :
      st_crashed s = false -> st_done s !! w = Some false -> st_queues s !! w = Some [] ->
      st_closed s !! w = Some true ->
      fan_step s (mk_fan (st_pos s) (st_nums s) (st_queues s) (st_closed s) (st_closing s)
        (<[w := true]> (st_done s)) (st_bins s) false).

  (** [launched !! w]: worker [w] has been started (singlepass.go:58-69: all of them; adaptivepass.go:264-274:
      those with bins, the channels of the others are closed at once) *)
  Definition fan_init (slots : nat) (launched : list bool) : fan_state :=
    mk_fan 0 [] (replicate threads []) (negb <$> launched) 0 (negb <$> launched) (replicate slots []) false.

  (** singlepass.go:125, adaptivepass.go:403-406 *)
  Definition fan_finished (s : fan_state) : Prop :=
    st_crashed s = false /\ st_closing s = threads /\ Forall (fun d => d = true) (st_done s).
End FanOut.

(** indexedhashes3/singlepass.go:101-115: the bins of a pass are [first, first + count) *)
Definition pass_slot (first count bn : Z) : option nat :=
  if (bn <? first) || (first + count <=? bn) then None else Some (Z.to_nat (bn - first)).
Definition pass_owner (threads slot : nat) : nat := (slot mod threads)%nat.

(** ** Parallel sorting, indexedhashes3/singlepass.go:199-231 *)
Inductive sorter := Idle | Busy (b : nat) | Exited.
Record sort_state := mk_sort { ss_next : nat; ss_workers : list sorter; ss_bins : list bin }.
Section Sorting.
  Context (srt : bin -> bin).
  (** bin numbers are counted from the first bin of the pass; [length (ss_bins s)] is the number of bins *)
  Inductive sort_step : sort_state -> sort_state -> Prop :=
  | sort_claim s w : ss_workers s !! w = Some Idle -> (ss_next s < length (ss_bins s))%nat ->
      sort_step s (mk_sort (S (ss_next s)) (<[w := Busy (ss_next s)]> (ss_workers s)) (ss_bins s))
  | sort_exit s w : ss_workers s !! w = Some Idle -> (length (ss_bins s) <= ss_next s)%nat ->
      sort_step s (mk_sort (S (ss_next s)) (<[w := Exited]> (ss_workers s)) (ss_bins s))
  | sort_work s w k b : ss_workers s !! w = Some (Busy k) -> ss_bins s !! k = Some b ->
      sort_step s (mk_sort (ss_next s) (<[w := Idle]> (ss_workers s)) (<[k := sort_dedup srt b]> (ss_bins s))).
  Definition sort_init (threads : nat) (bins : list bin) : sort_state := mk_sort 0 (replicate threads Idle) bins.
End Sorting.

(** ** Pass ranges, indexedhashes3/multipasspreloader.go:42-60 *)
Definition bins_per_pass (p : params) (bytes_per_pass : Z) : Z :=
  let expected := p_estimate p `quot` p_bins p in
  let expected := if expected =? 0 then 1 else expected in
  bytes_per_pass `quot` (Z.of_nat (entry_bytes p) * expected).
(** [None] = division by zero *)
Definition pass_ranges (p : params) (bytes_per_pass : Z) : option (list (Z * Z)) :=
  let bpp := bins_per_pass p bytes_per_pass in
  if bpp =? 0 then None else
  let passes := 1 + p_bins p `quot` bpp in
  Some ((fun i => let first := Z.of_nat i * bpp in
                  (first, if p_bins p <? first + bpp then p_bins p - first else bpp)) <$> seq 0 (Z.to_nat passes)).

(** ** The adaptive planner *)

(** indexedhashes3/adaptivepass.go:46-49 *)
Record work := mk_work { wk_bin : Z; wk_count : Z }.

(** indexedhashes3/adaptivepass.go:138-153: [used] hashes so far, [biggest]: nothing taken yet; the result is the
    pass and what is left, in the same order *)
Fixpoint design (budget used : Z) (biggest : bool) (ws : list work) : list work * list work :=
  match ws with
  | [] => ([], [])
  | w :: ws' =>
      if (wk_count w <? budget - used) || biggest then
        let r := design budget (used + wk_count w) false ws' in (w :: fst r, snd r)
      else
        let r := design budget used biggest ws' in (fst r, w :: snd r)
  end.
(** indexedhashes3/adaptivepass.go:127-154; [fuel]: passes allowed *)
Fixpoint plan (fuel : nat) (budget : Z) (ws : list work) : option (list (list work)) :=
  match ws with
  | [] => Some []
  | _ =>
      match fuel with
      | O => None
      | S fuel' =>
          let r := design budget 0 true ws in
          ps ← plan fuel' budget (snd r); Some (fst r :: ps)
      end
  end.

(** indexedhashes3/adaptivepass.go:179-186: the first worker with the least work *)
Fixpoint least_from (i : nat) (least : Z) (best : nat) (loads : list Z) : nat :=
  match loads with
  | [] => best
  | l :: loads' => if l <? least then least_from (S i) l i loads' else least_from (S i) least best loads'
  end.
Definition least_loaded (loads : list Z) : nat := least_from 0 (2^63 - 1) 0 loads.
(** indexedhashes3/adaptivepass.go:177-191: bins of the pass with their workers, and the loads *)
Fixpoint allocate (loads : list Z) (ws : list work) : list (work * nat) * list Z :=
  match ws with
  | [] => ([], loads)
  | w :: ws' =>
      let a := least_loaded loads in
      let r := allocate (<[a := default 0 (loads !! a) + wk_count w]> loads) ws' in
      ((w, a) :: fst r, snd r)
  end.
(** indexedhashes3/adaptivepass.go:230-244: where each bin starts in its worker's buffer, in entries *)
Fixpoint offsets (pointers : list Z) (al : list (work * nat)) : list (work * nat * Z) :=
  match al with
  | [] => []
  | (w, a) :: al' =>
      let o := default 0 (pointers !! a) in
      (w, a, o) :: offsets (<[a := o + wk_count w]> pointers) al'
  end.
(** indexedhashes3/adaptivepass.go:264-271: the workers that are started *)
Definition launched (threads : nat) (al : list (work * nat)) : list bool :=
  (fun w => bool_decide (w ∈ (snd <$> al))) <$> seq 0 threads.
(** indexedhashes3/adaptivepass.go:372 as a slot function: slot = bin number *)
Definition adaptive_slot (al : list (work * nat)) (bn : Z) : option nat :=
  if bool_decide (bn ∈ ((wk_bin ∘ fst) <$> al)) then Some (Z.to_nat bn) else None.
Definition adaptive_owner (al : list (work * nat)) (slot : nat) : nat :=
  default 0%nat (snd <$> list_find (fun x => wk_bin (fst x) = Z.of_nat slot) al ≫= fun x => Some (snd x)).

(** ** Whole runs *)

(** indexedhashes3/singlepass.go:137-146 *)
Fixpoint write_files (p : params) (f : bin_files) (bn : Z) (bins : list bin) : option bin_files :=
  match bins with
  | [] => Some f
  | b :: bins' => f' ← save_bin p f bn b; write_files p f' (bn + 1) bins'
  end.

(** indexedhashes3/multipasspreloader.go:49-77, singlepass.go:26-28, 56-60: the passes of one run with the
    files and the bin numbers before and after; any schedule of the goroutines in every pass *)
Inductive multipass (p : params) (srt : bin -> bin) (hs : list (list Z)) (threads : nat) :
    list (Z * Z) -> bin_files -> list Z -> bin_files -> list Z -> Prop :=
| mp_end f nums : multipass p srt hs threads [] f nums f nums
| mp_pass first count rs f nums s s' f1 f2 nums' :
    rtc (fan_step p hs (first =? 0) (pass_slot first count) (pass_owner threads) (Z.to_nat 1000) threads)
      (fan_init threads (Z.to_nat count) (replicate threads true)) s ->
    fan_finished threads s ->
    rtc (sort_step srt) (sort_init threads (st_bins s)) s' -> Forall (fun w => w = Exited) (ss_workers s') ->
    write_files p f first (ss_bins s') = Some f1 ->
    multipass p srt hs threads rs f1 (if first =? 0 then st_nums s else nums) f2 nums' ->
    multipass p srt hs threads ((first, count) :: rs) f nums f2 nums'.

(** indexedhashes3/adaptivepass.go:52-102: [None] = error: the file cannot be opened, or its length is not a
    multiple of 32 *)
Definition count_bins (p : params) (hs : list (list Z)) : list work :=
  (fun i => mk_work (Z.of_nat i) (Z.of_nat (length (filter (fun h => bin_num p (abbreviated h) = Z.of_nat i) hs))))
  <$> seq 0 (Z.to_nat (p_bins p)).
Definition stage_one (p : params) (file : option (list Z)) : option (list work) :=
  bs ← file;
  if decide (length bs mod 32 = 0)%nat then Some (count_bins p (to_entries (length bs / 32) 32 bs)) else None.
(** indexedhashes3/adaptivepasspreloader.go:43-47, adaptivepass.go:104-127: the error of stage one is
    overwritten by the result of stage two, which then plans for no bins at all; [order] is the sort of
    adaptivepass.go:116 *)
Definition adaptive_plan (p : params) (file : option (list Z)) (budget : Z) (order : list work -> list work) : option (list (list work)) :=
  let ws := order (default [] (stage_one p file)) in plan (length ws) budget ws.
