(** Model of the adaptive indexing run as a whole, indexedhashes3/adaptivepass.go:104-449 and
    adaptivepasspreloader.go:31-57: the passes of the plan one after the other, each with any schedule of its
    goroutines, and the saving of the bins.  The parts are in Model_Pass. *)
From Coq Require Import Sorting.Sorted.
From Verif Require Import Base Model_Word Model_Bins Model_Pass.

(** indexedhashes3/adaptivepass.go:110: entries that fit into the allowance *)
Definition work_budget (p : params) (gb : Z) : Z := (1024 * 1024 * 1024 * gb) `quot` Z.of_nat (entry_bytes p).

(** indexedhashes3/adaptivepass.go:116: what sort.Slice promises for the order used (it is not stable) *)
Definition orders_work (order : list work -> list work) : Prop :=
  forall ws, order ws ≡ₚ ws /\ StronglySorted (fun a b => wk_count b <= wk_count a) (order ws).

(** indexedhashes3/adaptivepass.go:322-326: the worker looks at as many entries as stage one counted for the bin;
    what it did not receive is zeroes.  [None]: more entries than counted (they go over the end of the
    stretch, adaptivepass.go:309-310). *)
Definition segment (p : params) (w : work) (b : bin) : option bin :=
  if decide (Z.of_nat (length b) <= wk_count w)
  then Some (b ++ replicate (Z.to_nat (wk_count w) - length b) (replicate (entry_bytes p) 0)) else None.

(** indexedhashes3/adaptivepass.go:315-333: what the workers put out for the bins of a pass *)
Definition results (p : params) (srt : bin -> bin) (bins : list bin) (ws : list work) : option (list (Z * bin)) :=
  mapM (fun w => b ← bins !! Z.to_nat (wk_bin w); sg ← segment p w b; Some (wk_bin w, sort_dedup srt sg)) ws.

(** indexedhashes3/adaptivepass.go:424-429 *)
Fixpoint save_results (p : params) (f : bin_files) (rs : list (Z * bin)) : option bin_files :=
  match rs with
  | [] => Some f
  | (bn, b) :: rs' => f' ← save_bin p f bn b; save_results p f' rs'
  end.

(** indexedhashes3/adaptivepass.go:126-449: the passes left, with the files and the bin numbers before and
    after.  [outs]: the results in the order in which they arrived, sorted by bin number (lines 410-421). *)
Inductive adaptive_passes (p : params) (srt : bin -> bin) (hs : list (list Z)) (threads : nat) :
    bool -> list (list work) -> bin_files -> list Z -> bin_files -> list Z -> Prop :=
| ap_end first f nums : adaptive_passes p srt hs threads first [] f nums f nums
| ap_pass first ws wss f nums al s rs outs f1 f2 nums' :
    al = fst (allocate (replicate threads 0) ws) ->
    rtc (fan_step p hs first (adaptive_slot al) (adaptive_owner al) (Z.to_nat 100000) threads)
      (fan_init threads (Z.to_nat (p_bins p)) (launched threads al)) s ->
    fan_finished threads s ->
    results p srt (st_bins s) ws = Some rs ->
    outs ≡ₚ rs -> StronglySorted (fun a b => fst a <= fst b) outs ->
    save_results p f outs = Some f1 ->
    adaptive_passes p srt hs threads false wss f1 (if first then st_nums s else nums) f2 nums' ->
    adaptive_passes p srt hs threads first (ws :: wss) f nums f2 nums'.

(** indexedhashes3/adaptivepasspreloader.go:31-57: BinNums and the other files after a run over the hash file
    [file] with an allowance of [gb] gigabytes *)
Definition adaptive_run (p : params) (srt : bin -> bin) (order : list work -> list work) (file : list Z) (threads : nat) (gb : Z)
    (nums : list Z) (f : bin_files) : Prop :=
  exists wss ns, adaptive_plan p (Some file) (work_budget p gb) order = Some wss /\
    adaptive_passes p srt (to_entries (length file / 32) 32 file) threads true wss (initial_files p ∅) [] f ns /\
    nums = concat (map (le_enc (bin_room p)) ns).
