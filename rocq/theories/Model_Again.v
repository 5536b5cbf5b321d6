(** Model of indexing runs on a folder in which an earlier run has left files, and of runs that are stopped (the
    process is killed) at any moment: jobs/intrinsicparallel.go:61-202 asked for on its own.

    A new run makes BinNums and BinStarts afresh (indexedhashes3/hashstorecreator.go:35, 60, multipasspreloader.go:156-189,
    adaptivepasspreloader.go:125-158); of what was there only the overflow files stay.  What a killed process has
    written stays in the files (nothing is said about a loss of power). *)
From Coq Require Import Sorting.Sorted.
From Verif Require Import Base Model_Folders Model_Bins Model_Pass Model_Adaptive Model_Job.

(** The overflow files of a folder *)
Notation over_map := (gmap (list chr * list chr) (list Z)).

(** ** Runs that finish *)
(** jobs/intrinsicparallel.go:90-176 for one hash file, the overflow files [old] being there: [phase_two] of Model_Job
    is the case of none. *)
Definition finished_run (ixr : indexer) (p : params) (srt : bin -> bin) (data : list Z) (threads : nat) (gb : Z) (old : over_map)
    (nums : list Z) (f : bin_files) : Prop :=
  match ixr with
  | MultiPass =>
      exists hs rs ns, hashes_in data = Some hs /\ pass_ranges p (gb * 1024 * 1024 * 1024) = Some rs /\
        multipass p srt hs threads rs (initial_files p old) [] f ns /\ nums = concat (map (le_enc (bin_room p)) ns)
  | Adaptive order =>
      exists wss ns, adaptive_plan p (Some data) (work_budget p gb) order = Some wss /\
        adaptive_passes p srt (to_entries (length data / 32) 32 data) threads true wss (initial_files p old) [] f ns /\
        nums = concat (map (le_enc (bin_room p)) ns)
  end.

(** ** Runs that are stopped *)
(** Saving bins (indexedhashes3/binfiles.go:137-162), stopped before a bin, while its overflow file is being written
    (os.WriteFile: anything may be in it), while its bin start is being written, or later *)
Inductive saving_stopped (p : params) : bin_files -> list (Z * bin) -> bin_files -> Prop :=
| ss_before f l : saving_stopped p f l f
| ss_overflow f bn b l path d : (p_start p < length b)%nat -> overflow_path p bn = Some path ->
    saving_stopped p f ((bn, b) :: l) (mk_files (f_starts f) (<[path := d]> (f_over f)))
| ss_start f bn b l f1 starts : save_bin p f bn b = Some f1 -> saving_stopped p f ((bn, b) :: l) (mk_files starts (f_over f1))
| ss_later f bn b l f1 f2 : save_bin p f bn b = Some f1 -> saving_stopped p f1 l f2 -> saving_stopped p f ((bn, b) :: l) f2.

(** indexedhashes3/singlepass.go:137-146: the bins of a pass with their numbers *)
Definition numbered (first : Z) (bins : list bin) : list (Z * bin) := imap (fun i b => (first + Z.of_nat i, b)) bins.

(** indexedhashes3/multipasspreloader.go:49-77, stopped between the savings of two passes (that is, while reading and
    sorting), during the saving of a pass, or later *)
Inductive multipass_stopped (p : params) (srt : bin -> bin) (hs : list (list Z)) (threads : nat) :
    list (Z * Z) -> bin_files -> bin_files -> Prop :=
| ms_between rs f : multipass_stopped p srt hs threads rs f f
| ms_saving first count rs f s s' f1 :
    rtc (fan_step p hs (first =? 0) (pass_slot first count) (pass_owner threads) (Z.to_nat 1000) threads)
      (fan_init threads (Z.to_nat count) (replicate threads true)) s ->
    fan_finished threads s ->
    rtc (sort_step srt) (sort_init threads (st_bins s)) s' -> Forall (fun w => w = Exited) (ss_workers s') ->
    saving_stopped p f (numbered first (ss_bins s')) f1 ->
    multipass_stopped p srt hs threads ((first, count) :: rs) f f1
| ms_later first count rs f s s' f1 f2 :
    rtc (fan_step p hs (first =? 0) (pass_slot first count) (pass_owner threads) (Z.to_nat 1000) threads)
      (fan_init threads (Z.to_nat count) (replicate threads true)) s ->
    fan_finished threads s ->
    rtc (sort_step srt) (sort_init threads (st_bins s)) s' -> Forall (fun w => w = Exited) (ss_workers s') ->
    write_files p f first (ss_bins s') = Some f1 ->
    multipass_stopped p srt hs threads rs f1 f2 ->
    multipass_stopped p srt hs threads ((first, count) :: rs) f f2.

(** indexedhashes3/adaptivepass.go:126-449, likewise *)
Inductive adaptive_stopped (p : params) (srt : bin -> bin) (hs : list (list Z)) (threads : nat) :
    bool -> list (list work) -> bin_files -> bin_files -> Prop :=
| as_between first wss f : adaptive_stopped p srt hs threads first wss f f
| as_saving first ws wss f al s rs outs f1 :
    al = fst (allocate (replicate threads 0) ws) ->
    rtc (fan_step p hs first (adaptive_slot al) (adaptive_owner al) (Z.to_nat 100000) threads)
      (fan_init threads (Z.to_nat (p_bins p)) (launched threads al)) s ->
    fan_finished threads s ->
    results p srt (st_bins s) ws = Some rs ->
    outs ≡ₚ rs -> StronglySorted (fun a b => fst a <= fst b) outs ->
    saving_stopped p f outs f1 ->
    adaptive_stopped p srt hs threads first (ws :: wss) f f1
| as_later first ws wss f al s rs outs f1 f2 :
    al = fst (allocate (replicate threads 0) ws) ->
    rtc (fan_step p hs first (adaptive_slot al) (adaptive_owner al) (Z.to_nat 100000) threads)
      (fan_init threads (Z.to_nat (p_bins p)) (launched threads al)) s ->
    fan_finished threads s ->
    results p srt (st_bins s) ws = Some rs ->
    outs ≡ₚ rs -> StronglySorted (fun a b => fst a <= fst b) outs ->
    save_results p f outs = Some f1 ->
    adaptive_stopped p srt hs threads false wss f1 f2 ->
    adaptive_stopped p srt hs threads first (ws :: wss) f f2.

(** jobs/intrinsicparallel.go:90-176 for one hash file, stopped at some moment: the overflow files before and after *)
Definition stopped_run (ixr : indexer) (p : params) (srt : bin -> bin) (data : list Z) (threads : nat) (gb : Z) (old over : over_map) : Prop :=
  match ixr with
  | MultiPass =>
      exists hs rs f, hashes_in data = Some hs /\ pass_ranges p (gb * 1024 * 1024 * 1024) = Some rs /\
        multipass_stopped p srt hs threads rs (initial_files p old) f /\ over = f_over f
  | Adaptive order =>
      exists wss f, adaptive_plan p (Some data) (work_budget p gb) order = Some wss /\
        adaptive_stopped p srt (to_entries (length data / 32) 32 data) threads true wss (initial_files p old) f /\ over = f_over f
  end.
