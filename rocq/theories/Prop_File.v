(** Properties C01, C02, C52, C53 : the append-optimised file (memfile/appendoptimized.go). *)
From Verif Require Import Base Model_File Spec_File Proof_File.

(** C01.  For every initial content, buffer capacity and history of calls with non-empty writes, the
    answers are those of a plain file and after Close the disk holds exactly the specified bytes. *)
Theorem C01_append_optimized_file_is_a_plain_file :
  forall (cap : nat) (init : list Z) (ops : list fop) (a : ao_file) (outs : list fout),
    nonempty_writes ops ->
    ao_run cap (ao_new init) ops = (a, outs) ->
    outs = spec_outs init [] ops /\
    ao_close a = spec_content init (spec_hist [] ops).
Proof.
  intros cap init ops a outs Hne Hrun.
  destruct (ao_run_sim _ _ _ _ _ _ _ (ao_new_inv init) Hne Hrun) as [Hinv ->].
  split; [reflexivity|]. exact (proj2 (proj2 (ao_flush_inv _ _ _ Hinv))).
Qed.

Example C01_example :
  nonempty_writes [FWrite 2 [7;8;9]; FWrite 5 [1]; FRead 4 9; FWrite 0 [5]; FWrite 8 [3]; FSize] /\
  (ao_run 2 (ao_new [10;11]) [FWrite 2 [7;8;9]; FWrite 5 [1]; FRead 4 9; FWrite 0 [5]; FWrite 8 [3]; FSize]).2
   = [OutWrote 3; OutWrote 1; OutRead [9;1]; OutWrote 1; OutWrote 1; OutSize 9].
Proof. split; [repeat constructor; discriminate|vm_compute; reflexivity]. Qed.

(** C02, first half.  Bytes present at the last Sync and not covered by any later write survive a
    power loss at any moment: any subset of the later primitive writes reached the disk, each
    possibly torn. *)
Theorem C02_synced_bytes_survive_power_loss :
  forall (cap : nat) (init : list Z) (before after : list fop) (f : list Z) (i : nat),
    nonempty_writes before -> nonempty_writes after ->
    let a1 := (ao_run cap (ao_new init) (before ++ [FSync])).1 in
    let a2 := (ao_run cap a1 after).1 in
    torn_after a1 a2 f ->
    (i < spec_size init (spec_hist [] before))%nat -> ~ covered_by after i ->
    f !! i = Some (spec_byte init (spec_hist [] before) i).
Proof. intros cap init before after f i H1 H2. apply power_loss_lemma; done. Qed.

(** C02, first half for a process crash: a ReadAt is as good as a Sync. *)
Theorem C02_synced_bytes_survive_crash :
  forall (cap : nat) (init : list Z) (before after : list fop) (s : fop) (f : list Z) (i : nat),
    nonempty_writes before -> nonempty_writes after -> is_sync_point s ->
    let a1 := (ao_run cap (ao_new init) (before ++ [s])).1 in
    let a2 := (ao_run cap a1 after).1 in
    crash_after a1 a2 f ->
    (i < spec_size init (spec_hist [] before))%nat -> ~ covered_by after i ->
    f !! i = Some (spec_byte init (spec_hist [] before) i).
Proof.
  intros cap init before after s f i H1 H2 Hs a1 a2 Hcr Hi Hc.
  destruct (crash_is_torn cap init before s after f H1 H2 Hs Hcr) as (new & k & j & E & ->).
  refine (power_loss_lemma cap init before s after _ i H1 H2 Hs _ Hi Hc).
  eexists. split; [|reflexivity]. rewrite E, drop_app. apply prefix_torn.
Qed.

(** C02, second half.  When everything written since was appended, the disk after a crash is the
    synced content followed by a prefix of the appended bytes. *)
Theorem C02_appends_survive_as_a_prefix :
  forall (cap : nat) (init : list Z) (before after : list fop) (s : fop) (f : list Z),
    nonempty_writes before -> nonempty_writes after -> is_sync_point s ->
    appends_only (spec_size init (spec_hist [] before)) after ->
    let a1 := (ao_run cap (ao_new init) (before ++ [s])).1 in
    let a2 := (ao_run cap a1 after).1 in
    crash_after a1 a2 f ->
    exists n, f = spec_content init (spec_hist [] before) ++ take n (written after).
Proof. intros. eapply crash_append_lemma; eassumption. Qed.

(** A crash in the middle of a flush: 1 of the 3 bytes of the second primitive write made it. *)
Example C02_example :
  let before := [FWrite 0 [1;2]; FWrite 2 [3]] in
  let after := [FWrite 3 [4;5;6]; FWrite 6 [7;8;9]] in
  let a1 := (ao_run 2 (ao_new []) (before ++ [FSync])).1 in
  let a2 := (ao_run 2 a1 after).1 in
  nonempty_writes before /\ nonempty_writes after /\ is_sync_point FSync /\
  appends_only (spec_size [] (spec_hist [] before)) after /\
  crash_after a1 a2 [1;2;3;4;5;6;7] /\ torn_after a1 a2 [1;2;3;0;0;0;7;8] /\
  ~ covered_by after 2.
Proof.
  cbv zeta. split_and!; try (repeat constructor; discriminate); try exact I; try (vm_compute; reflexivity).
  - exists 3%nat, 1%nat. split; [vm_compute; lia|vm_compute; reflexivity].
  - exists [(6%nat, take 2 [7;8;9])]. split; [|vm_compute; reflexivity].
    vm_compute drop. apply torn_skip. apply (torn_keep 6%nat [7;8;9] 2 [] []). constructor.
  - intros (off & d & Hin & Hi). repeat (apply elem_of_cons in Hin as [Hin|Hin]; [inversion Hin; subst; cbn in Hi; lia|]).
    apply elem_of_nil in Hin. done.
Qed.

(** C53: a zero-length write past the end is not a no-op.  It moves the wrapper's idea of the file
    size, and a later write at that size goes to the wrong place. *)
Theorem C53_zero_length_write_is_a_no_op_refuted :
  exists cap init ops, (ao_run cap (ao_new init) ops).2 <> spec_outs init [] ops.
Proof.
  exists 4096%nat, [1], [FWrite 3 []; FWrite 3 [9]; FRead 0 4].
  vm_compute. discriminate.
Qed.

(** C52: reading the whole file. True on a freshly opened file ... *)
Theorem C52_read_all_on_fresh_file_partial :
  forall init, (ao_read_all (ao_new init)).2 = Some init.
Proof.
  intros init. unfold ao_read_all, ao_new, ao_sync, ao_flush. cbn [snd ao_buf ao_os os_pos].
  unfold os_content. cbn [os_init os_log]. unfold apply_log. cbn [fold_left drop].
  destruct (decide _); [reflexivity|contradiction].
Qed.

(** ... but false after an append, or on a second call, because the read starts at the seek position. *)
Theorem C52_read_all_returns_the_content_refuted :
  (exists cap init ops, nonempty_writes ops /\
     (ao_read_all (ao_run cap (ao_new init) ops).1).2 = None) /\
  (exists init, (ao_read_all (ao_read_all (ao_new init)).1).2 = None).
Proof.
  split.
  - exists 4096%nat, [], [FWrite 0 [1;2;3]]. split; [repeat constructor; discriminate|vm_compute; reflexivity].
  - exists [1]. vm_compute. reflexivity.
Qed.

Print Assumptions C01_append_optimized_file_is_a_plain_file.
Print Assumptions C02_synced_bytes_survive_power_loss.
Print Assumptions C02_synced_bytes_survive_crash.
Print Assumptions C02_appends_survive_as_a_prefix.
Print Assumptions C53_zero_length_write_is_a_no_op_refuted.
Print Assumptions C52_read_all_on_fresh_file_partial.
Print Assumptions C52_read_all_returns_the_content_refuted.
