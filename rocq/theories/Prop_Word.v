(** Properties C03, C04, C05, C06, C54: word files and hash files (package wordfile). *)
From Verif Require Import Base Model_Word Spec_Word Proof_Word Model_File Spec_File Proof_File.

(** C03. Opening a file of words and running any history of calls with fitting values answers like an
    array; the file then holds exactly the words of the array, so reopening continues from there. *)
Theorem C03_word_file_is_an_array :
  forall (w : nat) (init : list Z) (ops : list wop),
    (0 < w <= 8)%nat -> Forall (fits w) init -> fitting_writes w ops ->
    exists wf, wf_open w (word_bytes w init) = Some wf /\
      (wf_run wf ops).2 = w_outs (ORes WErr) init [] ops /\
      wf_data (wf_run wf ops).1 = word_bytes w (arr_all 0 init (w_hists [] ops)).
Proof.
  intros w init ops Hw Hall Hfit. exists (wf_new (word_bytes w init) w (length init)).
  split; [apply wf_open_words; lia|].
  destruct (wf_run_sim w init [] _ ops Hw (wf_new_inv w init Hw Hall) Hfit) as [(Hd & _) Ho].
  split; [exact Ho|exact Hd].
Qed.

(** Reading the whole file in one go gives all the words. *)
Theorem C03_read_whole_file :
  forall (w : nat) (l : list Z), (0 < w <= 8)%nat -> Forall (fits w) l ->
    wf_read_whole w (word_bytes w l) = l.
Proof. exact wf_read_whole_words. Qed.

(** A file created "filled with zeros" is an array of zeros. *)
Theorem C03_create_zeros :
  forall (w n : nat), wf_create_zeros w n = word_bytes w (replicate n 0).
Proof.
  intros w n. unfold wf_create_zeros, word_bytes.
  induction n as [|n IH]; [reflexivity|].
  change (replicate (S n) 0) with (0 :: replicate n 0).
  cbn [map concat]. rewrite <- IH, le_enc_0, <- replicate_add. reflexivity.
Qed.

Example C03_example :
  let ops := [WWrite 70000 3; WRead 1; WRead 3; WRead 4; WCount; WWrite 5 1; WRead 1] in
  Forall (fits 5) [1; 2] /\ fitting_writes 5 ops /\
  w_outs (ORes WErr) [1; 2] [] ops =
    [OWrote; ORes (WVal 2); ORes (WVal 70000); ORes WErr; OCount 4; OWrote; ORes (WVal 5)].
Proof.
  cbv zeta. split_and!.
  - repeat constructor; vm_compute; congruence.
  - repeat constructor; vm_compute; congruence.
  - vm_compute. reflexivity.
Qed.

(** C04. An oversized write does damage reads of other words ... *)
Theorem C04_oversized_write_damages_only_its_word_refuted :
  exists (w : nat) (init : list Z) (v : Z) (i j : nat),
    (0 < w < 8)%nat /\ Forall (fits w) init /\ i <> j /\
    let wf := wf_new (word_bytes w init) w (length init) in
    (wf_read wf i).2 <> (wf_read (wf_write wf v j) i).2.
Proof.
  exists 5%nat, [1; 2], (-1), 0%nat, 1%nat.
  split_and!; [lia|lia|repeat constructor; vm_compute; congruence|lia|].
  vm_compute. discriminate.
Qed.

(** ... but only until the next write of a fitting value: after that every word reads as the last value
    written to it, reduced to the word size; in particular words only ever given fitting values
    are intact. *)
Theorem C04_damage_ends_with_next_fitting_write_partial :
  forall (w : nat) (init : list Z) (ops : list wop) (v : Z) (j i : nat),
    (0 < w <= 8)%nat -> Forall (fits w) init -> fits w v ->
    let wf := wf_new (word_bytes w init) w (length init) in
    let ws := w_hists [] (ops ++ [WWrite v j]) in
    (wf_read (wf_run wf (ops ++ [WWrite v j])).1 i).2 =
      match arr_get 0 init ws i with
      | Some x => WVal (to_i64 (x mod pow256 w))
      | None => WErr
      end.
Proof.
  intros w init ops v j i Hw Hall Hf wf ws.
  apply wf_read_raw; [exact Hw| |].
  - apply wf_raw_run; [exact Hw|]. destruct (wf_new_inv w init Hw Hall) as (H1 & H2 & H3 & _ & H4 & _).
    repeat split; assumption.
  - clear ws. assert (forall wf0, (wf_run wf0 (ops ++ [WWrite v j])).1
        = wf_write (wf_run wf0 ops).1 v j) as E.
    { clear. induction ops as [|op ops IH]; intros wf0; cbn [app wf_run wf_step]; [reflexivity|].
      destruct (wf_step wf0 op) as [wf1 o]. specialize (IH wf1).
      destruct (wf_run wf1 (ops ++ [WWrite v j])), (wf_run wf1 ops). exact IH. }
    rewrite E. cbn [wf_write wf_scratch]. apply fits_scratch; assumption.
Qed.

(** For a value that fits, reduction to the word size is the identity (so the theorem above gives back
    exactly the value for every word whose last value fits). *)
Theorem C04_reduction_is_identity_on_fitting :
  forall (w : nat) (x : Z), (0 < w <= 8)%nat -> fits w x -> to_i64 (x mod pow256 w) = x.
Proof.
  intros w x Hw Hf. rewrite <- le_dec_enc.
  pose proof (fits_decode w x Hw Hf) as H.
  rewrite le_dec_app, le_dec_replicate0, Z.mul_0_r, Z.add_0_r in H. exact H.
Qed.

(** C05. The memory-shadowed word file answers like the array; the file beneath holds the same words. *)
Theorem C05_shadowed_word_file_is_an_array :
  forall (w : nat) (init : list Z) (ops : list wop),
    (0 < w <= 8)%nat -> Forall (fits w) init -> fitting_writes w ops ->
    exists sf, sf_new (word_bytes w init) w (length init) = Some sf /\
      (sf_run sf ops).2 = w_outs OPanic init [] ops /\
      wf_data (sf_wf (sf_run sf ops).1) = word_bytes w (arr_all 0 init (w_hists [] ops)).
Proof.
  intros w init ops Hw Hall Hfit.
  destruct (sf_new_inv w init Hw Hall) as (sf & E & Hinv). exists sf. split; [exact E|].
  destruct (sf_run_sim w init [] sf ops Hw Hinv Hfit) as [((Hd & _) & _) Ho].
  split; [exact Ho|exact Hd].
Qed.

Example C05_example :
  let ops := [WWrite 9 3; WRead 3; WRead 2; WRead 4] in
  Forall (fits 4) [7] /\ fitting_writes 4 ops /\
  w_outs OPanic [7] [] ops = [OWrote; ORes (WVal 9); ORes (WVal 0); OPanic].
Proof.
  cbv zeta. split_and!; [repeat constructor; vm_compute; congruence..|vm_compute; reflexivity].
Qed.

(** C06. A hash list: append returns the index; every read returns the hash last put there. *)
Theorem C06_hash_file_is_a_list :
  forall (init : list (list Z)) (ops : list hop),
    chunks 32 init -> hash_ops ops ->
    let hf := hf_new (concat init) (length init) in
    (hf_run hf ops).2 = h_outs init [] ops /\
    hf_data (hf_run hf ops).1 = concat (arr_all (replicate 32 0) init (h_hists init [] ops)).
Proof.
  intros init ops Hch Hops hf.
  assert (hf_inv init [] hf) as Hinv.
  { unfold hf_inv. rewrite arr_all_nil. repeat split; assumption. }
  destruct (hf_run_sim init [] hf ops Hinv Hops) as [(Hd & _) Ho]. split; assumption.
Qed.

(** Appending [hs] to an empty list: the indices are 0,1,2,... and the file is the concatenation. *)
Theorem C06_appends_number_consecutively :
  forall (hs : list (list Z)), chunks 32 hs ->
    let hf := hf_new [] 0 in
    (hf_run hf (map HAppend hs)).2 = map OIndex (seq 0 (length hs)) /\
    hf_data (hf_run hf (map HAppend hs)).1 = concat hs.
Proof.
  intros hs Hch hf.
  assert (forall hs ws, h_outs [] ws (map HAppend hs) = map OIndex (seq (arr_count (@nil (list Z)) ws) (length hs)) /\
            arr_all (replicate 32 0) [] (h_hists [] ws (map HAppend hs)) = arr_all (replicate 32 0) [] ws ++ hs) as G.
  { clear. induction hs as [|h hs IH]; intros ws; cbn [map h_outs h_hists length seq].
    - rewrite app_nil_r. split; reflexivity.
    - cbn [h_hist h_out]. destruct (IH ((arr_count [] ws, h) :: ws)) as [-> ->].
      rewrite arr_all_append, <- app_assoc. cbn [arr_count].
      rewrite Nat.max_r by lia. split; reflexivity. }
  assert (hash_ops (map HAppend hs)) as Hops.
  { unfold hash_ops. rewrite Forall_map. exact Hch. }
  destruct (C06_hash_file_is_a_list [] (map HAppend hs) (Forall_nil_2 _) Hops) as [H1 H2].
  destruct (G hs []) as [G1 G2]. cbn [length concat] in H1, H2. fold hf in H1, H2.
  rewrite H1, H2, G1, G2, arr_all_nil. split; reflexivity.
Qed.

Example C06_example :
  let h k := replicate 32 k in
  let ops := [HAppend (h 5); HAppend (h 6); HRead 0; HRead 2; HCount] in
  chunks 32 [h 1] /\ hash_ops ops /\
  h_outs [h 1] [] ops = [OIndex 1; OIndex 2; OHash (Some (h 1)); OHash (Some (h 6)); OHCount 3].
Proof. cbv zeta. split_and!; [repeat constructor..|vm_compute; reflexivity]. Qed.

(** C54. Killing a process that only appends words to a word file can leave a file that cannot be
    reopened: with 5-byte words and the default 4096 byte buffer the only primitive write performed
    so far wrote 4096 bytes.  No torn write is needed. *)
Definition append_words (w n : nat) : list fop :=
  map (fun i => FWrite (i * w) (le_enc w (Z.of_nat i))) (seq 0 n).

Theorem C54_killed_word_appends_reopen_refuted :
  exists (n : nat) (f : list Z),
    let a2 := (ao_run 4096 (ao_new []) (append_words 5 n)).1 in
    crash_after (ao_new []) a2 f /\ wf_open 5 f = None.
Proof.
  set (a2 := (ao_run 4096 (ao_new []) (append_words 5 820)).1).
  exists 820%nat, (apply_log [] (os_log (ao_os a2))). cbv zeta. fold a2.
  assert (length (os_log (ao_os a2)) = 1%nat) as Hl by (vm_compute; reflexivity).
  split.
  - exists 1%nat, 0%nat. split; [vm_compute; lia|].
    rewrite take_ge by lia. rewrite lookup_ge_None_2 by lia. rewrite app_nil_r.
    assert (os_init (ao_os a2) = []) as -> by (vm_compute; reflexivity). reflexivity.
  - assert (length (apply_log [] (os_log (ao_os a2))) mod 5 = 1)%nat as Hm by (vm_compute; reflexivity).
    unfold wf_open. destruct (decide _) as [Hd|_]; [|reflexivity]. rewrite Hm in Hd. discriminate.
Qed.

(** What is true: if the word size divides the buffer capacity (1, 2, 4, 8 for 4096), a kill between
    primitive writes leaves a file that reopens as a prefix of the words appended. *)
Definition word_appends (w : nat) (vs : list Z) : list fop :=
  imap (fun i v => FWrite (i * w) (le_enc w v)) vs.

Theorem C54_killed_word_appends_reopen_partial :
  forall (w cap : nat) (vs : list Z) (k : nat),
    (0 < w)%nat -> Nat.divide w cap ->
    let a2 := (ao_run cap (ao_new []) (word_appends w vs)).1 in
    let f := apply_log [] (take k (os_log (ao_os a2))) in
    exists m, f = word_bytes w (take m vs) /\
              wf_open w f = Some (wf_new f w (length (take m vs))).
Proof.
  intros w cap vs k Hw Hcap a2 f.
  assert (forall vs n, nonempty_writes (imap (fun i v => FWrite ((n + i) * w) (le_enc w v)) vs) /\
     appends_only (n * w) (imap (fun i v => FWrite ((n + i) * w) (le_enc w v)) vs) /\
     Forall (fun op => match op with FWrite _ d => Nat.divide w (length d) | _ => True end)
            (imap (fun i v => FWrite ((n + i) * w) (le_enc w v)) vs) /\
     written (imap (fun i v => FWrite ((n + i) * w) (le_enc w v)) vs) = word_bytes w vs) as G.
  { clear -Hw. induction vs as [|v vs IH]; intros n.
    - repeat split; constructor.
    - rewrite imap_cons. rewrite Nat.add_0_r.
      rewrite (imap_ext _ (fun i v => FWrite ((S n + i) * w) (le_enc w v))).
      2:{ intros i x _. cbn. f_equal. lia. }
      destruct (IH (S n)) as (H1 & H2 & H3 & H4). cbn [appends_only written word_bytes map concat].
      rewrite le_enc_length. split_and!.
      + constructor; [|exact H1]. intros E. apply (f_equal length) in E. rewrite le_enc_length in E. cbn in E. lia.
      + reflexivity.
      + replace (n * w + w)%nat with (S n * w)%nat by lia. exact H2.
      + constructor; [|exact H3]. rewrite le_enc_length. reflexivity.
      + rewrite H4. reflexivity. }
  destruct (G vs 0%nat) as (G1 & G2 & G3 & G4). cbn [Nat.add] in G1, G2, G3, G4.
  destruct (kill_append_lemma w cap (word_appends w vs) k Hcap G1 G2 G3) as (n & [m ->] & E).
  unfold word_appends in E at 2. rewrite G4 in E.
  exists m. assert (f = word_bytes w (take m vs)) as Ef.
  { unfold f, a2. rewrite E. unfold word_bytes. rewrite chunks_take by apply word_bytes_chunks.
    change (@map Z (list Z)) with (@fmap list _ Z (list Z)). rewrite fmap_take. reflexivity. }
  split; [exact Ef|]. rewrite Ef. apply wf_open_words, Hw.
Qed.

Example C54_example : Nat.divide 4 4096 /\ Nat.divide 8 4096 /\
  wf_open 4 (apply_log [] (os_log (ao_os (ao_run 8 (ao_new []) (word_appends 4 [1;2;3;4;5])).1)))
  = Some (wf_new (word_bytes 4 [1;2;3;4]) 4 4).
Proof. split_and!; [exists 1024%nat; reflexivity|exists 512%nat; reflexivity|vm_compute; reflexivity]. Qed.

Print Assumptions C54_killed_word_appends_reopen_partial.
Print Assumptions C03_word_file_is_an_array.
Print Assumptions C03_read_whole_file.
Print Assumptions C03_create_zeros.
Print Assumptions C04_oversized_write_damages_only_its_word_refuted.
Print Assumptions C04_damage_ends_with_next_fitting_write_partial.
Print Assumptions C04_reduction_is_identity_on_fitting.
Print Assumptions C05_shadowed_word_file_is_an_array.
Print Assumptions C06_hash_file_is_a_list.
Print Assumptions C06_appends_number_consecutively.
Print Assumptions C54_killed_word_appends_reopen_refuted.
