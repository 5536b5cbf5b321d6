(** C93: a lookup file held in memory. *)
From Verif Require Import Base Model_File Spec_File Proof_File Model_Mem.

(** The calls as calls on a plain file (Spec_File), which has no negative offsets *)
Definition as_file (o : mop) : fop :=
  match o with MemRead off n => FRead (Z.to_nat off) n | MemWrite off d => FWrite (Z.to_nat off) d | MemSync => FSync end.
Definition as_answer (o : fout) : mres :=
  match o with OutWrote n => MWrote n | OutRead d => MRead d | OutSynced => MSynced | OutSize n => MPanic end.
(** inside a file of [n] bytes *)
Definition inside (n : nat) (o : mop) : Prop :=
  match o with
  | MemRead off k => 0 <= off /\ off + Z.of_nat k <= Z.of_nat n
  | MemWrite off d => 0 <= off /\ off + Z.of_nat (length d) <= Z.of_nat n
  | MemSync => True
  end.

Lemma file_write_inside f off d : (off + length d <= length f)%nat -> file_write f off d = take off f ++ d ++ drop (off + length d) f.
Proof.
  intros H. unfold file_write. destruct d as [|b d]; [cbn [app length]; rewrite Nat.add_0_r; by rewrite take_drop|].
  cbn [length] in *. rewrite take_app_le by lia. done.
Qed.

Section Mem.
  Context (init : list Z) (spare : nat).
  Definition agrees (ws : writes) (m : mem_file) : Prop :=
    m_arr m = spec_content init ws ++ replicate spare 0 /\ length (spec_content init ws) = length init /\ m_len m = length init /\ m_disk m = init.
  Lemma agrees_step ws m o : agrees ws m -> inside (length init) o ->
    agrees (spec_hist_step ws (as_file o)) (mem_step m o).1 /\ (mem_step m o).2 = as_answer (spec_out init ws (as_file o)).
  Proof using.
    intros (A1 & A2 & A3 & A4) Hin. destruct o as [off n|off d|]; cbn [mem_step as_file spec_hist_step spec_out as_answer inside] in *.
    - split; [done|]. cbn [snd]. unfold mem_read. rewrite A1, app_length, replicate_length. rewrite decide_True by lia. f_equal.
      rewrite spec_read_content. rewrite drop_app_le by lia. rewrite take_app_le by (rewrite drop_length; lia). done.
    - unfold mem_write. rewrite A1, app_length, replicate_length. rewrite decide_True by lia. cbn [fst snd]. split; [|done].
      assert (E : spec_content init ((Z.to_nat off, d) :: ws) = take (Z.to_nat off) (spec_content init ws) ++ d ++ drop (Z.to_nat off + length d) (spec_content init ws)).
      { rewrite spec_content_cons. apply file_write_inside. lia. }
      unfold agrees. cbn [m_arr m_len m_disk]. split; [|split; [|done]].
      + rewrite E. rewrite take_app_le, drop_app_le by lia. by rewrite <- !app_assoc.
      + rewrite E, !app_length, take_length, drop_length. lia.
    - done.
  Qed.
  Lemma agrees_run ops : forall ws m, agrees ws m -> Forall (inside (length init)) ops ->
    agrees (spec_hist ws (as_file <$> ops)) (mem_run m ops).1 /\ (mem_run m ops).2 = as_answer <$> spec_outs init ws (as_file <$> ops).
  Proof using.
    induction ops as [|o ops IH]; intros ws m A Hin; [done|]. apply Forall_cons in Hin as [Ho Hin]. rewrite !fmap_cons. cbn [mem_run spec_hist spec_outs].
    destruct (agrees_step ws m o A Ho) as [A1 E1]. destruct (mem_step m o) as [m1 r]. cbn [fst snd] in A1, E1. destruct (IH _ _ A1 Hin) as [A2 E2].
    destruct (mem_run m1 ops) as [m2 rs]. cbn [fst snd] in *. split; [done|]. rewrite fmap_cons. by rewrite E1, E2.
  Qed.
  Lemma agrees_open : agrees [] (mem_open init spare).
  Proof using. unfold agrees, mem_open. cbn [m_arr m_len m_disk]. by rewrite spec_content_nil. Qed.
End Mem.

(** C93. As long as nothing reaches past the end of the file, all answers are those of the file itself, and after
    Close the file holds what was written.  Missing: what Sync promises, and accesses past the end (next). *)
Theorem C93_memory_file_is_the_file_partial :
  forall init spare ops, Forall (inside (length init)) ops ->
    let '(m, rs) := mem_run (mem_open init spare) ops in
    rs = as_answer <$> spec_outs init [] (as_file <$> ops) /\
    m_disk (mem_close m) = spec_content init (spec_hist [] (as_file <$> ops)).
Proof.
  intros init spare ops H. destruct (agrees_run init spare ops [] _ (agrees_open init spare) H) as [(A1 & A2 & A3 & A4) E].
  destruct (mem_run (mem_open init spare) ops) as [m rs]. cbn [fst snd] in *. split; [exact E|]. cbn [mem_close m_disk]. by rewrite A3, A1, <- A2, take_app.
Qed.

(** The file on disk does not change before Close, whatever is written and synced. *)
Theorem C93_nothing_saved_before_close :
  forall init spare ops, m_disk (mem_run (mem_open init spare) ops).1 = init.
Proof.
  intros init spare ops. assert (H : forall m, m_disk (mem_run m ops).1 = m_disk m).
  { induction ops as [|o ops IH]; intros m; [done|]. cbn [mem_run]. destruct (mem_step m o) as [m1 r] eqn:E. specialize (IH m1).
    destruct (mem_run m1 ops) as [m2 rs]. cbn [fst] in *. rewrite IH. destruct o as [off n|off d|]; cbn [mem_step] in E.
    - by injection E as <- <-.
    - unfold mem_write in E. destruct (decide _); by injection E as <- <-.
    - by injection E as <- <-. }
  apply H.
Qed.

(** C93 as stated is false: a synced write is lost if the program ends without Close; a write just past the end is
    accepted and can be read back but is not in the file after Close; further past the end reading and writing panics. *)
Theorem C93_sync_and_growth_refuted :
  (exists init off d, inside (length init) (MemWrite off d) /\ forall spare,
     m_disk (mem_run (mem_open init spare) [MemWrite off d; MemSync]).1 <> spec_content init [(Z.to_nat off, d)]) /\
  (forall init spare d, d <> [] -> (length d <= spare)%nat ->
     let n := Z.of_nat (length init) in
     exists m, mem_run (mem_open init spare) [MemWrite n d; MemRead n (length d)] = (m, [MWrote (length d); MRead d]) /\ m_disk (mem_close m) = init) /\
  (forall init spare off d, d <> [] -> Z.of_nat (length init + spare) <= off ->
     (mem_run (mem_open init spare) [MemWrite off d]).2 = [MPanic] /\ (mem_run (mem_open init spare) [MemRead off (length d)]).2 = [MPanic]).
Proof.
  split_and!.
  - exists [1; 2], 0, [9]. split; [cbn; lia|]. intros spare. rewrite C93_nothing_saved_before_close. vm_compute. discriminate.
  - intros init spare d Hd Hs n. unfold n. cbn [mem_run mem_step]. unfold mem_write, mem_open. cbn [m_arr m_len m_disk]. rewrite app_length, replicate_length.
    rewrite decide_True by lia. rewrite Nat2Z.id. unfold mem_read. cbn [m_arr]. rewrite take_app.
    rewrite decide_True; [|rewrite !app_length, drop_length, app_length, replicate_length; lia].
    rewrite Nat2Z.id, drop_app, take_app. eexists. split; [reflexivity|]. unfold mem_close. cbn [m_disk m_len m_arr]. by rewrite take_app.
  - intros init spare off d Hd Ho. assert (0 < length d)%nat by (destruct d; [done|cbn [length]; lia]). cbn [mem_run mem_step]. unfold mem_write, mem_read, mem_open. cbn [m_arr].
    rewrite app_length, replicate_length. rewrite !decide_False by lia. done.
Qed.

Example C93_example : Forall (inside 4) [MemWrite 1 [7; 8]; MemRead 0 3; MemSync; MemWrite 3 [5]; MemRead 2 2] /\
  (mem_run (mem_open [1; 2; 3; 4] 508) [MemWrite 1 [7; 8]; MemRead 0 3; MemSync; MemWrite 3 [5]; MemRead 2 2]).2
  = [MWrote 2; MRead [1; 7; 8]; MSynced; MWrote 1; MRead [8; 5]].
Proof. split; [repeat constructor; cbn; lia|vm_compute; reflexivity]. Qed.

Print Assumptions C93_memory_file_is_the_file_partial.
Print Assumptions C93_nothing_saved_before_close.
Print Assumptions C93_sync_and_growth_refuted.
