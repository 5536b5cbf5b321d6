(** C92: reading a word file in one go. *)
From Verif Require Import Base Model_File Spec_File Proof_File Model_Word Spec_Word Proof_Word Model_Whole.

(** the words written by the calls, latest first *)
Fixpoint written_words (ws : list (nat * Z)) (cs : list call) : list (nat * Z) :=
  match cs with
  | [] => ws
  | Word (WWrite v off) :: cs' => written_words ((off, v) :: ws) cs'
  | _ :: cs' => written_words ws cs'
  end.
Definition fitting (w : nat) (cs : list call) : Prop := Forall (fun c => match c with Word (WWrite v _) => fits w v | _ => True end) cs.

Section Whole.
  Context (cap w : nat) (Hw : (0 < w <= 8)%nat) (init : list Z).
  Definition holds (ws : list (nat * Z)) (a : ao_file) : Prop :=
    exists bw, ao_inv a (word_bytes w init) bw /\ spec_content (word_bytes w init) bw = word_bytes w (arr_all 0 init ws) /\ Forall (fits w) (arr_all 0 init ws).

  Lemma whole_inv a i bw : ao_inv a i bw -> ao_inv (whole w a).1 i bw.
  Proof using.
    intros (H1 & H2 & H3 & H4). unfold whole, ao_inv. cbn [fst ao_os ao_buf ao_next ao_total os_init os_pos].
    change (os_content (mk_os _ _ _)) with (os_content (ao_os a)). split_and!; try done.
    destruct (ao_buf a); [|done]. destruct H4 as [H4 H5]. split; [done|]. clear -H5. lia.
  Qed.
  Lemma holds_new : Forall (fits w) init -> holds [] (ao_new (word_bytes w init)).
  Proof using. intros H. exists []. split; [apply ao_new_inv|]. rewrite spec_content_nil, arr_all_nil. done. Qed.
  Lemma holds_step ws a c : holds ws a -> match c with Word (WWrite v _) => fits w v | _ => True end ->
    holds (match c with Word (WWrite v off) => (off, v) :: ws | _ => ws end) (call_step cap w a c).
  Proof using Hw.
    intros (bw & I & E & F) Hc. destruct c as [[v off|off|]| |]; cbn [call_step].
    - exists ((off * w, take w (le_enc 8 v))%nat :: bw). split; [|split].
      + apply ao_write_inv; [done|]. intros Hn. apply (f_equal length) in Hn. rewrite take_length, le_enc_length in Hn. cbn [length] in Hn. lia.
      + rewrite spec_content_cons, E, arr_all_cons, word_bytes_write by done. done.
      + rewrite arr_all_cons. apply Forall_rec_write; [apply fits_0|done|done].
    - exists bw. split; [|done]. by apply ao_flush_inv.
    - by exists bw.
    - exists bw. split; [|done]. by apply ao_flush_inv.
    - exists bw. split; [|done]. by apply whole_inv.
  Qed.
  Lemma holds_calls cs : forall ws a, holds ws a -> fitting w cs -> holds (written_words ws cs) (calls cap w a cs).
  Proof using Hw.
    induction cs as [|c cs IH]; intros ws a H F; [done|]. apply Forall_cons in F as [Fc F]. pose proof (holds_step ws a c H Fc) as H1.
    destruct c as [[v off|off|]| |]; cbn [written_words]; exact (IH _ _ H1 F).
  Qed.
End Whole.

Lemma apply_log_nil_init log : forall f, apply_log f log = [] -> f = [].
Proof.
  induction log as [|[off d] log IH]; intros f H; [done|]. unfold apply_log in H. cbn [fold_left fst snd] in H. apply IH in H.
  destruct d as [|x d]; [exact H|]. apply (f_equal length) in H. rewrite file_write_length in H by done. cbn [length] in H. lia.
Qed.

(** C92. Whatever was done before, the answer is an error, or all the words, or - for a file that was opened empty -
    no words at all. *)
Theorem C92_whole_read_is_right_refused_or_empty_partial :
  forall cap w init cs l,
    (0 < w <= 8)%nat -> Forall (fits w) init -> fitting w cs ->
    snd (whole w (calls cap w (ao_new (word_bytes w init)) cs)) = Some l ->
    l = arr_all 0 init (written_words [] cs) \/ (l = [] /\ init = []).
Proof.
  intros cap w init cs l Hw Hi Hf E. destruct (holds_calls cap w Hw init cs [] _ (holds_new w init Hi) Hf) as (bw & (I1 & I2 & I3 & I4) & Ec & Hfit).
  set (a := calls cap w (ao_new (word_bytes w init)) cs) in *. unfold whole in E. cbn [snd] in E. destruct (decide _) as [Hd|]; [|done]. injection E as <-.
  destruct (ao_buf a) as [b|].
  - destruct I4 as [_ Hp]. rewrite Hp, drop_all in Hd. cbn [length] in Hd. symmetry in Hd. apply nil_length_inv in Hd. rewrite Hd. right. split; [unfold wf_read_whole; cbn [length]; by rewrite Nat.div_0_l by lia|].
    unfold os_content in Hd. apply apply_log_nil_init in Hd. rewrite I1 in Hd. apply (f_equal length) in Hd. rewrite word_bytes_length in Hd. cbn [length] in Hd.
    apply nil_length_inv. destruct init; [done|]. cbn [length] in Hd. lia.
  - cbn [default from_option id] in I2. rewrite app_nil_r in I2. left. rewrite I2, Ec. by apply wf_read_whole_words.
Qed.

(** C92. Straight after opening, with words read and existing words overwritten but none appended, the first such
    call gives all the words. *)
Definition quiet (n : nat) (c : call) : Prop := match c with Word (WWrite _ off) => (off < n)%nat | Whole => False | _ => True end.
Lemma quiet_step cap w init (Hw : (0 < w <= 8)%nat) ws a c : holds w init ws a -> ao_buf a = None -> os_pos (ao_os a) = 0%nat -> (length init <= arr_count init ws)%nat -> quiet (length init) c ->
  ao_buf (call_step cap w a c) = None /\ os_pos (ao_os (call_step cap w a c)) = 0%nat.
Proof.
  intros (bw & (I1 & I2 & I3 & I4) & Ec & _) Hb Hp Hn Hq. destruct c as [[v off|off|]| |]; cbn [quiet] in Hq; [| | | |done].
  - cbn [call_step]. unfold ao_write_at. rewrite Hb. rewrite decide_False; [done|]. rewrite I3, <- spec_content_length, Ec, word_bytes_length, arr_all_length. nia.
  - cbn [call_step ao_read_at fst]. unfold ao_flush. by rewrite Hb.
  - done.
  - cbn [call_step]. unfold ao_sync, ao_flush. by rewrite Hb.
Qed.
Theorem C92_whole_read_after_opening_partial :
  forall cap w init cs,
    (0 < w <= 8)%nat -> Forall (fits w) init -> fitting w cs -> Forall (quiet (length init)) cs ->
    snd (whole w (calls cap w (ao_new (word_bytes w init)) cs)) = Some (arr_all 0 init (written_words [] cs)).
Proof.
  intros cap w init cs Hw Hi Hf Hq.
  assert (H : forall ws a, holds w init ws a -> ao_buf a = None -> os_pos (ao_os a) = 0%nat -> (length init <= arr_count init ws)%nat ->
    snd (whole w (calls cap w a cs)) = Some (arr_all 0 init (written_words ws cs))).
  { revert Hf Hq. induction cs as [|c cs IH]; intros Hf Hq ws a H Hb Hp Hn.
    - cbn [calls fold_left written_words]. destruct H as (bw & (I1 & I2 & I3 & I4) & Ec & Hfit). unfold whole. cbn [snd]. rewrite Hp, drop_0, decide_True by done.
      rewrite Hb in I2. cbn [default from_option id] in I2. rewrite app_nil_r in I2. rewrite I2, Ec. f_equal. by apply wf_read_whole_words.
    - apply Forall_cons in Hf as [Hc Hf]. apply Forall_cons in Hq as [Hqc Hq]. destruct (quiet_step cap w init Hw ws a c H Hb Hp Hn Hqc) as [Hb1 Hp1].
      pose proof (holds_step cap w Hw init ws a c H Hc) as H1.
      destruct c as [[v off|off|]| |]; cbn [written_words]; refine (IH Hf Hq _ _ H1 Hb1 Hp1 _); [|done..]. cbn [arr_count]. lia. }
  apply H; [by apply holds_new|done|done|]. cbn [arr_count]. lia.
Qed.

(** C92 is false otherwise: words still buffered in a file that was empty are left out without an error, words that
    were appended make the call fail, and so does having called it before; on a file mapped into memory it panics,
    and reading all of a read-only file never returns. *)
Theorem C92_whole_read_gives_all_words_refuted :
  (exists cap w v, (0 < w <= 8)%nat /\ fits w v /\ snd (whole w (calls cap w (ao_new []) [Word (WWrite v 0)])) = Some []) /\
  (forall cap w init v, (0 < w <= 8)%nat -> Forall (fits w) init -> fits w v ->
    snd (whole w (calls cap w (ao_new (word_bytes w init)) [Word (WWrite v (length init)); Sync])) = None) /\
  (forall cap w init, (0 < w <= 8)%nat -> Forall (fits w) init -> init <> [] -> snd (whole w (calls cap w (ao_new (word_bytes w init)) [Whole])) = None) /\
  (forall w, mapped_whole None w = None) /\ (forall fuel data, fws_read_all fuel data = None).
Proof.
  split_and!.
  - exists 4096%nat, 5%nat, 7. split; [lia|]. split; [vm_compute; split; congruence|]. vm_compute. done.
  - intros cap w init v Hw Hi Hv. cbn [calls fold_left].
    set (a0 := call_step cap w (ao_new (word_bytes w init)) (Word (WWrite v (length init)))).
    assert (Hbuf : exists b, ao_buf a0 = Some b /\ os_pos (ao_os a0) = length (os_content (ao_os a0)) /\ (0 < length (os_content (ao_os a0) ++ b))%nat).
    { assert (Hf1 : fitting w [Word (WWrite v (length init))]) by (apply Forall_cons; split; [done|]; by apply Forall_nil).
      destruct (holds_calls cap w Hw init _ [] _ (holds_new w init Hi) Hf1) as (bw1 & (J1 & J2 & J3 & J4) & Jc & _). cbn [calls fold_left] in J2, J4. fold a0 in J2, J4.
      assert (Hs : is_Some (ao_buf a0)).
      { unfold a0. cbn [call_step]. unfold ao_write_at, ao_new. cbn [ao_buf ao_total]. rewrite decide_True by (by rewrite word_bytes_length). destruct (bufio_write _ _ _ _). by eexists. }
      destruct Hs as [b Hb]. rewrite Hb in J2, J4. destruct J4 as [_ J4]. exists b. split; [done|]. split; [done|].
      cbn [default from_option id] in J2. rewrite J2, Jc, word_bytes_length, arr_all_length. cbn [written_words arr_count]. nia. }
    destruct Hbuf as (b & Hb & Hp & Hl). cbn [call_step]. unfold ao_sync, ao_flush. rewrite Hb. destruct (bufio_flush_content (ao_os a0) b Hp) as (E1 & E2 & _).
    unfold whole. cbn [snd ao_os]. rewrite E2, drop_all. cbn [length]. rewrite decide_False; [done|]. rewrite E1. lia.
  - intros cap w init Hw Hi Hne. cbn [calls fold_left call_step]. unfold whole, ao_new. cbn [fst snd ao_os os_pos os_init os_log].
    unfold os_content, apply_log. cbn [os_init os_log fold_left]. rewrite Nat.max_r by lia. rewrite drop_all. cbn [length]. rewrite decide_False; [done|].
    rewrite word_bytes_length. destruct init; [done|]. cbn [length]. nia.
  - done.
  - intros fuel data. by induction fuel.
Qed.

Example C92_example : let cs := [Word (WRead 1); Word (WWrite 70000 0); Sync; Word WCount] in
  Forall (fits 5) [1; 2] /\ fitting 5 cs /\ Forall (quiet 2) cs /\ snd (whole 5 (calls 4096 5 (ao_new (word_bytes 5 [1; 2])) cs)) = Some [70000; 2].
Proof.
  cbv zeta. split; [repeat constructor; vm_compute; congruence|]. split; [repeat constructor; vm_compute; congruence|]. split; [repeat constructor; lia|]. vm_compute. done.
Qed.

Print Assumptions C92_whole_read_is_right_refused_or_empty_partial.
Print Assumptions C92_whole_read_after_opening_partial.
Print Assumptions C92_whole_read_gives_all_words_refuted.
