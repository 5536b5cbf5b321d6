From Verif Require Import Base Model_Word Spec_Word.

Section Arr.
  Context {A : Type} (dflt : A) (init : list A).
  Notation all := (arr_all dflt init).

  Lemma arr_all_length ws : length (all ws) = arr_count init ws.
  Proof. unfold arr_all. rewrite map_length, seq_length. done. Qed.

  Lemma arr_all_lookup ws i : all ws !! i = arr_get dflt init ws i.
  Proof.
    unfold arr_all, arr_get. rewrite (list_lookup_fmap (arr_at dflt init ws)).
    destruct (decide _); [rewrite lookup_seq_lt by done|rewrite lookup_seq_ge by lia]; done.
  Qed.

  Lemma arr_all_nil : all [] = init.
  Proof.
    apply list_eq. intros i. rewrite arr_all_lookup. unfold arr_get. cbn.
    destruct (decide _) as [H|H].
    - destruct (lookup_lt_is_Some_2 init i H) as [b Hb]. rewrite Hb. done.
    - symmetry. apply lookup_ge_None_2. lia.
  Qed.

  Lemma arr_at_beyond ws i : (arr_count init ws <= i)%nat -> arr_at dflt init ws i = dflt.
  Proof.
    induction ws as [|[off d] ws IH]; cbn; intros H.
    - rewrite lookup_ge_None_2 by lia. done.
    - destruct (decide _); [lia|]. apply IH. lia.
  Qed.

  Lemma arr_all_cons ws off v : all ((off, v) :: ws) = rec_write dflt (all ws) off v.
  Proof.
    apply list_eq. intros i. rewrite arr_all_lookup. unfold arr_get. cbn [arr_count arr_at].
    destruct (decide (i = off)) as [->|Hne].
    - rewrite rec_write_eq. destruct (decide _); [|lia]. destruct (decide _); done.
    - destruct (decide (off = i)); [congruence|].
      destruct (decide (i < arr_count init ws)%nat) as [Hlt|Hge].
      + rewrite rec_write_ne by (rewrite ?arr_all_length; auto with lia).
        rewrite arr_all_lookup. unfold arr_get.
        destruct (decide _), (decide _); done || lia.
      + destruct (decide (off < i)%nat).
        * rewrite rec_write_ne by (rewrite ?arr_all_length; auto with lia).
          rewrite arr_all_lookup. unfold arr_get. destruct (decide _), (decide _); done || lia.
        * rewrite rec_write_gap by (rewrite ?arr_all_length; lia).
          rewrite arr_at_beyond by lia. destruct (decide _); done || lia.
  Qed.

  Lemma arr_all_append ws v : all ((arr_count init ws, v) :: ws) = all ws ++ [v].
  Proof. rewrite arr_all_cons, <- arr_all_length, rec_write_append. done. Qed.
End Arr.

Lemma word_bytes_chunks w l : chunks w (map (le_enc w) l).
Proof. apply Forall_fmap, Forall_true. intros v. apply le_enc_length. Qed.

Lemma word_bytes_length w l : length (word_bytes w l) = (length l * w)%nat.
Proof. unfold word_bytes. rewrite (chunks_concat_length w), map_length by apply word_bytes_chunks. done. Qed.

Lemma word_bytes_write w l off v : (0 < w <= 8)%nat ->
  file_write (word_bytes w l) (off * w) (take w (le_enc 8 v)) = word_bytes w (rec_write 0 l off v).
Proof.
  intros Hw. unfold word_bytes. rewrite take_le_enc by lia.
  rewrite chunks_write by (lia || apply word_bytes_chunks || apply le_enc_length).
  rewrite <- le_enc_0. change (@map Z (list Z)) with (@fmap list _ Z (list Z)).
  rewrite <- rec_write_fmap. done.
Qed.

Lemma word_bytes_read w l i : take w (drop (i * w) (word_bytes w l)) = default [] (le_enc w <$> l !! i).
Proof.
  unfold word_bytes. rewrite chunks_read by apply word_bytes_chunks.
  change (@map Z (list Z)) with (@fmap list _ Z (list Z)). rewrite list_lookup_fmap. done.
Qed.

Lemma fits_decode w v : (0 < w <= 8)%nat -> fits w v ->
  to_i64 (le_dec (le_enc w v ++ replicate (8 - w) 0)) = v.
Proof.
  intros Hw Hf. rewrite le_dec_app, le_dec_replicate0, le_dec_enc, le_enc_length.
  unfold fits in Hf. destruct (decide _) as [->|Hne].
  - rewrite pow256_8, Z.mul_0_r, Z.add_0_r. apply to_i64_to_u64, Hf.
  - rewrite Z.mod_small by done. rewrite Z.mul_0_r, Z.add_0_r. apply to_i64_small.
    assert (pow256 w <= pow256 7) by (apply pow256_le; lia).
    assert (pow256 7 <= 2^63) by (vm_compute; discriminate). lia.
Qed.

Lemma fits_scratch w v : (0 < w <= 8)%nat -> fits w v -> drop w (le_enc 8 v) = replicate (8 - w) 0.
Proof.
  intros Hw Hf. rewrite drop_le_enc by lia. unfold fits in Hf.
  destruct (decide _) as [->|Hne]; [done|].
  rewrite Z.div_small by done. apply le_enc_0.
Qed.

(** Invariant of the word file: the data is the words of the array, scratch high bytes are zero. *)
Definition wf_inv (w : nat) (init : list Z) (ws : list (nat * Z)) (wf : word_file) : Prop :=
  wf_data wf = word_bytes w (arr_all 0 init ws) /\ wf_size wf = w /\
  wf_count wf = arr_count init ws /\ drop w (wf_scratch wf) = replicate (8 - w) 0 /\
  length (wf_scratch wf) = 8%nat /\
  Forall (fits w) (arr_all 0 init ws).

Lemma fits_0 w : fits w 0.
Proof. unfold fits, is_i64. destruct (decide _); [lia|]. pose proof (pow256_pos w). lia. Qed.

Lemma Forall_rec_write {A} (P : A -> Prop) (d : A) l off v :
  P d -> P v -> Forall P l -> Forall P (rec_write d l off v).
Proof.
  intros Hd Hv Hl. unfold rec_write. apply Forall_app_2.
  - apply Forall_take, Forall_app_2; [done|]. apply Forall_replicate, Hd.
  - constructor; [done|]. apply Forall_drop, Hl.
Qed.

Lemma wf_write_inv w init ws wf v off :
  (0 < w <= 8)%nat -> fits w v -> wf_inv w init ws wf ->
  wf_inv w init ((off, v) :: ws) (wf_write wf v off).
Proof.
  intros Hw Hf (Hd & Hs & Hc & Hsc & Hl & Hall). unfold wf_inv, wf_write. cbn [wf_data wf_size wf_count wf_scratch].
  rewrite Hd, Hs, Hc, arr_all_cons, word_bytes_write by done.
  split_and!; try done.
  - apply fits_scratch; done.
  - apply Forall_rec_write; [apply fits_0|done|done].
Qed.

Lemma wf_read_inv w init ws wf off :
  (0 < w <= 8)%nat -> wf_inv w init ws wf ->
  wf_inv w init ws (wf_read wf off).1 /\
  (wf_read wf off).2 = match arr_get 0 init ws off with Some v => WVal v | None => WErr end.
Proof.
  intros Hw (Hd & Hs & Hc & Hsc & Hl & Hall). unfold wf_read.
  rewrite Hd, Hs, word_bytes_read, arr_all_lookup.
  destruct (arr_get 0 init ws off) as [v|] eqn:E; cbn [default fmap option_fmap option_map from_option id].
  - assert (fits w v) as Hf.
    { rewrite <- arr_all_lookup in E. eapply Forall_lookup_1 in Hall; eauto. }
    rewrite le_enc_length, Hsc. cbn [fst snd]. split.
    + unfold wf_inv. cbn [wf_data wf_size wf_count wf_scratch].
      split_and!; try done.
      * rewrite drop_app_alt by (rewrite le_enc_length; done). done.
      * rewrite app_length, le_enc_length, replicate_length. lia.
    + destruct (decide _); [lia|]. rewrite fits_decode by done. done.
  - cbn [length app drop fst snd]. split; [|destruct (decide _); done || lia].
    unfold wf_inv. cbn [wf_data wf_size wf_count wf_scratch]. done.
Qed.

Lemma wf_run_sim w init ws wf ops :
  (0 < w <= 8)%nat -> wf_inv w init ws wf -> fitting_writes w ops ->
  wf_inv w init (w_hists ws ops) (wf_run wf ops).1 /\
  (wf_run wf ops).2 = w_outs (ORes WErr) init ws ops.
Proof.
  intros Hw. revert ws wf. induction ops as [|op ops IH]; intros ws wf Hinv Hfit; [done|].
  apply Forall_cons in Hfit as [Hop Hfit]. cbn [wf_run w_outs w_hists].
  assert (wf_inv w init (w_hist ws op) (wf_step wf op).1 /\ (wf_step wf op).2 = w_out (ORes WErr) init ws op) as [H1 H2].
  { destruct op as [v off|off|]; cbn [wf_step w_hist w_out].
    - split; [|done]. apply wf_write_inv; done.
    - destruct (wf_read_inv w init ws wf off Hw Hinv) as [H1 H2].
      destruct (wf_read wf off) as [wf' r]. cbn [fst snd] in *. split; [done|]. subst r.
      destruct (arr_get 0 init ws off); done.
    - split; [done|]. destruct Hinv as (_ & _ & -> & _). done. }
  destruct (wf_step wf op) as [wf1 o]. cbn [fst snd] in *.
  destruct (IH _ _ H1 Hfit) as [H3 H4]. destruct (wf_run wf1 ops) as [wf2 os]. cbn [fst snd] in *.
  subst. done.
Qed.

Lemma wf_new_inv w init : (0 < w <= 8)%nat -> Forall (fits w) init ->
  wf_inv w init [] (wf_new (word_bytes w init) w (length init)).
Proof.
  intros Hw Hall. unfold wf_inv, wf_new. cbn [wf_data wf_size wf_count wf_scratch].
  rewrite arr_all_nil. split_and!; try done. rewrite drop_replicate. done.
Qed.

Lemma wf_open_words w l : (0 < w)%nat ->
  wf_open w (word_bytes w l) = Some (wf_new (word_bytes w l) w (length l)).
Proof.
  intros Hw. unfold wf_open. rewrite word_bytes_length, Nat.mod_mul by lia.
  destruct (decide _); [|done]. rewrite Nat.div_mul by lia. done.
Qed.

Lemma wf_read_whole_words w l : (0 < w <= 8)%nat -> Forall (fits w) l ->
  wf_read_whole w (word_bytes w l) = l.
Proof.
  intros Hw Hall. apply list_eq. intros i. unfold wf_read_whole.
  rewrite word_bytes_length, Nat.div_mul by lia.
  change (@map nat Z) with (@fmap list _ nat Z). rewrite list_lookup_fmap.
  destruct (l !! i) as [v|] eqn:E.
  - rewrite lookup_seq_lt by (apply lookup_lt_Some in E; done).
    cbn [fmap option_fmap option_map]. cbn [Nat.add].
    rewrite word_bytes_read, E. cbn [fmap option_fmap option_map default from_option id].
    rewrite fits_decode; [done|done|]. eapply Forall_lookup_1 in Hall; eauto.
  - rewrite lookup_seq_ge by (apply lookup_ge_None_1, E). done.
Qed.

(** Arbitrary (also oversized) writes: the file keeps values modulo 256^w *)
Definition wf_raw (w : nat) (init : list Z) (ws : list (nat * Z)) (wf : word_file) : Prop :=
  wf_data wf = word_bytes w (arr_all 0 init ws) /\ wf_size wf = w /\
  wf_count wf = arr_count init ws /\ length (wf_scratch wf) = 8%nat.

Lemma wf_raw_run w init ws wf ops :
  (0 < w <= 8)%nat -> wf_raw w init ws wf -> wf_raw w init (w_hists ws ops) (wf_run wf ops).1.
Proof.
  intros Hw. revert ws wf. induction ops as [|op ops IH]; intros ws wf Hinv; [done|].
  cbn [wf_run w_hists].
  assert (wf_raw w init (w_hist ws op) (wf_step wf op).1) as H1.
  { destruct Hinv as (Hd & Hs & Hc & Hl).
    destruct op as [v off|off|]; cbn [wf_step w_hist].
    - unfold wf_raw, wf_write. cbn [fst wf_data wf_size wf_count wf_scratch].
      rewrite Hd, Hs, Hc, arr_all_cons, word_bytes_write by done. split_and!; done.
    - unfold wf_read. cbn [fst]. unfold wf_raw. cbn [fst wf_data wf_size wf_count wf_scratch].
      split_and!; try done. rewrite app_length, drop_length, take_length. lia.
    - done. }
  destruct (wf_step wf op) as [wf1 o]. cbn [fst] in *.
  pose proof (IH _ _ H1) as H3. destruct (wf_run wf1 ops) as [wf2 os]. done.
Qed.

(** Reads do not disturb the scratch high bytes. *)
Lemma wf_read_scratch wf off : length (wf_scratch wf) = 8%nat -> (wf_size wf <= 8)%nat ->
  drop (wf_size wf) (wf_scratch (wf_read wf off).1) = drop (wf_size wf) (wf_scratch wf).
Proof.
  intros Hl Hs. unfold wf_read. cbn [fst wf_scratch].
  set (got := take _ _). assert (length got <= wf_size wf)%nat by (unfold got; rewrite take_length; lia).
  rewrite drop_app_ge by lia. rewrite drop_drop. f_equal. lia.
Qed.

Lemma wf_read_raw w init ws wf off :
  (0 < w <= 8)%nat -> wf_raw w init ws wf -> drop w (wf_scratch wf) = replicate (8 - w) 0 ->
  (wf_read wf off).2 =
    match arr_get 0 init ws off with
    | Some v => WVal (to_i64 (v mod pow256 w))
    | None => WErr
    end.
Proof.
  intros Hw (Hd & Hs & Hc & Hl) Hsc. unfold wf_read.
  rewrite Hd, Hs, word_bytes_read, arr_all_lookup.
  destruct (arr_get 0 init ws off) as [v|] eqn:E; cbn [default fmap option_fmap option_map from_option id].
  - rewrite le_enc_length, Hsc. cbn [snd]. destruct (decide _); [lia|].
    rewrite le_dec_app, le_dec_replicate0, le_dec_enc, Z.mul_0_r, Z.add_0_r. done.
  - cbn. destruct (decide _); done || lia.
Qed.

(** ** Shadowed file *)
Lemma insert_rec_write (l : list Z) off v :
  <[off := v]> (l ++ replicate (S off - length l) 0) = rec_write 0 l off v.
Proof.
  apply list_eq. intros i. destruct (decide (i = off)) as [->|Hne].
  - rewrite rec_write_eq. apply list_lookup_insert. rewrite app_length, replicate_length. lia.
  - rewrite list_lookup_insert_ne by done.
    destruct (decide (i < length l)%nat).
    + rewrite lookup_app_l, rec_write_ne by (done || lia). done.
    + destruct (decide (off < i)%nat).
      * rewrite rec_write_ne by lia. rewrite lookup_ge_None_2 by (rewrite app_length, replicate_length; lia).
        rewrite lookup_ge_None_2 by lia. done.
      * rewrite rec_write_gap by lia. rewrite lookup_app_r by lia. apply lookup_replicate_2. lia.
Qed.

Definition sf_inv (w : nat) (init : list Z) (ws : list (nat * Z)) (sf : shadow_file) : Prop :=
  wf_inv w init ws (sf_wf sf) /\ sf_shadow sf = arr_all 0 init ws.

Lemma sf_load_inv w init n wf i :
  (0 < w <= 8)%nat -> wf_inv w init [] wf -> (i + n = length init)%nat ->
  exists wf', sf_load wf i n = Some (wf', drop i init) /\ wf_inv w init [] wf'.
Proof.
  intros Hw. revert wf i. induction n as [|n IH]; intros wf i Hinv Hi; cbn [sf_load].
  - exists wf. rewrite drop_ge by lia. done.
  - destruct (wf_read_inv w init [] wf i Hw Hinv) as [H1 H2].
    destruct (wf_read wf i) as [wf1 r]. cbn [fst snd] in *.
    rewrite <- arr_all_lookup, arr_all_nil in H2.
    destruct (lookup_lt_is_Some_2 init i) as [v Hv]; [lia|]. rewrite Hv in H2. subst r.
    destruct (IH wf1 (S i) H1) as (wf2 & -> & H3); [lia|].
    exists wf2. rewrite (drop_S _ _ _ Hv). done.
Qed.

Lemma sf_new_inv w init : (0 < w <= 8)%nat -> Forall (fits w) init ->
  exists sf, sf_new (word_bytes w init) w (length init) = Some sf /\ sf_inv w init [] sf.
Proof.
  intros Hw Hall.
  destruct (sf_load_inv w init (length init) _ 0 Hw (wf_new_inv w init Hw Hall)) as (wf' & E & Hinv); [done|].
  unfold sf_new. rewrite E. eexists. split; [done|]. split; [done|]. rewrite arr_all_nil. done.
Qed.

Lemma sf_run_sim w init ws sf ops :
  (0 < w <= 8)%nat -> sf_inv w init ws sf -> fitting_writes w ops ->
  sf_inv w init (w_hists ws ops) (sf_run sf ops).1 /\
  (sf_run sf ops).2 = w_outs OPanic init ws ops.
Proof.
  intros Hw. revert ws sf. induction ops as [|op ops IH]; intros ws sf Hinv Hfit; [done|].
  apply Forall_cons in Hfit as [Hop Hfit]. cbn [sf_run w_outs w_hists].
  assert (sf_inv w init (w_hist ws op) (sf_step sf op).1 /\ (sf_step sf op).2 = w_out OPanic init ws op) as [H1 H2].
  { destruct Hinv as [Hwf Hsh]. destruct op as [v off|off|]; cbn [sf_step w_hist w_out].
    - split; [|done]. cbn [fst]. split; cbn [sf_write sf_wf sf_shadow].
      + apply wf_write_inv; done.
      + rewrite Hsh, insert_rec_write, arr_all_cons. done.
    - split; [done|]. cbn [snd]. unfold sf_read. rewrite Hsh, arr_all_lookup.
      destruct (arr_get 0 init ws off); done.
    - split; [done|]. destruct Hwf as (_ & _ & Hc & _). cbn [snd]. rewrite Hc. done. }
  destruct (sf_step sf op) as [sf1 o]. cbn [fst snd] in *.
  destruct (IH _ _ H1 Hfit) as [H3 H4]. destruct (sf_run sf1 ops) as [sf2 os]. cbn [fst snd] in *.
  subst. done.
Qed.

(** ** Hash file *)
Definition hf_inv (init : list (list Z)) (ws : list (nat * list Z)) (hf : hash_file) : Prop :=
  hf_data hf = concat (arr_all (replicate 32 0) init ws) /\ chunks 32 (arr_all (replicate 32 0) init ws) /\
  hf_count hf = arr_count init ws.

Lemma hf_write_inv init ws hf h off : length h = 32%nat -> hf_inv init ws hf ->
  hf_inv init ((off, h) :: ws) (hf_write hf h off).
Proof.
  intros Hh (Hd & Hch & Hc). unfold hf_inv, hf_write. cbn [hf_data hf_count].
  rewrite Hd, Hc, arr_all_cons, (chunks_write 32) by (done || lia).
  split_and!; try done. apply rec_write_chunks; done.
Qed.

Lemma hf_run_sim init ws hf ops : hf_inv init ws hf -> hash_ops ops ->
  hf_inv init (h_hists init ws ops) (hf_run hf ops).1 /\ (hf_run hf ops).2 = h_outs init ws ops.
Proof.
  revert ws hf. induction ops as [|op ops IH]; intros ws hf Hinv Hops; [done|].
  apply Forall_cons in Hops as [Hop Hops]. cbn [hf_run h_outs h_hists].
  assert (hf_inv init (h_hist init ws op) (hf_step hf op).1 /\ (hf_step hf op).2 = h_out init ws op) as [H1 H2].
  { pose proof Hinv as (Hd & Hch & Hc). destruct op as [h|off|h off|]; cbn [hf_step h_hist h_out].
    - unfold hf_append. cbn [fst snd]. rewrite Hc. split; [|done]. apply hf_write_inv; done.
    - split; [done|]. cbn [snd]. unfold hf_read.
      rewrite Hd, (chunks_read 32) by done. rewrite arr_all_lookup.
      destruct (arr_get _ init ws off) as [h|] eqn:E; cbn [default from_option id].
      + rewrite <- arr_all_lookup in E. eapply Forall_lookup_1 in Hch; eauto. cbn in Hch.
        destruct (decide _); [done|congruence].
      + done.
    - split; [|done]. cbn [fst]. apply hf_write_inv; done.
    - split; [done|]. cbn [snd]. rewrite Hc. done. }
  destruct (hf_step hf op) as [hf1 o]. cbn [fst snd] in *.
  destruct (IH _ _ H1 Hops) as [H3 H4]. destruct (hf_run hf1 ops) as [hf2 os]. cbn [fst snd] in *.
  subst. done.
Qed.
