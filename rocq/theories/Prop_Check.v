(** C96: the self-check of an index. *)
From Verif Require Import Base Model_Word Model_Bins Spec_Bins Proof_BinFiles Prop_Bins Model_Pass Spec_Pass Proof_Pass Proof_Index Prop_Pass Prop_Index Model_Check.

(** The hashes of a file of whole hashes *)
Definition hashes_in (data : list Z) : list (list Z) := to_entries (length data / 32) 32 data.
(** All of the file is delivered, no call of Read comes back empty before the end *)
Definition delivers (data : list Z) (reads : list (list Z)) : Prop := concat reads = data /\ Forall (fun c => c <> []) reads.
(** What is wrong at position [i] of an index made by the preloader: nothing at the first position of a hash; at
    later ones zeroes are read and the first position is found *)
Definition remarks (hs : list (list Z)) (i : nat) (h : list Z) : list complaint :=
  if decide (first_position h 0 hs = Z.of_nat i) then []
  else (if decide (h = replicate 32 0) then [] else [HashDiffers i]) ++ [FoundElsewhere i (first_position h 0 hs)].

Lemma to_entries_app n m w l l' : length l = (n * w)%nat -> to_entries (n + m) w (l ++ l') = to_entries n w l ++ to_entries m w l'.
Proof.
  revert l. induction n as [|n IH]; intros l Hl; cbn [plus to_entries app].
  - cbn [Nat.mul] in Hl. apply nil_length_inv in Hl as ->. done.
  - cbn [Nat.mul] in Hl. rewrite take_app_le, drop_app_le by lia. f_equal. apply IH. rewrite drop_length. lia.
Qed.

Lemma hashes_in_app l l' : (length l mod 32 = 0)%nat -> hashes_in (l ++ l') = hashes_in l ++ hashes_in l'.
Proof.
  intros Hm. unfold hashes_in. rewrite app_length.
  pose proof (Nat.div_mod (length l) 32 ltac:(lia)) as Hd. rewrite Hm in Hd. remember (length l / 32)%nat as q eqn:Eq. clear Eq.
  replace ((length l + length l') / 32)%nat with (q + length l' / 32)%nat.
  - apply to_entries_app. lia.
  - replace (length l + length l')%nat with (length l' + q * 32)%nat by lia. rewrite Nat.div_add by lia. lia.
Qed.
Lemma to_entries_length n w l : length (to_entries n w l) = n.
Proof. revert l. induction n as [|n IH]; intros l; cbn [to_entries length]; [done|]. by rewrite IH. Qed.

Section Facts.
  Context (p : params) (probe : Z -> Z -> Z -> Z -> Z -> Z) (s : hash_store3).

  Lemma test_hashes_app i hs hs' : test_hashes p probe s i (hs ++ hs') =
    (cs ← test_hashes p probe s i hs; ds ← test_hashes p probe s (i + length hs)%nat hs'; Some (cs ++ ds)).
  Proof.
    revert i. induction hs as [|h hs IH]; intros i; cbn [app test_hashes length].
    - rewrite Nat.add_0_r. cbn [mbind option_bind]. by destruct (test_hashes p probe s i hs').
    - rewrite IH. destruct (test_one p probe s i h); [|done]. cbn [mbind option_bind].
      destruct (test_hashes p probe s (S i) hs); [|done]. cbn [mbind option_bind].
      replace (S i + length hs)%nat with (i + S (length hs))%nat by lia.
      destruct (test_hashes p probe s (i + S (length hs)) hs'); [|done]. cbn [mbind option_bind]. by rewrite app_assoc.
  Qed.

  Lemma test_reads_hashes i reads : Forall (fun c => c <> []) reads -> Forall (fun c => length c mod 32 = 0)%nat reads ->
    test_reads p probe s i reads = test_hashes p probe s i (hashes_in (concat reads)) /\ (length (concat reads) mod 32 = 0)%nat.
  Proof.
    revert i. induction reads as [|c reads IH]; intros i Hne Hm; [done|].
    apply Forall_cons in Hne as [Hc Hne]. apply Forall_cons in Hm as [Hcm Hm].
    destruct (IH (i + length c / 32)%nat Hne Hm) as [IH1 IH2]. cbn [concat]. split.
    - rewrite hashes_in_app, test_hashes_app by done. cbn [test_reads]. destruct c as [|x c]; [done|].
      rewrite decide_True by done. assert (length (hashes_in (x :: c)) = length (x :: c) / 32)%nat as -> by apply to_entries_length.
      rewrite <- IH1. done.
    - rewrite app_length, Nat.add_mod, Hcm, IH2 by lia. done.
  Qed.

  Lemma test_reads_whole i reads cs : Forall (fun c => c <> []) reads -> test_reads p probe s i reads = Some cs ->
    Forall (fun c => length c mod 32 = 0)%nat reads.
  Proof.
    revert i cs. induction reads as [|c reads IH]; intros i cs Hne E; [done|].
    apply Forall_cons in Hne as [Hc Hne]. cbn [test_reads] in E. destruct c as [|x c]; [done|].
    destruct (decide _) as [Hm|]; [|done]. apply Forall_cons. split; [done|].
    destruct (test_hashes p probe s i _); [|done]. cbn [mbind option_bind] in E.
    destruct (test_reads p probe s (i + length (x :: c) / 32)%nat reads) eqn:E'; [|done]. by eapply IH.
  Qed.

  Lemma test_hashes_silent i hs : test_hashes p probe s i hs = Some [] ->
    forall k h, hs !! k = Some h -> h3_get p s (i + k)%nat = Some h /\ h3_index_of p probe s h = Some (Z.of_nat (i + k)).
  Proof.
    revert i. induction hs as [|x hs IH]; intros i E k h Hk; [done|]. cbn [test_hashes] in E.
    destruct (test_one p probe s i x) as [cs|] eqn:E1; [|done]. cbn [mbind option_bind] in E.
    destruct (test_hashes p probe s (S i) hs) as [ds|] eqn:E2; [|done]. cbn [mbind option_bind] in E.
    apply (inj Some) in E. apply app_nil in E as [-> ->].
    destruct k as [|k].
    - cbn in Hk. apply (inj Some) in Hk as <-. rewrite Nat.add_0_r. unfold test_one in E1.
      destruct (h3_get p s i) as [found|]; [|done]. cbn [mbind option_bind] in E1.
      destruct (h3_index_of p probe s x) as [j|]; [|done]. cbn [mbind option_bind] in E1. cbv zeta in E1.
      destruct (decide (found = x)) as [->|]; destruct (decide (j = -1)) as [|]; try done;
        destruct (decide (j = Z.of_nat i)) as [->|]; try done.
    - replace (i + S k)%nat with (S i + k)%nat by lia. by apply IH.
  Qed.

  (** a store that answers as the preloader's index of [all] does *)
  Lemma test_hashes_answers all i hs :
    (forall k h, hs !! k = Some h -> all !! (i + k)%nat = Some h) -> Forall (fun h => length h = 32%nat /\ bytes h) all ->
    (forall h, length h = 32%nat -> bytes h -> h3_index_of p probe s h = Some (first_position h 0 all)) ->
    (forall i h, all !! i = Some h -> h3_get p s i = Some (if decide (first_position h 0 all = Z.of_nat i) then h else replicate 32 0)) ->
    test_hashes p probe s i hs = Some (concat (imap (fun k h => remarks all (i + k) h) hs)).
  Proof.
    intros Hin Hok Hidx Hget. revert i Hin. induction hs as [|x hs IH]; intros i Hin; [done|].
    pose proof (Hin 0%nat x eq_refl) as Hx. rewrite Nat.add_0_r in Hx.
    pose proof (proj1 (Forall_forall _ _) Hok x (elem_of_list_lookup_2 _ _ _ Hx)) as [Hl Hb].
    cbn [test_hashes imap concat]. rewrite Nat.add_0_r, (IH (S i)).
    2:{ intros k h Hk. replace (S i + k)%nat with (i + S k)%nat by lia. by apply Hin. }
    assert (test_one p probe s i x = Some (remarks all i x)) as ->.
    { unfold test_one, remarks. rewrite (Hget i x Hx), (Hidx x Hl Hb). cbn [mbind option_bind]. cbv zeta.
      assert (first_position x 0 all <> -1) as Hne.
      { destruct (first_position_some x 0 all (elem_of_list_lookup_2 _ _ _ Hx)) as (j & -> & _). lia. }
      rewrite (decide_False (P := first_position x 0 all = -1)) by done.
      destruct (decide (first_position x 0 all = Z.of_nat i)) as [_|Hd].
      - by rewrite (decide_True (P := x = x)).
      - destruct (decide (replicate 32 0 = x)) as [E|E]; [rewrite (decide_True (P := x = _)) by done|rewrite (decide_False (P := x = _)) by congruence]; done. }
    cbn [mbind option_bind]. do 3 f_equal. apply imap_ext. intros k h _. cbn. f_equal. lia.
  Qed.
End Facts.

Lemma file_reads_delivers fuel data : (length data <= fuel)%nat -> delivers data (file_reads fuel data).
Proof.
  revert data. induction fuel as [|fuel IH]; intros data Hf; cbn [file_reads].
  - destruct data; [|cbn in Hf; lia]. split; [done|constructor].
  - destruct data as [|x data]; [split; [done|constructor]|].
    destruct (IH (drop check_chunk (x :: data))) as [IH1 IH2].
    { rewrite drop_length. unfold check_chunk. cbn [length] in Hf |- *. lia. }
    split; [cbn [concat]; rewrite IH1; apply take_drop|]. apply Forall_cons. split; [|done]. unfold check_chunk. done.
Qed.
Lemma file_reads_whole fuel data : (length data mod 32 = 0)%nat -> Forall (fun c => length c mod 32 = 0)%nat (file_reads fuel data).
Proof.
  revert data. induction fuel as [|fuel IH]; intros data Hm; cbn [file_reads]; [done|]. destruct data as [|x data]; [done|].
  set (d := x :: data) in *. assert (check_chunk = 32 * 128)%nat as Hc by reflexivity.
  pose proof (Nat.div_mod (length d) 32 ltac:(lia)) as Hd. rewrite Hm in Hd.
  apply Forall_cons. split.
  - rewrite take_length. destruct (Nat.min_spec check_chunk (length d)) as [[_ ->]|[_ ->]]; [|done].
    rewrite Hc. rewrite Nat.mul_comm. by apply Nat.mod_mul.
  - apply IH. rewrite drop_length, Hc. rewrite Hd. rewrite Nat.add_0_r, <- Nat.mul_sub_distr_l, Nat.mul_comm. by apply Nat.mod_mul.
Qed.

(** C96. Silence means right: whatever the files, however Hashes.hsh is delivered, a check that goes through the whole
    file and ends without error and without a printed remark shows that every hash of the file is given back at its
    position and found at its position. *)
Theorem C96_silence_means_right :
  forall p probe nums f data reads, delivers data reads -> test_the_hashes p probe nums f reads = Some [] ->
  (length data mod 32 = 0)%nat /\
  exists s, h3_open p nums f false = Some s /\
    forall i h, hashes_in data !! i = Some h -> h3_get p s i = Some h /\ h3_index_of p probe s h = Some (Z.of_nat i).
Proof.
  intros p probe nums f data reads [<- Hne] E. unfold test_the_hashes in E.
  destruct (h3_open p nums f false) as [s|]; [|done]. cbn [mbind option_bind] in E.
  pose proof (test_reads_whole p probe s 0 reads [] Hne E) as Hw.
  destruct (test_reads_hashes p probe s 0 reads Hne Hw) as [E' Hm]. split; [done|]. exists s. split; [done|].
  rewrite E' in E. apply (test_hashes_silent p probe s 0 _ E).
Qed.

(** C96. An index made by the preloader passes its check, and the remarks printed are about repeated hashes only. *)
Theorem C96_finished_index_passes :
  forall p probe srt hs threads bytes_per_pass nums f,
    probe_ok probe -> sorts p srt -> settings_ok p -> hash_list_ok p hs -> no_collisions hs -> first_hash_visible p hs ->
    (0 < threads)%nat -> 0 <= bytes_per_pass -> preload p srt hs threads bytes_per_pass nums f ->
    test_the_hashes p probe nums f (file_reads (length (concat hs)) (concat hs)) = Some (concat (imap (remarks hs) hs)) /\
    (NoDup hs -> concat (imap (remarks hs) hs) = []).
Proof.
  intros p probe srt hs threads bpp nums f Hp Hs Hset Hl Hc Hv Ht Hb Hpre.
  destruct (open_store p probe srt hs Hp Hs Hset Hl Hc Hv threads bpp nums f false Ht Hb Hpre) as (s & H1 & H2 & H3 & H4 & H5).
  assert (chunks 32 hs) as Hch by (eapply Forall_impl; [apply Hl|]; cbn; tauto).
  pose proof (chunks_concat_length 32 hs Hch) as Hlen.
  assert (length (concat hs) mod 32 = 0)%nat as Hm by (rewrite Hlen; apply Nat.mod_mul; lia).
  split.
  - unfold test_the_hashes. rewrite H1. cbn [mbind option_bind].
    destruct (file_reads_delivers (length (concat hs)) (concat hs) ltac:(lia)) as [Hd1 Hd2].
    destruct (test_reads_hashes p probe s 0 _ Hd2 (file_reads_whole _ _ Hm)) as [-> _]. rewrite Hd1.
    assert (hashes_in (concat hs) = hs) as ->.
    { unfold hashes_in. rewrite Hlen, Nat.div_mul by lia. by apply to_entries_concat. }
    rewrite (test_hashes_answers p probe s hs 0 hs); [done|done|apply Hl|done|done].
  - intros Hnd. assert (Forall (fun c => c = []) (imap (remarks hs) hs)) as Hall.
    { apply Forall_lookup. intros i c Hi. rewrite list_lookup_imap in Hi. destruct (hs !! i) as [h|] eqn:Eh; [|done].
      cbn in Hi. apply (inj Some) in Hi as <-. unfold remarks. rewrite decide_True; [done|].
      destruct (first_position_some h 0 hs (elem_of_list_lookup_2 _ _ _ Eh)) as (j & -> & Hj & _).
      cbn [plus]. f_equal. by eapply NoDup_lookup. }
    induction Hall as [|c l -> _ IH]; [done|]. by cbn [concat app].
Qed.

(** C96. ... but a check without error does not show that the index is right: with any repeated hash the check
    succeeds although that position does not give the hash back (unless it is all zeroes) and is not where the hash is
    found. *)
Theorem C96_success_means_right_refuted :
  forall p probe srt hs threads bytes_per_pass nums f i j h,
    probe_ok probe -> sorts p srt -> settings_ok p -> hash_list_ok p hs -> no_collisions hs -> first_hash_visible p hs ->
    (0 < threads)%nat -> 0 <= bytes_per_pass -> preload p srt hs threads bytes_per_pass nums f ->
    (i < j)%nat -> hs !! i = Some h -> hs !! j = Some h -> h <> replicate 32 0 ->
    exists cs s, test_the_hashes p probe nums f (file_reads (length (concat hs)) (concat hs)) = Some cs /\
      h3_open p nums f false = Some s /\ h3_get p s j <> Some h /\ h3_index_of p probe s h <> Some (Z.of_nat j).
Proof.
  intros p probe srt hs threads bpp nums f i j h Hp Hs Hset Hl Hc Hv Ht Hb Hpre Hij Hi Hj Hz.
  destruct (C96_finished_index_passes p probe srt hs threads bpp nums f Hp Hs Hset Hl Hc Hv Ht Hb Hpre) as [E _].
  destruct (open_store p probe srt hs Hp Hs Hset Hl Hc Hv threads bpp nums f false Ht Hb Hpre) as (s & H1 & H2 & H3 & H4 & H5).
  exists (concat (imap (remarks hs) hs)), s. split; [done|]. split; [done|].
  pose proof (proj1 (Forall_forall _ _) (proj1 Hl) h (elem_of_list_lookup_2 _ _ _ Hi)) as [Hlen Hby].
  rewrite (H4 j h Hj), (H3 h Hlen Hby).
  destruct (first_position_some h 0 hs (elem_of_list_lookup_2 _ _ _ Hi)) as (j0 & -> & _ & Hmin). pose proof (Hmin i Hi). cbn [plus].
  rewrite decide_False by lia. split; [congruence|]. intros E'. apply (inj Some) in E'. lia.
Qed.

(** C96. A Read that fails ends the check with success: the index below has lost a hash, which a check of the whole
    file reports, and the check succeeds silently when the first Read fails. *)
Theorem C96_read_error_goes_unnoticed_refuted :
  exists p hs h, p = ex_params /\ hash_list_ok p hs /\ h ∈ hs /\
    (forall srt, sorts p srt -> exists nums f, preload p srt hs 3 1400000 nums f) /\
    forall probe srt nums f, probe_ok probe -> sorts p srt -> preload p srt hs 3 1400000 nums f ->
      (exists s, h3_open p nums f false = Some s /\ h3_index_of p probe s h = Some (-1)) /\
      (forall reads, delivers (concat hs) reads -> test_the_hashes p probe nums f reads <> Some []) /\
      test_the_hashes p probe nums f [] = Some [].
Proof.
  destruct C51_near_hashes_lost_refuted as (p & hs & h & Ep & Hl & Hv & Hin & Hex & Hlost).
  exists p, hs, h. split; [done|]. split; [done|]. split; [done|]. split; [done|].
  intros probe srt nums f Hp Hs Hpre. destruct (Hlost probe srt nums f false Hp Hs Hpre) as (s & Ho & Hi).
  split; [by exists s|]. split.
  - intros reads Hd E. destruct (C96_silence_means_right p probe nums f (concat hs) reads Hd E) as (_ & s' & Ho' & Hall).
    rewrite Ho in Ho'. apply (inj Some) in Ho' as <-.
    assert (hashes_in (concat hs) = hs) as Eh.
    { assert (chunks 32 hs) as Hch by (eapply Forall_impl; [apply Hl|]; cbn; tauto).
      unfold hashes_in. rewrite (chunks_concat_length 32 hs Hch), Nat.div_mul by lia. by apply to_entries_concat. }
    rewrite Eh in Hall. apply elem_of_list_lookup in Hin as [i Hi']. destruct (Hall i h Hi') as [_ E']. rewrite Hi in E'.
    apply (inj Some) in E'. lia.
  - unfold test_the_hashes. by rewrite Ho.
Qed.

(** The list of the example of C51 has a repeated hash: an index exists, the check prints two remarks and succeeds. *)
Example C96_example :
  let hs := [ex_hash 255 1; ex_hash 0 2; ex_hash 0 2; ex_hash 9 4] in
  exists nums f, preload ex_params (isort ex_params) hs 3 1400000 nums f /\
    forall probe, probe_ok probe ->
      test_the_hashes ex_params probe nums f (file_reads (length (concat hs)) (concat hs)) = Some [HashDiffers 2; FoundElsewhere 2 1].
Proof.
  cbn zeta. destruct C51_example as [_ (Hl & Hc & Hv & nums & f & Hpre)]. exists nums, f. split; [done|]. intros probe Hp.
  destruct (C96_finished_index_passes ex_params probe (isort ex_params) _ 3 1400000 nums f Hp (isort_sorts ex_params) ex_settings_ok Hl Hc Hv
    ltac:(lia) ltac:(lia) Hpre) as [-> _].
  vm_compute. reflexivity.
Qed.

Print Assumptions C96_silence_means_right.
Print Assumptions C96_finished_index_passes.
Print Assumptions C96_success_means_right_refuted.
Print Assumptions C96_read_error_goes_unnoticed_refuted.
