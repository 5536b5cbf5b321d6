(** Property C51: the hash index of indexedhashes3 from the hash file to the answers. *)
From Verif Require Import Base Model_Word Spec_Word Proof_Word Model_Bins Spec_Bins Proof_Bins Proof_BinFiles Prop_Bins Model_Pass Spec_Pass Proof_Pass Proof_Index Proof_Plan Prop_Pass.

Lemma bin_room_ok p : 2 <= p_bins p <= 2 ^ 56 -> p_bins p <= pow256 (bin_room p) /\ (0 < bin_room p < 8)%nat.
Proof.
  intros Hb. unfold bin_room.
  assert (7%nat ∈ filter (fun n => p_bins p <= pow256 n) (seq 0 8)) as H7.
  { apply elem_of_list_filter. split; [change (pow256 7) with (2 ^ 56); lia|]. apply elem_of_seq. lia. }
  destruct (filter (fun n => p_bins p <= pow256 n) (seq 0 8)) as [|n l] eqn:E; [by apply elem_of_nil in H7|].
  cbn [head default from_option]. unfold id.
  assert (n ∈ filter (fun n => p_bins p <= pow256 n) (seq 0 8)) as Hn by (rewrite E; by left).
  apply elem_of_list_filter in Hn as [Hn1 Hn2]. apply elem_of_seq in Hn2. split; [done|]. split; [|lia].
  destruct n; [rewrite pow256_0 in Hn1; lia|lia].
Qed.

(** A run of the multi-pass preloader from fresh files: the contents of BinNums and the other files. *)
Definition preload (p : params) (srt : bin -> bin) (hs : list (list Z)) (threads : nat) (bytes_per_pass : Z)
    (nums : list Z) (f : bin_files) : Prop :=
  exists rs ns, pass_ranges p bytes_per_pass = Some rs /\
    multipass p srt hs threads rs (initial_files p ∅) [] f ns /\ nums = word_bytes (bin_room p) ns.

Section Main.
  Context (p : params) (probe : Z -> Z -> Z -> Z -> Z -> Z) (srt : bin -> bin) (hs : list (list Z)).
  Context (Hprobe : probe_ok probe) (Hsrt : sorts p srt) (Hset : settings_ok p) (Hlist : hash_list_ok p hs).
  Context (Hcol : no_collisions hs) (Hvis : first_hash_visible p hs).

  Lemma bins_storable : forall k b, entries_ok p b -> contents p b = hashes_of p whole_slot k 0 hs -> storable p (sort_dedup srt b).
  Proof using Hsrt Hset Hlist Hvis.
    intros k b He Hc. split; [by eapply sorted_ok|]. by eapply sorted_visible.
  Qed.

  Lemma preload_result threads bytes_per_pass nums f : (0 < threads)%nat -> 0 <= bytes_per_pass ->
    preload p srt hs threads bytes_per_pass nums f ->
    exists raw, length raw = Z.to_nat (p_bins p) /\ raw_bins p hs raw /\ files_hold p f (sort_dedup srt <$> raw) /\
      nums = word_bytes (bin_room p) ((fun h => bin_num p (abbreviated h)) <$> hs).
  Proof using Hsrt Hset Hlist Hvis.
    intros Hthr Hb (rs & ns & Hrs & Hm & ->). pose proof (set_bins p Hset) as Hbins.
    assert (0 <= p_estimate p) as Hest by apply Hset. assert (1 <= p_digits p)%nat as Hd by apply Hset.
    destruct (pass_ranges_chain p bytes_per_pass rs Hb ltac:(lia) Hest Hrs) as [Hch Hne].
    destruct (multipass_result p srt hs threads Hthr Hd ltac:(lia) (list_fits p hs Hset Hlist) (list_range p hs Hset Hlist)
      bins_storable rs (initial_files p ∅) [] f ns 0 [] Hm Hch ltac:(lia) eq_refl) as (raw & H1 & H2 & H3 & H4).
    - intros k b Hk. done.
    - cbn [fmap list_fmap app]. rewrite Z.sub_0_r. apply files_hold_initial.
    - done.
    - lia.
    - exists raw. rewrite H4. done.
  Qed.

  Lemma preload_exists threads bytes_per_pass rs : (0 < threads)%nat -> 0 <= bytes_per_pass -> pass_ranges p bytes_per_pass = Some rs ->
    exists nums f, preload p srt hs threads bytes_per_pass nums f.
  Proof using Hsrt Hset Hlist Hvis.
    intros Hthr Hb Hrs. pose proof (set_bins p Hset) as Hbins.
    assert (0 <= p_estimate p) as Hest by apply Hset. assert (1 <= p_digits p)%nat as Hd by apply Hset.
    destruct (pass_ranges_chain p bytes_per_pass rs Hb ltac:(lia) Hest Hrs) as [Hch Hne].
    destruct (multipass_exists p srt hs threads Hthr Hd ltac:(lia) (list_fits p hs Hset Hlist) (list_range p hs Hset Hlist)
      bins_storable rs (initial_files p ∅) [] 0 (replicate (Z.to_nat (p_bins p)) []) Hch ltac:(lia)) as (f & ns & Hm).
    - apply replicate_length.
    - apply files_hold_initial.
    - rewrite replicate_length. intros k _ Hk. by apply lookup_replicate_2.
    - exists (word_bytes (bin_room p) ns), f, rs, ns. done.
  Qed.

  (** a store on files that hold the sorted bins *)
  Lemma open_bins raw f in_ram : length raw = Z.to_nat (p_bins p) -> raw_bins p hs raw -> files_hold p f (sort_dedup srt <$> raw) ->
    exists s, h3_open p (word_bytes (bin_room p) ((fun h => bin_num p (abbreviated h)) <$> hs)) f in_ram = Some s /\ h3_count s = length hs /\
      (forall h, length h = 32%nat -> bytes h -> h3_index_of p probe s h = Some (first_position h 0 hs)) /\
      (forall i h, hs !! i = Some h ->
         h3_get p s i = Some (if decide (first_position h 0 hs = Z.of_nat i) then h else replicate 32 0)) /\
      (forall i, (length hs <= i)%nat -> h3_get p s i = None).
  Proof using Hprobe Hsrt Hset Hlist Hcol.
    intros Hlen Hraw Hf.
    set (ns := (fun h => bin_num p (abbreviated h)) <$> hs).
    pose proof (set_bins p Hset) as Hbins. destruct (bin_room_ok p Hbins) as [Hroom1 Hroom2].
    assert (1 <= p_digits p)%nat as Hd by apply Hset.
    assert (Z.of_nat (length (sort_dedup srt <$> raw)) <= 2 ^ 63) as Hl63 by (rewrite fmap_length; lia).
    assert (Forall (fits (bin_room p)) ns) as Hfits.
    { apply Forall_fmap, Forall_forall. intros h Hh. pose proof (list_range p hs Hset Hlist h Hh). cbn. unfold fits.
      rewrite decide_False by lia. lia. }
    assert (forall bn, 0 <= bn < p_bins p -> exists b, raw !! Z.to_nat bn = Some b /\ load_bin p f bn = Some (sort_dedup srt b)) as Hload.
    { intros bn Hbn. destruct (lookup_lt_is_Some_2 raw (Z.to_nat bn)) as [b Hbk]; [lia|]. exists b. split; [done|].
      rewrite <- (Z2Nat.id bn) by lia. eapply files_hold_load; [done|done|exact Hf|]. by rewrite list_lookup_fmap, Hbk. }
    assert (load_all p f (Z.to_nat (p_bins p)) 0 0 = Some (sort_dedup srt <$> raw)) as Hall.
    { rewrite <- Hlen. rewrite <- (fmap_length (sort_dedup srt) raw). by apply files_hold_load_all. }
    set (wf := wf_new (word_bytes (bin_room p) ns) (bin_room p) (length ns)).
    assert (wf_inv (bin_room p) ns [] wf) as Hinv by (apply wf_new_inv; [lia|done]).
    exists (mk_hs3 wf f (if in_ram then Some (sort_dedup srt <$> raw) else None)).
    split; [|split; [|split; [|split]]].
    - unfold h3_open. rewrite wf_open_words by lia. cbn [mbind option_bind]. destruct in_ram; [|done]. by rewrite Hall.
    - unfold h3_count. cbn [h3_nums]. unfold wf, wf_new. cbn [wf_count]. unfold ns. by rewrite fmap_length.
    - intros h Hl Hby. destruct (abbr_ok p Hset h Hl Hby) as (Hbn & _ & _).
      destruct (Hload _ Hbn) as (b & Hbk & Hlb). destruct (Hraw _ _ Hbk) as [He Hc].
      unfold h3_index_of. cbn [h3_ram h3_files].
      assert (lookup_by_hash p probe (sort_dedup srt b) (truncated h) (sort_num p (abbreviated h)) = Some (first_position h 0 hs)) as E.
      { eapply (bin_index_of p probe srt hs Hprobe Hsrt Hset Hlist Hcol); [exact He|exact Hc|done|done|lia]. }
      destruct in_ram.
      + rewrite list_lookup_fmap, Hbk. cbn [fmap option_fmap option_map mbind option_bind]. done.
      + rewrite Hlb. cbn [mbind option_bind]. done.
    - intros i h Hi. unfold h3_get. cbn [h3_nums h3_files].
      pose proof (wf_read_inv (bin_room p) ns [] wf i ltac:(lia) Hinv) as [_ Hr].
      rewrite <- arr_all_lookup, arr_all_nil in Hr. unfold ns in Hr. rewrite list_lookup_fmap, Hi in Hr. cbn [fmap option_fmap option_map] in Hr.
      destruct (wf_read wf i) as [wf' r]. cbn [snd] in Hr. subst r.
      pose proof (list_range p hs Hset Hlist h (elem_of_list_lookup_2 _ _ _ Hi)) as Hbn.
      destruct (Hload _ Hbn) as (b & Hbk & Hlb). destruct (Hraw _ _ Hbk) as [He Hc]. rewrite Hlb. cbn [mbind option_bind]. f_equal.
      rewrite <- (Z2Nat.id (bin_num p (abbreviated h))) by lia.
      eapply (bin_get p srt hs Hsrt Hset Hlist Hcol); [exact He|exact Hc|done|lia].
    - intros i Hi. unfold h3_get. cbn [h3_nums h3_files].
      pose proof (wf_read_inv (bin_room p) ns [] wf i ltac:(lia) Hinv) as [_ Hr].
      rewrite <- arr_all_lookup, arr_all_nil in Hr. rewrite lookup_ge_None_2 in Hr by (unfold ns; by rewrite fmap_length).
      destruct (wf_read wf i) as [wf' r]. cbn [snd] in Hr. by subst r.
  Qed.

  Lemma open_store threads bytes_per_pass nums f in_ram : (0 < threads)%nat -> 0 <= bytes_per_pass ->
    preload p srt hs threads bytes_per_pass nums f ->
    exists s, h3_open p nums f in_ram = Some s /\ h3_count s = length hs /\
      (forall h, length h = 32%nat -> bytes h -> h3_index_of p probe s h = Some (first_position h 0 hs)) /\
      (forall i h, hs !! i = Some h ->
         h3_get p s i = Some (if decide (first_position h 0 hs = Z.of_nat i) then h else replicate 32 0)) /\
      (forall i, (length hs <= i)%nat -> h3_get p s i = None).
  Proof using All.
    intros Hthr Hb Hpre. destruct (preload_result threads bytes_per_pass nums f Hthr Hb Hpre) as (raw & Hlen & Hraw & Hf & ->).
    by apply (open_bins raw).
  Qed.
End Main.

(** C51. After indexing a hash file in any number of passes, with any number of workers and any schedule, the
    opened index (bins in memory or not) counts the hashes, finds every hash at its first position, reports -1
    for every other hash, gives back every hash at its first position, and refuses positions past the end.
    [no_collisions]: different hashes differ in the first 8 and in the last 24 bytes; [first_hash_visible]: the
    first hash is not stored as an entry of zeroes.  Both are needed, see below. *)
Theorem C51_index_answers_partial :
  forall p probe srt hs threads bytes_per_pass nums f in_ram,
    probe_ok probe -> sorts p srt -> settings_ok p -> hash_list_ok p hs -> no_collisions hs -> first_hash_visible p hs ->
    (0 < threads)%nat -> 0 <= bytes_per_pass -> preload p srt hs threads bytes_per_pass nums f ->
    exists s, h3_open p nums f in_ram = Some s /\ h3_count s = length hs /\
      (forall h, length h = 32%nat -> bytes h -> h3_index_of p probe s h = Some (first_position h 0 hs)) /\
      (forall i h, hs !! i = Some h -> first_position h 0 hs = Z.of_nat i -> h3_get p s i = Some h) /\
      (forall i, (length hs <= i)%nat -> h3_get p s i = None).
Proof.
  intros p probe srt hs threads bpp nums f in_ram Hp Hs Hset Hl Hc Hv Ht Hb Hpre.
  destruct (open_store p probe srt hs Hp Hs Hset Hl Hc Hv threads bpp nums f in_ram Ht Hb Hpre) as (s & H1 & H2 & H3 & H4 & H5).
  exists s. split; [done|]. split; [done|]. split; [done|]. split; [|done].
  intros i h Hi E. rewrite (H4 i h Hi). by rewrite decide_True.
Qed.

(** C51. A run exists for every allowance that holds one bin. *)
Theorem C51_runs_exist :
  forall p srt hs threads bytes_per_pass rs, sorts p srt -> settings_ok p -> hash_list_ok p hs -> first_hash_visible p hs ->
    (0 < threads)%nat -> 0 <= bytes_per_pass -> pass_ranges p bytes_per_pass = Some rs ->
    exists nums f, preload p srt hs threads bytes_per_pass nums f.
Proof. intros p srt hs threads bpp rs Hs Hset Hl Hv Ht Hb Hrs. by eapply preload_exists. Qed.

(** C51. Reading the position of a repeated hash gives zeroes, not the hash. *)
Theorem C51_repeated_hash_reads_zeroes_refuted :
  forall p probe srt hs threads bytes_per_pass nums f in_ram i j h,
    probe_ok probe -> sorts p srt -> settings_ok p -> hash_list_ok p hs -> no_collisions hs -> first_hash_visible p hs ->
    (0 < threads)%nat -> 0 <= bytes_per_pass -> preload p srt hs threads bytes_per_pass nums f ->
    (i < j)%nat -> hs !! i = Some h -> hs !! j = Some h ->
    exists s, h3_open p nums f in_ram = Some s /\ h3_get p s j = Some (replicate 32 0).
Proof.
  intros p probe srt hs threads bpp nums f in_ram i j h Hp Hs Hset Hl Hc Hv Ht Hb Hpre Hij Hi Hj.
  destruct (open_store p probe srt hs Hp Hs Hset Hl Hc Hv threads bpp nums f in_ram Ht Hb Hpre) as (s & H1 & H2 & H3 & H4 & H5).
  exists s. split; [done|]. rewrite (H4 j h Hj). rewrite decide_False; [done|].
  destruct (first_position_some h 0 hs (elem_of_list_lookup_2 _ _ _ Hi)) as (j0 & -> & _ & Hmin). pose proof (Hmin i Hi). lia.
Qed.

Lemma shipped_settings_ok p : p ∈ shipped -> settings_ok p.
Proof.
  intros Hp. pose proof (C17_shipped_settings_fit p Hp) as (_ & _ & _ & H1 & H2 & H3 & _).
  split; [|split; [done|split; [done|split; [done|]]]].
  - unfold shipped in Hp. repeat (apply elem_of_cons in Hp as [->|Hp]); [..|by apply elem_of_nil in Hp];
      [exists 24|exists 24|exists 16|exists 16|exists 16|exists 8]; (split; [lia|reflexivity]).
  - unfold shipped in Hp. repeat (apply elem_of_cons in Hp as [->|Hp]); [..|by apply elem_of_nil in Hp]; cbn; lia.
Qed.

Lemma ex_no_collisions : no_collisions [ex_hash 255 1; ex_hash 0 2; ex_hash 0 2; ex_hash 9 4].
Proof.
  intros h h' H H'.
  repeat (apply elem_of_cons in H as [->|H]); [..|by apply elem_of_nil in H];
    repeat (apply elem_of_cons in H' as [->|H']); try (by apply elem_of_nil in H'); try done;
    intros [E|E]; exfalso; vm_compute in E; congruence.
Qed.

(** The shipped settings are covered, and a list with a repeated hash meets the hypotheses. *)
Example C51_example : (forall p, p ∈ shipped -> settings_ok p) /\
  let hs := [ex_hash 255 1; ex_hash 0 2; ex_hash 0 2; ex_hash 9 4] in
  hash_list_ok ex_params hs /\ no_collisions hs /\ first_hash_visible ex_params hs /\
  (exists nums f, preload ex_params (isort ex_params) hs 3 1400000 nums f).
Proof.
  split; [apply shipped_settings_ok|]. cbn zeta.
  assert (hash_list_ok ex_params [ex_hash 255 1; ex_hash 0 2; ex_hash 0 2; ex_hash 9 4]) as Hl.
  { split; [|split; vm_compute; congruence]. rewrite !Forall_cons. repeat split; try apply ex_hash_ok; lia || constructor. }
  assert (first_hash_visible ex_params [ex_hash 255 1; ex_hash 0 2; ex_hash 0 2; ex_hash 9 4]) as Hv.
  { intros h [= <-] [H _]. rewrite Forall_forall in H. specialize (H 1). enough (1 = 0) by lia. apply H. vm_compute.
    repeat (left || right). }
  split; [done|]. split; [apply ex_no_collisions|]. split; [done|].
  eapply C51_runs_exist; [apply isort_sorts|apply ex_settings_ok|done|done|lia|lia|]. vm_compute. reflexivity.
Qed.

(** C51. Two hashes that differ only in their first 8 bytes and fall next to each other in a bin: the second one
    is in the file but not in the index, whatever the schedule. *)
Definition ex_near (a : Z) : list Z := [a; 0; 0; 0; 0; 0; 0; 0] ++ replicate 23 0 ++ [5].
Lemma ex_near_ok : hash_list_ok ex_params [ex_near 0; ex_near 1].
Proof.
  split; [|split; vm_compute; congruence].
  rewrite !Forall_cons. repeat split; try (repeat (apply Forall_app; split); repeat constructor; lia); constructor.
Qed.
Lemma ex_near_visible : first_hash_visible ex_params [ex_near 0; ex_near 1].
Proof.
  intros h [= <-] [H _]. rewrite Forall_forall in H. specialize (H 5). enough (5 = 0) by lia. apply H. vm_compute.
  repeat (left || right).
Qed.

Theorem C51_near_hashes_lost_refuted :
  exists p hs h, p = ex_params /\ hash_list_ok p hs /\ first_hash_visible p hs /\ h ∈ hs /\
    (forall srt, sorts p srt -> exists nums f, preload p srt hs 3 1400000 nums f) /\
    forall probe srt nums f in_ram, probe_ok probe -> sorts p srt -> preload p srt hs 3 1400000 nums f ->
      exists s, h3_open p nums f in_ram = Some s /\ h3_index_of p probe s h = Some (-1).
Proof.
  set (hs := [ex_near 0; ex_near 1]). exists ex_params, hs, (ex_near 1).
  pose proof ex_near_ok as Hl. fold hs in Hl. pose proof ex_near_visible as Hv. fold hs in Hv. pose proof ex_settings_ok as Hset.
  split; [done|]. split; [done|]. split; [done|]. split; [right; left|]. split.
  - intros srt Hs. eapply C51_runs_exist; [done|done|done|done|lia|lia|]. vm_compute. reflexivity.
  - intros probe srt nums f in_ram Hp Hs Hpre.
    destruct (preload_result ex_params srt hs Hs Hset Hl Hv 3 1400000 nums f ltac:(lia) ltac:(lia) Hpre) as (raw & Hlen & Hraw & Hf & ->).
    set (ns := (fun h => bin_num ex_params (abbreviated h)) <$> hs).
    pose proof (set_bins ex_params Hset) as Hbins. destruct (bin_room_ok ex_params Hbins) as [_ Hroom2].
    assert (Z.of_nat (length (sort_dedup srt <$> raw)) <= 2 ^ 63) as Hl63 by (rewrite fmap_length; lia).
    destruct (lookup_lt_is_Some_2 raw 0) as [b Hb]; [rewrite Hlen; cbn; lia|]. destruct (Hraw _ _ Hb) as [He Hc].
    assert (hashes_of ex_params whole_slot 0 0 hs = [(replicate 23 0 ++ [5], 0, 0); (replicate 23 0 ++ [5], 1, 1)]) as Eh by (vm_compute; reflexivity).
    rewrite Eh in Hc. destruct b as [|e0 [|e1 [|e2 b]]]; try discriminate Hc. injection Hc as A1 A2 A3 B1 B2 B3.
    assert (sort_dedup srt [e0; e1] = [e0]) as Es.
    { destruct (sort_dedup_perm ex_params srt [e0; e1] Hs) as (l & Hpm & Hst & ->).
      assert (l = [e0; e1]) as ->.
      { destruct l as [|x [|y [|z l]]]; try (apply Permutation_length in Hpm; cbn in Hpm; lia).
        apply Permutation_length_2 in Hpm as [[-> ->]|[-> ->]]; [done|]. exfalso.
        inversion Hst as [|? ? _ Hle]; subst. apply Forall_cons in Hle as [Hle _]. unfold entry_le in Hle. lia. }
      cbn [dedup_from]. rewrite decide_True by congruence. done. }
    set (s := mk_hs3 (wf_new (word_bytes (bin_room ex_params) ns) (bin_room ex_params) (length ns)) f
      (if in_ram then Some (sort_dedup srt <$> raw) else None)).
    exists s. split.
    + unfold h3_open. rewrite wf_open_words by lia. cbn [mbind option_bind]. destruct in_ram; [|done].
      replace (Z.to_nat (p_bins ex_params)) with (length (sort_dedup srt <$> raw)) by (by rewrite fmap_length).
      rewrite files_hold_load_all with (bins := sort_dedup srt <$> raw); [done|cbn; lia|done|done].
    + assert ((sort_dedup srt <$> raw) !! 0%nat = Some [e0]) as E0.
      { rewrite list_lookup_fmap, Hb. cbn [fmap option_fmap option_map]. by rewrite Es. }
      assert (searchable ex_params [e0]) as Hse.
      { split; [cbn; lia|]. split; [apply Forall_cons in He as [He _]; by apply Forall_singleton|]. split; [repeat constructor|cbn; lia]. }
      assert (lookup_by_hash ex_params probe [e0] (truncated (ex_near 1)) (sort_num ex_params (abbreviated (ex_near 1))) = Some (-1)) as El.
      { assert (sort_num ex_params (abbreviated (ex_near 1)) = 1) as -> by (vm_compute; reflexivity).
        apply C19_absent_hash_not_found; [done|done|lia|]. intros (e & Hin & _ & E). apply elem_of_list_singleton in Hin as ->. lia. }
      unfold h3_index_of. assert (bin_num ex_params (abbreviated (ex_near 1)) = 0) as -> by (vm_compute; reflexivity).
      unfold s. cbn [h3_ram h3_files]. destruct in_ram.
      * change (Z.to_nat 0) with 0%nat. rewrite E0. cbn [mbind option_bind]. done.
      * change 0 with (Z.of_nat 0) at 1. rewrite (files_hold_load ex_params f (sort_dedup srt <$> raw) 0 [e0]); [|cbn; lia|done|done|done]. cbn [mbind option_bind]. done.
Qed.

Print Assumptions C51_index_answers_partial.
Print Assumptions C51_runs_exist.
Print Assumptions C51_repeated_hash_reads_zeroes_refuted.
Print Assumptions C51_near_hashes_lost_refuted.
