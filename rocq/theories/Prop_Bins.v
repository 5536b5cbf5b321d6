(** Properties C17-C21: the bins of the hash index (indexedhashes3). *)
From Coq Require Import Sorting.Sorted.
From Verif Require Import Base Model_Word Model_Folders Model_MapStore Model_Bins Spec_Bins Proof_Bins Proof_BinFiles.

(** ** C17: splitting *)

(** The bin counts that are powers of two. *)
Definition pow2_bins (p : params) : Prop := exists k, 1 <= k <= 63 /\ p_bins p = 2 ^ k.

(** C17. With a power of two of bins every abbreviation has exactly one bin number and sort number in range,
    both determine it, and the order is kept. *)
Theorem C17_abbreviations_are_partitioned :
  forall p, pow2_bins p ->
    (forall a, 0 <= a < 2 ^ 64 ->
       0 <= bin_num p a < p_bins p /\ 0 <= sort_num p a < 2 ^ 64 / p_bins p /\
       abbreviation_of p (bin_num p a) (sort_num p a) = a) /\
    (forall bn sn, 0 <= bn < p_bins p -> 0 <= sn < 2 ^ 64 / p_bins p ->
       0 <= abbreviation_of p bn sn < 2 ^ 64 /\
       bin_num p (abbreviation_of p bn sn) = bn /\ sort_num p (abbreviation_of p bn sn) = sn) /\
    (forall a b, 0 <= a -> a <= b -> b < 2 ^ 64 ->
       bin_num p a < bin_num p b \/ (bin_num p a = bin_num p b /\ sort_num p a <= sort_num p b)).
Proof.
  intros p (k & Hk & Hb).
  assert (2 <= p_bins p <= 2 ^ 64) as Hr.
  { rewrite Hb. split; [change 2 with (2 ^ 1) at 1|]; apply Z.pow_le_mono_r; lia. }
  pose proof (divider_pow2_mul p k Hb ltac:(lia)) as Hm. pose proof (divider_pos p Hr) as Hd.
  assert (2 ^ 64 / p_bins p = divider p) as Ed by (rewrite <- Hm; apply Z.div_mul; lia).
  rewrite Ed. split; [|split].
  - intros a Ha. split; [|split].
    + apply split_in_range; [done| |done|done]. rewrite Hb. replace k with (1 + (k - 1)) by lia.
      rewrite Z.pow_add_r, Z.mul_comm by lia. apply Z.mod_mul. lia.
    + apply Z.mod_pos_bound. done.
    + by apply split_join.
  - intros bn sn Hbn Hsn. by apply join_split.
  - intros a b Ha Hab Hb2. unfold bin_num, sort_num.
    pose proof (Z.div_mod a (divider p) ltac:(lia)). pose proof (Z.div_mod b (divider p) ltac:(lia)).
    assert (a / divider p <= b / divider p) by (apply Z.div_le_mono; lia).
    destruct (decide (a / divider p = b / divider p)) as [E|E]; [right|left; lia].
    split; [done|]. rewrite E in *. lia.
Qed.

(** C17. For any even bin count: all bin numbers are in range exactly when the bin count divides 2^64. *)
Theorem C17_in_range_iff_bins_divide :
  forall p, 2 <= p_bins p <= 2 ^ 64 -> p_bins p mod 2 = 0 ->
    ((forall a, 0 <= a < 2 ^ 64 -> 0 <= bin_num p a < p_bins p) <-> (p_bins p | 2 ^ 64)).
Proof.
  intros p Hr He. rewrite (split_in_range p Hr He). split.
  - intros E. exists (divider p). done.
  - intros [q Eq]. unfold divider. pose proof (Z.div_mod (p_bins p) 2 ltac:(lia)) as Em.
    assert (2 ^ 63 = q * (p_bins p / 2)) as E63 by lia. rewrite E63, Z.div_mul by lia. lia.
Qed.

(** C17. Every shipped setting has a power of two of bins, fields wide enough for its sort numbers, and words
    wide enough for its bin numbers. *)
Theorem C17_shipped_settings_fit :
  forall p, p ∈ shipped ->
    pow2_bins p /\ p_bins p <= pow256 (bin_room p) /\ (bin_room p <= 8)%nat /\
    2 ^ 64 / p_bins p <= pow256 (p_snb p) /\ (p_snb p <= 8)%nat /\ (hash_bytes p <= 8)%nat /\
    2 ^ p_bits p <= pow256 (hash_bytes p).
Proof.
  intros p Hp. unfold shipped in Hp.
  repeat (apply elem_of_cons in Hp as [->|Hp]; [split; [|vm_compute; repeat split; intros; lia || congruence]|]).
  1-2: exists 24. 3-5: exists 16. 6: exists 8. 1-6: split; [lia|done].
  by apply elem_of_nil in Hp.
Qed.

(** C17 is false for an even bin count that does not divide 2^64: the last abbreviations belong to no bin. *)
Theorem C17_other_even_bin_counts_refuted :
  exists p, new_params 17 100 2 6 10 8 = Some p /\
    exists a, 0 <= a < 2 ^ 64 /\ bin_num p a = p_bins p.
Proof. eexists. split; [reflexivity|]. exists (2 ^ 64 - 1). split; [lia|]. vm_compute. reflexivity. Qed.

Example C17_example : let p := mk_params 17 100888 2 256 440 7 in
  pow2_bins p /\ bin_num p (2 ^ 64 - 1) = 255 /\ sort_num p (2 ^ 64 - 1) = 2 ^ 56 - 1 /\
  abbreviation_of p 3 5 = 3 * 2 ^ 56 + 5.
Proof. split; [exists 8; split; [lia|done]|]. vm_compute. done. Qed.

(** ** C18: entries *)

(** C18. Values that fit come back unchanged. *)
Theorem C18_entry_round_trip :
  forall p th hi sn, (hash_bytes p <= 8)%nat -> (p_snb p <= 8)%nat -> length th = 24%nat ->
    0 <= hi < 2 ^ 63 -> 0 <= sn < 2 ^ 64 -> hi < pow256 (hash_bytes p) -> sn < pow256 (p_snb p) ->
    exists e, entry_enc p th hi sn = Some e /\ length e = entry_bytes p /\
      entry_th e = th /\ entry_hi p e = hi /\ entry_sn p e = sn.
Proof.
  intros p th hi sn H1 H2 Hl Hh Hs Fh Fs. eexists.
  split; [apply entry_enc_some; done|]. by apply entry_fields.
Qed.

(** C18. Values that do not fit are refused. *)
Theorem C18_too_large_values_refused :
  forall p th hi sn, (hash_bytes p <= 8)%nat -> (p_snb p <= 8)%nat ->
    0 <= hi < 2 ^ 63 -> 0 <= sn < 2 ^ 64 ->
    pow256 (hash_bytes p) <= hi \/ pow256 (p_snb p) <= sn -> entry_enc p th hi sn = None.
Proof. intros p th hi sn H1 H2 Hh Hs Hb. by apply entry_enc_none. Qed.

(** C18. Every hash with an index that fits can be stored under the shipped settings, and is rebuilt exactly
    from its bin number and its entry. *)
Theorem C18_shipped_settings_store_every_hash :
  forall p h hi, p ∈ shipped -> length h = 32%nat -> bytes h -> 0 <= hi < pow256 (hash_bytes p) ->
    exists e, entry_enc p (truncated h) hi (sort_num p (abbreviated h)) = Some e /\
      entry_hi p e = hi /\
      rebuild (entry_th e) (abbreviation_of p (bin_num p (abbreviated h)) (entry_sn p e)) = h.
Proof.
  intros p h hi Hp Hl Hb Hh. destruct (C17_shipped_settings_fit p Hp) as (Hpow & _ & _ & Hsn & Hs8 & Hh8 & _).
  destruct (C17_abbreviations_are_partitioned p Hpow) as (Hpart & _ & _).
  destruct (Hpart _ (abbreviated_range h Hl Hb)) as (_ & Hs & Hj).
  assert (pow256 (p_snb p) <= 2 ^ 64) as Hle by (rewrite <- pow256_8; by apply pow256_le).
  assert (0 <= hi < 2 ^ 63) as Hh'.
  { split; [lia|]. eapply Z.lt_le_trans; [apply Hh|].
    clear -Hp. unfold shipped in Hp. repeat (apply elem_of_cons in Hp as [->|Hp]; [vm_compute; congruence|]).
    by apply elem_of_nil in Hp. }
  destruct (C18_entry_round_trip p (truncated h) hi (sort_num p (abbreviated h))) as (e & E & _ & Et & Ehi & Esn);
    [done|done| |done|lia|lia|lia|].
  { unfold truncated. rewrite take_length, drop_length. lia. }
  exists e. split; [done|]. split; [done|]. rewrite Et, Esn, Hj. by apply rebuild_parts.
Qed.

Example C18_example : let p := mk_params 17 100888 2 256 440 7 in
  entry_enc p (replicate 24 9) 65537 (2 ^ 56 - 1) =
    Some (replicate 24 9 ++ [1; 0; 1] ++ replicate 7 255) /\
  entry_enc p (replicate 24 9) (2 ^ 24) 0 = None /\ entry_enc p (replicate 24 9) 0 (2 ^ 56) = None.
Proof. vm_compute. done. Qed.

(** ** C19: searching *)
Lemma entry_sn_range p e : (p_snb p <= 8)%nat -> bytes e -> 0 <= entry_sn p e < 2 ^ 64.
Proof.
  intros Hs Hb. unfold entry_sn.
  pose proof (le_dec_range (take (p_snb p) (drop (24 + hash_bytes p) e)) ltac:(by apply Forall_take, Forall_drop)) as R.
  assert (pow256 (length (take (p_snb p) (drop (24 + hash_bytes p) e))) <= 2 ^ 64); [|lia].
  rewrite <- pow256_8. apply pow256_le. rewrite take_length. lia.
Qed.

(** A bin as the index keeps it: whole entries in the order of their sort numbers. *)
Definition searchable (p : params) (b : bin) : Prop :=
  (p_snb p <= 8)%nat /\ entries_ok p b /\ sn_sorted p b /\ Z.of_nat (length b) < 2 ^ 40.

Lemma searchable_range p b : searchable p b -> forall e, e ∈ b -> 0 <= entry_sn p e < 2 ^ 64.
Proof.
  intros (H8 & Hok & _) e He. unfold entries_ok in Hok. rewrite Forall_forall in Hok.
  apply entry_sn_range; [done|]. by apply Hok.
Qed.

(** C19. Looking up never panics and never loops, and whatever it answers is right: -1 or an index stored
    with that very hash. *)
Theorem C19_lookup_is_sound :
  forall p probe b th sn, probe_ok probe -> searchable p b -> 0 <= sn ->
    exists r, lookup_by_hash p probe b th sn = Some r /\
      (r = -1 \/ exists e, e ∈ b /\ entry_th e = th /\ entry_sn p e = sn /\ r = entry_hi p e).
Proof. intros p probe b th sn Hp Hs Hn. pose proof (searchable_range p b Hs). destruct Hs as (? & ? & ? & ?). by apply lookup_total. Qed.

(** C19. A hash that is not in the bin is reported as not found. *)
Theorem C19_absent_hash_not_found :
  forall p probe b th sn, probe_ok probe -> searchable p b -> 0 <= sn ->
    ~ holds p b th sn -> lookup_by_hash p probe b th sn = Some (-1).
Proof. intros p probe b th sn Hp Hs Hn Hh. pose proof (searchable_range p b Hs). destruct Hs as (? & ? & ? & ?). by apply lookup_absent. Qed.

(** C19 for a sort number that occurs once in the bin, or not at all.  What is missing: a sort number shared
    by several hashes (see the refutation). *)
Theorem C19_lookup_finds_lone_sort_numbers_partial :
  forall p probe b th sn, probe_ok probe -> searchable p b -> 0 <= sn -> at_most_one p b sn ->
    lookup_by_hash p probe b th sn = Some (first_index p b th sn).
Proof. intros p probe b th sn Hp Hs Hn Hh. pose proof (searchable_range p b Hs). destruct Hs as (? & ? & ? & ?). by apply lookup_present. Qed.

(** Exact interpolation, rounded half up; Prop_Probe.v has the floating point one. *)
Definition exact_probe (s e a z x : Z) : Z := s + (2 * (x - a) * (e - s) + (z - a)) / (2 * (z - a)).

Lemma exact_probe_ok : probe_ok exact_probe.
Proof.
  intros s e a z x Hs He _ Ha Hx Hz _. unfold exact_probe. split.
  - assert (0 <= (2 * (x - a) * (e - s) + (z - a)) / (2 * (z - a))); [|lia]. apply Z.div_pos; nia.
  - assert ((2 * (x - a) * (e - s) + (z - a)) / (2 * (z - a)) < e - s + 1); [|lia].
    apply Z.div_lt_upper_bound; nia.
Qed.

Definition ex_params := mk_params 17 100888 2 256 2 7.
Definition ex_entry (t hi sn : Z) : list Z := replicate 23 0 ++ t :: le_enc 3 hi ++ le_enc 7 sn.

Lemma ex_entry_ok t hi sn : 0 <= t < 256 -> length (ex_entry t hi sn) = 34%nat /\ bytes (ex_entry t hi sn).
Proof.
  intros Ht. unfold ex_entry. split.
  - rewrite app_length. cbn [length]. rewrite app_length, !le_enc_length, replicate_length. done.
  - apply Forall_app. split; [apply Forall_replicate; unfold is_byte; lia|]. constructor; [done|].
    apply Forall_app. split; apply le_enc_bytes.
Qed.

Lemma ex_searchable b : b = [ex_entry 1 10 0; ex_entry 2 11 6; ex_entry 3 12 6; ex_entry 4 13 9] \/
    b = [ex_entry 1 10 0; ex_entry 2 11 6; ex_entry 3 12 8; ex_entry 4 13 9] ->
  searchable ex_params b.
Proof.
  intros Hb. split; [cbn; lia|]. split; [|split].
  - destruct Hb as [-> | ->]; unfold entries_ok;
      repeat (apply Forall_cons_2; [apply ex_entry_ok; lia|]); apply Forall_nil_2.
  - destruct Hb as [-> | ->]; unfold sn_sorted; vm_compute; repeat constructor; congruence.
  - destruct Hb as [-> | ->]; vm_compute; done.
Qed.

(** C19 is false when several hashes of a bin share a sort number: the search stops at any of them and only
    looks forward.  Here the hash (2, sort number 6) is in the bin with index 11 and is not found. *)
Theorem C19_shared_sort_number_refuted :
  exists p probe b th sn, probe_ok probe /\ searchable p b /\ 0 <= sn /\ holds p b th sn /\
    first_index p b th sn = 11 /\ lookup_by_hash p probe b th sn = Some (-1).
Proof.
  exists ex_params, exact_probe, [ex_entry 1 10 0; ex_entry 2 11 6; ex_entry 3 12 6; ex_entry 4 13 9],
    (replicate 23 0 ++ [2]), 6.
  split; [apply exact_probe_ok|]. split; [apply ex_searchable; by left|]. split; [lia|]. split; [|by vm_compute].
  exists (ex_entry 2 11 6). split; [right; left|]. vm_compute. done.
Qed.

Example C19_example :
  let b := [ex_entry 1 10 0; ex_entry 2 11 6; ex_entry 3 12 8; ex_entry 4 13 9] in
  searchable ex_params b /\ at_most_one ex_params b 6 /\
  lookup_by_hash ex_params exact_probe b (replicate 23 0 ++ [2]) 6 = Some 11 /\
  lookup_by_hash ex_params exact_probe b (replicate 23 0 ++ [9]) 6 = Some (-1).
Proof.
  split; [apply ex_searchable; by right|]. split; [|by vm_compute].
  assert (forall i e, [ex_entry 1 10 0; ex_entry 2 11 6; ex_entry 3 12 8; ex_entry 4 13 9] !! i = Some e ->
    entry_sn ex_params e = 6 -> i = 1%nat) as H.
  { intros i e Hi Ei. destruct i as [|[|[|[|i]]]]; [|done| | |done]; cbn in Hi; injection Hi as <-; vm_compute in Ei; discriminate. }
  intros i j e e' Hi Hj Ei Ej. rewrite (H i e Hi Ei), (H j e' Hj Ej). done.
Qed.

(** ** C20: sorting and removing duplicates *)

(** C20. For every bin: the result is in order, and holds only entries that were there. *)
Theorem C20_sorted_and_nothing_new :
  forall p srt b, sorts p srt ->
    StronglySorted (entry_le p) (sort_dedup srt b) /\ forall e, e ∈ sort_dedup srt b -> e ∈ b.
Proof. intros p srt b Hs. destruct (sort_dedup_facts p srt b Hs). done. Qed.

(** C20. If no two different hashes of the bin share their truncated part, every hash stays, with the smallest
    index it had. *)
Theorem C20_every_hash_kept_partial :
  forall p srt b e, sorts p srt -> truncations_distinct p b -> e ∈ b ->
    exists e', e' ∈ sort_dedup srt b /\ entry_th e' = entry_th e /\ entry_sn p e' = entry_sn p e /\
      least_index p b (entry_th e) (entry_sn p e) (entry_hi p e').
Proof.
  intros p srt b e Hs Ht He. destruct (sort_dedup_keeps p srt b e Hs He Ht) as (e' & H1 & H2 & H3 & H4).
  exists e'. split; [done|]. split; [done|]. split; [done|]. split.
  - exists e'. split; [by apply (sort_dedup_facts p srt b Hs)|done].
  - intros x Hx Hxt _. by apply H4.
Qed.

(** C20. If moreover no two different hashes share their sort number, no hash is there twice.  What is missing
    is in the two refutations. *)
Theorem C20_no_hash_twice_partial :
  forall p srt b, sorts p srt -> truncations_distinct p b -> sort_numbers_distinct p b ->
    NoDup (entry_th <$> sort_dedup srt b).
Proof. intros p srt b. apply sort_dedup_nodup. Qed.

(** A sort to run the examples with: insertion by (sort number, index). *)
Definition entry_leb (p : params) (a b : list Z) : bool :=
  (entry_sn p a <? entry_sn p b) || ((entry_sn p a =? entry_sn p b) && (entry_hi p a <=? entry_hi p b)).
Fixpoint ins (p : params) (e : list Z) (b : bin) : bin :=
  match b with [] => [e] | x :: b' => if entry_leb p e x then e :: b else x :: ins p e b' end.
Definition isort (p : params) (b : bin) : bin := foldr (ins p) [] b.

Lemma isort_sorts p : sorts p (isort p).
Proof.
  assert (forall a b, entry_leb p a b = true -> entry_le p a b) as Hle.
  { intros a b H. unfold entry_leb, entry_le in *. apply orb_true_iff in H as [H|H]; [left|right].
    - by apply Z.ltb_lt.
    - apply andb_true_iff in H as [H1 H2]. apply Z.eqb_eq in H1. apply Z.leb_le in H2. done. }
  assert (forall a b, entry_leb p a b = false -> entry_le p b a) as Hge.
  { intros a b H. unfold entry_leb, entry_le in *. apply orb_false_iff in H as [H1 H2].
    apply Z.ltb_ge in H1. destruct (Z.eqb_spec (entry_sn p a) (entry_sn p b)); [|lia].
    cbn in H2. apply Z.leb_gt in H2. lia. }
  assert (forall a b c, entry_le p a b -> entry_le p b c -> entry_le p a c) as Htr.
  { intros a b c. unfold entry_le. lia. }
  assert (forall e b, ins p e b ≡ₚ e :: b) as Hperm.
  { intros e b. induction b as [|x b IH]; [done|]. cbn [ins]. destruct (entry_leb p e x); [done|].
    rewrite IH. apply Permutation_swap. }
  intros b. induction b as [|e b [IH1 IH2]]; [split; [done|constructor]|]. cbn [isort foldr].
  fold (isort p b). split; [rewrite Hperm; by constructor|]. clear IH1. revert IH2. generalize (isort p b). clear b.
  intros b. induction b as [|x b IH]; intros Hs; cbn [ins].
  - repeat constructor.
  - apply StronglySorted_inv in Hs as [Hs Hall]. destruct (entry_leb p e x) eqn:E.
    + constructor; [by constructor|]. apply Hle in E. constructor; [done|].
      eapply Forall_impl; [exact Hall|]. intros y Hy. by eapply Htr.
    + constructor; [by apply IH|]. rewrite Hperm. constructor; [by apply Hge|done].
Qed.

(** C20 is false when two hashes share a sort number and one of them occurs twice, around the other. *)
Theorem C20_duplicate_kept_refuted :
  exists p srt b, sorts p srt /\ truncations_distinct p b /\
    exists i j e e', i <> j /\ sort_dedup srt b !! i = Some e /\ sort_dedup srt b !! j = Some e' /\
      entry_th e = entry_th e' /\ entry_sn p e = entry_sn p e'.
Proof.
  exists ex_params, (isort ex_params), [ex_entry 1 10 6; ex_entry 2 11 6; ex_entry 1 12 6].
  split; [apply isort_sorts|]. split.
  { intros e e' He He' _.
    assert (forall x, x ∈ [ex_entry 1 10 6; ex_entry 2 11 6; ex_entry 1 12 6] -> entry_sn ex_params x = 6) as H.
    { intros x Hx. repeat (apply elem_of_cons in Hx as [->|Hx]; [done|]). by apply elem_of_nil in Hx. }
    by rewrite !H. }
  exists 0%nat, 2%nat, (ex_entry 1 10 6), (ex_entry 1 12 6). split; [done|]. vm_compute. done.
Qed.

(** C20 is false when two different hashes with neighbouring sort numbers share their truncated part: the
    second one is thrown away. *)
Theorem C20_hash_lost_refuted :
  exists p srt b e, sorts p srt /\ e ∈ b /\ ~ holds p (sort_dedup srt b) (entry_th e) (entry_sn p e).
Proof.
  exists ex_params, (isort ex_params), [ex_entry 1 10 6; ex_entry 1 11 7], (ex_entry 1 11 7).
  split; [apply isort_sorts|]. split; [right; left|].
  intros (x & Hx & _ & Hsn). vm_compute in Hx. apply elem_of_list_singleton in Hx as ->. vm_compute in Hsn. discriminate.
Qed.

Example C20_example :
  let b := [ex_entry 5 10 9; ex_entry 1 11 6; ex_entry 5 12 9; ex_entry 1 13 6; ex_entry 2 14 7] in
  truncations_distinct ex_params b /\ sort_numbers_distinct ex_params b /\
  sort_dedup (isort ex_params) b = [ex_entry 1 11 6; ex_entry 2 14 7; ex_entry 5 10 9].
Proof.
  split; [|split; [|by vm_compute]]; intros e e' He He' H;
    repeat (apply elem_of_cons in He as [->|He];
      [repeat (apply elem_of_cons in He' as [->|He']; [vm_compute in H |- *; done|]); by apply elem_of_nil in He'|]);
    by apply elem_of_nil in He.
Qed.

(** ** C21: bins in files *)

(** C21. Starting from the files made for a new index, after any saves in which a bin never shrinks, and
    whose bins end visibly, every bin loads back as last saved, one by one or all at once. *)
Theorem C21_bins_load_back_partial :
  forall p saves, (1 <= p_digits p)%nat -> 0 <= p_bins p <= 2 ^ 63 ->
    growing p (replicate (Z.to_nat (p_bins p)) []) saves ->
    exists f, save_all p (initial_files p ∅) saves = Some f /\
      let bins := final_bins (replicate (Z.to_nat (p_bins p)) []) saves in
      (forall bn b, bins !! bn = Some b -> load_bin p f (Z.of_nat bn) = Some b) /\
      load_all p f (Z.to_nat (p_bins p)) 0 0 = Some bins.
Proof.
  intros p saves Hd Hb Hg.
  destruct (files_hold_saves p (initial_files p ∅) (replicate (Z.to_nat (p_bins p)) []) saves Hd) as (f & E & Hf & Hl); [|apply files_hold_initial|done|].
  { rewrite replicate_length. lia. }
  rewrite replicate_length in Hl.
  exists f. split; [done|]. split.
  - intros bn b Hbn. eapply files_hold_load; [done| |done|done]. lia.
  - rewrite <- Hl at 1. apply files_hold_load_all; [done|lia|done].
Qed.

(** C21. The number of padding bytes is counted exactly. *)
Theorem C21_padding_counted_exactly :
  forall data, bytes data -> exists l, data = l ++ replicate (count_zero_bytes_at_end data) 0 /\ last l <> Some 0.
Proof. apply count_zero_bytes_spec. Qed.

(** C21 is false for the entry made of zeroes only (a hash with zero truncated part and zero sort number, at
    index 0), when it ends its bin: the bin loads as empty. *)
Theorem C21_zero_entry_refuted :
  exists p b f, entries_ok p b /\ b <> [] /\ save_bin p (initial_files p ∅) 0 b = Some f /\ load_bin p f 0 = Some [].
Proof.
  exists (mk_params 17 100888 2 2 2 7), [ex_entry 0 0 0]. eexists.
  split; [|split; [done|split; [reflexivity|]]].
  - apply Forall_singleton. apply ex_entry_ok. lia.
  - vm_compute. reflexivity.
Qed.

(** C21 is false over overflow files left by an earlier index: a bin that now exactly fills its bin start gets
    the old overflow entries appended. *)
Theorem C21_stale_overflow_refuted :
  exists p old b f b', storable p b /\ save_bin p (initial_files p old) 0 b = Some f /\
    load_bin p f 0 = Some b' /\ (length b < length b')%nat.
Proof.
  exists (mk_params 17 100888 2 2 2 7).
  exists (match overflow_path (mk_params 17 100888 2 2 2 7) 0 with Some path => {[path := ex_entry 7 70 70]} | None => ∅ end).
  exists [ex_entry 1 10 6; ex_entry 2 11 7]. eexists. exists [ex_entry 1 10 6; ex_entry 2 11 7; ex_entry 7 70 70].
  split; [|split; [reflexivity|split; [vm_compute; reflexivity|cbn; lia]]].
  split.
  - repeat (apply Forall_cons_2; [apply ex_entry_ok; lia|]); apply Forall_nil_2.
  - intros e He. cbn in He. injection He as <-. intros H. unfold is_zero_entry in H. rewrite Forall_forall in H.
    assert (2 = 0) by (apply H; apply elem_of_list_lookup; exists 23%nat; done). lia.
Qed.

Lemma ex_entry_nonzero t hi sn : t <> 0 -> ~ is_zero_entry (ex_entry t hi sn).
Proof.
  intros Ht H. apply Ht. unfold is_zero_entry in H. rewrite Forall_forall in H. apply H.
  unfold ex_entry. apply elem_of_app. right. left.
Qed.

Lemma ex_storable b : b ∈ [[ex_entry 1 10 6]; [ex_entry 1 10 6; ex_entry 2 11 7; ex_entry 3 12 9]; [ex_entry 4 13 0]] ->
  storable ex_params b.
Proof.
  intros Hb. split.
  - repeat (apply elem_of_cons in Hb as [->|Hb];
      [repeat (apply Forall_cons_2; [apply ex_entry_ok; lia|]); apply Forall_nil_2|]).
    by apply elem_of_nil in Hb.
  - intros e He.
    repeat (apply elem_of_cons in Hb as [->|Hb];
      [cbv [ex_params p_start take last] in He; injection He as <-; apply ex_entry_nonzero; done|]).
    by apply elem_of_nil in Hb.
Qed.

Example C21_example :
  growing ex_params (replicate 256 []) [(3%nat, [ex_entry 1 10 6]);
    (3%nat, [ex_entry 1 10 6; ex_entry 2 11 7; ex_entry 3 12 9]); (0%nat, [ex_entry 4 13 0])] /\
  p_start ex_params = 2%nat /\ (1 <= p_digits ex_params)%nat.
Proof.
  split; [|split; [done|cbn; lia]]. cbn [growing].
  split; [eexists; split; [reflexivity|cbn; lia]|]. split; [apply ex_storable; set_solver|].
  split; [eexists; split; [reflexivity|cbn; lia]|]. split; [apply ex_storable; set_solver|].
  split; [eexists; split; [reflexivity|cbn; lia]|]. split; [apply ex_storable; set_solver|done].
Qed.

Print Assumptions C17_abbreviations_are_partitioned.
Print Assumptions C17_in_range_iff_bins_divide.
Print Assumptions C17_shipped_settings_fit.
Print Assumptions C17_other_even_bin_counts_refuted.
Print Assumptions C18_entry_round_trip.
Print Assumptions C18_too_large_values_refused.
Print Assumptions C18_shipped_settings_store_every_hash.
Print Assumptions C19_lookup_is_sound.
Print Assumptions C19_absent_hash_not_found.
Print Assumptions C19_lookup_finds_lone_sort_numbers_partial.
Print Assumptions C19_shared_sort_number_refuted.
Print Assumptions C20_sorted_and_nothing_new.
Print Assumptions C20_every_hash_kept_partial.
Print Assumptions C20_no_hash_twice_partial.
Print Assumptions C20_duplicate_kept_refuted.
Print Assumptions C20_hash_lost_refuted.
Print Assumptions C21_bins_load_back_partial.
Print Assumptions C21_padding_counted_exactly.
Print Assumptions C21_zero_entry_refuted.
Print Assumptions C21_stale_overflow_refuted.
