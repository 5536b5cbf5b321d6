(** C72 lookups after indexing, C73 appended hashes, C74 the self test, C75 creating and reopening with other
    parameters: the uniform hash store. *)
From Coq Require Import ZifyBool ZifyNat.
From Verif Require Import Base Model_Folders Model_Word Model_HashStore Model_Uniform Spec_HashStore Spec_Word Proof_Word Proof_HashStore Proof_Uniform.

(** ** C72 *)
(** After indexing any file of hashes, whatever files an earlier run has left and however many passes the
    memory allows, every lookup answers with the first index of the hash, or "absent" - provided the bin
    address of the hash asked for is among those the indexer covers. *)
Theorem C72_first_index_partial d dd bpp hs k q :
  1664 <= d -> Forall is_hash hs -> Z.of_nat (length hs) < 2^63 -> 832 <= bpp -> ud_hashes k = concat hs ->
  is_hash q -> address d q < biggest_plus_one d ->
  exists k', index_the_hashes d dd bpp k = UOk k' /\ first_occurrence hs q (u_index_of (u_open d dd k') q).
Proof.
  intros Hd Hh Hl Hb Hk Hq Ha. pose proof (address_range d q Hq ltac:(lia)).
  destruct (index_spec d dd bpp hs k ltac:(lia) Hh Hb ltac:(lia) Hk) as (k' & E & Ok & _).
  exists k'. split; [done|]. by eapply lookup_spec.
Qed.

(** With a power of two as divider every address is covered. *)
Theorem C72_power_of_two_divider e dd bpp hs k q :
  11 <= e <= 63 -> Forall is_hash hs -> Z.of_nat (length hs) < 2^63 -> 832 <= bpp -> ud_hashes k = concat hs -> is_hash q ->
  exists k', index_the_hashes (2^e) dd bpp k = UOk k' /\ first_occurrence hs q (u_index_of (u_open (2^e) dd k') q).
Proof.
  intros He Hh Hl Hb Hk Hq.
  assert (B : biggest_plus_one (2^e) = 2^(64 - e)).
  { clear -He. assert (forall n : nat, (n < 53)%nat -> biggest_plus_one (2^(11 + Z.of_nat n)) = 2^(64 - (11 + Z.of_nat n))) as H.
    { intros n Hn. do 53 (destruct n as [|n]; [vm_compute; reflexivity|]). lia. }
    specialize (H (Z.to_nat (e - 11)) ltac:(lia)). rewrite Z2Nat.id in H by lia.
    replace (11 + (e - 11)) with e in H by lia. exact H. }
  assert (P : 2^11 <= 2^e) by (apply Z.pow_le_mono_r; lia).
  apply C72_first_index_partial; try done; [lia|].
  rewrite B. unfold address. destruct Hq as [Hql Hqb].
  pose proof (le_dec_range (take 8 q) (Forall_take _ 8 _ Hqb)) as R. rewrite take_length, Hql in R.
  change (pow256 (8 `min` 32)) with (2^64) in R.
  apply Z.div_lt_upper_bound; [lia|]. rewrite <-Z.pow_add_r by lia. replace (e + (64 - e)) with 64 by lia. lia.
Qed.

(** A hash whose address is not covered is answered with an error, whether it is in the file or not. *)
Theorem C72_uncovered_hashes_refused d dd bpp hs k q :
  1664 <= d -> Forall is_hash hs -> 832 <= bpp -> ud_hashes k = concat hs -> 0 <= biggest_plus_one d ->
  is_hash q -> biggest_plus_one d <= address d q ->
  exists k', index_the_hashes d dd bpp k = UOk k' /\ u_index_of (u_open d dd k') q = RErr.
Proof.
  intros Hd Hh Hb Hk HN Hq Ha. destruct (index_spec d dd bpp hs k ltac:(lia) Hh Hb HN Hk) as (k' & E & Ok & _).
  exists k'. split; [done|]. by eapply lookup_past_end.
Qed.

(** The number of bins is rounded to nearest, so for the divider chosen for 10^9 hashes (the one used in
    jobs.go) the highest address is not covered: a stored hash with all bits set cannot be looked up. *)
Theorem C72_all_hashes_found_refuted : exists estimate hs k q k',
  150 <= estimate /\ Forall is_hash hs /\ ud_hashes k = concat hs /\ q ∈ hs /\
  index_the_hashes (divider_for estimate) 2 (2^30) k = UOk k' /\
  u_index_of (u_open (divider_for estimate) 2 k') q = RErr.
Proof.
  set (q := replicate 32 255).
  assert (Hq : is_hash q). { split; [done|]. apply Forall_replicate. unfold is_byte. lia. }
  set (k := mk_ud (concat [q]) [] ∅ ∅ None).
  destruct (C72_uncovered_hashes_refused (divider_for 1000000000) 2 (2^30) [q] k q) as (k' & E1 & E2).
  - vm_compute. discriminate.
  - by repeat constructor.
  - lia.
  - reflexivity.
  - vm_compute. discriminate.
  - exact Hq.
  - vm_compute. discriminate.
  - exists 1000000000, [q], k, q, k'. split; [lia|]. split; [by repeat constructor|]. split; [reflexivity|].
    split; [by left|]. split; [exact E1|exact E2].
Qed.

(** A hash file that is not a whole number of hashes is refused. *)
Theorem C72_damaged_file_refused d dd bpp k :
  832 <= bpp -> 0 <= biggest_plus_one d -> (length (ud_hashes k) mod 32 <> 0)%nat ->
  index_the_hashes d dd bpp k = UErr.
Proof.
  intros Hb HN Hm. unfold index_the_hashes. set (n := biggest_plus_one d) in *. set (per := bpp / 832).
  assert (Hper : 0 < per) by (apply Z.div_str_pos; lia). destruct (Z.eqb_spec per 0); [lia|].
  pose proof (Z.div_pos n per HN Hper) as Hq.
  destruct (Z.to_nat (1 + n / per)) as [|t] eqn:Et; [lia|]. cbn [run_passes]. unfold one_pass. cbn [ud_hashes].
  rewrite read_in_damaged by (done || lia). done.
Qed.

(** Allowed no memory, the indexer divides by zero. *)
Theorem C72_no_memory_refuted : forall d dd k, index_the_hashes d dd (1024 * 1024 * 1024 * 0) k = UPanic.
Proof. reflexivity. Qed.

(** ** C73 *)
(** After indexing and then appending any hashes (whether AppendHash reported success or not), lookups still
    answer for the indexed hashes only: an appended hash that was not there before is reported absent. *)
Theorem C73_appended_hashes_not_found d dd bpp hs k0 l q :
  1664 <= d -> Forall is_hash hs -> Z.of_nat (length hs) < 2^63 -> Forall is_hash l -> 832 <= bpp ->
  ud_hashes k0 = concat hs -> is_hash q -> address d q < biggest_plus_one d ->
  exists k, index_the_hashes d dd bpp k0 = UOk k /\
    first_occurrence hs q (u_index_of (u_appends (u_open d dd k) l) q).
Proof.
  intros Hd Hh Hlen Hl Hbp Hk0 Hq Ha. set (n := biggest_plus_one d) in *.
  pose proof (address_range d q Hq ltac:(lia)).
  destruct (index_spec d dd bpp hs k0 ltac:(lia) Hh Hbp ltac:(unfold n in *; lia) Hk0) as (k & E0 & Hk & _). fold n in Hk.
  exists k. split; [exact E0|].
  assert (R : bhs_rep hs (us_file (u_open d dd k))).
  { unfold u_open. cbn [us_file]. rewrite (proj1 Hk). apply bhs_open_rep, is_hash_len, Hh. }
  destruct (appends_rep l hs _ Hl R) as (B1 & B2 & B3 & B4 & B5 & B6).
  apply (lookup_gen d hs l); [done|done|done|done|done|].
  destruct (disk_look d dd n hs k (address d q) ltac:(lia) Hk) as (b & pad & I & Rd & Ov).
  destruct (decide (ub_over b = [])) as [E|E].
  - exists b, []. split; [done|]. rewrite B5. split; [done|]. done.
  - destruct (B6 _ _ (Ov E)) as [p2 H2]. exists b, (pad ++ p2). split; [done|]. rewrite B5. split; [done|].
    intros _. rewrite H2. by rewrite app_assoc.
Qed.

(** So a hash just appended with success is not found. *)
Definition ex_hash (i : Z) : list Z := i :: replicate 31 0.
Definition ex_disk (n : nat) : udisk := mk_ud (concat ((fun i => ex_hash (Z.of_nat i)) <$> seq 0 n)) [] ∅ ∅ None.
Theorem C73_append_then_lookup_refuted : exists k k' h s' n,
  index_the_hashes (2^63) 2 (2^30) k = UOk k' /\ u_append (u_open (2^63) 2 k') h = (s', Some n) /\
  u_get s' (Z.of_nat n) = Some h /\ u_index_of s' h = RAbsent.
Proof.
  destruct (index_the_hashes (2^63) 2 (2^30) (ex_disk 103)) as [k'| |] eqn:E; [|vm_compute in E; discriminate E|vm_compute in E; discriminate E].
  exists (ex_disk 103), k', (ex_hash 200), (u_append (u_open (2^63) 2 k') (ex_hash 200)).1, 103%nat.
  split; [exact E|].
  assert (Ek : UOk k' = index_the_hashes (2^63) 2 (2^30) (ex_disk 103)) by (symmetry; exact E). clear E.
  split; [|split].
  - vm_compute in Ek. injection Ek as ->. vm_compute. reflexivity.
  - vm_compute in Ek. injection Ek as ->. vm_compute. reflexivity.
  - vm_compute in Ek. injection Ek as ->. vm_compute. reflexivity.
Qed.

(** An AppendHash that reports an error has still stored the hash: the count has grown.  It is reported
    whenever the folder of the bin does not exist below BinOverflows. *)
Theorem C73_failed_append_still_stores hs d dd k h :
  Forall is_hash hs -> is_hash h -> ud_hashes k = concat hs ->
  folder_of dd (to_i64 (address d h)) ∉ ud_dirs k ->
  exists s', u_append (u_open d dd k) h = (s', None) /\ u_count s' = S (length hs) /\
    u_get s' (Z.of_nat (length hs)) = Some h.
Proof.
  intros Hh Hx Hk Hd.
  assert (R : bhs_rep hs (us_file (u_open d dd k))).
  { unfold u_open. cbn [us_file]. rewrite Hk. apply bhs_open_rep, is_hash_len, Hh. }
  destruct (append_rep hs _ h (proj1 Hx) R) as (A1 & A2 & A3 & A4 & A5 & A6 & A7).
  cbn [us_dd us_div us_disk u_open] in A7. rewrite decide_False in A7 by done.
  exists (u_append (u_open d dd k) h).1. split; [destruct (u_append _ _); cbn in *; congruence|].
  split.
  - unfold u_count. destruct A1 as [-> _]. cbn [hf_count]. rewrite app_length. cbn. lia.
  - unfold u_get. destruct (Z.ltb_spec (Z.of_nat (length hs)) 0); [lia|]. rewrite Nat2Z.id.
    fold (bhs_get (us_file (u_append (u_open d dd k) h).1) (length hs)). rewrite (bhs_get_rep _ _ _ A1).
    rewrite lookup_app_r, Nat.sub_diag by lia. done.
Qed.

Example C73_example : exists k k' s',
  index_the_hashes (2^63) 2 (2^30) k = UOk k' /\ u_append (u_open (2^63) 2 k') (ex_hash 9) = (s', None) /\ u_count s' = 4%nat.
Proof.
  destruct (index_the_hashes (2^63) 2 (2^30) (ex_disk 3)) as [k'| |] eqn:E; [|vm_compute in E; discriminate E|vm_compute in E; discriminate E].
  exists (ex_disk 3), k', (u_append (u_open (2^63) 2 k') (ex_hash 9)).1. split; [exact E|].
  vm_compute in E. injection E as <-. split; vm_compute; reflexivity.
Qed.

(** Indexing again makes the appended hashes findable, including those reported as failed. *)
Theorem C73_found_after_indexing_again_partial d dd bpp hs k l q :
  1664 <= d -> Forall is_hash hs -> Z.of_nat (length (hs ++ l)) < 2^63 -> Forall is_hash l -> 832 <= bpp ->
  ud_hashes k = concat hs -> is_hash q -> address d q < biggest_plus_one d ->
  exists k', index_the_hashes d dd bpp (us_disk (u_appends (u_open d dd k) l)) = UOk k' /\
    first_occurrence (hs ++ l) q (u_index_of (u_open d dd k') q).
Proof.
  intros Hd Hh Hlen Hl Hb Hk Hq Ha.
  assert (R : bhs_rep hs (us_file (u_open d dd k))).
  { unfold u_open. cbn [us_file]. rewrite Hk. apply bhs_open_rep, is_hash_len, Hh. }
  destruct (appends_rep l hs _ Hl R) as (_ & B2 & _).
  apply C72_first_index_partial; try done.
  - by apply Forall_app.
  - destruct l as [|h l]; [cbn; by rewrite app_nil_r|]. by apply B2.
Qed.

(** ** C74 *)
(** The self test of a store that is indexed right: passes when there are at least 100 hashes; panics when
    there are between 1 and 99. *)
Theorem C74_self_test_partial d dd bpp hs k :
  1664 <= d -> Forall is_hash hs -> Z.of_nat (length hs) < 2^63 -> 832 <= bpp -> ud_hashes k = concat hs ->
  0 <= biggest_plus_one d -> (forall h, h ∈ hs -> address d h < biggest_plus_one d) ->
  exists k', index_the_hashes d dd bpp k = UOk k' /\
    u_test (u_open d dd k') =
      if decide (1 <= length hs < 100)%nat then UPanic else UOk true.
Proof.
  intros Hd Hh Hl Hb Hk HN Hc. destruct (index_spec d dd bpp hs k ltac:(lia) Hh Hb HN Hk) as (k' & E & Ok & _).
  exists k'. split; [done|].
  assert (R : bhs_rep hs (us_file (u_open d dd k'))).
  { unfold u_open. cbn [us_file]. rewrite (proj1 Ok). apply bhs_open_rep, is_hash_len, Hh. }
  unfold u_test, u_count. assert (hf_count (us_file (u_open d dd k')) = length hs) as -> by (by destruct R as [-> _]).
  destruct (decide (length hs = 0%nat)) as [E0|E0].
  - rewrite E0. rewrite decide_False by lia. done.
  - rewrite (test_loop_spec hs); [|lia|done| |lia|lia].
    + destruct (Nat.eqb_spec (length hs / 100) 0) as [E1|E1].
      * rewrite decide_True; [done|]. apply Nat.div_small_iff in E1; lia.
      * rewrite decide_False; [done|]. intros [_ H]. apply E1, Nat.div_small. done.
    + intros h Hin. apply (lookup_spec d dd (biggest_plus_one d)); try done; [|by apply Hc].
      rewrite Forall_forall in Hh. by apply Hh.
Qed.

(** Conversely, a store that passes finds every one of its hashes, whatever is in its files: each lookup answers an index that holds the
    same hash.  (Only an all-zero hash may be missing, because a failed read leaves zeros.) *)
Theorem C74_passing_store_finds_its_hashes s : u_test s = UOk true ->
  forall i, (i < u_count s)%nat -> exists h, u_get s (Z.of_nat i) = Some h /\
    (h <> replicate 32 0 -> exists j, u_index_of s h = RFound j /\ u_get s (Z.of_nat j) = Some h).
Proof.
  unfold u_test. generalize (u_count s) at 1. intros c.
  assert (L : forall n i0, u_test_loop s c i0 n = UOk true -> forall i, (i0 <= i < i0 + n)%nat -> exists h, u_get s (Z.of_nat i) = Some h /\
    (h <> replicate 32 0 -> exists j, u_index_of s h = RFound j /\ u_get s (Z.of_nat j) = Some h)).
  { induction n as [|n IH]; intros i0 E i Hi; [lia|]. cbn [u_test_loop] in E.
    destruct (u_get s (Z.of_nat i0)) as [h|] eqn:Eh; [|done].
    assert (Hhere : (h <> replicate 32 0 -> exists j, u_index_of s h = RFound j /\ u_get s (Z.of_nat j) = Some h) /\
      u_test_loop s c (S i0) n = UOk true).
    { destruct (u_index_of s h) as [j| | | |] eqn:Ej; try done.
      - destruct (decide (h = _)) as [Hd|]; [|done]. destruct (_ =? _)%nat; [done|]. split; [|done].
        intros Hz. exists j. split; [done|]. destruct (u_get s (Z.of_nat j)) as [h2|] eqn:E2; [by f_equal|done].
      - destruct (decide (h = _)) as [Hd|]; [|done]. destruct (_ =? _)%nat; [done|]. split; [|done].
        intros Hz. destruct Hz. rewrite Hd. unfold u_get. cbn. done. }
    destruct Hhere as [H1 H2]. destruct (decide (i = i0)) as [->|]; [by exists h|]. apply (IH (S i0)); [done|lia]. }
  intros E i Hi. apply (L _ 0%nat E). lia.
Qed.
(** So a correctly indexed store of one hash makes the self test panic. *)
Theorem C74_self_test_refuted : exists k k' hs,
  Forall is_hash hs /\ ud_hashes k = concat hs /\ index_the_hashes (2^63) 2 (2^30) k = UOk k' /\
  (forall h, h ∈ hs -> first_occurrence hs h (u_index_of (u_open (2^63) 2 k') h)) /\
  u_test (u_open (2^63) 2 k') = UPanic.
Proof.
  assert (Hh : Forall is_hash [ex_hash 7]).
  { constructor; [|constructor]. split; [done|]. unfold ex_hash. constructor; [unfold is_byte; lia|].
    apply Forall_replicate. unfold is_byte. lia. }
  assert (Hx : forall h, h ∈ [ex_hash 7] -> address (2^63) h < biggest_plus_one (2^63)).
  { intros h ->%elem_of_list_singleton. vm_compute. done. }
  set (k := mk_ud (concat [ex_hash 7]) [] ∅ ∅ None).
  destruct (index_spec (2^63) 2 (2^30) [ex_hash 7] k) as (k' & E & Ok & _); [lia|done|lia|vm_compute; discriminate|done|].
  destruct (C74_self_test_partial (2^63) 2 (2^30) [ex_hash 7] k) as (k2 & E2 & T); [lia|done|cbn [length]; lia|lia|done|vm_compute; discriminate|done|].
  exists k, k', [ex_hash 7]. split; [done|]. split; [done|]. split; [done|]. split.
  - intros h Hin. apply (lookup_spec (2^63) 2 (biggest_plus_one (2^63))); [lia|done| |cbn [length]; lia|done|by apply Hx].
    rewrite Forall_forall in Hh. by apply Hh.
  - rewrite E in E2. injection E2 as <-. exact T.
Qed.

(** ** C75 *)
(** Making a creator object for an existing store with another estimate replaces its parameters file:
    opened with them, or with a creator made from that file, a stored hash is no longer found. *)
Theorem C75_other_estimate_refuted : exists k k1 q d2 k2,
  index_the_hashes (divider_for 150) 2 (2^30) k = UOk k1 /\ u_index_of (u_open (divider_for 150) 2 k1) q = RFound 0 /\
  u_creator 300 (Some k1) = (d2, Some k2) /\ u_creator_from_file k2 = Some d2 /\
  u_index_of (u_open d2 2 k2) q = RAbsent.
Proof.
  set (q := replicate 7 0 ++ 0x40 :: replicate 24 0).
  destruct (index_the_hashes (divider_for 150) 2 (2^30) (mk_ud q [] ∅ ∅ None)) as [k1| |] eqn:E; [|vm_compute in E; discriminate E|vm_compute in E; discriminate E].
  eexists (mk_ud q [] ∅ ∅ None), k1, q, (divider_for 300), _.
  split; [exact E|]. vm_compute in E. injection E as <-.
  split; [vm_compute; reflexivity|]. split; [reflexivity|]. split; [reflexivity|]. vm_compute. reflexivity.
Qed.

(** Made again with the same estimate, the parameters file is the same and so are all answers. *)
Theorem C75_same_estimate_partial est dd bpp hs k q :
  1664 <= divider_for est -> Forall is_hash hs -> Z.of_nat (length hs) < 2^63 -> 832 <= bpp -> ud_hashes k = concat hs ->
  is_hash q -> address (divider_for est) q < biggest_plus_one (divider_for est) ->
  exists k1 k2, index_the_hashes (divider_for est) dd bpp k = UOk k1 /\
    u_creator est (Some k1) = (divider_for est, Some k2) /\ u_creator_from_file k2 = Some (divider_for est) /\
    first_occurrence hs q (u_index_of (u_open (divider_for est) dd k2) q).
Proof.
  intros Hd Hh Hl Hb Hk Hq Ha. assert (D2 : 2 <= divider_for est) by lia. pose proof (address_range _ q Hq D2).
  destruct (index_spec (divider_for est) dd bpp hs k ltac:(lia) Hh Hb ltac:(lia) Hk) as (k' & E & Ok & _).
  eexists k', _. split; [done|]. split; [reflexivity|]. split; [reflexivity|].
  apply (lookup_spec (divider_for est) dd (biggest_plus_one (divider_for est))); try done.
Qed.

(** CreateHashStore writes Params.json through a file opened for reading: on a system that refuses that
    write it always reports an error, and no parameters can be read back. *)
Theorem C75_create_on_posix_refuted : forall d old, exists k,
  u_create false d old = (k, false) /\ u_creator_from_file k = None.
Proof. intros d old. eexists. split; reflexivity. Qed.
Theorem C75_create_where_allowed : forall d old, exists k,
  u_create true d old = (k, true) /\ u_creator_from_file k = Some d /\ ud_hashes k = concat [].
Proof. intros d old. eexists. split; [reflexivity|]. done. Qed.

(** A store of 105 hashes, three of them in the overflow file and one repeated, meets the hypotheses and
    answers as stated. *)
Example C72_example : exists k',
  index_the_hashes (2^63) 2 832 (mk_ud (ud_hashes (ex_disk 105) ++ ex_hash 104) [] ∅ ∅ None) = UOk k' /\
  u_index_of (u_open (2^63) 2 k') (ex_hash 104) = RFound 104 /\ u_index_of (u_open (2^63) 2 k') (ex_hash 3) = RFound 3 /\
  u_index_of (u_open (2^63) 2 k') (ex_hash 200) = RAbsent /\ u_test (u_open (2^63) 2 k') = UOk true.
Proof.
  destruct (index_the_hashes (2^63) 2 832 (mk_ud (ud_hashes (ex_disk 105) ++ ex_hash 104) [] ∅ ∅ None)) as [k1| |] eqn:E; [|vm_compute in E; discriminate E|vm_compute in E; discriminate E].
  exists k1. split; [reflexivity|]. vm_compute in E. injection E as <-. vm_compute. done.
Qed.

Print Assumptions C72_first_index_partial.
Print Assumptions C72_power_of_two_divider.
Print Assumptions C72_uncovered_hashes_refused.
Print Assumptions C72_all_hashes_found_refuted.
Print Assumptions C72_damaged_file_refused.
Print Assumptions C72_no_memory_refuted.
Print Assumptions C73_appended_hashes_not_found.
Print Assumptions C73_append_then_lookup_refuted.
Print Assumptions C73_failed_append_still_stores.
Print Assumptions C73_found_after_indexing_again_partial.
Print Assumptions C74_self_test_partial.
Print Assumptions C74_passing_store_finds_its_hashes.
Print Assumptions C74_self_test_refuted.
Print Assumptions C75_other_estimate_refuted.
Print Assumptions C75_same_estimate_partial.
Print Assumptions C75_create_on_posix_refuted.
Print Assumptions C75_create_where_allowed.
