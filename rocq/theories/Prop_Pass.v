(** Properties C22, C23, C63, C64: the indexing runs of indexedhashes3. *)
From Verif Require Import Base Model_Word Model_Bins Spec_Bins Proof_Bins Proof_BinFiles Prop_Bins Model_Pass Spec_Pass Proof_Pass Proof_Index Proof_Plan.

(** One pass over the hash file for the bins [first, first + count). *)
Notation pass_step p hs threads first count :=
  (fan_step p hs (first =? 0) (pass_slot first count) (pass_owner threads) (Z.to_nat 1000) threads).
Notation pass_init threads count := (fan_init threads (Z.to_nat count) (replicate threads true)).

Lemma measure_no_infinite {A} (step : A -> A -> Prop) start (m : A -> nat) :
  (forall s s', step s s' -> (m s' < m s)%nat) -> no_infinite_run step start.
Proof.
  intros Hm f _ Hf. assert (forall n, (m (f n) + n <= m (f 0))%nat) as H.
  { induction n as [|n IH]; [lia|]. pose proof (Hm _ _ (Hf n)). lia. }
  pose proof (H (S (m (f 0%nat)))). lia.
Qed.

(** C22. Whatever the number of workers and the schedule: when a pass is over, every bin of the pass holds
    exactly its hashes, each once, in index order; the first pass has written the bin number of every hash. *)
Theorem C22_every_schedule_fills_the_bins :
  forall p hs threads first count s, settings_ok p -> hash_list_ok p hs -> (0 < threads)%nat -> 0 <= first -> 0 <= count ->
    rtc (pass_step p hs threads first count) (pass_init threads count) s -> fan_finished threads s ->
    length (st_bins s) = Z.to_nat count /\
    (forall k b, st_bins s !! k = Some b -> contents p b = hashes_of p whole_slot (Z.to_nat first + k) 0 hs) /\
    (first = 0 -> st_nums s = (fun h => bin_num p (abbreviated h)) <$> hs).
Proof.
  intros p hs threads first count s Hset Hlist Hthr H0 Hc Hr Hf.
  destruct (pass_result p (fun b => b) hs threads Hthr (list_fits p hs Hset Hlist) (list_range p hs Hset Hlist) first count s Hr Hf H0 Hc)
    as (H1 & H2 & H3).
  split; [done|]. split; [|done]. intros k b Hk. by apply (H2 k b Hk).
Qed.

(** C22. No schedule deadlocks, crashes or goes on for ever; every execution can be completed. *)
Theorem C22_every_schedule_ends :
  forall p hs threads first count, settings_ok p -> hash_list_ok p hs -> (0 < threads)%nat ->
    no_infinite_run (pass_step p hs threads first count) (pass_init threads count) /\
    forall s, rtc (pass_step p hs threads first count) (pass_init threads count) s ->
      st_crashed s = false /\
      (fan_finished threads s \/ exists s', pass_step p hs threads first count s s') /\
      exists s', rtc (pass_step p hs threads first count) s s' /\ fan_finished threads s'.
Proof.
  intros p hs threads first count Hset Hlist Hthr.
  pose proof (list_fits p hs Hset Hlist) as Hfit. pose proof (pass_slots p hs threads Hthr first count) as Hs.
  assert (length (replicate threads true) = threads) as Hl by apply replicate_length.
  assert (forall h k, h ∈ hs -> pass_slot first count (bin_num p (abbreviated h)) = Some k ->
    replicate threads true !! pass_owner threads k = Some true) as Ho.
  { intros h k Hh Hk. apply lookup_replicate_2. by eapply Hs. }
  pose proof (all_launched threads) as Hall. assert (0 < Z.to_nat 1000)%nat as Hcap by lia.
  split.
  - apply (measure_no_infinite _ _ (fan_measure hs threads)). intros s s' Hst.
    by eapply (fan_measure_step p hs _ _ _ _ threads (Z.to_nat count) _ Hfit Hs Hl Ho Hall Hcap Hthr).
  - intros s Hr. split; [|split].
    + by eapply (fan_reach p hs _ _ _ _ threads (Z.to_nat count) _ Hfit Hs Hl Ho Hall s).
    + by eapply (fan_progress p hs _ _ _ _ threads (Z.to_nat count) _ Hfit Hs Hl Ho Hall Hcap Hthr s).
    + by eapply (fan_terminates p hs _ _ _ _ threads (Z.to_nat count) _ Hfit Hs Hl Ho Hall Hcap Hthr s).
Qed.

(** C22. The parallel sort: every bin is sorted exactly once whatever the schedule, and it ends. *)
Theorem C22_parallel_sort :
  forall srt bins threads, (0 < threads)%nat ->
    no_infinite_run (sort_step srt) (sort_init threads bins) /\
    forall s, rtc (sort_step srt) (sort_init threads bins) s ->
      (Forall (fun w => w = Exited) (ss_workers s) -> ss_bins s = sort_dedup srt <$> bins) /\
      (Forall (fun w => w = Exited) (ss_workers s) \/ exists s', sort_step srt s s') /\
      exists s', rtc (sort_step srt) s s' /\ Forall (fun w => w = Exited) (ss_workers s').
Proof.
  intros srt bins threads Hthr. split.
  - eapply measure_no_infinite. intros s s' H. exact (sort_measure_step srt bins threads s s' H).
  - intros s Hr. split; [|split].
    + intros Hex. by eapply sort_result.
    + by eapply sort_progress.
    + by eapply sort_terminates.
Qed.

(** C22. The passes of a run cover every bin exactly once, in order. *)
Theorem C22_passes_cover_the_bins :
  forall p bytes_per_pass rs, 0 <= bytes_per_pass -> 0 < p_bins p -> 0 <= p_estimate p ->
    pass_ranges p bytes_per_pass = Some rs ->
    concat ((fun r => (fun i => fst r + Z.of_nat i) <$> seq 0 (Z.to_nat (snd r))) <$> rs) =
    (fun i => Z.of_nat i) <$> seq 0 (Z.to_nat (p_bins p)).
Proof. intros p b rs H1 H2 H3 H4. exact (pass_ranges_cover p b rs H1 H2 H3 H4). Qed.

(** C22. The limit: a memory allowance below the size of one bin makes the run panic (division by zero). *)
Theorem C22_needs_room_for_one_bin :
  exists p bytes_per_pass, p ∈ shipped /\ 0 < bytes_per_pass /\ pass_ranges p bytes_per_pass = None.
Proof. exists (mk_params 32 3244977536 2 16777216 236 5), 1000. split; [by left|]. split; [lia|]. vm_compute. reflexivity. Qed.

Definition ex_hash (a t : Z) : list Z := replicate 7 0 ++ [a] ++ replicate 23 0 ++ [t].
Definition ex_hashes : list (list Z) := [ex_hash 255 1; ex_hash 0 2; ex_hash 255 3; ex_hash 0 2].

Lemma ex_hash_ok a t : 0 <= a < 256 -> 0 <= t < 256 -> length (ex_hash a t) = 32%nat /\ bytes (ex_hash a t).
Proof.
  intros Ha Ht. split; [reflexivity|]. unfold ex_hash.
  repeat (apply Forall_app; split); repeat constructor; lia.
Qed.
Lemma ex_hashes_ok : hash_list_ok ex_params ex_hashes.
Proof.
  split; [|split; vm_compute; congruence]. unfold ex_hashes. rewrite !Forall_cons. repeat split; try apply ex_hash_ok; lia || constructor.
Qed.
Lemma ex_settings_ok : settings_ok ex_params.
Proof.
  split; [exists 8; split; [lia|reflexivity]|]. repeat split; vm_compute; try congruence; lia.
Qed.

(** The hypotheses are met by a list with a repeated hash, for two workers and all bins in one pass. *)
Example C22_example : settings_ok ex_params /\ hash_list_ok ex_params ex_hashes /\
  hashes_of ex_params whole_slot 255 0 ex_hashes = [(replicate 23 0 ++ [1], 0, 0); (replicate 23 0 ++ [3], 2, 0)] /\
  pass_ranges ex_params 1400000 = Some [(0, 104); (104, 104); (208, 48)].
Proof. split; [apply ex_settings_ok|]. split; [apply ex_hashes_ok|]. split; vm_compute; reflexivity. Qed.

(** ** C23 *)

(** C23. Every bin is in exactly one pass, no pass is empty, a pass reaches the allowance only if it is a
    single bin, and planning ends.  [ws] may be in any order. *)
Theorem C23_plan_is_a_partition :
  forall budget ws, Forall (fun w => 0 <= wk_count w) ws ->
    exists ps, plan (length ws) budget ws = Some ps /\ concat ps ≡ₚ ws /\ Forall (fun q => q <> []) ps /\
      Forall (fun q => total q < budget \/ length q = 1%nat) ps.
Proof. intros budget ws H. by apply plan_spec. Qed.

(** C23. The counts of stage one are the numbers of hashes of the bins. *)
Theorem C23_counts_are_exact :
  forall p hs, settings_ok p -> hash_list_ok p hs ->
    exists ws, stage_one p (Some (concat hs)) = Some ws /\ length ws = Z.to_nat (p_bins p) /\
      forall k w, ws !! k = Some w -> wk_bin w = Z.of_nat k /\
        wk_count w = Z.of_nat (length (hashes_of p whole_slot k 0 hs)).
Proof.
  intros p hs Hset Hlist.
  assert (length (concat hs) = (length hs * 32)%nat) as Hlen.
  { apply chunks_concat_length. eapply Forall_impl; [apply Hlist|]. cbn. tauto. }
  assert (to_entries (length (concat hs) / 32) 32 (concat hs) = hs) as E.
  { rewrite Hlen, Nat.div_mul by lia. apply to_entries_concat; [|done]. eapply Forall_impl; [apply Hlist|]. cbn. tauto. }
  exists (count_bins p hs). unfold stage_one. cbn [mbind option_bind].
  rewrite decide_True by (rewrite Hlen; by apply Nat.mod_mul). rewrite E. split; [done|].
  unfold count_bins. split; [by rewrite fmap_length, seq_length|].
  intros k w Hk. apply list_lookup_fmap_Some in Hk as (i & Hi & ->). apply lookup_seq in Hi as [-> Hi]. cbn [plus wk_bin wk_count].
  split; [done|]. rewrite hashes_of_count; [done|]. intros h Hh. by apply (list_range p hs Hset Hlist).
Qed.

(** C23. Sharing a pass out: every bin gets one worker, the recorded loads are the sums of what was given, and
    no worker has more than another by more than the largest bin. *)
Theorem C23_work_is_shared_out :
  forall threads ws M, (0 < threads)%nat -> 0 <= M -> Forall (fun w => 0 <= wk_count w <= M) ws -> total ws < 2 ^ 63 - 1 ->
    let r := allocate (replicate threads 0) ws in
    fst <$> fst r = ws /\ Forall (fun x => (snd x < threads)%nat) (fst r) /\
    (forall a, (a < threads)%nat -> snd r !! a = Some (total (share a (fst r)))) /\
    (forall a b, (a < threads)%nat -> (b < threads)%nat -> total (share a (fst r)) - total (share b (fst r)) <= M).
Proof.
  intros threads ws M Hthr HM Hws Htot r.
  assert (replicate threads 0 <> []) as Hn by (destruct threads; [lia|done]).
  destruct (allocate_spec ws (replicate threads 0) Hn) as (H1 & H2 & H3 & H4). fold r in H1, H2, H3, H4. rewrite replicate_length in H2, H3.
  assert (forall a, (a < threads)%nat -> snd r !! a = Some (total (share a (fst r)))) as H5.
  { intros a Ha. rewrite (H4 a 0); [f_equal; lia|]. by apply lookup_replicate_2. }
  split; [done|]. split; [done|]. split; [done|]. intros a b Ha Hb.
  eapply (allocate_balanced M ws (replicate threads 0) Hn Hws); [| |by eapply elem_of_list_lookup_2, H5..].
  - intros l Hl. apply elem_of_replicate in Hl as [-> _]. lia.
  - intros l l' Hl Hl'. apply elem_of_replicate in Hl as [-> _], Hl' as [-> _]. lia.
Qed.

(** C23. The stretches of one worker's buffer given to different bins do not overlap and lie inside the buffer
    (of as many entries as the worker's load). *)
Theorem C23_buffers_do_not_overlap :
  forall threads al, Forall (fun x => 0 <= wk_count (fst x)) al -> Forall (fun x => (snd x < threads)%nat) al ->
    let os := offsets (replicate threads 0) al in
    fst <$> os = al /\
    (forall i w a o, os !! i = Some (w, a, o) -> 0 <= o /\ o + wk_count w <= total (share a al)) /\
    (forall i j w w' a o o', (i < j)%nat -> os !! i = Some (w, a, o) -> os !! j = Some (w', a, o') -> o + wk_count w <= o').
Proof.
  intros threads al Hc Ha os. pose proof (offsets_fst al (replicate threads 0)) as E. fold os in E.
  assert (forall i w a o, os !! i = Some (w, a, o) -> al !! i = Some (w, a) /\ o = total (share a (take i al))) as H.
  { intros i w a o Hi. split.
    - rewrite <- E. rewrite list_lookup_fmap, Hi. done.
    - destruct (offsets_lookup al (replicate threads 0) i w a o) as (q & Hq & ->); [by rewrite replicate_length|done|].
      apply lookup_replicate in Hq as [-> _]. lia. }
  split; [done|]. split.
  - intros i w a o Hi. destruct (H _ _ _ _ Hi) as [Hal ->]. split.
    + apply total_nonneg, share_nonneg. by apply Forall_take.
    + rewrite <- share_take_S by done. rewrite <- (take_ge al (length al)) at 2 by lia.
      apply share_take_mono; [done|]. apply lookup_lt_Some in Hal. lia.
  - intros i j w w' a o o' Hij Hi Hj. destruct (H _ _ _ _ Hi) as [Hal ->], (H _ _ _ _ Hj) as [Hal' ->].
    rewrite <- share_take_S by done. by apply share_take_mono.
Qed.

Definition ex_work : list work := [mk_work 3 7; mk_work 0 5; mk_work 2 4; mk_work 1 0].
Example C23_example : Forall (fun w => 0 <= wk_count w) ex_work /\
  plan 4 6 ex_work = Some [[mk_work 3 7]; [mk_work 0 5; mk_work 1 0]; [mk_work 2 4]] /\
  allocate [0; 0] ex_work = ([(mk_work 3 7, 0); (mk_work 0 5, 1); (mk_work 2 4, 1); (mk_work 1 0, 0)]%nat, [7; 9]) /\
  offsets [0; 0] [(mk_work 3 7, 0); (mk_work 0 5, 1); (mk_work 2 4, 1); (mk_work 1 0, 0)]%nat =
    [(mk_work 3 7, 0%nat, 0); (mk_work 0 5, 1%nat, 0); (mk_work 2 4, 1%nat, 5); (mk_work 1 0, 0%nat, 7)].
Proof. split; [repeat constructor; cbn; lia|]. split; [|split]; vm_compute; reflexivity. Qed.

(** ** C63: adaptive indexing with more workers than work *)

(** One adaptive pass: the bins of [al] with their workers. *)
Notation adaptive_step p hs first threads al :=
  (fan_step p hs first (adaptive_slot al) (adaptive_owner al) (Z.to_nat 100000) threads).
Notation adaptive_init p threads al := (fan_init threads (Z.to_nat (p_bins p)) (launched threads al)).

Lemma adaptive_find (al : list (work * nat)) k : forall w a, (w, a) ∈ al -> wk_bin w = Z.of_nat k -> (snd <$> list_find (fun x => wk_bin (fst x) = Z.of_nat k) al) <> None.
Proof.
  intros w a Hin E. destruct (list_find_elem_of (fun x => wk_bin (fst x) = Z.of_nat k) al (w, a) Hin E) as [y Hy].
  rewrite Hy. done.
Qed.

Lemma adaptive_owner_in (al : list (work * nat)) k w a : (w, a) ∈ al -> wk_bin w = Z.of_nat k -> NoDup (wk_bin <$> (fst <$> al)) -> adaptive_owner al k = a.
Proof.
  intros Hin E Hnd. unfold adaptive_owner.
  destruct (list_find (fun x => wk_bin (fst x) = Z.of_nat k) al) as [[i [w' a']]|] eqn:F.
  - cbn. apply list_find_Some in F as (Hi & Hw & _). cbn in Hw.
    apply elem_of_list_lookup in Hin as [j Hj].
    assert (i = j) as ->; [|congruence].
    eapply (NoDup_lookup _ i j (Z.of_nat k) Hnd); rewrite !list_lookup_fmap, ?Hi, ?Hj; cbn; congruence.
  - exfalso. by apply (adaptive_find al k w a Hin E); rewrite F.
Qed.

Lemma adaptive_slot_in (al : list (work * nat)) bn k : adaptive_slot al bn = Some k -> exists w a, (w, a) ∈ al /\ wk_bin w = bn /\ k = Z.to_nat bn.
Proof.
  unfold adaptive_slot. destruct (bool_decide_reflect (bn ∈ (wk_bin ∘ fst <$> al))) as [H|]; [|done]. intros [= <-].
  apply elem_of_list_fmap in H as ([w a] & -> & Hin). by exists w, a.
Qed.

(** A pass as the planner makes them. *)
Definition pass_plan (p : params) (threads : nat) (al : list (work * nat)) : Prop :=
  NoDup (wk_bin <$> (fst <$> al)) /\ Forall (fun x => 0 <= wk_bin (fst x) < p_bins p /\ (snd x < threads)%nat) al.

(** C63. If every worker has at least one bin, every schedule of an adaptive pass ends with every bin of the pass
    holding exactly its hashes in index order. *)
Theorem C63_passes_with_work_for_all_partial :
  forall p hs first threads al, settings_ok p -> hash_list_ok p hs -> (0 < threads)%nat -> pass_plan p threads al ->
    (forall a, (a < threads)%nat -> exists w, (w, a) ∈ al) ->
    no_infinite_run (adaptive_step p hs first threads al) (adaptive_init p threads al) /\
    forall s, rtc (adaptive_step p hs first threads al) (adaptive_init p threads al) s ->
      st_crashed s = false /\
      (fan_finished threads s \/ exists s', adaptive_step p hs first threads al s s') /\
      (fan_finished threads s ->
        (forall w a, (w, a) ∈ al -> exists b, st_bins s !! Z.to_nat (wk_bin w) = Some b /\
           contents p b = hashes_of p whole_slot (Z.to_nat (wk_bin w)) 0 hs) /\
        st_nums s = if first then (fun h => bin_num p (abbreviated h)) <$> hs else []).
Proof.
  intros p hs first threads al Hset Hlist Hthr [Hnd Hal] Hall.
  pose proof (list_fits p hs Hset Hlist) as Hfit. rewrite Forall_forall in Hal.
  assert (forall h k, h ∈ hs -> adaptive_slot al (bin_num p (abbreviated h)) = Some k ->
    (k < Z.to_nat (p_bins p))%nat /\ (adaptive_owner al k < threads)%nat) as Hs.
  { intros h k Hh Hk. apply adaptive_slot_in in Hk as (w & a & Hin & E & ->). destruct (Hal _ Hin) as [H1 H2]. cbn in H1, H2.
    split; [lia|]. rewrite (adaptive_owner_in al _ w a Hin); [done|lia|done]. }
  assert (Forall (fun l => l = true) (launched threads al)) as Hl.
  { apply Forall_lookup. intros i x Hi. unfold launched in Hi. apply list_lookup_fmap_Some in Hi as (j & Hj & ->).
    apply lookup_seq in Hj as [-> Hj]. apply bool_decide_eq_true_2. destruct (Hall i Hj) as [w Hw].
    apply elem_of_list_fmap. by exists (w, i). }
  assert (length (launched threads al) = threads) as Hlen by (unfold launched; by rewrite fmap_length, seq_length).
  assert (forall h k, h ∈ hs -> adaptive_slot al (bin_num p (abbreviated h)) = Some k ->
    launched threads al !! adaptive_owner al k = Some true) as Ho.
  { intros h k Hh Hk. destruct (Hs h k Hh Hk) as [_ Ho]. rewrite <- Hlen in Ho. destruct (lookup_lt_is_Some_2 _ _ Ho) as [x Hx].
    rewrite Hx. f_equal. rewrite Forall_lookup in Hl. by eapply Hl. }
  assert (0 < Z.to_nat 100000)%nat as Hcap by lia.
  split.
  - apply (measure_no_infinite _ _ (fan_measure hs threads)). intros s s' Hst.
    by eapply (fan_measure_step p hs _ _ _ _ threads _ _ Hfit Hs Hlen Ho Hl Hcap Hthr).
  - intros s Hr. split; [|split].
    + by eapply (fan_reach p hs _ _ _ _ threads _ _ Hfit Hs Hlen Ho Hl s).
    + by eapply (fan_progress p hs _ _ _ _ threads _ _ Hfit Hs Hlen Ho Hl Hcap Hthr s).
    + intros Hfin. destruct (fan_result p hs _ _ _ _ threads _ _ Hfit Hs Hlen Ho Hl Hcap Hthr s Hr Hfin) as (H1 & H2 & H3 & H4).
      split; [|done]. intros w a Hin. destruct (Hal _ Hin) as [Hb Ha]. cbn in Hb, Ha.
      destruct (lookup_lt_is_Some_2 (st_bins s) (Z.to_nat (wk_bin w))) as [b Hbb]; [lia|]. exists b. split; [done|].
      rewrite (H3 _ _ Hbb). apply hashes_of_ext. intros h Hh. pose proof (list_range p hs Hset Hlist h Hh) as Hrg.
      unfold whole_slot, adaptive_slot. destruct (bool_decide_reflect (bin_num p (abbreviated h) ∈ (wk_bin ∘ fst <$> al))) as [|Hno]; [done|].
      split; [done|]. intros [= E]. exfalso. apply Hno. apply elem_of_list_fmap. exists (w, a). split; [cbn; lia|done].
Qed.

(** C63. If some worker has no bin, no schedule ever finishes the pass: it ends in a panic (closing a closed
    channel) unless the program ends before. *)
Theorem C63_idle_worker_never_finishes_refuted :
  forall p hs first threads al a s, (a < threads)%nat -> (forall w, (w, a) ∉ al) ->
    rtc (adaptive_step p hs first threads al) (adaptive_init p threads al) s -> ~ fan_finished threads s.
Proof.
  intros p hs first threads al a s Ha Hno Hr.
  eapply (unlaunched_never_finishes p hs first _ _ _ threads _ (launched threads al)); [|done|exact Hr].
  unfold launched. rewrite list_lookup_fmap, lookup_seq_lt by done. cbn. f_equal. apply bool_decide_eq_false_2.
  intros Hin. apply elem_of_list_fmap in Hin as ([w a'] & -> & Hin). by apply (Hno w).
Qed.

(** C63. One hash, two bins, four workers: the planned pass gives work to two workers and the run panics. *)
Definition two_bins := mk_params 17 2 2 2 4 8.
Theorem C63_more_workers_than_bins_refuted :
  exists p hs threads al, settings_ok p /\ hash_list_ok p hs /\ (0 < threads)%nat /\ pass_plan p threads al /\
    (exists ws ps, stage_one p (Some (concat hs)) = Some ws /\ plan (length ws) 100 ws = Some ps /\
       ps = [ws] /\ fst (allocate (replicate threads 0) ws) = al) /\
    exists s, rtc (adaptive_step p hs true threads al) (adaptive_init p threads al) s /\ st_crashed s = true.
Proof.
  exists two_bins, [ex_hash 0 1], 4%nat, [(mk_work 0 1, 0%nat); (mk_work 1 0, 1%nat)].
  split; [|split; [|split; [lia|split; [|split]]]].
  - split; [exists 1; split; [lia|reflexivity]|]. repeat split; vm_compute; try congruence; lia.
  - split; [|split; vm_compute; congruence]. apply Forall_singleton. apply ex_hash_ok; lia.
  - split; [cbn; repeat constructor; set_solver|]. repeat constructor; cbn; lia.
  - eexists _, _. split; [vm_compute; reflexivity|]. split; [vm_compute; reflexivity|]. split; [reflexivity|]. vm_compute. reflexivity.
  - set (al := [(mk_work 0 1, 0%nat); (mk_work 1 0, 1%nat)]). set (cap := Z.to_nat 100000).
    set (step := fan_step two_bins [ex_hash 0 1] true (adaptive_slot al) (adaptive_owner al) cap 4).
    set (it := mk_item 0 0 0 (truncated (ex_hash 0 1))).
    set (s1 := mk_fan 1 [0] [[it]; []; []; []] [false; false; true; true] 0 [false; false; true; true] [[]; []] false).
    set (s2 := mk_fan 1 [0] [[it]; []; []; []] [true; false; true; true] 1 [false; false; true; true] [[]; []] false).
    set (s3 := mk_fan 1 [0] [[it]; []; []; []] [true; true; true; true] 2 [false; false; true; true] [[]; []] false).
    exists (set_crashed s3). split; [|reflexivity].
    eapply rtc_l; [|eapply rtc_l; [|eapply rtc_l; [|apply rtc_once]]].
    + assert (step (adaptive_init two_bins 4%nat al) s1) as H; [|exact H].
      assert (0 < cap)%nat as Hc by (unfold cap; lia). clearbody cap.
      exact (step_send two_bins [ex_hash 0 1] true (adaptive_slot al) (adaptive_owner al) cap 4 (adaptive_init two_bins 4%nat al)
        (ex_hash 0 1) 0 0%nat 0%nat [] eq_refl eq_refl eq_refl eq_refl eq_refl eq_refl eq_refl Hc).
    + assert (step s1 s2) as H; [|exact H]. apply step_close; try reflexivity. cbn. lia.
    + assert (step s2 s3) as H; [|exact H]. apply step_close; try reflexivity. cbn. lia.
    + apply step_close_closed; try reflexivity. cbn. lia.
Qed.

Example C63_example : settings_ok two_bins /\ hash_list_ok two_bins [ex_hash 0 1] /\
  pass_plan two_bins 2 [(mk_work 0 1, 0%nat); (mk_work 1 0, 1%nat)] /\
  (forall a, (a < 2)%nat -> exists w, (w, a) ∈ [(mk_work 0 1, 0%nat); (mk_work 1 0, 1%nat)]).
Proof.
  split; [split; [exists 1; split; [lia|reflexivity]|]; repeat split; vm_compute; try congruence; lia|].
  split; [split; [|split; vm_compute; congruence]; apply Forall_singleton; apply ex_hash_ok; lia|].
  split; [split; [cbn; repeat constructor; set_solver|]; repeat constructor; cbn; lia|].
  intros [|[|a]] Ha; [exists (mk_work 0 1); left|exists (mk_work 1 0); right; left|lia].
Qed.

(** ** C64: errors of the first stage *)

(** C64. A hash file that cannot be read, or that ends inside a hash, is an error of the counting stage; the
    indexing call goes on with no bins and reports success: nothing is planned, nothing is indexed. *)
Theorem C64_unreadable_hash_file_refuted :
  forall p budget order, (forall ws, order ws ≡ₚ ws) ->
    stage_one p None = None /\ adaptive_plan p None budget order = Some [] /\
    forall bs, (length bs mod 32 <> 0)%nat -> stage_one p (Some bs) = None /\ adaptive_plan p (Some bs) budget order = Some [].
Proof.
  intros p budget order Ho. assert (order [] = []) as E.
  { apply Permutation_nil. symmetry. apply Ho. }
  assert (forall file, stage_one p file = None -> adaptive_plan p file budget order = Some []) as H.
  { intros file Hf. unfold adaptive_plan. rewrite Hf. cbn [default from_option]. unfold id. rewrite E. reflexivity. }
  split; [done|]. split; [by apply H|]. intros bs Hbs.
  assert (stage_one p (Some bs) = None) as Hn by (unfold stage_one; cbn [mbind option_bind]; by rewrite decide_False).
  split; [done|]. by apply H.
Qed.

(** C64. Every well-formed hash file is planned completely: each bin in exactly one pass. *)
Theorem C64_whole_files_are_planned_partial :
  forall p hs budget order, settings_ok p -> hash_list_ok p hs -> (forall ws, order ws ≡ₚ ws) ->
    exists ps, adaptive_plan p (Some (concat hs)) budget order = Some ps /\
      wk_bin <$> concat ps ≡ₚ (fun i => Z.of_nat i) <$> seq 0 (Z.to_nat (p_bins p)).
Proof.
  intros p hs budget order Hset Hlist Ho.
  destruct (C23_counts_are_exact p hs Hset Hlist) as (ws & E & Hl & Hw). unfold adaptive_plan. rewrite E. cbn [default from_option]. unfold id.
  destruct (C23_plan_is_a_partition budget (order ws)) as (ps & -> & Hp & _).
  { apply Forall_forall. intros w Hin. rewrite (Ho ws) in Hin. apply elem_of_list_lookup in Hin as [k Hk].
    destruct (Hw k w Hk) as [_ ->]. lia. }
  exists ps. split; [done|]. rewrite Hp, (Ho ws).
  enough (wk_bin <$> ws = (fun i => Z.of_nat i) <$> seq 0 (Z.to_nat (p_bins p))) as -> by done.
  apply list_eq. intros k. rewrite !list_lookup_fmap. destruct (ws !! k) as [w|] eqn:Ek; cbn.
  - destruct (Hw k w Ek) as [-> _]. apply lookup_lt_Some in Ek. rewrite lookup_seq_lt by lia. done.
  - apply lookup_ge_None in Ek. rewrite lookup_seq_ge by lia. done.
Qed.

Example C64_example : settings_ok ex_params /\ hash_list_ok ex_params ex_hashes /\ (forall ws : list work, ws ≡ₚ ws) /\
  (length (repeat 0 33) mod 32 <> 0)%nat.
Proof. split; [apply ex_settings_ok|]. split; [apply ex_hashes_ok|]. split; [done|]. cbn. lia. Qed.

Print Assumptions C22_every_schedule_fills_the_bins.
Print Assumptions C22_every_schedule_ends.
Print Assumptions C22_parallel_sort.
Print Assumptions C22_passes_cover_the_bins.
Print Assumptions C22_needs_room_for_one_bin.
Print Assumptions C23_plan_is_a_partition.
Print Assumptions C23_counts_are_exact.
Print Assumptions C23_work_is_shared_out.
Print Assumptions C23_buffers_do_not_overlap.
Print Assumptions C63_passes_with_work_for_all_partial.
Print Assumptions C63_idle_worker_never_finishes_refuted.
Print Assumptions C63_more_workers_than_bins_refuted.
Print Assumptions C64_unreadable_hash_file_refuted.
Print Assumptions C64_whole_files_are_planned_partial.
