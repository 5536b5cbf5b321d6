(** Property C95: indexing again after a run that was stopped or finished. *)
From Coq Require Import Sorting.Sorted.
From Verif Require Import Base Model_Word Spec_Word Proof_Word Model_Folders Model_Bins Spec_Bins Proof_Bins Proof_BinFiles Prop_Bins
  Model_Pass Spec_Pass Proof_Pass Proof_Index Proof_Plan Prop_Pass Prop_Index Model_Adaptive Proof_Adaptive Prop_Adaptive
  Model_Chain Model_Job Prop_Job Model_Again.

(** ** How long a bin gets *)
(** the different truncated hashes of bin [k] *)
Definition different (p : params) (hs : list (list Z)) (k : nat) : nat :=
  length (remove_dups ((fun x => fst (fst x)) <$> hashes_of p whole_slot k 0 hs)).

Lemma sort_dedup_length p srt hs k b : sorts p srt -> settings_ok p -> hash_list_ok p hs -> no_collisions hs ->
  contents p b = hashes_of p whole_slot k 0 hs -> length (sort_dedup srt b) = different p hs k.
Proof.
  intros Hs Hset Hl Hc E.
  assert (truncations_distinct p b) as Ht by (by eapply bin_truncations).
  assert (sort_numbers_distinct p b) as Hn by (by eapply bin_sort_numbers).
  pose proof (sort_dedup_nodup p srt b Hs Ht Hn) as Hnd. unfold different. rewrite <- E. unfold contents. rewrite <- list_fmap_compose.
  rewrite <- (fmap_length entry_th (sort_dedup srt b)). apply Permutation_length, NoDup_Permutation.
  - done.
  - apply NoDup_remove_dups.
  - intros th. rewrite elem_of_remove_dups. unfold compose. cbn [fst]. rewrite !elem_of_list_fmap. split.
    + intros (e & -> & He). exists e. split; [done|]. by apply (sort_dedup_facts p srt b Hs).
    + intros (e & -> & He). destruct (sort_dedup_keeps p srt b e Hs He Ht) as (e' & H1 & H2 & _). exists e'. done.
Qed.

(** ** Saving over other overflow files *)
Definition same_but (old : over_map) (f g : bin_files) : Prop :=
  f_starts f = f_starts g /\ f_over f = f_over g ∪ old.

Lemma save_without p old f g bn b f1 : same_but old f g -> save_bin p f bn b = Some f1 ->
  exists g1, save_bin p g bn b = Some g1 /\ same_but old f1 g1.
Proof.
  intros [E1 E2] H. unfold save_bin in *. destruct (decide (p_start p < length b)%nat).
  - destruct (overflow_path p bn) as [path|]; [|done]. cbn [mbind option_bind] in *. destruct (bn <? 0); [done|].
    apply (inj Some) in H as <-. eexists. split; [reflexivity|]. split; cbn [f_starts f_over]; [by rewrite E1|].
    rewrite E2. apply insert_union_l.
  - cbn [mbind option_bind] in *. destruct (bn <? 0); [done|].
    apply (inj Some) in H as <-. eexists. split; [reflexivity|]. split; cbn [f_starts f_over]; [by rewrite E1|done].
Qed.
Lemma save_with p old f g bn b g1 : same_but old f g -> save_bin p g bn b = Some g1 ->
  exists f1, save_bin p f bn b = Some f1 /\ same_but old f1 g1.
Proof.
  intros [E1 E2] H. unfold save_bin in *. destruct (decide (p_start p < length b)%nat).
  - destruct (overflow_path p bn) as [path|]; [|done]. cbn [mbind option_bind] in *. destruct (bn <? 0); [done|].
    apply (inj Some) in H as <-. eexists. split; [reflexivity|]. split; cbn [f_starts f_over]; [by rewrite E1|].
    rewrite E2. apply insert_union_l.
  - cbn [mbind option_bind] in *. destruct (bn <? 0); [done|].
    apply (inj Some) in H as <-. eexists. split; [reflexivity|]. split; cbn [f_starts f_over]; [by rewrite E1|done].
Qed.

Lemma results_without p old outs : forall f g f1, same_but old f g -> save_results p f outs = Some f1 ->
  exists g1, save_results p g outs = Some g1 /\ same_but old f1 g1.
Proof.
  induction outs as [|[bn b] outs IH]; intros f g f1 Hs H; cbn [save_results] in *.
  - apply (inj Some) in H as <-. by exists g.
  - destruct (save_bin p f bn b) as [f'|] eqn:E; [|done]. destruct (save_without p old f g bn b f' Hs E) as (g' & -> & Hs').
    cbn [mbind option_bind] in *. by apply (IH f').
Qed.
Lemma results_with p old outs : forall f g g1, same_but old f g -> save_results p g outs = Some g1 ->
  exists f1, save_results p f outs = Some f1 /\ same_but old f1 g1.
Proof.
  induction outs as [|[bn b] outs IH]; intros f g g1 Hs H; cbn [save_results] in *.
  - apply (inj Some) in H as <-. by exists f.
  - destruct (save_bin p g bn b) as [g'|] eqn:E; [|done]. destruct (save_with p old f g bn b g' Hs E) as (f' & -> & Hs').
    cbn [mbind option_bind] in *. by apply (IH f' g').
Qed.

Lemma write_results p bins : forall f bn, write_files p f bn bins = save_results p f (numbered bn bins).
Proof.
  induction bins as [|b bins IH]; intros f bn; [done|]. unfold numbered. cbn [imap write_files save_results].
  rewrite Z.add_0_r. destruct (save_bin p f bn b) as [f'|]; [|done]. cbn [mbind option_bind]. rewrite IH. unfold numbered. f_equal.
  apply imap_ext. intros i x _. cbn. f_equal. lia.
Qed.

Section Clean.
  Context (p : params) (srt : bin -> bin) (hs : list (list Z)) (threads : nat) (old : over_map).

  Lemma multipass_without rs f nums f' nums' : multipass p srt hs threads rs f nums f' nums' -> forall g, same_but old f g ->
    exists g', multipass p srt hs threads rs g nums g' nums' /\ same_but old f' g'.
  Proof using.
    induction 1 as [f nums|first count rs f nums s s' f1 f2 nums' Hr Hf Hs He Hw Hm IH]; intros g Hg.
    - exists g. split; [constructor|done].
    - rewrite write_results in Hw. destruct (results_without p old _ f g f1 Hg Hw) as (g1 & Hw' & Hg1).
      destruct (IH g1 Hg1) as (g2 & Hm2 & Hg2). exists g2. split; [|done]. eapply mp_pass; try done. by rewrite write_results.
  Qed.
  Lemma multipass_with rs g nums g' nums' : multipass p srt hs threads rs g nums g' nums' -> forall f, same_but old f g ->
    exists f', multipass p srt hs threads rs f nums f' nums' /\ same_but old f' g'.
  Proof using.
    induction 1 as [g nums|first count rs g nums s s' g1 g2 nums' Hr Hf Hs He Hw Hm IH]; intros f Hg.
    - exists f. split; [constructor|done].
    - rewrite write_results in Hw. destruct (results_with p old _ f g g1 Hg Hw) as (f1 & Hw' & Hg1).
      destruct (IH f1 Hg1) as (f2 & Hm2 & Hg2). exists f2. split; [|done]. eapply mp_pass; try done. by rewrite write_results.
  Qed.
  Lemma adaptive_without first wss f nums f' nums' : adaptive_passes p srt hs threads first wss f nums f' nums' -> forall g, same_but old f g ->
    exists g', adaptive_passes p srt hs threads first wss g nums g' nums' /\ same_but old f' g'.
  Proof using.
    induction 1 as [first f nums|first ws wss f nums al s rs outs f1 f2 nums' Hal Hr Hf Hrs Hp Hs Hw Hm IH]; intros g Hg.
    - exists g. split; [constructor|done].
    - destruct (results_without p old _ f g f1 Hg Hw) as (g1 & Hw' & Hg1).
      destruct (IH g1 Hg1) as (g2 & Hm2 & Hg2). exists g2. split; [|done]. by eapply ap_pass.
  Qed.
  Lemma adaptive_with first wss g nums g' nums' : adaptive_passes p srt hs threads first wss g nums g' nums' -> forall f, same_but old f g ->
    exists f', adaptive_passes p srt hs threads first wss f nums f' nums' /\ same_but old f' g'.
  Proof using.
    induction 1 as [first g nums|first ws wss g nums al s rs outs g1 g2 nums' Hal Hr Hf Hrs Hp Hs Hw Hm IH]; intros f Hg.
    - exists f. split; [constructor|done].
    - destruct (results_with p old _ f g g1 Hg Hw) as (f1 & Hw' & Hg1).
      destruct (IH f1 Hg1) as (f2 & Hm2 & Hg2). exists f2. split; [|done]. by eapply ap_pass.
  Qed.
End Clean.

Lemma same_initial p old : same_but old (initial_files p old) (initial_files p ∅).
Proof. split; [done|]. cbn [initial_files f_over]. by rewrite (left_id_L ∅ (∪)). Qed.

Lemma finished_without ixr p srt data threads gb old nums f : finished_run ixr p srt data threads gb old nums f ->
  exists g, phase_two ixr p srt data threads gb nums g /\ same_but old f g.
Proof.
  destruct ixr as [|order]; cbn [finished_run phase_two].
  - intros (hs & rs & ns & E1 & E2 & Hm & E3). destruct (multipass_without p srt hs threads old _ _ _ _ _ Hm _ (same_initial p old)) as (g & Hm' & Hg).
    exists g. split; [|done]. exists hs, rs, ns. done.
  - intros (wss & ns & E1 & Hm & E3). destruct (adaptive_without p srt _ threads old _ _ _ _ _ _ Hm _ (same_initial p old)) as (g & Hm' & Hg).
    exists g. split; [|done]. exists wss, ns. done.
Qed.
Lemma finished_with ixr p srt data threads gb old nums g : phase_two ixr p srt data threads gb nums g ->
  exists f, finished_run ixr p srt data threads gb old nums f /\ same_but old f g.
Proof.
  destruct ixr as [|order]; cbn [finished_run phase_two].
  - intros (hs & rs & ns & E1 & E2 & Hm & E3). destruct (multipass_with p srt hs threads old _ _ _ _ _ Hm _ (same_initial p old)) as (f & Hm' & Hg).
    exists f. split; [|done]. exists hs, rs, ns. done.
  - intros (wss & ns & E1 & Hm & E3). destruct (adaptive_with p srt _ threads old _ _ _ _ _ _ Hm _ (same_initial p old)) as (f & Hm' & Hg).
    exists f. split; [|done]. exists wss, ns. done.
Qed.

(** ** What runs leave behind *)
(** Overflow files only of bins that overflow. *)
Definition harmless (p : params) (hs : list (list Z)) (old : over_map) : Prop :=
  forall k path d, (k < Z.to_nat (p_bins p))%nat -> overflow_path p (Z.of_nat k) = Some path -> old !! path = Some d ->
    (p_start p < different p hs k)%nat.

Lemma harmless_empty p hs : harmless p hs ∅.
Proof. intros k path d _ _ H. by rewrite lookup_empty in H. Qed.

Section Leave.
  Context (p : params) (hs : list (list Z)).
  Context (Hset : settings_ok p) (Hlist : hash_list_ok p hs) (Hcol : no_collisions hs).

  Lemma harmless_insert old bn path d : harmless p hs old -> 0 <= bn < p_bins p -> overflow_path p bn = Some path ->
    (p_start p < different p hs (Z.to_nat bn))%nat -> harmless p hs (<[path := d]> old).
  Proof using Hset.
    intros Hh Hbn Ep Hd k path' d' Hk Ep' Hl. pose proof (set_bins p Hset).
    apply lookup_insert_Some in Hl as [[<- _]|[_ Hl]]; [|by eapply Hh].
    assert (bn = Z.of_nat k) as -> by (eapply (overflow_path_inj p); [apply Hset|lia|lia|done|done]). by rewrite Nat2Z.id in Hd.
  Qed.

  Definition bin_sized (x : Z * bin) : Prop := 0 <= fst x < p_bins p /\ length (snd x) = different p hs (Z.to_nat (fst x)).

  Lemma save_harmless f bn b f1 : harmless p hs (f_over f) -> bin_sized (bn, b) -> save_bin p f bn b = Some f1 -> harmless p hs (f_over f1).
  Proof using Hset.
    intros Hh [Hbn Hl] H. cbn [fst snd] in Hbn, Hl. unfold save_bin in H. destruct (decide (p_start p < length b)%nat) as [Hlt|].
    - destruct (overflow_path p bn) as [path|] eqn:Ep; [|done]. cbn [mbind option_bind] in *. destruct (bn <? 0); [done|].
      apply (inj Some) in H as <-. cbn [f_over]. eapply harmless_insert; [done|done|done|lia].
    - cbn [mbind option_bind] in *. destruct (bn <? 0); [done|]. apply (inj Some) in H as <-. done.
  Qed.

  Lemma saving_harmless f l f1 : saving_stopped p f l f1 -> Forall bin_sized l -> harmless p hs (f_over f) -> harmless p hs (f_over f1).
  Proof using Hset.
    induction 1 as [f l|f bn b l path d Hlt Ep|f bn b l f1 starts E|f bn b l f1 f2 E H IH]; intros Hl Hh; [done|..];
      apply Forall_cons in Hl as [Hb Hl].
    - cbn [f_over]. destruct Hb as [Hbn Hb]. cbn [fst snd] in *. eapply harmless_insert; [done|done|done|lia].
    - cbn [f_over]. by eapply save_harmless.
    - apply IH; [done|]. by eapply save_harmless.
  Qed.

  Lemma results_stopped outs : forall f f1, save_results p f outs = Some f1 -> saving_stopped p f outs f1.
  Proof using.
    induction outs as [|[bn b] outs IH]; intros f f1 H; cbn [save_results] in H.
    - apply (inj Some) in H as <-. constructor.
    - destruct (save_bin p f bn b) as [f'|] eqn:E; [|done]. cbn [mbind option_bind] in H. eapply ss_later; [done|]. by apply IH.
  Qed.

  Context (srt : bin -> bin) (threads : nat) (Hsrt : sorts p srt) (Hthr : (0 < threads)%nat).

  Lemma pass_sized first count s s' :
    rtc (fan_step p hs (first =? 0) (pass_slot first count) (pass_owner threads) (Z.to_nat 1000) threads)
      (fan_init threads (Z.to_nat count) (replicate threads true)) s -> fan_finished threads s ->
    rtc (sort_step srt) (sort_init threads (st_bins s)) s' -> Forall (fun w => w = Exited) (ss_workers s') ->
    0 <= first -> 0 <= count -> first + count <= p_bins p -> Forall bin_sized (numbered first (ss_bins s')).
  Proof using All.
    intros Hr Hf Hsr He H0 Hc Hle. pose proof (set_bins p Hset) as Hbins.
    destruct (pass_result p srt hs threads Hthr (list_fits p hs Hset Hlist) (list_range p hs Hset Hlist) first count s Hr Hf H0 Hc) as (Hl & Hcn & _).
    rewrite (sort_result srt (st_bins s) threads s' Hthr Hsr He). apply Forall_lookup. intros i [bn b] Hi. unfold numbered in Hi.
    rewrite list_lookup_imap in Hi. rewrite list_lookup_fmap in Hi. destruct (st_bins s !! i) as [raw|] eqn:Ei; [|done].
    cbn [fmap option_fmap option_map] in Hi. apply (inj Some) in Hi. apply pair_equal_spec in Hi as [<- <-].
    pose proof (lookup_lt_Some _ _ _ Ei). destruct (Hcn i raw Ei) as [_ Ec]. split; cbn [fst snd]; [lia|].
    replace (Z.to_nat (first + Z.of_nat i)) with (Z.to_nat first + i)%nat by lia. by apply sort_dedup_length.
  Qed.

  Lemma multipass_harmless rs f f1 : multipass_stopped p srt hs threads rs f f1 -> forall from, chain p from rs -> 0 <= from ->
    harmless p hs (f_over f) -> harmless p hs (f_over f1).
  Proof using All.
    induction 1 as [rs f|first count rs f s s' f1 Hr Hf Hs He Hw|first count rs f s s' f1 f2 Hr Hf Hs He Hw Hm IH]; intros from Hc H0 Hh; [done|..];
      cbn [chain] in Hc; destruct Hc as (-> & Hct & Hc); pose proof (chain_le p _ _ Hc) as Hle.
    - eapply saving_harmless; [exact Hw| |done]. by eapply pass_sized.
    - apply (IH (from + count)); [done|lia|]. rewrite write_results in Hw. eapply saving_harmless; [by apply results_stopped| |done]. by eapply pass_sized.
  Qed.

  Lemma adaptive_sized (first : bool) ws al s rs outs : al = fst (allocate (replicate threads 0) ws) ->
    rtc (fan_step p hs first (adaptive_slot al) (adaptive_owner al) (Z.to_nat 100000) threads)
      (fan_init threads (Z.to_nat (p_bins p)) (launched threads al)) s -> fan_finished threads s ->
    results p srt (st_bins s) ws = Some rs -> outs ≡ₚ rs -> busy threads ws -> Forall (counted p hs) ws -> NoDup (wk_bin <$> ws) ->
    Forall bin_sized outs.
  Proof using All.
    intros -> Hr Hf Hrs Hp Hb Hc Hnd. pose proof (set_bins p Hset) as Hbins.
    pose proof (counted_plan p hs threads Hthr ws Hc Hnd) as Hplan.
    destruct (adaptive_result p srt hs threads Hthr Hset Hlist first _ Hplan Hb s Hr Hf) as (Hl & Hcn & _).
    destruct (allocate_spec ws (replicate threads 0) (threads_loads threads Hthr)) as (Hfst & _). rewrite Hfst in Hcn.
    rewrite (results_ok p srt hs ws (st_bins s) Hc Hl Hcn) in Hrs. apply (inj Some) in Hrs as <-. rewrite Hp.
    apply Forall_fmap, Forall_forall. intros w Hw. rewrite Forall_forall in Hc. destruct (Hc w Hw) as [Hrg _].
    split; cbn [fst snd compose]; [done|]. destruct (lookup_lt_is_Some_2 (st_bins s) (Z.to_nat (wk_bin w))) as [b Eb]; [lia|].
    rewrite Eb. cbn [default from_option]. unfold id. destruct (Hcn w b Hw Eb) as [_ Ec]. by apply sort_dedup_length.
  Qed.

  Lemma adaptive_harmless first wss f f1 : adaptive_stopped p srt hs threads first wss f f1 -> Forall (busy threads) wss ->
    Forall (counted p hs) (concat wss) -> NoDup (wk_bin <$> concat wss) -> harmless p hs (f_over f) -> harmless p hs (f_over f1).
  Proof using All.
    induction 1 as [first wss f|first ws wss f al s rs outs f1 Hal Hr Hf Hrs Hp Hs Hw|first ws wss f al s rs outs f1 f2 Hal Hr Hf Hrs Hp Hs Hw Hm IH];
      intros Hb Hc Hnd Hh; [done|..]; apply Forall_cons in Hb as [Hb1 Hb]; cbn [concat] in Hc, Hnd; apply Forall_app in Hc as [Hc1 Hc];
      rewrite fmap_app in Hnd; apply NoDup_app in Hnd as (Hnd1 & _ & Hnd).
    - eapply saving_harmless; [exact Hw| |done]. by eapply adaptive_sized.
    - apply IH; [done..|]. eapply saving_harmless; [by apply results_stopped| |done]. by eapply adaptive_sized.
  Qed.
End Leave.

Lemma stopped_harmless ixr p srt hs threads gb old over : settings_ok p -> hash_list_ok p hs -> no_collisions hs -> sorts p srt ->
  (0 < threads)%nat -> 0 <= gb -> indexer_ready ixr p hs threads gb -> harmless p hs old ->
  stopped_run ixr p srt (concat hs) threads gb old over -> harmless p hs over.
Proof.
  intros Hset Hl Hc Hs Ht Hgb Hix Hh. destruct ixr as [|order]; cbn [stopped_run].
  - intros (hs' & rs & f & E & Hrs & Hm & ->). rewrite (hashes_in_concat p hs Hl) in E. apply (inj Some) in E as <-.
    pose proof (set_bins p Hset) as Hbins.
    destruct (pass_ranges_chain p (gb * 1024 * 1024 * 1024) rs ltac:(lia) ltac:(lia) ltac:(apply Hset) Hrs) as [Hch _].
    by eapply (multipass_harmless p hs Hset Hl Hc srt threads Hs Ht rs _ _ Hm 0).
  - intros (wss & f & E & Hm & ->). rewrite (file_entries p hs Hl) in Hm.
    destruct (planned p hs order gb Hset Hl ltac:(by destruct Hix)) as (wss' & E' & Hcn & Hnd & _).
    assert (wss' = wss) as -> by congruence.
    eapply (adaptive_harmless p hs Hset Hl Hc srt threads Hs Ht _ _ _ _ Hm); [|done|done|done].
    by apply (indexer_busy p srt hs order threads gb Hs Hset Hl Hix).
Qed.

(** Over such files a finished run leaves what it leaves on its own *)
Lemma harmless_hold p srt hs old f g raw : settings_ok p -> hash_list_ok p hs -> no_collisions hs -> sorts p srt -> harmless p hs old ->
  same_but old f g -> length raw = Z.to_nat (p_bins p) -> raw_bins p hs raw -> files_hold p g (sort_dedup srt <$> raw) ->
  files_hold p f (sort_dedup srt <$> raw).
Proof.
  intros Hset Hl Hc Hs Hh [E1 E2] Hlen Hraw [H1 H2 H3]. split; [by rewrite E1| |done]. intros bn b Hb. rewrite <- (H2 bn b Hb).
  unfold over_of. destruct (overflow_path p (Z.of_nat bn)) as [path|] eqn:Ep; [|done]. rewrite E2, lookup_union.
  destruct (f_over g !! path) as [d|] eqn:Eg; [by destruct (old !! path)|]. destruct (old !! path) as [d|] eqn:Eo; [|done]. exfalso.
  specialize (H2 bn b Hb). unfold over_of in H2. rewrite Ep, Eg in H2. cbn [default from_option] in H2.
  pose proof (lookup_lt_Some _ _ _ Hb) as Hlt. rewrite fmap_length, Hlen in Hlt. pose proof (Hh bn path d Hlt Ep Eo) as Hd.
  rewrite list_lookup_fmap in Hb. destruct (raw !! bn) as [r|] eqn:Er; [|done]. cbn [fmap option_fmap option_map] in Hb. apply (inj Some) in Hb as <-.
  destruct (Hraw bn r Er) as [_ Ec]. rewrite <- (sort_dedup_length p srt hs bn r Hs Hset Hl Hc Ec) in Hd.
  rewrite Forall_forall in H3. destruct (H3 (sort_dedup srt r)) as [He _].
  { apply elem_of_list_lookup. exists bn. by rewrite list_lookup_fmap, Er. }
  destruct (drop (p_start p) (sort_dedup srt r)) as [|e es] eqn:Ed.
  { apply (f_equal length) in Ed. rewrite drop_length in Ed. cbn [length] in Ed. lia. }
  cbn [concat] in H2. symmetry in H2. apply app_eq_nil in H2 as [He0 _].
  unfold entries_ok in He. rewrite Forall_forall in He. destruct (He e) as [Hle _].
  { apply (elem_of_list_lookup_2 _ (p_start p)). rewrite <- (Nat.add_0_r (p_start p)), <- lookup_drop, Ed. done. }
  rewrite He0 in Hle. cbn [length] in Hle. pose proof (entry_bytes_pos p). lia.
Qed.

(** ** The property *)
(** The overflow files after any number of runs on the same hash file with the same settings, each stopped at any
    moment, with any indexer, number of workers, memory allowance and sorting. *)
Inductive attempts (p : params) (hs : list (list Z)) : over_map -> Prop :=
| at_none : attempts p hs ∅
| at_again ixr srt threads gb old over : attempts p hs old -> sorts p srt -> indexer_ready ixr p hs threads gb -> (0 < threads)%nat -> 0 <= gb ->
    stopped_run ixr p srt (concat hs) threads gb old over -> attempts p hs over.

Lemma attempts_harmless p hs over : settings_ok p -> index_ready p hs -> attempts p hs over -> harmless p hs over.
Proof.
  intros Hset (Hl & Hc & _). induction 1 as [|ixr srt threads gb old over Ha IH Hs Hix Ht Hgb Hst]; [apply harmless_empty|].
  exact (stopped_harmless ixr p srt hs threads gb old over Hset Hl Hc Hs Ht Hgb Hix IH Hst).
Qed.

Lemma phase_two_result ixr p srt hs threads gb nums f : sorts p srt -> settings_ok p -> index_ready p hs -> indexer_ready ixr p hs threads gb ->
  (0 < threads)%nat -> 0 <= gb -> phase_two ixr p srt (concat hs) threads gb nums f ->
  exists raw, length raw = Z.to_nat (p_bins p) /\ raw_bins p hs raw /\ files_hold p f (sort_dedup srt <$> raw) /\
    nums = word_bytes (bin_room p) ((fun h => bin_num p (abbreviated h)) <$> hs).
Proof.
  intros Hs Hset (Hl & Hc & Hv) Hix Ht Hgb Hrun. destruct ixr as [|order].
  - destruct Hrun as (hs' & rs & ns & E & Hrs & Hm & En). rewrite (hashes_in_concat p hs Hl) in E. apply (inj Some) in E as <-.
    eapply (preload_result p srt hs Hs Hset Hl Hv threads (gb * 1024 * 1024 * 1024)); [done|lia|]. exists rs, ns. done.
  - eapply (adaptive_run_result p srt order hs threads gb); try done; [by destruct Hix|]. by eapply indexer_busy.
Qed.

(** C95. A run that goes through to the end gives the index that answers as it must, whatever runs with the same
    settings came before it and wherever they were stopped. *)
Theorem C95_run_again_partial :
  forall p probe hs old ixr srt threads gb nums f in_ram,
    probe_ok probe -> settings_ok p -> index_ready p hs -> attempts p hs old ->
    sorts p srt -> indexer_ready ixr p hs threads gb -> (0 < threads)%nat -> 0 <= gb ->
    finished_run ixr p srt (concat hs) threads gb old nums f -> answers p probe hs nums f in_ram.
Proof.
  intros p probe hs old ixr srt threads gb nums f in_ram Hp Hset Hrd Ha Hs Hix Ht Hgb Hrun.
  destruct (finished_without ixr p srt (concat hs) threads gb old nums f Hrun) as (g & Hg & Hsb).
  destruct (phase_two_result ixr p srt hs threads gb nums g Hs Hset Hrd Hix Ht Hgb Hg) as (raw & Hlen & Hraw & Hf & ->).
  pose proof (attempts_harmless p hs old Hset Hrd Ha) as Hh. destruct Hrd as (Hl & Hc & Hv).
  pose proof (harmless_hold p srt hs old f g raw Hset Hl Hc Hs Hh Hsb Hlen Hraw Hf) as Hf'.
  destruct (open_bins p probe srt hs Hp Hs Hset Hl Hc raw f in_ram Hlen Hraw Hf') as (s & H1 & H2 & H3 & H4 & H5).
  exists s. split; [done|]. split; [done|]. split; [done|]. split; [|done].
  intros i h Hi E. rewrite (H4 i h Hi). by rewrite decide_True.
Qed.

(** C95. What is left in the folder does not keep a run from going through. *)
Theorem C95_runs_exist :
  forall years ixr p srt hs threads gb old, p = block_params years \/ p = trans_params years \/ p = address_params years ->
    sorts p srt -> index_ready p hs -> indexer_ready ixr p hs threads gb -> (0 < threads)%nat -> 1 <= gb ->
    exists nums f, finished_run ixr p srt (concat hs) threads gb old nums f.
Proof.
  intros years ixr p srt hs threads gb old Hp Hs Hrd Hix Ht Hgb.
  destruct (C87_runs_exist years ixr p srt hs threads gb Hp Hs Hrd Hix Ht Hgb) as (nums & g & Hg).
  destruct (finished_with ixr p srt (concat hs) threads gb old nums g Hg) as (f & Hf & _). by exists nums, f.
Qed.

(** C95. A run that went through is one of the attempts: indexing twice does no harm. *)
Theorem C95_finished_is_an_attempt :
  forall ixr p srt data threads gb old nums f, finished_run ixr p srt data threads gb old nums f ->
    stopped_run ixr p srt data threads gb old (f_over f).
Proof.
  intros ixr p srt data threads gb old nums f. destruct ixr as [|order]; cbn [finished_run stopped_run].
  - intros (hs & rs & ns & E & Hrs & Hm & _). exists hs, rs, f. split; [done|]. split; [done|]. split; [|done].
    generalize dependent (@nil Z). intros n0 Hm. clear -Hm. induction Hm; [constructor|]. by eapply ms_later.
  - intros (wss & ns & E & Hm & _). exists wss, f. split; [done|]. split; [|done].
    generalize dependent (@nil Z). intros n0 Hm. clear -Hm. induction Hm; [constructor|]. by eapply as_later.
Qed.

(** ** Other settings *)
Lemma entry_whole p e : (hash_bytes p <= 7)%nat -> length e = entry_bytes p -> bytes e ->
  e = entry_th e ++ le_enc (hash_bytes p) (entry_hi p e) ++ le_enc (p_snb p) (entry_sn p e).
Proof.
  intros H7 Hl Hb. unfold entry_th, entry_hi, entry_sn, entry_bytes in *.
  assert (length (take (hash_bytes p) (drop 24 e)) = hash_bytes p) as L1 by (rewrite take_length, drop_length; lia).
  assert (length (take (p_snb p) (drop (24 + hash_bytes p) e)) = p_snb p) as L2 by (rewrite take_length, drop_length; lia).
  assert (bytes (take (hash_bytes p) (drop 24 e))) as B1 by (by apply Forall_take, Forall_drop).
  assert (bytes (take (p_snb p) (drop (24 + hash_bytes p) e))) as B2 by (by apply Forall_take, Forall_drop).
  rewrite Base.to_i64_small.
  2:{ pose proof (le_dec_range _ B1) as Hr. rewrite L1 in Hr. assert (pow256 (hash_bytes p) <= pow256 7).
      { unfold pow256. apply Z.pow_le_mono_r; lia. } change (pow256 7) with (2 ^ 56) in *. lia. }
  pose proof (le_enc_dec _ B1) as D1. pose proof (le_enc_dec _ B2) as D2. rewrite L1 in D1. rewrite L2 in D2. rewrite D1, D2.
  rewrite <- (take_drop 24 e) at 1. f_equal. rewrite <- (take_drop (hash_bytes p) (drop 24 e)) at 1. f_equal. rewrite drop_drop.
  rewrite take_ge; [done|]. rewrite drop_length. lia.
Qed.

Definition rebuilt (p : params) (c : list Z * Z * Z) : list Z := fst (fst c) ++ le_enc (hash_bytes p) (snd (fst c)) ++ le_enc (p_snb p) (snd c).
Lemma raw_rebuilt p hs raw k b : (hash_bytes p <= 7)%nat -> raw_bins p hs raw -> raw !! k = Some b ->
  b = rebuilt p <$> hashes_of p whole_slot k 0 hs.
Proof.
  intros H7 Hraw Hk. destruct (Hraw k b Hk) as [He <-]. unfold contents. rewrite <- list_fmap_compose.
  rewrite <- (list_fmap_id b) at 1. apply list_fmap_ext. intros i e Hi. unfold entries_ok in He. rewrite Forall_forall in He.
  destruct (He e (elem_of_list_lookup_2 _ _ _ Hi)). unfold rebuilt, compose. cbn [fst snd id]. by apply entry_whole.
Qed.

Definition small_hash (lo top t : Z) : list Z := lo :: replicate 6 0 ++ [top] ++ replicate 23 0 ++ [t].
Definition three : list (list Z) := [small_hash 1 0 1; small_hash 2 0 2; small_hash 3 64 3].
Definition four_bins : params := mk_params 17 100 2 4 1 8.
Definition two_bins : params := mk_params 17 100 2 2 3 8.

Lemma three_ready p : p = four_bins \/ p = two_bins -> settings_ok p /\ index_ready p three.
Proof.
  intros Hp. split.
  - destruct Hp as [-> | ->]; (split; [|split; [|split; [|split; [|split]]]]); try (vm_compute; discriminate); try (cbn; lia).
    + exists 2. split; [lia|done]. + cbv. lia. + exists 1. split; [lia|done]. + cbv. lia.
  - apply ready; [..|vm_compute; reflexivity|vm_compute; reflexivity].
    + repeat (apply Forall_cons_2; [split; [done|apply (bool_decide_unpack _); vm_compute; exact I]|]). apply Forall_nil_2.
    + vm_compute. discriminate.
    + destruct Hp as [-> | ->]; vm_compute; discriminate.
Qed.
Lemma three_runs p old threads : p = four_bins \/ p = two_bins -> (0 < threads)%nat ->
  exists nums f, finished_run MultiPass p (isort p) (concat three) threads 1 old nums f.
Proof.
  intros Hp Ht. destruct (three_ready p Hp) as (Hset & Hl & _ & Hv).
  assert (exists rs, pass_ranges p (1 * 1024 * 1024 * 1024) = Some rs) as [rs Hrs].
  { destruct Hp as [-> | ->]; eexists; vm_compute; reflexivity. }
  destruct (C51_runs_exist p (isort p) three threads (1 * 1024 * 1024 * 1024) rs (isort_sorts p) Hset Hl Hv Ht ltac:(lia) Hrs) as (nums & g & rs' & ns & H1 & H2 & H3).
  destruct (finished_with MultiPass p (isort p) (concat three) threads 1 old nums g) as (f & Hf & _).
  { exists three, rs', ns. split; [by eapply hashes_in_concat|]. done. }
  by exists nums, f.
Qed.

Lemma three_result p threads nums f : p = four_bins \/ p = two_bins -> (0 < threads)%nat ->
  phase_two MultiPass p (isort p) (concat three) threads 1 nums f ->
  files_hold p f ((fun k => sort_dedup (isort p) (rebuilt p <$> hashes_of p whole_slot k 0 three)) <$> seq 0 (Z.to_nat (p_bins p))) /\
  nums = word_bytes (bin_room p) ((fun h => bin_num p (abbreviated h)) <$> three).
Proof.
  intros Hp Ht H. destruct (three_ready p Hp) as (Hset & Hrd).
  destruct (phase_two_result MultiPass p (isort p) three threads 1 nums f (isort_sorts p) Hset Hrd I Ht ltac:(lia) H) as (raw & Hlen & Hraw & Hf & En).
  split; [|done]. assert (raw = (fun k => rebuilt p <$> hashes_of p whole_slot k 0 three) <$> seq 0 (Z.to_nat (p_bins p))) as ->.
  { apply list_eq. intros k. rewrite list_lookup_fmap. destruct (raw !! k) as [b|] eqn:Ek.
    - pose proof (lookup_lt_Some _ _ _ Ek). rewrite lookup_seq_lt by lia. cbn [fmap option_fmap option_map]. f_equal.
      apply (raw_rebuilt p three raw k b); [|done|done]. destruct Hp as [-> | ->]; vm_compute; lia.
    - apply lookup_ge_None in Ek. rewrite lookup_seq_ge by lia. done. }
  by rewrite <- list_fmap_compose in Hf.
Qed.

(** C95 is false when the settings change: after a run with smaller bins the same hash file is indexed with bins of
    which the first one exactly fills its bin start; the overflow file of the earlier run is read as part of it, and
    a hash that was indexed is reported as not there.  No step reports an error. *)
Theorem C95_other_settings_refuted :
  exists p1 p2 hs x, settings_ok p1 /\ settings_ok p2 /\ index_ready p1 hs /\ index_ready p2 hs /\ x ∈ hs /\
    forall threads1 threads2, (0 < threads1)%nat -> (0 < threads2)%nat ->
      exists nums1 f1 nums2 f2, finished_run MultiPass p1 (isort p1) (concat hs) threads1 1 ∅ nums1 f1 /\
        finished_run MultiPass p2 (isort p2) (concat hs) threads2 1 (f_over f1) nums2 f2 /\
        forall probe in_ram, exists s, h3_open p2 nums2 f2 in_ram = Some s /\ h3_index_of p2 probe s x = Some (-1).
Proof.
  exists four_bins, two_bins, three, (small_hash 3 64 3).
  destruct (three_ready four_bins ltac:(by left)) as [S1 R1]. destruct (three_ready two_bins ltac:(by right)) as [S2 R2].
  split; [done|]. split; [done|]. split; [done|]. split; [done|]. split.
  { apply (elem_of_list_lookup_2 _ 2). done. }
  intros t1 t2 Ht1 Ht2.
  destruct (three_runs four_bins ∅ t1 ltac:(by left) Ht1) as (nums1 & f1 & Hr1).
  destruct (three_runs two_bins (f_over f1) t2 ltac:(by right) Ht2) as (nums2 & f2 & Hr2).
  exists nums1, f1, nums2, f2. split; [done|]. split; [done|]. intros probe in_ram.
  destruct (three_result four_bins t1 nums1 f1 ltac:(by left) Ht1 Hr1) as [Hf1 _].
  destruct (finished_without _ _ _ _ _ _ _ _ _ Hr2) as (g2 & Hg2 & [E1 E2]).
  destruct (three_result two_bins t2 nums2 g2 ltac:(by right) Ht2 Hg2) as [Hf2 ->].
  assert (exists path, overflow_path two_bins 0 = Some path /\ overflow_path four_bins 0 = Some path) as (path & P2 & P1).
  { eexists. split; [vm_compute; reflexivity|vm_compute; reflexivity]. }
  pose proof (fh_over _ _ _ Hf1 0%nat _ ltac:(vm_compute; reflexivity)) as O1.
  pose proof (fh_starts _ _ _ Hf2) as St. rewrite <- E1 in St. clear Hf1 Hf2.
  assert (f_over f2 !! path = Some (rebuilt four_bins (truncated (small_hash 2 0 2), 1, 2))) as Hov.
  { rewrite E2, lookup_union. unfold over_of in O1. change (Z.of_nat 0) with 0 in O1. rewrite P1 in O1.
    destruct (f_over g2 !! path) as [d|] eqn:Eg.
    - exfalso. assert (attempts two_bins three (f_over g2)) as Ha.
      { eapply (at_again two_bins three MultiPass (isort two_bins) t2 1 ∅); [constructor|apply isort_sorts|done|done|lia|].
        by apply (C95_finished_is_an_attempt _ _ _ _ _ _ _ (word_bytes (bin_room two_bins) ((fun h => bin_num two_bins (abbreviated h)) <$> three))). }
      pose proof (attempts_harmless two_bins three _ S2 R2 Ha 0%nat path d ltac:(vm_compute; lia) P2 Eg) as Hd.
      vm_compute in Hd. lia.
    - destruct (f_over f1 !! path) as [d|]; [|exfalso; vm_compute in O1; discriminate]. cbn [default from_option] in O1. unfold id in O1. rewrite O1. reflexivity. }
  clear O1 E1 E2 Hg2 Hr1 Hr2 g2. destruct f2 as [st ov]. cbn [f_starts f_over] in St, Hov.
  assert (forall o, load_from_slice two_bins (mk_files st o) (take 105 (drop 105 st)) 1 = Some []) as L1.
  { intros o. rewrite St. vm_compute. reflexivity. }
  set (b0 := [rebuilt two_bins (truncated (small_hash 1 0 1), 0, 1); rebuilt two_bins (truncated (small_hash 2 0 2), 1, 2);
              rebuilt two_bins (truncated (small_hash 3 64 3), 2, 2 ^ 62 + 3); rebuilt two_bins (truncated (small_hash 2 0 2), 1, 2)]).
  assert (load_from_slice two_bins (mk_files st ov) (take 105 st) 0 = Some b0) as L0.
  { unfold load_from_slice. rewrite P2. cbn [mbind option_bind f_over]. rewrite Hov. cbn [default from_option]. unfold id.
    rewrite St. rewrite decide_False by (apply (bool_decide_unpack _); vm_compute; exact I). vm_compute. reflexivity. }
  assert (length st = 210%nat) as Hlen by (rewrite St; vm_compute; reflexivity).
  assert (load_bin two_bins (mk_files st ov) 0 = Some b0) as Lb.
  { unfold load_bin, file_read. cbn [f_starts]. change (0 <? 0) with false.
    change (Z.to_nat 0 * entry_bytes two_bins * p_start two_bins)%nat with 0%nat. change (entry_bytes two_bins * p_start two_bins)%nat with 105%nat.
    rewrite Hlen. rewrite decide_True by lia. cbn [mbind option_bind]. exact L0. }
  assert (load_all two_bins (mk_files st ov) 2 0 0 = Some [b0; []]) as La.
  { cbn [load_all]. unfold file_read. cbn [f_starts]. change (entry_bytes two_bins * p_start two_bins)%nat with 105%nat. cbn [Nat.add].
    rewrite Hlen. rewrite !decide_True by lia. cbn [mbind option_bind]. change (drop 0 st) with st. rewrite L0. cbn [mbind option_bind].
    change (0 + 1) with 1. rewrite L1. done. }
  assert (lookup_by_hash two_bins probe b0 (truncated (small_hash 3 64 3)) (sort_num two_bins (abbreviated (small_hash 3 64 3))) = Some (-1)) as Hlook.
  { vm_compute. reflexivity. }
  destruct in_ram.
  - eexists. split.
    + unfold h3_open. change (Z.to_nat (p_bins two_bins)) with 2%nat. rewrite La. vm_compute. reflexivity.
    + unfold h3_index_of. cbn [h3_ram]. change (Z.to_nat (bin_num two_bins (abbreviated (small_hash 3 64 3)))) with 0%nat. exact Hlook.
  - eexists. split.
    + unfold h3_open. reflexivity.
    + unfold h3_index_of. cbn [h3_ram h3_files]. change (bin_num two_bins (abbreviated (small_hash 3 64 3))) with 0. rewrite Lb. exact Hlook.
Qed.

(** A stopped run that left an overflow file behind, and runs over it *)
Example C95_example : exists over, attempts four_bins three over /\ over <> ∅ /\ settings_ok four_bins /\ index_ready four_bins three /\
  sorts four_bins (isort four_bins) /\ indexer_ready MultiPass four_bins three 3 1 /\ (forall order, orders_work order -> indexer_ready (Adaptive order) four_bins three 1 1) /\
  exists nums f, finished_run MultiPass four_bins (isort four_bins) (concat three) 3 1 over nums f.
Proof.
  destruct (three_ready four_bins ltac:(by left)) as [S1 R1].
  destruct (three_runs four_bins ∅ 2 ltac:(by left) ltac:(lia)) as (nums1 & f1 & Hr1). exists (f_over f1). split; [|split].
  - eapply (at_again four_bins three MultiPass (isort four_bins) 2 1 ∅); [constructor|apply isort_sorts|done|lia|lia|].
    by eapply C95_finished_is_an_attempt.
  - destruct (three_result four_bins 2 nums1 f1 ltac:(by left) ltac:(lia) Hr1) as [Hf1 _].
    pose proof (fh_over _ _ _ Hf1 0%nat _ ltac:(vm_compute; reflexivity)) as O1. intros E. unfold over_of in O1. rewrite E in O1.
    destruct (overflow_path four_bins (Z.of_nat 0)) as [path|]; [rewrite lookup_empty in O1|]; vm_compute in O1; discriminate.
  - split; [done|]. split; [done|]. split; [apply isort_sorts|]. split; [done|]. split; [intros order Ho; split; [done|by left]|].
    apply three_runs; [by left|lia].
Qed.

Print Assumptions C95_run_again_partial.
Print Assumptions C95_runs_exist.
Print Assumptions C95_finished_is_an_attempt.
Print Assumptions C95_other_settings_refuted.
