(** The adaptive indexing run. *)
From Coq Require Import Sorting.Sorted.
From stdpp Require Import sorting.
From Verif Require Import Base Model_Word Spec_Word Proof_Word Model_Bins Spec_Bins Proof_Bins Proof_BinFiles Prop_Bins
  Model_Pass Spec_Pass Proof_Pass Proof_Index Proof_Plan Prop_Pass Prop_Index Model_Adaptive.

(** ** Saving bins in any order *)
Lemma save_results_hold p outs : (1 <= p_digits p)%nat -> forall f bins, Z.of_nat (length bins) <= 2 ^ 63 -> files_hold p f bins ->
  NoDup (fst <$> outs) ->
  (forall bn b, (bn, b) ∈ outs -> 0 <= bn /\ bins !! Z.to_nat bn = Some [] /\ storable p b) ->
  exists f' bins', save_results p f outs = Some f' /\ files_hold p f' bins' /\ length bins' = length bins /\
    (forall bn b, (bn, b) ∈ outs -> bins' !! Z.to_nat bn = Some b) /\
    (forall k, Z.of_nat k ∉ (fst <$> outs) -> bins' !! k = bins !! k).
Proof.
  intros Hd. induction outs as [|[bn b] outs IH]; intros f bins Hlen Hf Hnd Hok.
  - exists f, bins. split; [done|]. split; [done|]. split; [done|]. split; [|done]. intros bn b H. by apply elem_of_nil in H.
  - cbn [fmap list_fmap fst] in Hnd. apply NoDup_cons in Hnd as [Hni Hnd].
    destruct (Hok bn b ltac:(by left)) as (H0 & Hold & Hst).
    destruct (files_hold_save p f bins (Z.to_nat bn) [] b Hd Hlen Hf Hold ltac:(cbn; lia) Hst) as (f1 & E1 & Hf1).
    rewrite Z2Nat.id in E1 by done.
    destruct (IH f1 (<[Z.to_nat bn := b]> bins)) as (f2 & bins2 & E2 & Hf2 & Hl2 & Hin & Hout).
    + by rewrite insert_length.
    + done.
    + done.
    + intros bn' b' Hin. destruct (Hok bn' b' ltac:(by right)) as (H0' & Hold' & Hst'). split; [done|]. split; [|done].
      rewrite list_lookup_insert_ne; [done|]. intros E. apply Hni. apply elem_of_list_fmap. exists (bn', b'). split; [cbn; lia|done].
    + exists f2, bins2. cbn [save_results]. rewrite E1. cbn [mbind option_bind]. split; [done|]. split; [done|].
      rewrite insert_length in Hl2. split; [done|]. split.
      * intros bn' b' H. apply elem_of_cons in H as [[= -> ->]|H]; [|by apply Hin].
        rewrite Hout by (by rewrite Z2Nat.id). apply list_lookup_insert. by apply lookup_lt_Some in Hold.
      * intros k Hk. cbn [fmap list_fmap fst] in Hk. apply not_elem_of_cons in Hk as [Hk1 Hk2]. rewrite Hout by done.
        apply list_lookup_insert_ne. lia.
Qed.

Lemma sorted_results (rs : list (Z * bin)) : exists outs, outs ≡ₚ rs /\ StronglySorted (fun a b => fst a <= fst b) outs.
Proof.
  set (R := fun a b : Z * bin => fst a <= fst b).
  assert (RelDecision R) as Hdec by (intros a b; apply Z_le_dec).
  assert (Transitive R) as Htr by (intros a b c; unfold R; lia).
  assert (Total R) as Hto by (intros a b; unfold R; lia).
  exists (merge_sort R rs). split; [apply merge_sort_Permutation|]. by apply (StronglySorted_merge_sort R).
Qed.

Section Run.
  Context (p : params) (srt : bin -> bin) (hs : list (list Z)) (threads : nat).
  Context (Hthr : (0 < threads)%nat) (Hset : settings_ok p) (Hlist : hash_list_ok p hs).

  (** every worker has a bin *)
  Definition busy (ws : list work) : Prop :=
    forall a, (a < threads)%nat -> exists w, (w, a) ∈ fst (allocate (replicate threads 0) ws).
  (** work as stage one counts it *)
  Definition counted (w : work) : Prop :=
    0 <= wk_bin w < p_bins p /\ wk_count w = Z.of_nat (length (hashes_of p whole_slot (Z.to_nat (wk_bin w)) 0 hs)).

  Lemma threads_loads : replicate threads 0 <> [].
  Proof using Hthr. clear -Hthr. destruct threads; [lia|done]. Qed.

  Lemma counted_plan ws : Forall counted ws -> NoDup (wk_bin <$> ws) -> pass_plan p threads (fst (allocate (replicate threads 0) ws)).
  Proof using Hthr.
    clear Hset Hlist. intros Hc Hnd. destruct (allocate_spec ws (replicate threads 0) threads_loads) as (H1 & H2 & _).
    rewrite replicate_length in H2. split; [by rewrite H1|].
    rewrite Forall_forall in Hc. rewrite Forall_forall in H2. apply Forall_forall. intros x Hx. split; [|by apply H2]. apply Hc. rewrite <- H1.
    apply elem_of_list_fmap. by exists x.
  Qed.

  Section Pass.
    Context (first : bool) (al : list (work * nat)).
    Context (Hplan : pass_plan p threads al) (Hbusy : forall a, (a < threads)%nat -> exists w, (w, a) ∈ al).

    Lemma ad_slots : forall h k, h ∈ hs -> adaptive_slot al (bin_num p (abbreviated h)) = Some k ->
      (k < Z.to_nat (p_bins p))%nat /\ (adaptive_owner al k < threads)%nat.
    Proof using Hplan.
      clear -Hplan. destruct Hplan as [Hnd Hal]. rewrite Forall_forall in Hal.
      intros h k Hh Hk. apply adaptive_slot_in in Hk as (w & a & Hin & E & ->). destruct (Hal _ Hin) as [H1 H2]. cbn in H1, H2.
      split; [lia|]. rewrite (adaptive_owner_in al _ w a Hin); [done|lia|done].
    Qed.
    Lemma ad_launched : Forall (fun l => l = true) (launched threads al).
    Proof using Hbusy.
      clear -Hbusy. apply Forall_lookup. intros i x Hi. unfold launched in Hi. apply list_lookup_fmap_Some in Hi as (j & Hj & ->).
      apply lookup_seq in Hj as [-> Hj]. apply bool_decide_eq_true_2. destruct (Hbusy _ Hj) as [w Hw].
      apply elem_of_list_fmap. by exists (w, (0 + i)%nat).
    Qed.
    Lemma ad_length : length (launched threads al) = threads.
    Proof using. unfold launched. by rewrite fmap_length, seq_length. Qed.
    Lemma ad_owner : forall h k, h ∈ hs -> adaptive_slot al (bin_num p (abbreviated h)) = Some k ->
      launched threads al !! adaptive_owner al k = Some true.
    Proof using Hplan Hbusy.
      intros h k Hh Hk. destruct (ad_slots h k Hh Hk) as [_ Ho]. rewrite <- ad_length in Ho.
      destruct (lookup_lt_is_Some_2 _ _ Ho) as [x Hx]. rewrite Hx. f_equal.
      exact (Forall_lookup_1 _ _ _ _ ad_launched Hx).
    Qed.

    Lemma adaptive_result s :
      rtc (adaptive_step p hs first threads al) (adaptive_init p threads al) s -> fan_finished threads s ->
      length (st_bins s) = Z.to_nat (p_bins p) /\
      (forall w b, w ∈ (fst <$> al) -> st_bins s !! Z.to_nat (wk_bin w) = Some b ->
         entries_ok p b /\ contents p b = hashes_of p whole_slot (Z.to_nat (wk_bin w)) 0 hs) /\
      st_nums s = if first then (fun h => bin_num p (abbreviated h)) <$> hs else [].
    Proof using All.
      intros Hr Hf.
      destruct (fan_result p hs first _ _ (Z.to_nat 100000) threads (Z.to_nat (p_bins p)) _ (list_fits p hs Hset Hlist) ad_slots ad_length ad_owner
        ad_launched ltac:(lia) Hthr s Hr Hf) as (H1 & H2 & H3 & H4).
      split; [done|]. split; [|done]. intros w b Hw Hb. split; [exact (Forall_lookup_1 _ _ _ _ H2 Hb)|].
      rewrite (H3 _ _ Hb). apply hashes_of_ext. intros h Hh. pose proof (list_range p hs Hset Hlist h Hh) as Hrg.
      destruct Hplan as [_ Hal]. rewrite Forall_forall in Hal. apply elem_of_list_fmap in Hw as ([w' a] & -> & Hin).
      destruct (Hal _ Hin) as [Hwb _]. cbn [fst] in *.
      unfold whole_slot, adaptive_slot. destruct (bool_decide_reflect (bin_num p (abbreviated h) ∈ (wk_bin ∘ fst <$> al))) as [|Hno]; [done|].
      split; [done|]. intros [= E]. exfalso. apply Hno. apply elem_of_list_fmap. exists (w', a). split; [cbn; lia|done].
    Qed.

    Lemma adaptive_terminates : exists s,
      rtc (adaptive_step p hs first threads al) (adaptive_init p threads al) s /\ fan_finished threads s.
    Proof using All.
      exact (fan_terminates p hs first _ _ (Z.to_nat 100000) threads (Z.to_nat (p_bins p)) _ (list_fits p hs Hset Hlist) ad_slots ad_length ad_owner
        ad_launched ltac:(lia) Hthr _ (rtc_refl _ _)).
    Qed.
  End Pass.

  (** ** The passes *)
  (** the bins of [done] are in the files, the others are empty *)
  Definition partly (done : list Z) (f : bin_files) : Prop :=
    exists raw, length raw = Z.to_nat (p_bins p) /\ files_hold p f (sort_dedup srt <$> raw) /\
      forall k b, raw !! k = Some b ->
        (Z.of_nat k ∈ done -> entries_ok p b /\ contents p b = hashes_of p whole_slot k 0 hs) /\ (Z.of_nat k ∉ done -> b = []).

  Context (Hstor : forall k b, entries_ok p b -> contents p b = hashes_of p whole_slot k 0 hs -> storable p (sort_dedup srt b)).

  Lemma segment_exact w b : counted w -> contents p b = hashes_of p whole_slot (Z.to_nat (wk_bin w)) 0 hs -> segment p w b = Some b.
  Proof using.
    clear. intros [_ Hc] E. unfold segment. rewrite Hc, <- E. unfold contents. rewrite fmap_length.
    rewrite decide_True by lia. rewrite Nat2Z.id, Nat.sub_diag. by rewrite app_nil_r.
  Qed.

  (** what one pass puts out *)
  Lemma results_ok ws bins : Forall counted ws -> length bins = Z.to_nat (p_bins p) ->
    (forall w b, w ∈ ws -> bins !! Z.to_nat (wk_bin w) = Some b ->
         entries_ok p b /\ contents p b = hashes_of p whole_slot (Z.to_nat (wk_bin w)) 0 hs) ->
    results p srt bins ws = Some ((fun w => (wk_bin w, sort_dedup srt (default [] (bins !! Z.to_nat (wk_bin w))))) <$> ws).
  Proof using.
    clear. intros Hc Hl Hb. unfold results. apply mapM_Some. apply Forall2_fmap_r, Forall_Forall2_diag. rewrite Forall_forall in Hc |- *.
    intros w Hw. pose proof (Hc _ Hw) as [Hr Hcw]. destruct (lookup_lt_is_Some_2 bins (Z.to_nat (wk_bin w))) as [b Eb]; [lia|].
    rewrite Eb. cbn [mbind option_bind default from_option]. destruct (Hb _ _ Hw Eb) as [_ E].
    rewrite (segment_exact w b (Hc _ Hw) E). cbn [compose]. by rewrite Eb.
  Qed.

  Lemma pass_step done f ws bins rs outs : partly done f -> Forall counted ws -> NoDup (wk_bin <$> ws) ->
    (forall w, w ∈ ws -> wk_bin w ∉ done) -> length bins = Z.to_nat (p_bins p) ->
    (forall w b, w ∈ ws -> bins !! Z.to_nat (wk_bin w) = Some b ->
         entries_ok p b /\ contents p b = hashes_of p whole_slot (Z.to_nat (wk_bin w)) 0 hs) ->
    results p srt bins ws = Some rs -> outs ≡ₚ rs ->
    exists f', save_results p f outs = Some f' /\ partly (done ++ (wk_bin <$> ws)) f'.
  Proof using All.
    intros (raw & Hlen & Hf & Hraw) Hc Hnd Hnew Hl Hb Hrs Hp.
    rewrite (results_ok ws bins Hc Hl Hb) in Hrs. apply (inj Some) in Hrs as <-.
    pose proof (set_bins p Hset) as Hbins. assert (1 <= p_digits p)%nat as Hd by apply Hset.
    assert (fst <$> outs ≡ₚ wk_bin <$> ws) as Hpf by (rewrite Hp, <- list_fmap_compose; done).
    assert (Forall counted ws) as Hc' by done. rewrite Forall_forall in Hc'.
    assert (forall bn b, (bn, b) ∈ outs -> exists w bb, w ∈ ws /\ bn = wk_bin w /\ bins !! Z.to_nat bn = Some bb /\ b = sort_dedup srt bb) as Hin.
    { intros bn b H. rewrite Hp in H. apply elem_of_list_fmap in H as (w & E & Hw). apply pair_equal_spec in E as [-> ->].
      pose proof (Hc' _ Hw) as [Hr _]. destruct (lookup_lt_is_Some_2 bins (Z.to_nat (wk_bin w))) as [bb Eb]; [lia|].
      exists w, bb. rewrite Eb. done. }
    destruct (save_results_hold p outs Hd f (sort_dedup srt <$> raw)) as (f' & bins' & E & Hf' & Hl' & Hin' & Hout').
    { rewrite fmap_length. lia. }
    { done. }
    { rewrite Hpf. done. }
    { intros bn b H. destruct (Hin bn b H) as (w & bb & Hw & -> & Eb & ->). pose proof (Hc' _ Hw) as [Hr _].
      split; [lia|]. destruct (Hb _ _ Hw Eb) as [He Hcn]. split; [|by eapply Hstor].
      destruct (lookup_lt_is_Some_2 raw (Z.to_nat (wk_bin w))) as [r Er]; [lia|]. rewrite list_lookup_fmap, Er. cbn.
      destruct (Hraw _ _ Er) as [_ H2]. rewrite H2; [done|]. rewrite Z2Nat.id by lia. by apply Hnew. }
    exists f'. split; [done|].
    set (raw' := imap (fun k b => if bool_decide (Z.of_nat k ∈ (wk_bin <$> ws)) then default [] (bins !! k) else b) raw).
    exists raw'. split; [unfold raw'; by rewrite imap_length|]. split.
    - assert (sort_dedup srt <$> raw' = bins') as ->; [|done]. apply list_eq. intros k.
      rewrite list_lookup_fmap. unfold raw'. rewrite list_lookup_imap.
      destruct (raw !! k) as [r|] eqn:Er.
      + cbn [fmap option_fmap option_map]. case_bool_decide as Hk.
        * apply elem_of_list_fmap in Hk as (w & E1 & Hw). symmetry.
          replace k with (Z.to_nat (wk_bin w)) by lia. apply Hin'. rewrite Hp. apply elem_of_list_fmap. exists w. done.
        * rewrite Hout' by (by rewrite Hpf). rewrite list_lookup_fmap, Er. done.
      + cbn. symmetry. apply lookup_ge_None_2. rewrite Hl', fmap_length. by apply lookup_ge_None.
    - intros k b Hk. unfold raw' in Hk. rewrite list_lookup_imap in Hk. destruct (raw !! k) as [r|] eqn:Er; [|done].
      cbn in Hk. apply (inj Some) in Hk as <-. pose proof (lookup_lt_Some _ _ _ Er) as Hlt. destruct (Hraw _ _ Er) as [Hr1 Hr2].
      rewrite elem_of_app. case_bool_decide as Hw.
      + split; [|intros H; exfalso; apply H; by right]. intros _. apply elem_of_list_fmap in Hw as (w & E1 & Hw).
        destruct (lookup_lt_is_Some_2 bins k) as [bb Eb]; [lia|]. rewrite Eb. cbn.
        replace k with (Z.to_nat (wk_bin w)) in Eb |- * by lia. by apply Hb.
      + split; [|intros H; apply Hr2; tauto]. intros [H|H]; [by apply Hr1|done].
  Qed.

  Lemma passes_result wss : forall first f nums f' nums' done,
    adaptive_passes p srt hs threads first wss f nums f' nums' -> Forall busy wss ->
    Forall counted (concat wss) -> NoDup (done ++ (wk_bin <$> concat wss)) -> partly done f ->
    (if first then wss <> [] else nums = (fun h => bin_num p (abbreviated h)) <$> hs) ->
    partly (done ++ (wk_bin <$> concat wss)) f' /\ nums' = (fun h => bin_num p (abbreviated h)) <$> hs.
  Proof using All.
    induction wss as [|ws wss IH]; intros first f nums f' nums' done_ Hm Hbusy Hc Hnd Hp Hnums.
    - inversion Hm; subst. cbn [concat fmap list_fmap]. rewrite app_nil_r. split; [done|]. by destruct first.
    - inversion Hm as [|? ? ? ? ? al s rs outs f1 ? ? Hal Hr Hfin Hres Hperm Hsort Hsave Hrest]; subst.
      apply Forall_cons in Hbusy as [Hbw Hbusy]. cbn [concat] in Hc, Hnd. apply Forall_app in Hc as [Hcw Hc].
      rewrite fmap_app, (assoc app) in Hnd. pose proof Hnd as (Hnd1 & _ & _)%NoDup_app. apply NoDup_app in Hnd1 as (_ & Hdis & Hndw).
      pose proof (counted_plan ws Hcw Hndw) as Hplan.
      destruct (adaptive_result first _ Hplan Hbw s Hr Hfin) as (Hl & Hb & Hn).
      destruct (allocate_spec ws (replicate threads 0) threads_loads) as (Hfst & _).
      rewrite Hfst in Hb.
      destruct (pass_step done_ f ws (st_bins s) rs outs Hp Hcw Hndw) as (f2 & E2 & Hp2); [|done..|].
      { intros w Hw Hd. apply (Hdis _ Hd). apply elem_of_list_fmap. by exists w. }
      assert (f2 = f1) as -> by congruence.
      cbn [concat]. rewrite fmap_app, (assoc app).
      eapply (IH false f1 (if first then st_nums s else nums) f' nums'); [done|done|done|done|done|].
      destruct first; [by rewrite Hn|done].
  Qed.

  Lemma passes_exist wss : forall first f nums done, Forall busy wss ->
    Forall counted (concat wss) -> NoDup (done ++ (wk_bin <$> concat wss)) -> partly done f ->
    exists f' nums', adaptive_passes p srt hs threads first wss f nums f' nums'.
  Proof using All.
    induction wss as [|ws wss IH]; intros first f nums done_ Hbusy Hc Hnd Hp.
    - eexists _, _. constructor.
    - apply Forall_cons in Hbusy as [Hbw Hbusy]. cbn [concat] in Hc, Hnd. apply Forall_app in Hc as [Hcw Hc].
      rewrite fmap_app, (assoc app) in Hnd. pose proof Hnd as (Hnd1 & _ & _)%NoDup_app. apply NoDup_app in Hnd1 as (_ & Hdis & Hndw).
      pose proof (counted_plan ws Hcw Hndw) as Hplan.
      destruct (adaptive_terminates first _ Hplan Hbw) as (s & Hr & Hfin).
      destruct (adaptive_result first _ Hplan Hbw s Hr Hfin) as (Hl & Hb & Hn).
      destruct (allocate_spec ws (replicate threads 0) threads_loads) as (Hfst & _). rewrite Hfst in Hb.
      pose proof (results_ok ws (st_bins s) Hcw Hl Hb) as Hres. set (rs := _ <$> ws) in Hres.
      destruct (sorted_results rs) as (outs & Hperm & Hsort).
      destruct (pass_step done_ f ws (st_bins s) rs outs Hp Hcw Hndw) as (f2 & E2 & Hp2); [|done|done|done| |].
      { intros w Hw Hd. apply (Hdis _ Hd). apply elem_of_list_fmap. by exists w. }
      { exact Hperm. }
      destruct (IH false f2 (if first then st_nums s else nums) (done_ ++ (wk_bin <$> ws)) Hbusy Hc Hnd Hp2) as (f' & nums' & Hrest).
      exists f', nums'. eapply ap_pass; [reflexivity|exact Hr|exact Hfin|exact Hres|exact Hperm|exact Hsort|exact E2|exact Hrest].
  Qed.
End Run.
