(** The multi-pass index as a whole. *)
From Coq Require Import Sorting.Sorted.
From Verif Require Import Base Model_Word Spec_Word Proof_Word Model_Bins Spec_Bins Proof_Bins Proof_BinFiles Prop_Bins Model_Pass Spec_Pass Proof_Pass.

Lemma pass_slot_some first count bn k : pass_slot first count bn = Some k -> first <= bn < first + count /\ k = Z.to_nat (bn - first).
Proof.
  unfold pass_slot. destruct (Z.ltb_spec bn first); [done|]. destruct (Z.leb_spec (first + count) bn); [done|].
  cbn. intros [= <-]. lia.
Qed.

Lemma hashes_of_ext p s1 s2 k k' start hs :
  (forall h, h ∈ hs -> s1 (bin_num p (abbreviated h)) = Some k <-> s2 (bin_num p (abbreviated h)) = Some k') ->
  hashes_of p s1 k start hs = hashes_of p s2 k' start hs.
Proof.
  revert start. induction hs as [|h hs IH]; intros start Hs; cbn [hashes_of]; [done|].
  pose proof (Hs h ltac:(by left)) as Hh. rewrite IH by (intros x Hx; apply Hs; by right).
  repeat case_decide; tauto || done.
Qed.

Lemma hashes_of_in p slot_of k start hs th i sn : (th, i, sn) ∈ hashes_of p slot_of k start hs <->
  exists j h, hs !! j = Some h /\ slot_of (bin_num p (abbreviated h)) = Some k /\
    th = truncated h /\ i = Z.of_nat (start + j) /\ sn = sort_num p (abbreviated h).
Proof.
  revert start. induction hs as [|h hs IH]; intros start; cbn [hashes_of].
  - split; [intros H; by apply elem_of_nil in H|]. intros (j & x & Hj & _). done.
  - assert ((th, i, sn) ∈ hashes_of p slot_of k (S start) hs <->
      exists j x, (h :: hs) !! S j = Some x /\ slot_of (bin_num p (abbreviated x)) = Some k /\
        th = truncated x /\ i = Z.of_nat (start + S j) /\ sn = sort_num p (abbreviated x)) as E.
    { rewrite IH. split; intros (j & x & Hj & Hs & H1 & H2 & H3); exists j, x; (split; [done|]);
        (split; [done|]); (split; [done|]); (split; [lia|done]). }
    destruct (decide _) as [Hs|Hs].
    + rewrite elem_of_cons, E. split.
      * intros [[= -> -> ->]|(j & x & H)]; [exists 0%nat, h|exists (S j), x; done].
        split; [done|]. split; [done|]. split; [done|]. split; [lia|done].
      * intros ([|j] & x & Hj & Hx & -> & -> & ->).
        -- left. cbn in Hj. injection Hj as ->. do 2 f_equal. lia.
        -- right. by exists j, x.
    + rewrite E. split.
      * intros (j & x & H). by exists (S j), x.
      * intros ([|j] & x & Hj & Hx & H); [cbn in Hj; congruence|]. by exists j, x.
Qed.

(** ** Writing the bins of a pass *)
Lemma write_files_hold p f bins done_ new : (1 <= p_digits p)%nat -> Z.of_nat (length bins) <= 2 ^ 63 ->
  files_hold p f bins -> (done_ + length new <= length bins)%nat -> Forall (storable p) new ->
  (forall k, (done_ <= k < done_ + length new)%nat -> bins !! k = Some []) ->
  exists f', write_files p f (Z.of_nat done_) new = Some f' /\
    files_hold p f' (take done_ bins ++ new ++ drop (done_ + length new) bins).
Proof.
  intros Hd Hl. revert f bins Hl done_. induction new as [|b new IH]; intros f bins Hl done_ Hf Hle Hst Hempty.
  - exists f. split; [done|]. cbn [length app]. rewrite Nat.add_0_r, take_drop. done.
  - cbn [length] in *. apply Forall_cons in Hst as [Hb Hst]. cbn [write_files].
    destruct (files_hold_save p f bins done_ [] b Hd Hl Hf) as (f1 & E1 & Hf1); [apply Hempty; lia|cbn; lia|done|].
    rewrite E1. cbn [mbind option_bind]. replace (Z.of_nat done_ + 1) with (Z.of_nat (S done_)) by lia.
    destruct (IH f1 (<[done_ := b]> bins)) with (done_ := S done_) as (f2 & E2 & Hf2).
    + by rewrite insert_length.
    + done.
    + rewrite insert_length. lia.
    + done.
    + intros k Hk. rewrite list_lookup_insert_ne by lia. apply Hempty. lia.
    + exists f2. split; [done|].
      assert (take (S done_) (<[done_:=b]> bins) ++ new ++ drop (S done_ + length new) (<[done_:=b]> bins) =
              take done_ bins ++ (b :: new) ++ drop (done_ + S (length new)) bins) as <-; [|done].
      rewrite (take_S_r _ _ b) by (apply list_lookup_insert; lia). rewrite take_insert by lia.
      rewrite drop_insert_gt by lia. rewrite <- app_assoc. cbn [app]. do 4 f_equal. lia.
Qed.

(** ** The passes *)
(** the bins before and after sorting *)
Definition raw_bins (p : params) (hs : list (list Z)) (raw : list bin) : Prop :=
  forall k b, raw !! k = Some b -> entries_ok p b /\ contents p b = hashes_of p whole_slot k 0 hs.

Section Run.
  Context (p : params) (srt : bin -> bin) (hs : list (list Z)) (threads : nat).
  Context (Hthr : (0 < threads)%nat) (Hd : (1 <= p_digits p)%nat) (Hbins : 0 < p_bins p <= 2 ^ 63).
  Context (Hfit : hashes_fit p hs).
  Context (Hrange : forall h, h ∈ hs -> 0 <= bin_num p (abbreviated h) < p_bins p).

  Lemma pass_slots first count : forall h k, h ∈ hs -> pass_slot first count (bin_num p (abbreviated h)) = Some k ->
    (k < Z.to_nat count)%nat /\ (pass_owner threads k < threads)%nat.
  Proof using Hthr.
    clear -Hthr. intros h k _ Hk. apply pass_slot_some in Hk as [? ->]. split; [lia|]. apply Nat.mod_upper_bound. lia.
  Qed.

  Lemma all_launched : Forall (fun l => l = true) (replicate threads true).
  Proof using. by apply Forall_replicate. Qed.

  Lemma pass_result first count s : rtc (fan_step p hs (first =? 0) (pass_slot first count) (pass_owner threads) (Z.to_nat 1000) threads)
      (fan_init threads (Z.to_nat count) (replicate threads true)) s -> fan_finished threads s -> 0 <= first -> 0 <= count ->
    length (st_bins s) = Z.to_nat count /\
    (forall k b, st_bins s !! k = Some b -> entries_ok p b /\ contents p b = hashes_of p whole_slot (Z.to_nat first + k) 0 hs) /\
    (first = 0 -> st_nums s = (fun h => bin_num p (abbreviated h)) <$> hs).
  Proof using srt Hthr Hfit Hrange.
    clear Hd Hbins. intros Hr Hf H0 Hc.
    destruct (fan_result p hs (first =? 0) (pass_slot first count) (pass_owner threads) (Z.to_nat 1000) threads (Z.to_nat count)
      (replicate threads true) Hfit (pass_slots first count)) with (s := s) as (H1 & H2 & H3 & H4); try done.
    - apply replicate_length.
    - intros h k Hh Hk. apply lookup_replicate_2. by eapply pass_slots.
    - apply all_launched.
    - lia.
    - split; [done|]. split.
      + intros k b Hk. split; [rewrite Forall_lookup in H2; by eapply H2|]. rewrite (H3 k b Hk).
        apply hashes_of_ext. intros h Hh. pose proof (Hrange h Hh) as Hb. unfold whole_slot.
        pose proof (lookup_lt_Some _ _ _ Hk) as Hlt. rewrite H1 in Hlt.
        split.
        * intros E. apply pass_slot_some in E as [? ->]. f_equal. lia.
        * intros [= E]. unfold pass_slot. destruct (Z.ltb_spec (bin_num p (abbreviated h)) first); [lia|].
          destruct (Z.leb_spec (first + count) (bin_num p (abbreviated h))); [lia|]. cbn. f_equal. lia.
      + intros ->. done.
  Qed.

  (** the ranges left to do *)
  Fixpoint chain (from : Z) (rs : list (Z * Z)) : Prop :=
    match rs with
    | [] => from = p_bins p
    | (first, count) :: rs' => first = from /\ 0 <= count /\ chain (from + count) rs'
    end.

  Lemma chain_le from rs : chain from rs -> from <= p_bins p.
  Proof using.
    clear -rs. revert from. induction rs as [|[first count] rs IH]; intros from H; cbn in H; [lia|].
    destruct H as (-> & ? & H). apply IH in H. lia.
  Qed.

  Context (Hstor : forall k b, entries_ok p b -> contents p b = hashes_of p whole_slot k 0 hs -> storable p (sort_dedup srt b)).

  Lemma multipass_result rs : forall f nums f' nums' from raw,
    multipass p srt hs threads rs f nums f' nums' -> chain from rs -> 0 <= from -> length raw = Z.to_nat from ->
    raw_bins p hs raw ->
    files_hold p f ((sort_dedup srt <$> raw) ++ replicate (Z.to_nat (p_bins p - from)) []) ->
    (from = 0 -> rs <> []) -> (0 < from -> nums = (fun h => bin_num p (abbreviated h)) <$> hs) ->
    exists raw', length raw' = Z.to_nat (p_bins p) /\ raw_bins p hs raw' /\ files_hold p f' (sort_dedup srt <$> raw') /\
      nums' = (fun h => bin_num p (abbreviated h)) <$> hs.
  Proof using All.
    induction rs as [|[first count] rs IH]; intros f nums f' nums' from raw Hm Hch Hfrom Hraw Hrb Hf Hne Hnums.
    - inversion Hm; subst. cbn in Hch. subst from. exists raw.
      replace (p_bins p - p_bins p) with 0 in Hf by lia. change (Z.to_nat 0) with 0%nat in Hf. cbn [replicate] in Hf.
      rewrite app_nil_r in Hf. split; [done|]. split; [done|]. split; [done|]. apply Hnums. lia.
    - cbn in Hch. destruct Hch as (-> & Hc & Hch). pose proof (chain_le _ _ Hch) as Hle.
      inversion Hm as [|? ? ? ? ? s s' f1 ? ? Hr Hfin Hsr Hex Hw Hm']; subst.
      destruct (pass_result from count s Hr Hfin Hfrom Hc) as (Hlen & Hcont & Hn).
      pose proof (sort_result srt (st_bins s) threads s' Hthr Hsr Hex) as Esort.
      assert (Forall (storable p) (sort_dedup srt <$> st_bins s)) as Hst.
      { apply Forall_fmap, Forall_lookup. intros k b Hk. destruct (Hcont k b Hk) as [He Hcn]. by eapply Hstor. }
      assert (Z.of_nat (length ((sort_dedup srt <$> raw) ++ replicate (Z.to_nat (p_bins p - from)) [])) <= 2 ^ 63) as Hl63.
      { rewrite app_length, fmap_length, replicate_length. lia. }
      destruct (write_files_hold p f _ (Z.to_nat from) (sort_dedup srt <$> st_bins s) Hd Hl63 Hf) as (f2 & E2 & Hf2).
      { rewrite app_length, !fmap_length, replicate_length. lia. }
      { done. }
      { intros k Hk. rewrite fmap_length in Hk. rewrite lookup_app_r by (rewrite fmap_length; lia).
        apply lookup_replicate_2. rewrite fmap_length. lia. }
      rewrite Z2Nat.id in E2 by done. rewrite Esort in Hw. rewrite Hw in E2. injection E2 as <-.
      rewrite fmap_length, Hlen in Hf2.
      assert (take (Z.to_nat from) ((sort_dedup srt <$> raw) ++ replicate (Z.to_nat (p_bins p - from)) []) ++
        (sort_dedup srt <$> st_bins s) ++
        drop (Z.to_nat from + Z.to_nat count) ((sort_dedup srt <$> raw) ++ replicate (Z.to_nat (p_bins p - from)) [])
        = (sort_dedup srt <$> (raw ++ st_bins s)) ++ replicate (Z.to_nat (p_bins p - (from + count))) []) as E.
      { rewrite take_app_alt by (by rewrite fmap_length). rewrite drop_app_ge by (rewrite fmap_length; lia).
        rewrite fmap_length, drop_replicate, fmap_app, <- app_assoc. do 3 f_equal. lia. }
      rewrite E in Hf2.
      eapply (IH f1 _ f' nums' (from + count) (raw ++ st_bins s)); [exact Hm'|done|lia| | |exact Hf2| |].
      + rewrite app_length. lia.
      + intros k b Hk. apply lookup_app_Some in Hk as [Hk|[Hge Hk]]; [by apply Hrb|].
        destruct (Hcont _ _ Hk) as [He Hcn]. split; [done|]. rewrite Hcn. f_equal. lia.
      + intros H00 ->. cbn in Hch. lia.
      + intros _. destruct (Z.eqb_spec from 0) as [->|Hn0]; [by apply Hn|]. apply Hnums. lia.
  Qed.
End Run.

Lemma pass_ranges_chain p bytes rs : 0 <= bytes -> 0 < p_bins p -> 0 <= p_estimate p ->
  pass_ranges p bytes = Some rs -> chain p 0 rs /\ rs <> [].
Proof.
  intros Hb Hbins Hest Hr. unfold pass_ranges in Hr. set (bpp := bins_per_pass p bytes) in *.
  destruct (Z.eqb_spec bpp 0) as [|H0]; [done|]. injection Hr as <-.
  assert (0 < bpp) as Hpos.
  { assert (0 <= bpp); [|lia]. unfold bpp, bins_per_pass. pose proof (entry_bytes_pos p).
    apply Z.quot_pos; [done|]. destruct (Z.eqb_spec (p_estimate p `quot` p_bins p) 0); [lia|].
    assert (0 <= p_estimate p `quot` p_bins p) by (apply Z.quot_pos; lia). nia. }
  clearbody bpp. rewrite Z.quot_div_nonneg by lia.
  set (q := p_bins p / bpp).
  assert (0 <= q) as Hq by (apply Z.div_pos; lia).
  pose proof (Z.mul_div_le (p_bins p) bpp Hpos) as D1. pose proof (Z.mul_succ_div_gt (p_bins p) bpp Hpos) as D2. fold q in D1, D2.
  assert (forall n j, (j + n = Z.to_nat q)%nat -> chain p (Z.of_nat j * bpp)
    ((fun i => let first := Z.of_nat i * bpp in (first, if p_bins p <? first + bpp then p_bins p - first else bpp)) <$> seq j (S n))) as H.
  { induction n as [|n IH]; intros j Hj.
    - cbn [seq fmap list_fmap chain]. destruct (Z.ltb_spec (p_bins p) (Z.of_nat j * bpp + bpp)); [|nia].
      split; [done|]. split; [nia|]. lia.
    - change (seq j (S (S n))) with (j :: seq (S j) (S n)). rewrite fmap_cons. cbn [chain].
      destruct (Z.ltb_spec (p_bins p) (Z.of_nat j * bpp + bpp)); [nia|].
      split; [done|]. split; [lia|]. replace (Z.of_nat j * bpp + bpp) with (Z.of_nat (S j) * bpp) by lia.
      apply IH. lia. }
  replace (Z.to_nat (1 + q)) with (S (Z.to_nat q)) by lia. split; [|done].
  apply (H (Z.to_nat q) 0%nat). lia.
Qed.

Section Exists.
  Context (p : params) (srt : bin -> bin) (hs : list (list Z)) (threads : nat).
  Context (Hthr : (0 < threads)%nat) (Hd : (1 <= p_digits p)%nat) (Hbins : 0 < p_bins p <= 2 ^ 63).
  Context (Hfit : hashes_fit p hs).
  Context (Hrange : forall h, h ∈ hs -> 0 <= bin_num p (abbreviated h) < p_bins p).
  Context (Hstor : forall k b, entries_ok p b -> contents p b = hashes_of p whole_slot k 0 hs -> storable p (sort_dedup srt b)).

  Lemma multipass_exists rs : forall f nums from bins, chain p from rs -> 0 <= from -> length bins = Z.to_nat (p_bins p) ->
    files_hold p f bins -> (forall k, (Z.to_nat from <= k)%nat -> (k < length bins)%nat -> bins !! k = Some []) ->
    exists f' nums', multipass p srt hs threads rs f nums f' nums'.
  Proof using All.
    induction rs as [|[first count] rs IH]; intros f nums from bins Hch Hfrom Hlen Hf Hempty.
    - eexists _, _. constructor.
    - cbn in Hch. destruct Hch as (-> & Hc & Hch). pose proof (chain_le _ _ _ Hch) as Hle.
      destruct (fan_terminates p hs (from =? 0) (pass_slot from count) (pass_owner threads) (Z.to_nat 1000) threads (Z.to_nat count)
        (replicate threads true) Hfit (pass_slots p hs threads Hthr from count)) with
        (s := fan_init threads (Z.to_nat count) (replicate threads true)) as (s & Hr & Hfin).
      { apply replicate_length. }
      { intros h k Hh Hk. apply lookup_replicate_2. by eapply pass_slots. }
      { apply all_launched. }
      { lia. }
      { done. }
      { constructor. }
      destruct (pass_result p srt hs threads Hthr Hfit Hrange from count s Hr Hfin Hfrom Hc) as (Hl & Hcont & Hn).
      destruct (sort_terminates srt (st_bins s) threads (sort_init threads (st_bins s))) as (s' & Hsr & Hex); [constructor|].
      pose proof (sort_result srt (st_bins s) threads s' Hthr Hsr Hex) as Esort.
      destruct (write_files_hold p f bins (Z.to_nat from) (sort_dedup srt <$> st_bins s) Hd) as (f1 & E1 & Hf1).
      { lia. }
      { done. }
      { rewrite fmap_length. lia. }
      { apply Forall_fmap, Forall_lookup. intros k b Hk. destruct (Hcont k b Hk) as [He Hcn]. by eapply Hstor. }
      { intros k Hk. rewrite fmap_length in Hk. apply Hempty; lia. }
      rewrite Z2Nat.id in E1 by done. rewrite <- Esort in E1.
      pose proof (fun H1 H2 => IH f1 (if from =? 0 then st_nums s else nums) (from + count) _ Hch (Z.add_nonneg_nonneg _ _ Hfrom Hc) H1 Hf1 H2) as IH'.
      destruct IH' as (f' & nums' & Hm).
      { rewrite !app_length, take_length, drop_length, fmap_length. lia. }
      { rewrite !app_length, take_length, drop_length, fmap_length. intros k Hk1 Hk2.
        rewrite lookup_app_r by (rewrite take_length; lia). rewrite lookup_app_r by (rewrite take_length, fmap_length; lia).
        rewrite lookup_drop, take_length, fmap_length. apply Hempty; lia. }
      exists f', nums'. econstructor; done.
  Qed.
End Exists.

(** ** Looking things up *)
Section Lookup.
  Context (p : params) (probe : Z -> Z -> Z -> Z -> Z -> Z) (srt : bin -> bin) (hs : list (list Z)).
  Context (Hprobe : probe_ok probe) (Hsrt : sorts p srt) (Hset : settings_ok p) (Hlist : hash_list_ok p hs).
  Context (Hcol : no_collisions hs).

  Lemma set_bins : 2 <= p_bins p <= 2 ^ 56.
  Proof using Hset.
    clear -Hset. destruct Hset as ((k & Hk & ->) & _). split; [change 2 with (2 ^ 1) at 1|]; apply Z.pow_le_mono_r; lia.
  Qed.

  Lemma set_pow2 : pow2_bins p.
  Proof using Hset. clear -Hset. destruct Hset as ((k & Hk & E) & _). exists k. split; [lia|done]. Qed.

  Lemma abbr_ok h : length h = 32%nat -> bytes h ->
    0 <= bin_num p (abbreviated h) < p_bins p /\ 0 <= sort_num p (abbreviated h) < pow256 (p_snb p) /\
    abbreviation_of p (bin_num p (abbreviated h)) (sort_num p (abbreviated h)) = abbreviated h.
  Proof using Hset.
    clear -Hset. intros Hl Hb. destruct (C17_abbreviations_are_partitioned p set_pow2) as (H & _).
    destruct (H _ (abbreviated_range h Hl Hb)) as (H1 & H2 & H3). destruct Hset as (_ & H4 & _).
    split; [done|]. split; [lia|done].
  Qed.

  Lemma list_fits : hashes_fit p hs.
  Proof using Hset Hlist.
    clear -Hset Hlist. pose proof abbr_ok as Ha. destruct Hset as (_ & _ & H3 & H4 & _). destruct Hlist as (H5 & H6 & H7).
    split; [done|]. split; [done|]. split; [done|]. split; [lia|].
    eapply Forall_impl; [exact H5|]. intros h [Hl Hb]. split; [done|]. split; [done|]. by apply Ha.
  Qed.

  Lemma list_range : forall h, h ∈ hs -> 0 <= bin_num p (abbreviated h) < p_bins p.
  Proof using Hset Hlist.
    clear -Hset Hlist. intros h Hh. destruct Hlist as (H5 & _). rewrite Forall_forall in H5. destruct (H5 h Hh).
    by apply abbr_ok.
  Qed.

  Lemma elem_ok h : h ∈ hs -> length h = 32%nat /\ bytes h.
  Proof using Hlist. clear -Hlist. intros Hh. destruct Hlist as (H5 & _). rewrite Forall_forall in H5. by apply H5. Qed.

  (** a hash is determined by its three parts *)
  Lemma parts_inj h h' : length h = 32%nat -> bytes h -> length h' = 32%nat -> bytes h' ->
    bin_num p (abbreviated h) = bin_num p (abbreviated h') -> sort_num p (abbreviated h) = sort_num p (abbreviated h') ->
    abbreviated h = abbreviated h'.
  Proof using Hset.
    clear -Hset. intros L B L' B' E1 E2. destruct (abbr_ok h L B) as (_ & _ & <-). destruct (abbr_ok h' L' B') as (_ & _ & <-).
    by rewrite E1, E2.
  Qed.

  Section Bin.
    Context (k : nat) (b : bin) (He : entries_ok p b) (Hc : contents p b = hashes_of p whole_slot k 0 hs).

    Lemma bin_elem e : e ∈ b -> exists j h, hs !! j = Some h /\ bin_num p (abbreviated h) = Z.of_nat k /\
      entry_th e = truncated h /\ entry_hi p e = Z.of_nat j /\ entry_sn p e = sort_num p (abbreviated h).
    Proof using Hc Hset Hlist.
      intros Hin. assert ((entry_th e, entry_hi p e, entry_sn p e) ∈ contents p b) as H.
      { unfold contents. apply elem_of_list_fmap. by exists e. }
      rewrite Hc in H. apply hashes_of_in in H as (j & h & Hj & Hs & H1 & H2 & H3). exists j, h.
      split; [done|]. unfold whole_slot in Hs. injection Hs as Hs.
      pose proof (list_range h (elem_of_list_lookup_2 _ _ _ Hj)). split; [lia|]. done.
    Qed.

    Lemma elem_bin j h : hs !! j = Some h -> bin_num p (abbreviated h) = Z.of_nat k ->
      exists e, e ∈ b /\ entry_th e = truncated h /\ entry_hi p e = Z.of_nat j /\ entry_sn p e = sort_num p (abbreviated h).
    Proof using Hc.
      intros Hj Hb. assert ((truncated h, Z.of_nat j, sort_num p (abbreviated h)) ∈ contents p b) as H.
      { rewrite Hc. apply hashes_of_in. exists j, h. split; [done|]. split; [|done]. unfold whole_slot. rewrite Hb. by rewrite Nat2Z.id. }
      unfold contents in H. apply elem_of_list_fmap in H as (e & [= -> -> ->] & He'). by exists e.
    Qed.

    Lemma bin_truncations : truncations_distinct p b.
    Proof using Hc Hset Hlist Hcol.
      intros e e' He1 He2 E. destruct (bin_elem e He1) as (j & h & Hj & Hb & E1 & E2 & E3).
      destruct (bin_elem e' He2) as (j' & h' & Hj' & Hb' & E1' & E2' & E3').
      rewrite E3, E3'. do 2 f_equal. apply Hcol; [by eapply elem_of_list_lookup_2..|]. left. congruence.
    Qed.

    Lemma bin_sort_numbers : sort_numbers_distinct p b.
    Proof using Hc Hset Hlist Hcol.
      intros e e' He1 He2 E. destruct (bin_elem e He1) as (j & h & Hj & Hb & E1 & E2 & E3).
      destruct (bin_elem e' He2) as (j' & h' & Hj' & Hb' & E1' & E2' & E3').
      rewrite E1, E1'. f_equal. pose proof (elem_of_list_lookup_2 _ _ _ Hj) as Hin. pose proof (elem_of_list_lookup_2 _ _ _ Hj') as Hin'.
      apply Hcol; [done|done|]. right. destruct (elem_ok h Hin), (elem_ok h' Hin').
      apply parts_inj; congruence || done.
    Qed.

    Lemma sorted_length : (length (sort_dedup srt b) <= length hs)%nat.
    Proof using Hc Hsrt.
      assert (length b <= length hs)%nat as H1.
      { transitivity (length (contents p b)); [unfold contents; by rewrite fmap_length|]. rewrite Hc. clear.
        generalize 0%nat as start. induction hs as [|h l IH]; intros start; cbn [hashes_of length]; [lia|].
        pose proof (IH (S start)). case_decide; cbn [length]; lia. }
      destruct (sort_dedup_perm p srt b Hsrt) as (s & Hp & _ & ->). apply Permutation_length in Hp.
      destruct s as [|e s]; cbn [length] in *; [lia|].
      pose proof (sublist_length _ _ (dedup_from_sublist (entry_th e) s)). lia.
    Qed.

    Lemma sorted_ok : entries_ok p (sort_dedup srt b).
    Proof using He Hsrt.
      unfold entries_ok in *. rewrite Forall_forall in *. intros e Hin. apply He.
      by apply (sort_dedup_facts p srt b Hsrt).
    Qed.

    Lemma sorted_searchable : searchable p (sort_dedup srt b).
    Proof using He Hc Hsrt Hset Hlist.
      split; [apply Hset|]. split; [apply sorted_ok|]. split.
      - apply entry_le_sn_sorted. by apply (sort_dedup_facts p srt b Hsrt).
      - pose proof sorted_length. destruct Hlist as (_ & _ & ?). lia.
    Qed.

    Lemma sorted_visible : first_hash_visible p hs -> ends_visibly p (sort_dedup srt b).
    Proof using He Hc Hsrt Hset Hlist.
      intros Hvis e Hl Hz.
      assert (e ∈ sort_dedup srt b) as Hin.
      { apply last_Some_elem_of in Hl. rewrite <- (take_drop (p_start p) (sort_dedup srt b)). apply elem_of_app. by left. }
      apply (sort_dedup_facts p srt b Hsrt) in Hin. destruct (bin_elem e Hin) as (j & h & Hj & _ & E1 & E2 & E3).
      assert (forall n l, Forall (fun x => x = 0) l -> le_dec (take n l) = 0) as Hdec.
      { clear. intros n l Hl. apply (Forall_take _ n) in Hl. induction Hl as [|x l' -> _ IH]; [done|]. cbn [le_dec]. rewrite IH. done. }
      unfold is_zero_entry in Hz.
      assert (entry_hi p e = 0) as E0.
      { unfold entry_hi. rewrite Hdec; [reflexivity|]. by apply Forall_drop. }
      assert (entry_sn p e = 0) as E4.
      { unfold entry_sn. rewrite Hdec; [reflexivity|]. by apply Forall_drop. }
      assert (j = 0)%nat as -> by lia. apply (Hvis h Hj). split; [|congruence].
      rewrite <- E1. unfold entry_th. by apply Forall_take.
    Qed.
  End Bin.

  Lemma first_position_none h start (l : list (list Z)) : h ∉ l -> first_position h start l = -1.
  Proof.
    clear. revert start. induction l as [|x l IH]; intros start Hn; cbn [first_position]; [done|].
    apply not_elem_of_cons in Hn as [Hx Hn]. destruct (decide (x = h)); [congruence|]. by apply IH.
  Qed.

  Lemma first_position_some h start (l : list (list Z)) : h ∈ l ->
    exists j, first_position h start l = Z.of_nat (start + j) /\ l !! j = Some h /\ forall j', l !! j' = Some h -> (j <= j')%nat.
  Proof.
    clear. revert start. induction l as [|x l IH]; intros start Hin; cbn [first_position]; [by apply elem_of_nil in Hin|].
    destruct (decide (x = h)) as [->|Hx].
    - exists 0%nat. split; [by rewrite Nat.add_0_r|]. split; [done|]. lia.
    - apply elem_of_cons in Hin as [->|Hin]; [done|]. destruct (IH (S start) Hin) as (j & E & Hj & Hmin).
      exists (S j). split; [rewrite E; lia|]. split; [done|]. intros [|j'] Hj'; [cbn in Hj'; congruence|]. cbn in Hj'. apply Hmin in Hj'. lia.
  Qed.

  Lemma bin_index_of k b h : entries_ok p b -> contents p b = hashes_of p whole_slot k 0 hs ->
    length h = 32%nat -> bytes h -> bin_num p (abbreviated h) = Z.of_nat k ->
    lookup_by_hash p probe (sort_dedup srt b) (truncated h) (sort_num p (abbreviated h)) = Some (first_position h 0 hs).
  Proof using Hprobe Hsrt Hset Hlist Hcol.
    intros He Hc Hl Hb Hbn. pose proof (bin_truncations k b Hc) as Ht. pose proof (bin_sort_numbers k b Hc) as Hn.
    destruct (abbr_ok h Hl Hb) as (_ & Hsn & _).
    rewrite (C19_lookup_finds_lone_sort_numbers_partial p probe); [|done|by eapply sorted_searchable|lia|].
    2: { by apply sort_dedup_at_most_one. }
    f_equal. destruct (decide (h ∈ hs)) as [Hin|Hin].
    - destruct (first_position_some h 0 hs Hin) as (j & -> & Hj & Hmin). cbn [plus].
      destruct (elem_bin k b Hc j h Hj Hbn) as (e & Heb & E1 & E2 & E3).
      destruct (sort_dedup_first p srt b (truncated h) (sort_num p (abbreviated h)) Hsrt Ht Hn) as [(e' & He' & F1 & F2 & F3) Hleast];
        [by exists e|].
      pose proof (Hleast e Heb E1 E3) as Hle. destruct (bin_elem k b Hc e' He') as (j' & h' & Hj' & Hb' & G1 & G2 & G3).
      assert (h' = h) as ->.
      { apply Hcol; [by eapply elem_of_list_lookup_2..|]. left. congruence. }
      pose proof (Hmin _ Hj'). lia.
    - rewrite (first_position_none _ _ _ Hin). apply first_index_none. intros (e & Heb & E1 & E3).
      apply (sort_dedup_facts p srt b Hsrt) in Heb. destruct (bin_elem k b Hc e Heb) as (j & h' & Hj & Hb' & G1 & G2 & G3).
      pose proof (elem_of_list_lookup_2 _ _ _ Hj) as Hin'. destruct (elem_ok h' Hin') as [Hl' Hby'].
      assert (h' = h) as ->; [|done].
      rewrite <- (rebuild_parts h' Hl' Hby'), <- (rebuild_parts h Hl Hb).
      rewrite (parts_inj h' h) by (done || congruence). congruence.
  Qed.

  Lemma lookup_by_index_absent (b : bin) hi bn : (forall e, e ∈ b -> entry_hi p e <> hi) -> lookup_by_index p b hi bn = replicate 32 0.
  Proof.
    clear. induction b as [|e b IH]; intros H; [done|]. cbn [lookup_by_index]. rewrite bool_decide_eq_false_2 by (apply H; by left).
    apply IH. intros x Hx. apply H. by right.
  Qed.
  Lemma lookup_by_index_present (b : bin) hi bn e : e ∈ b -> entry_hi p e = hi ->
    exists e', e' ∈ b /\ entry_hi p e' = hi /\ lookup_by_index p b hi bn = rebuild (entry_th e') (abbreviation_of p bn (entry_sn p e')).
  Proof.
    clear. induction b as [|x b IH]; intros H E; [by apply elem_of_nil in H|]. cbn [lookup_by_index].
    destruct (bool_decide_reflect (entry_hi p x = hi)).
    - exists x. split; [by left|]. done.
    - apply elem_of_cons in H as [->|H]; [done|]. destruct (IH H E) as (e' & H1 & H2). exists e'. split; [by right|done].
  Qed.

  Lemma bin_get k b i h : entries_ok p b -> contents p b = hashes_of p whole_slot k 0 hs ->
    hs !! i = Some h -> bin_num p (abbreviated h) = Z.of_nat k ->
    lookup_by_index p (sort_dedup srt b) (Z.of_nat i) (Z.of_nat k) =
      if decide (first_position h 0 hs = Z.of_nat i) then h else replicate 32 0.
  Proof using Hsrt Hset Hlist Hcol.
    intros He Hc Hi Hbn. pose proof (bin_truncations k b Hc) as Ht. pose proof (bin_sort_numbers k b Hc) as Hn.
    pose proof (elem_of_list_lookup_2 _ _ _ Hi) as Hin. destruct (elem_ok h Hin) as [Hl Hb].
    destruct (elem_bin k b Hc i h Hi Hbn) as (e & Heb & E1 & E2 & E3).
    destruct (sort_dedup_keeps p srt b e Hsrt Heb Ht) as (e' & He' & F1 & F3 & Hleast).
    pose proof (proj1 (sort_dedup_facts p srt b Hsrt) e' He') as Heb'.
    destruct (bin_elem k b Hc e' Heb') as (j & h' & Hj & _ & G1 & G2 & G3).
    assert (h' = h) as ->.
    { apply Hcol; [by eapply elem_of_list_lookup_2|done|]. left. congruence. }
    destruct (first_position_some h 0 hs Hin) as (j0 & Ej0 & Hj0 & Hmin). cbn [plus] in Ej0. rewrite Ej0.
    assert (j = j0) as ->.
    { pose proof (Hmin _ Hj). destruct (elem_bin k b Hc j0 h Hj0 Hbn) as (e0 & Heb0 & D1 & D2 & D3).
      assert (entry_hi p e' <= entry_hi p e0) by (apply Hleast; [done|congruence]). lia. }
    destruct (decide (Z.of_nat j0 = Z.of_nat i)) as [Eq|Ne].
    - assert (j0 = i) as -> by lia.
      destruct (lookup_by_index_present (sort_dedup srt b) (Z.of_nat i) (Z.of_nat k) e' He' G2) as (x & Hx & X2 & ->).
      apply (sort_dedup_facts p srt b Hsrt) in Hx. destruct (bin_elem k b Hc x Hx) as (jx & hx & Hjx & Hbx & X1 & X2' & X3).
      assert (jx = i) as -> by lia. rewrite Hi in Hjx. injection Hjx as <-. rewrite X1, X3, <- Hbx.
      destruct (abbr_ok h Hl Hb) as (_ & _ & ->). by apply rebuild_parts.
    - apply lookup_by_index_absent. intros x Hx Ex.
      pose proof (sort_dedup_at_most_one p srt b (sort_num p (abbreviated h)) Hsrt Ht Hn) as Hone.
      pose proof (proj1 (sort_dedup_facts p srt b Hsrt) x Hx) as Hxb.
      destruct (bin_elem k b Hc x Hxb) as (jx & hx & Hjx & Hbx & X1 & X2 & X3).
      assert (jx = i) as -> by lia. rewrite Hi in Hjx. injection Hjx as <-.
      apply elem_of_list_lookup in He' as [q1 Hq1]. apply elem_of_list_lookup in Hx as [q2 Hq2].
      pose proof (Hone q1 q2 e' x Hq1 Hq2 G3 X3) as ->. rewrite Hq1 in Hq2. injection Hq2 as <-. lia.
  Qed.
End Lookup.
