(** Property C88: the adaptive indexing run from the hash file to the answers. *)
From Coq Require Import Sorting.Sorted.
From Verif Require Import Base Model_Word Spec_Word Proof_Word Model_Bins Spec_Bins Proof_Bins Proof_BinFiles Prop_Bins
  Model_Pass Spec_Pass Proof_Pass Proof_Index Proof_Plan Prop_Pass Prop_Index Model_Adaptive Proof_Adaptive.

(** ** Who gets work *)
Definition full (w : work) : Prop := 0 < wk_count w.
Global Instance full_dec w : Decision (full w).
Proof. unfold full. apply _. Defined.

Lemma filter_sub ws : filter full ws `sublist_of` ws.
Proof. induction ws as [|w ws IH]; [done|]. rewrite filter_cons. destruct (decide _); [by apply sublist_skip|by apply sublist_cons]. Qed.

Lemma allocate_app ws1 : forall loads ws2, fst (allocate loads (ws1 ++ ws2)) =
  fst (allocate loads ws1) ++ fst (allocate (snd (allocate loads ws1)) ws2).
Proof. induction ws1 as [|w ws1 IH]; intros loads ws2; [done|]. cbn [app allocate fst snd]. by rewrite IH. Qed.

(** as long as there are workers without work, they get the full bins *)
Lemma allocate_covers pre : forall loads, Forall full pre -> Forall (fun l => 0 <= l) loads ->
  (forall l, l ∈ loads -> l + total pre < 2 ^ 63 - 1) ->
  (length (filter (fun l => l = 0%Z) loads) <= length pre)%nat ->
  forall a, loads !! a = Some 0 -> exists w, (w, a) ∈ fst (allocate loads pre).
Proof.
  induction pre as [|w pre IH]; intros loads Hpos Hnn Hlt Hz a Ha.
  - exfalso. cbn [length] in Hz. assert (0 ∈ filter (fun l => l = 0%Z) loads) as H0.
    { apply elem_of_list_filter. split; [done|]. by eapply elem_of_list_lookup_2. }
    destruct (filter (fun l => l = 0%Z) loads); [by apply elem_of_nil in H0|cbn [length] in Hz; lia].
  - apply Forall_cons in Hpos as [Hw Hpos]. unfold full in Hw. cbn [allocate fst].
    assert (0 <= total pre) as Htot by (apply total_nonneg; eapply Forall_impl; [exact Hpos|unfold full; intros; lia]).
    assert (loads <> []) as Hne by (intros ->; done).
    destruct (least_loaded_min loads Hne) as (m & Hm & Hmin).
    { apply Forall_forall. intros l Hl. specialize (Hlt l Hl). rewrite total_cons in Hlt. lia. }
    assert (m = 0) as ->.
    { pose proof (Hmin 0 ltac:(by eapply elem_of_list_lookup_2)). rewrite Forall_forall in Hnn.
      pose proof (Hnn m ltac:(by eapply elem_of_list_lookup_2)). lia. }
    destruct (decide (a = least_loaded loads)) as [->|Hna]; [exists w; left|].
    rewrite Hm. cbn [default from_option]. unfold id.
    destruct (IH (<[least_loaded loads := 0 + wk_count w]> loads)) with (a := a) as (w' & Hw').
    + done.
    + apply Forall_insert; [done|lia].
    + intros l Hl. apply elem_of_list_lookup in Hl as [i Hi]. rewrite total_cons in Hlt.
      apply list_lookup_insert_Some in Hi as [(_ & <- & _)|[_ Hi]].
      * specialize (Hlt 0 ltac:(by eapply elem_of_list_lookup_2)). lia.
      * specialize (Hlt l ltac:(by eapply elem_of_list_lookup_2)). lia.
    + assert (length (filter (fun l => l = 0%Z) (<[least_loaded loads:=(0 + wk_count w)%Z]> loads)) <
              length (filter (fun l => l = 0%Z) loads))%nat as Hfl; [|cbn [length] in Hz; lia].
      rewrite <- (take_drop_middle loads _ _ Hm) at 3.
      rewrite insert_take_drop by (by eapply lookup_lt_Some). rewrite !filter_app, !filter_cons, !app_length.
      rewrite (decide_False (P := 0 + wk_count w = 0)) by lia. rewrite (decide_True (P := 0%Z = 0%Z)) by done. cbn [length]. lia.
    + rewrite list_lookup_insert_ne by done. done.
    + exists w'. right. done.
Qed.

(** all empty bins at the end go to one worker *)
Lemma allocate_empty ws : forall loads, Forall (fun w => wk_count w = 0) ws ->
  Forall (fun x => snd x = least_loaded loads) (fst (allocate loads ws)).
Proof.
  induction ws as [|w ws IH]; intros loads Hw; cbn [allocate fst]; [constructor|].
  apply Forall_cons in Hw as [Hw Hws]. constructor; [done|].
  assert (<[least_loaded loads := default 0 (loads !! least_loaded loads) + wk_count w]> loads = loads) as ->; [|by apply IH].
  rewrite Hw. destruct (loads !! least_loaded loads) as [l|] eqn:E; cbn [default from_option].
  - unfold id. rewrite Z.add_0_r. by apply list_insert_id.
  - apply list_insert_ge. by apply lookup_ge_None.
Qed.

Lemma idle_exists (used : list nat) threads : (length used < threads)%nat -> exists a, (a < threads)%nat /\ a ∉ used.
Proof.
  intros Hl. destruct (decide (Forall (fun a => a ∈ used) (seq 0 threads))) as [Hall|Hno].
  - exfalso. assert (seq 0 threads ⊆+ used) as Hs.
    { apply NoDup_submseteq; [apply NoDup_seq|]. rewrite Forall_forall in Hall. exact Hall. }
    apply submseteq_length in Hs. rewrite seq_length in Hs. lia.
  - apply not_Forall_Exists in Hno; [|apply _]. apply Exists_exists in Hno as (a & Ha & Hn). apply elem_of_seq in Ha.
    exists a. split; [lia|done].
Qed.

Lemma full_first ws : Forall (fun w => 0 <= wk_count w) ws -> StronglySorted (fun a b => wk_count b <= wk_count a) ws ->
  exists ws', ws = filter full ws ++ ws' /\ Forall (fun w => wk_count w = 0) ws'.
Proof.
  intros Hnn Hs. induction Hs as [|w ws Hs IH Hw]; [by exists []|]. apply Forall_cons in Hnn as [H0 Hnn].
  rewrite filter_cons. destruct (decide (full w)) as [Hf|Hf].
  - destruct (IH Hnn) as (ws' & E & He). exists ws'. split; [|done]. rewrite E at 1. done.
  - unfold full in Hf. exists (w :: ws). 
    assert (Forall (fun w => wk_count w = 0) (w :: ws)) as Ha.
    { constructor; [lia|]. rewrite Forall_forall in Hnn, Hw |- *. intros x Hx. specialize (Hnn x Hx). specialize (Hw x Hx). cbn in Hw. lia. }
    assert (filter full ws = []) as ->; [|done]. apply elem_of_nil_inv. intros x Hx. apply elem_of_list_filter in Hx as [Hx1 Hx2].
    apply Forall_cons in Ha as [_ Ha]. rewrite Forall_forall in Ha. specialize (Ha x Hx2). unfold full in Hx1. lia.
Qed.

(** ** The plan *)
Lemma design_sublist budget ws : forall used biggest, fst (design budget used biggest ws) `sublist_of` ws /\ snd (design budget used biggest ws) `sublist_of` ws.
Proof.
  induction ws as [|w ws IH]; intros used biggest; cbn [design]; [done|].
  destruct (_ || _); cbn [fst snd].
  - destruct (IH (used + wk_count w) false) as [H1 H2]. split; [by apply sublist_skip|by apply sublist_cons].
  - destruct (IH used biggest) as [H1 H2]. split; [by apply sublist_cons|by apply sublist_skip].
Qed.
Lemma plan_sublist fuel budget : forall ws wss, plan fuel budget ws = Some wss -> Forall (fun q => q `sublist_of` ws) wss.
Proof.
  induction fuel as [|fuel IH]; intros ws wss H; destruct ws as [|w ws]; cbn [plan] in H; try done.
  - apply (inj Some) in H as <-. constructor.
  - apply (inj Some) in H as <-. constructor.
  - destruct (plan fuel budget _) as [ps|] eqn:E; [|done]. cbn [mbind option_bind] in H. apply (inj Some) in H as <-.
    destruct (design_sublist budget (w :: ws) 0 true) as [H1 H2]. constructor; [done|].
    eapply Forall_impl; [apply (IH _ _ E)|]. cbv beta. intros q Hq. by etrans.
Qed.
Lemma sorted_sublist (l k : list work) : l `sublist_of` k -> StronglySorted (fun a b => wk_count b <= wk_count a) k ->
  StronglySorted (fun a b => wk_count b <= wk_count a) l.
Proof.
  induction 1 as [|x l k H IH|x l k H IH]; intros Hs; [done|..]; inversion Hs as [|? ? Hs' Hf]; subst.
  - constructor; [by apply IH|]. rewrite Forall_forall in Hf |- *. intros y Hy. apply Hf. by eapply elem_of_submseteq, sublist_submseteq.
  - by apply IH.
Qed.

Section Plan.
  Context (p : params) (hs : list (list Z)) (order : list work -> list work) (gb : Z).
  Context (Hset : settings_ok p) (Hlist : hash_list_ok p hs) (Hord : orders_work order).

  (** the planned passes: all bins once, counted, each pass by falling count and not empty *)
  Lemma planned : exists wss, adaptive_plan p (Some (concat hs)) (work_budget p gb) order = Some wss /\
    Forall (counted p hs) (concat wss) /\ NoDup (wk_bin <$> concat wss) /\ wss <> [] /\ Forall (fun q => q <> []) wss /\
    (forall k, (k < Z.to_nat (p_bins p))%nat -> Z.of_nat k ∈ (wk_bin <$> concat wss)) /\
    Forall (StronglySorted (fun a b => wk_count b <= wk_count a)) wss.
  Proof using Hset Hlist Hord.
    destruct (C23_counts_are_exact p hs Hset Hlist) as (ws & Ews & Hlen & Hws). unfold adaptive_plan. rewrite Ews. cbn [default from_option]. unfold id.
    destruct (Hord ws) as [Hp Hs].
    assert (Forall (counted p hs) ws) as Hc.
    { apply Forall_lookup. intros k w Hk. destruct (Hws k w Hk) as [Hb Hcw]. pose proof (lookup_lt_Some _ _ _ Hk).
      split; [lia|]. rewrite Hcw, Hb, Nat2Z.id. done. }
    destruct (C23_plan_is_a_partition (work_budget p gb) (order ws)) as (wss & E & Hcat & Hne & _).
    { rewrite Hp. eapply Forall_impl; [exact Hc|]. intros w [_ ->]. lia. }
    exists wss. split; [done|]. split; [by rewrite Hcat, Hp|].
    assert (wk_bin <$> ws = Z.of_nat <$> seq 0 (Z.to_nat (p_bins p))) as Eb.
    { apply list_eq. intros k. rewrite !list_lookup_fmap. destruct (ws !! k) as [w|] eqn:Ek.
      - destruct (Hws k w Ek) as [Hb _]. pose proof (lookup_lt_Some _ _ _ Ek). rewrite lookup_seq_lt by lia. cbn. by rewrite Hb.
      - apply lookup_ge_None in Ek. rewrite lookup_seq_ge by lia. done. }
    assert (wk_bin <$> concat wss ≡ₚ Z.of_nat <$> seq 0 (Z.to_nat (p_bins p))) as Ep by (by rewrite Hcat, Hp, Eb).
    split; [rewrite Ep; apply NoDup_fmap_2; [apply _|apply NoDup_seq]|]. split; [|split; [done|split]].
    - intros ->. cbn [concat] in Hcat. rewrite Hp in Hcat. apply Permutation_nil in Hcat. subst ws. cbn in Hlen.
      pose proof (set_bins p Hset). lia.
    - intros k Hk. rewrite Ep. apply elem_of_list_fmap. exists k. split; [done|]. apply elem_of_seq. lia.
    - eapply Forall_impl; [eapply plan_sublist, E|]. intros q Hq. eapply sorted_sublist; [exact Hq|exact Hs].
  Qed.

  Lemma pass_total ws : Forall (counted p hs) ws -> NoDup (wk_bin <$> ws) ->
    (length (filter full ws) <= length hs)%nat.
  Proof using Hset Hlist.
    intros Hc Hnd. rewrite <- (fmap_length wk_bin (filter full ws)), <- (fmap_length (fun h => bin_num p (abbreviated h)) hs).
    apply submseteq_length, NoDup_submseteq.
    - destruct (submseteq_Permutation (wk_bin <$> filter full ws) (wk_bin <$> ws)) as [k Ek].
      { apply fmap_submseteq, sublist_submseteq, filter_sub. }
      rewrite Ek in Hnd. by apply NoDup_app in Hnd as [Hnd _].
    - intros x Hx. apply elem_of_list_fmap in Hx as (w & -> & Hw). apply elem_of_list_filter in Hw as [Hf Hw].
      rewrite Forall_forall in Hc. destruct (Hc w Hw) as [Hr Hcw]. unfold full in Hf.
      destruct (hashes_of p whole_slot (Z.to_nat (wk_bin w)) 0 hs) as [|[[th i] sn] l] eqn:E; [cbn in Hcw; lia|].
      assert ((th, i, sn) ∈ hashes_of p whole_slot (Z.to_nat (wk_bin w)) 0 hs) as Hin by (rewrite E; left).
      apply hashes_of_in in Hin as (j & h & Hj & Hs & _). apply elem_of_list_fmap. exists h.
      apply elem_of_list_lookup_2 in Hj. split; [|done]. unfold whole_slot in Hs. apply (inj Some) in Hs.
      pose proof (list_range p hs Hset Hlist h Hj). lia.
  Qed.
End Plan.

(** ** The run *)

(** A pass that every worker can take part in: as many non-empty bins as workers. *)
Definition enough_work (threads : nat) (ws : list work) : Prop := (threads <= length (filter full ws))%nat.

Lemma enough_busy p hs threads ws : hash_list_ok p hs -> Forall (counted p hs) ws -> NoDup (wk_bin <$> ws) -> total ws < 2 ^ 63 - 1 ->
  StronglySorted (fun a b => wk_count b <= wk_count a) ws -> enough_work threads ws -> busy threads ws.
Proof.
  intros Hlist Hc Hnd Htot Hs He a Ha.
  assert (Forall (fun w => 0 <= wk_count w) ws) as Hnn by (eapply Forall_impl; [exact Hc|]; intros w [_ ->]; lia).
  destruct (full_first ws Hnn Hs) as (ws' & E & Hz). rewrite E in Htot. rewrite total_app in Htot.
  assert (total ws' = 0) as Ez by (clear -Hz; induction Hz as [|w ws' Hw _ IH]; [done|]; rewrite total_cons; lia).
  destruct (allocate_covers (filter full ws) (replicate threads 0)) with (a := a) as (w & Hw).
  - apply Forall_forall. intros x Hx. by apply elem_of_list_filter in Hx as [Hx _].
  - by apply Forall_replicate.
  - intros l Hl. apply elem_of_replicate in Hl as [-> _]. lia.
  - etrans; [apply filter_length|]. rewrite replicate_length. exact He.
  - by apply lookup_replicate_2.
  - exists w. rewrite E, allocate_app. apply elem_of_app. by left.
Qed.

Lemma total_le p hs ws : settings_ok p -> hash_list_ok p hs -> Forall (counted p hs) ws -> NoDup (wk_bin <$> ws) ->
  total ws <= Z.of_nat (length hs).
Proof.
  intros Hset Hlist Hc Hnd.
  assert (forall (l : list (list Z)) ws, NoDup (wk_bin <$> ws) -> Forall (fun w => wk_count w = Z.of_nat (length (filter (fun h => bin_num p (abbreviated h) = wk_bin w) l))) ws ->
    total ws <= Z.of_nat (length l)) as H.
  { clear. induction l as [|h l IH]; intros ws Hnd Hw.
    - clear Hnd. induction Hw as [|w ws Hw _ IHw]; [done|]. rewrite total_cons. rewrite Hw. cbn [length filter list_filter] in *. lia.
    - set (less := (fun w => mk_work (wk_bin w) (Z.of_nat (length (filter (fun h => bin_num p (abbreviated h) = wk_bin w) l)))) <$> ws).
      assert (wk_bin <$> less = wk_bin <$> ws) as Eb by (unfold less; rewrite <- list_fmap_compose; done).
      assert (total less <= Z.of_nat (length l)) as Hl.
      { apply IH; [by rewrite Eb|]. unfold less. apply Forall_fmap, Forall_forall. intros w _. done. }
      enough (total ws <= total less + 1) by (cbn [length]; lia). clear Hl Eb. unfold less. clear less.
      assert (forall ws, Forall (fun w => wk_count w = Z.of_nat (length (filter (fun h => bin_num p (abbreviated h) = wk_bin w) (h :: l)))) ws ->
        bin_num p (abbreviated h) ∉ (wk_bin <$> ws) ->
        total ws = total ((fun w => mk_work (wk_bin w) (Z.of_nat (length (filter (fun h => bin_num p (abbreviated h) = wk_bin w) l)))) <$> ws)) as Hsame.
      { clear. induction 1 as [|w ws Hw _ IHw]; intros Hn; [done|]. cbn [fmap list_fmap] in Hn |- *. apply not_elem_of_cons in Hn as [Hn1 Hn2].
        rewrite !total_cons. cbn [wk_count]. rewrite <- IHw by done. rewrite Hw, filter_cons, decide_False by done. done. }
      induction ws as [|w ws IHw]; [cbn; lia|]. apply Forall_cons in Hw as [Hw Hws]. cbn [fmap list_fmap] in Hnd |- *.
      apply NoDup_cons in Hnd as [Hni Hnd]. rewrite !total_cons. cbn [wk_count]. rewrite Hw, filter_cons.
      destruct (decide (bin_num p (abbreviated h) = wk_bin w)) as [E|E].
      + rewrite <- Hsame by (done || by rewrite E). cbn [length]. lia.
      + specialize (IHw Hnd Hws). lia. }
  apply (H hs ws Hnd). eapply Forall_impl; [exact Hc|]. intros w [Hr ->]. f_equal.
  rewrite hashes_of_count; [|intros h Hh; by apply (list_range p hs Hset Hlist)]. by rewrite Z2Nat.id by lia.
Qed.

Section Answers.
  Context (p : params) (srt : bin -> bin) (order : list work -> list work) (hs : list (list Z)) (threads : nat) (gb : Z).
  Context (Hsrt : sorts p srt) (Hord : orders_work order) (Hset : settings_ok p) (Hlist : hash_list_ok p hs).
  Context (Hvis : first_hash_visible p hs) (Hthr : (0 < threads)%nat).
  Context (Hbusy : forall wss, adaptive_plan p (Some (concat hs)) (work_budget p gb) order = Some wss -> Forall (busy threads) wss).

  Lemma partly_nothing : partly p srt hs [] (initial_files p ∅).
  Proof using.
    clear. exists (replicate (Z.to_nat (p_bins p)) []). split; [apply replicate_length|]. split.
    - rewrite fmap_replicate. change (sort_dedup srt []) with ([] : bin). apply files_hold_initial.
    - intros k b Hk. apply lookup_replicate in Hk as [-> _]. split; [|done]. intros H. by apply elem_of_nil in H.
  Qed.

  Lemma file_entries : to_entries (length (concat hs) / 32) 32 (concat hs) = hs.
  Proof using Hlist.
    clear -Hlist. assert (chunks 32 hs) as Hc by (eapply Forall_impl; [apply Hlist|]; cbn; tauto).
    rewrite (chunks_concat_length 32 hs Hc), Nat.div_mul by lia. by apply to_entries_concat.
  Qed.

  Lemma adaptive_run_result nums f : adaptive_run p srt order (concat hs) threads gb nums f ->
    exists raw, length raw = Z.to_nat (p_bins p) /\ raw_bins p hs raw /\ files_hold p f (sort_dedup srt <$> raw) /\
      nums = word_bytes (bin_room p) ((fun h => bin_num p (abbreviated h)) <$> hs).
  Proof using All.
    intros (wss & ns & Ep & Hm & ->). rewrite file_entries in Hm.
    destruct (planned p hs order gb Hset Hlist Hord) as (wss' & Ep' & Hc & Hnd & Hne & _ & Hall & _).
    assert (wss' = wss) as -> by congruence.
    destruct (passes_result p srt hs threads Hthr Hset Hlist (bins_storable p srt hs Hsrt Hset Hlist Hvis) wss true _ _ _ _ []
      Hm (Hbusy wss Ep) Hc Hnd partly_nothing Hne) as [(raw & Hl & Hf & Hraw) ->].
    exists raw. split; [done|]. split; [|split; [done|]].
    - intros k b Hk. destruct (Hraw k b Hk) as [H _]. apply H. cbn [app]. apply Hall. apply lookup_lt_Some in Hk. lia.
    - unfold word_bytes. done.
  Qed.

  Lemma adaptive_run_exists : exists nums f, adaptive_run p srt order (concat hs) threads gb nums f.
  Proof using All.
    destruct (planned p hs order gb Hset Hlist Hord) as (wss & Ep & Hc & Hnd & _).
    destruct (passes_exist p srt hs threads Hthr Hset Hlist (bins_storable p srt hs Hsrt Hset Hlist Hvis) wss true
      (initial_files p ∅) [] [] (Hbusy wss Ep) Hc Hnd partly_nothing) as (f & ns & Hm).
    exists (concat (map (le_enc (bin_room p)) ns)), f, wss, ns. rewrite file_entries. done.
  Qed.
End Answers.

(** What the opened index must answer: it counts the hashes, finds every hash at its first position, reports -1
    for every other hash, gives back every hash at its first position, refuses positions past the end. *)
Definition answers (p : params) (probe : Z -> Z -> Z -> Z -> Z -> Z) (hs : list (list Z)) (nums : list Z) (f : bin_files) (in_ram : bool) : Prop :=
  exists s, h3_open p nums f in_ram = Some s /\ h3_count s = length hs /\
    (forall h, length h = 32%nat -> bytes h -> h3_index_of p probe s h = Some (first_position h 0 hs)) /\
    (forall i h, hs !! i = Some h -> first_position h 0 hs = Z.of_nat i -> h3_get p s i = Some h) /\
    (forall i, (length hs <= i)%nat -> h3_get p s i = None).

Lemma busy_answers p probe srt order hs threads gb nums f in_ram :
  probe_ok probe -> sorts p srt -> orders_work order -> settings_ok p -> hash_list_ok p hs -> no_collisions hs -> first_hash_visible p hs ->
  (0 < threads)%nat ->
  (forall wss, adaptive_plan p (Some (concat hs)) (work_budget p gb) order = Some wss -> Forall (busy threads) wss) ->
  adaptive_run p srt order (concat hs) threads gb nums f -> answers p probe hs nums f in_ram.
Proof.
  intros Hp Hs Ho Hset Hl Hc Hv Ht Hb Hrun.
  destruct (adaptive_run_result p srt order hs threads gb Hs Ho Hset Hl Hv Ht Hb nums f Hrun) as (raw & Hlen & Hraw & Hf & ->).
  destruct (open_bins p probe srt hs Hp Hs Hset Hl Hc raw f in_ram Hlen Hraw Hf) as (s & H1 & H2 & H3 & H4 & H5).
  exists s. split; [done|]. split; [done|]. split; [done|]. split; [|done].
  intros i h Hi E. rewrite (H4 i h Hi). by rewrite decide_True.
Qed.

Lemma enough_all p srt order hs threads gb : sorts p srt -> orders_work order -> settings_ok p -> hash_list_ok p hs ->
  (forall wss, adaptive_plan p (Some (concat hs)) (work_budget p gb) order = Some wss -> Forall (enough_work threads) wss) ->
  forall wss, adaptive_plan p (Some (concat hs)) (work_budget p gb) order = Some wss -> Forall (busy threads) wss.
Proof.
  intros Hs Ho Hset Hl He wss Ep. specialize (He wss Ep).
  destruct (planned p hs order gb Hset Hl Ho) as (wss' & Ep' & Hc & Hnd & _ & _ & _ & Hsort). assert (wss' = wss) as -> by congruence.
  rewrite Forall_forall in He, Hsort. apply Forall_forall. intros ws Hws.
  destruct (elem_of_list_split _ _ Hws) as (l1 & l2 & E). rewrite E, concat_app in Hc, Hnd. cbn [concat] in Hc, Hnd.
  apply Forall_app in Hc as [_ Hc]. apply Forall_app in Hc as [Hc _].
  rewrite !fmap_app in Hnd. apply NoDup_app in Hnd as (_ & _ & Hnd). apply NoDup_app in Hnd as (Hnd & _ & _).
  pose proof (total_le p hs ws Hset Hl Hc Hnd) as Ht. destruct Hl as (Hl1 & Hl2 & Hl3).
  eapply enough_busy; [by split; [|split]|exact Hc|exact Hnd| |by apply Hsort|by apply He]. lia.
Qed.

(** C88. After an adaptive run in which every pass has at least as many non-empty bins as there are workers, in any
    number of passes and with any schedule, the opened index answers as it must.  The hypothesis on the passes is
    needed, see below; [no_collisions] and [first_hash_visible] are those of C51. *)
Theorem C88_adaptive_index_answers_partial :
  forall p probe srt order hs threads gb nums f in_ram,
    probe_ok probe -> sorts p srt -> orders_work order -> settings_ok p -> hash_list_ok p hs -> no_collisions hs -> first_hash_visible p hs ->
    (0 < threads)%nat ->
    (forall wss, adaptive_plan p (Some (concat hs)) (work_budget p gb) order = Some wss -> Forall (enough_work threads) wss) ->
    adaptive_run p srt order (concat hs) threads gb nums f -> answers p probe hs nums f in_ram.
Proof.
  intros p probe srt order hs threads gb nums f in_ram Hp Hs Ho Hset Hl Hc Hv Ht He.
  apply (busy_answers p probe srt order); try done. by eapply enough_all.
Qed.

(** C88. Such runs exist. *)
Theorem C88_adaptive_runs_exist :
  forall p srt order hs threads gb,
    sorts p srt -> orders_work order -> settings_ok p -> hash_list_ok p hs -> first_hash_visible p hs -> (0 < threads)%nat ->
    (forall wss, adaptive_plan p (Some (concat hs)) (work_budget p gb) order = Some wss -> Forall (enough_work threads) wss) ->
    exists nums f, adaptive_run p srt order (concat hs) threads gb nums f.
Proof.
  intros p srt order hs threads gb Hs Ho Hset Hl Hv Ht He. apply adaptive_run_exists; try done. by eapply enough_all.
Qed.

Lemma one_busy p order hs gb : orders_work order -> settings_ok p -> hash_list_ok p hs ->
  forall wss, adaptive_plan p (Some (concat hs)) (work_budget p gb) order = Some wss -> Forall (busy 1) wss.
Proof.
  intros Ho Hset Hl wss Ep. destruct (planned p hs order gb Hset Hl Ho) as (wss' & Ep' & _ & _ & _ & Hne & _).
  assert (wss' = wss) as -> by congruence. eapply Forall_impl; [exact Hne|]. intros ws Hws a Ha.
  destruct ws as [|w ws]; [done|]. exists w. cbn [allocate fst replicate].
  pose proof (least_loaded_lt [0] ltac:(done)) as H. cbn [length] in H.
  replace (least_loaded [0]) with a by lia. left.
Qed.

(** C88. With one worker nothing is asked of the passes: a run exists, and after every run the index answers as
    it must. *)
Theorem C88_one_worker_answers :
  forall p probe srt order hs gb in_ram,
    probe_ok probe -> sorts p srt -> orders_work order -> settings_ok p -> hash_list_ok p hs -> no_collisions hs -> first_hash_visible p hs ->
    (exists nums f, adaptive_run p srt order (concat hs) 1 gb nums f) /\
    forall nums f, adaptive_run p srt order (concat hs) 1 gb nums f -> answers p probe hs nums f in_ram.
Proof.
  intros p probe srt order hs gb in_ram Hp Hs Ho Hset Hl Hc Hv. split.
  - apply adaptive_run_exists; try done; [lia|]. by apply one_busy.
  - intros nums f Hrun. eapply (busy_answers p probe srt order hs 1 gb); try done; [lia|]. by apply one_busy.
Qed.

(** C88. With at least two workers more than hashes no run ever finishes: a pass with too few non-empty bins
    leaves a worker without a bin, and the program panics (closing a closed channel, C63). *)
Theorem C88_few_hashes_never_finish_refuted :
  forall p srt order hs threads gb nums f,
    orders_work order -> settings_ok p -> hash_list_ok p hs -> (S (length hs) < threads)%nat ->
    ~ adaptive_run p srt order (concat hs) threads gb nums f.
Proof.
  intros p srt order hs threads gb nums f Ho Hset Hl Hfew (wss & ns & Ep & Hm & _). rewrite (file_entries p hs Hl) in Hm.
  destruct (planned p hs order gb Hset Hl Ho) as (wss' & Ep' & Hc & Hnd & Hne & _ & _ & Hsort). assert (wss' = wss) as -> by congruence.
  destruct wss as [|ws wss]; [done|]. clear Hne. cbn [concat] in Hc, Hnd.
  apply Forall_app in Hc as [Hc _]. rewrite fmap_app in Hnd. apply NoDup_app in Hnd as (Hnd & _ & _).
  apply Forall_cons in Hsort as [Hsort _].
  inversion Hm as [|? ? ? ? ? al s rs outs f1 ? ? Hal Hr Hfin _ _ _ _ _]; subst.
  assert (Forall (fun w => 0 <= wk_count w) ws) as Hnn by (eapply Forall_impl; [exact Hc|]; intros w [_ ->]; lia).
  destruct (full_first ws Hnn Hsort) as (ws' & E & Hz).
  pose proof (pass_total p hs Hset Hl ws Hc Hnd) as Hlen.
  set (loads := snd (allocate (replicate threads 0) (filter full ws))).
  assert (replicate threads 0 <> []) as Hth by (destruct threads; [lia|done]).
  destruct (allocate_spec (filter full ws) (replicate threads 0) Hth) as (Hfst & _).
  destruct (idle_exists (least_loaded loads :: (snd <$> fst (allocate (replicate threads 0) (filter full ws)))) threads) as (a & Ha & Hna).
  { cbn [length]. rewrite fmap_length, <- (fmap_length fst), Hfst. lia. }
  apply not_elem_of_cons in Hna as [Hn1 Hn2].
  eapply (C63_idle_worker_never_finishes_refuted p hs true threads _ a s Ha); [|exact Hr|exact Hfin].
  intros w Hw. rewrite E, allocate_app in Hw. apply elem_of_app in Hw as [Hw|Hw].
  - apply Hn2. apply elem_of_list_fmap. by exists (w, a).
  - pose proof (allocate_empty ws' loads Hz) as He. rewrite Forall_forall in He. apply Hn1. exact (He _ Hw).
Qed.

(** ** Example *)
Fixpoint insert_work (w : work) (ws : list work) : list work :=
  match ws with [] => [w] | v :: ws' => if wk_count v <=? wk_count w then w :: ws else v :: insert_work w ws' end.
Definition order_work (ws : list work) : list work := foldr insert_work [] ws.
Lemma insert_work_perm w ws : insert_work w ws ≡ₚ w :: ws.
Proof.
  induction ws as [|v ws IH]; [done|]. cbn [insert_work]. destruct (_ <=? _); [done|]. rewrite IH. apply Permutation_swap.
Qed.
Lemma order_work_ok : orders_work order_work.
Proof.
  intros ws. unfold order_work. induction ws as [|w ws [Hp Hs]]; [split; [done|constructor]|]. cbn [foldr].
  split; [by rewrite insert_work_perm, Hp|]. clear Hp. induction Hs as [|v l Hs IH Hv]; [repeat constructor|]. cbn [insert_work].
  destruct (Z.leb_spec (wk_count v) (wk_count w)) as [Hle|Hlt].
  - constructor; [by constructor|]. constructor; [done|]. eapply Forall_impl; [exact Hv|]. cbn. lia.
  - constructor; [done|]. rewrite insert_work_perm. constructor; [lia|done].
Qed.

(** A list with a repeated hash and two workers meets the hypotheses. *)
Example C88_example :
  let hs := [ex_hash 255 1; ex_hash 0 2; ex_hash 0 2; ex_hash 9 4] in
  orders_work order_work /\ hash_list_ok ex_params hs /\ no_collisions hs /\ first_hash_visible ex_params hs /\
  (exists ws, adaptive_plan ex_params (Some (concat hs)) (work_budget ex_params 1) order_work = Some [ws] /\ enough_work 2 ws /\
     take 3 ws = [mk_work 0 2; mk_work 9 1; mk_work 255 1]).
Proof.
  cbn zeta. destruct C51_example as [_ (H1 & H2 & H3 & _)]. split; [apply order_work_ok|]. split; [done|]. split; [done|]. split; [done|].
  eexists. split; [vm_compute; reflexivity|]. split; [|vm_compute; reflexivity].
  unfold enough_work. apply Nat.leb_le. vm_compute. reflexivity.
Qed.
Print Assumptions C88_adaptive_index_answers_partial.
Print Assumptions C88_adaptive_runs_exist.
Print Assumptions C88_one_worker_answers.
Print Assumptions C88_few_hashes_never_finish_refuted.
Print Assumptions C88_example.
