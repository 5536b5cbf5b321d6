(** Property C65: appending to the hash index of indexedhashes3. *)
From Coq Require Import Sorting.Sorted.
From Verif Require Import Base Model_Word Spec_Word Proof_Word Model_Bins Spec_Bins Proof_Bins Proof_BinFiles Prop_Bins Model_Pass Spec_Pass Proof_Pass Proof_Index Proof_Plan Prop_Pass Prop_Index.

(** ** Lemmas *)
Lemma hashes_of_nodup p slot_of k start hs : NoDup (hashes_of p slot_of k start hs).
Proof.
  revert start. induction hs as [|h hs IH]; intros start; cbn [hashes_of]; [constructor|].
  case_decide; [|apply IH]. constructor; [|apply IH]. intros H1. apply hashes_of_in in H1 as (j & x & _ & _ & _ & E & _). lia.
Qed.

Lemma sorted_insert (l1 l2 : list Z) x : StronglySorted Z.le (l1 ++ l2) -> (forall y, y ∈ l1 -> y <= x) -> (forall y, y ∈ l2 -> x <= y) ->
  StronglySorted Z.le (l1 ++ x :: l2).
Proof.
  induction l1 as [|a l1 IH]; intros Hs H1 H2; cbn [app] in *.
  - constructor; [done|]. apply Forall_forall. intros y Hy. by apply H2.
  - apply StronglySorted_inv in Hs as [Hs Hf]. constructor.
    + apply IH; [done| |done]. intros y Hy. apply H1. by right.
    + apply Forall_app in Hf as [Hf1 Hf2]. apply Forall_app. split; [done|]. constructor; [|done]. apply H1. by left.
Qed.

Lemma first_position_app_l h start (l l' : list (list Z)) : h ∈ l -> first_position h start (l ++ l') = first_position h start l.
Proof.
  revert start. induction l as [|x l IH]; intros start Hin; [by apply elem_of_nil in Hin|]. cbn [app first_position].
  destruct (decide (x = h)) as [|Hx]; [done|]. apply elem_of_cons in Hin as [->|Hin]; [done|]. by apply IH.
Qed.

Section Good.
  Context (p : params) (probe : Z -> Z -> Z -> Z -> Z -> Z) (Hprobe : probe_ok probe) (Hset : settings_ok p).

  (** a store, not in memory, that holds exactly [hs] *)
  Definition good (s : hash_store3) (hs : list (list Z)) : Prop :=
    h3_ram s = None /\ hash_list_ok p hs /\ no_collisions hs /\ NoDup hs /\ first_hash_visible p hs /\
    (exists init ws, wf_inv (bin_room p) init ws (h3_nums s) /\ arr_all 0 init ws = (fun h => bin_num p (abbreviated h)) <$> hs) /\
    exists bins, files_hold p (h3_files s) bins /\ length bins = Z.to_nat (p_bins p) /\
      forall k b, bins !! k = Some b -> entries_ok p b /\ sn_sorted p b /\ contents p b ≡ₚ hashes_of p whole_slot k 0 hs.

  Section Facts.
    Context (hs : list (list Z)) (Hlist : hash_list_ok p hs) (Hcol : no_collisions hs) (Hnd : NoDup hs).
    Context (k : nat) (b : bin) (He : entries_ok p b) (Hs : sn_sorted p b) (Hc : contents p b ≡ₚ hashes_of p whole_slot k 0 hs).

    Lemma good_elem e : e ∈ b -> exists j h, hs !! j = Some h /\ bin_num p (abbreviated h) = Z.of_nat k /\
      entry_th e = truncated h /\ entry_hi p e = Z.of_nat j /\ entry_sn p e = sort_num p (abbreviated h).
    Proof using Hc Hset Hlist.
      intros Hin. assert ((entry_th e, entry_hi p e, entry_sn p e) ∈ contents p b) as H.
      { unfold contents. apply elem_of_list_fmap. by exists e. }
      rewrite Hc in H. apply hashes_of_in in H as (j & h & Hj & Hsl & H1 & H2 & H3). exists j, h.
      split; [done|]. unfold whole_slot in Hsl. injection Hsl as Hsl.
      pose proof (list_range p hs Hset Hlist h (elem_of_list_lookup_2 _ _ _ Hj)). split; [lia|]. done.
    Qed.

    Lemma elem_good j h : hs !! j = Some h -> bin_num p (abbreviated h) = Z.of_nat k ->
      exists e, e ∈ b /\ entry_th e = truncated h /\ entry_hi p e = Z.of_nat j /\ entry_sn p e = sort_num p (abbreviated h).
    Proof using Hc.
      intros Hj Hb. assert ((truncated h, Z.of_nat j, sort_num p (abbreviated h)) ∈ contents p b) as H.
      { rewrite Hc. apply hashes_of_in. exists j, h. split; [done|]. split; [|done]. unfold whole_slot. rewrite Hb. by rewrite Nat2Z.id. }
      unfold contents in H. apply elem_of_list_fmap in H as (e & [= -> -> ->] & He'). by exists e.
    Qed.

    Lemma good_searchable : searchable p b.
    Proof using He Hs Hc Hset Hlist.
      split; [apply Hset|]. split; [done|]. split; [done|].
      assert (length b <= length hs)%nat as H1.
      { transitivity (length (contents p b)); [unfold contents; by rewrite fmap_length|]. rewrite Hc. clear.
        generalize 0%nat as start. induction hs as [|h l IH]; intros start; cbn [hashes_of length]; [lia|].
        pose proof (IH (S start)). case_decide; cbn [length]; lia. }
      destruct Hlist as (_ & _ & ?). lia.
    Qed.

    (** two entries with one sort number are one *)
    Lemma good_same e e' j h j' h' : hs !! j = Some h -> hs !! j' = Some h' ->
      bin_num p (abbreviated h) = bin_num p (abbreviated h') -> sort_num p (abbreviated h) = sort_num p (abbreviated h') ->
      entry_hi p e = Z.of_nat j -> entry_hi p e' = Z.of_nat j' -> h = h' /\ j = j'.
    Proof using Hset Hlist Hcol Hnd.
      intros Hj Hj' Eb Es _ _. pose proof (elem_of_list_lookup_2 _ _ _ Hj) as Hin. pose proof (elem_of_list_lookup_2 _ _ _ Hj') as Hin'.
      destruct (elem_ok p hs Hlist h Hin), (elem_ok p hs Hlist h' Hin').
      assert (h = h') as <-.
      { apply Hcol; [done|done|]. right. by apply (parts_inj p Hset). }
      split; [done|]. by eapply NoDup_lookup.
    Qed.

    Lemma good_at_most_one sn : at_most_one p b sn.
    Proof using Hc Hset Hlist Hcol Hnd.
      intros i j e e' Hi Hj E E'.
      destruct (good_elem e (elem_of_list_lookup_2 _ _ _ Hi)) as (m & h & Hm & Hb & E1 & E2 & E3).
      destruct (good_elem e' (elem_of_list_lookup_2 _ _ _ Hj)) as (m' & h' & Hm' & Hb' & E1' & E2' & E3').
      destruct (good_same e e' m h m' h' Hm Hm') as [<- <-]; [congruence|congruence|done|done|].
      assert (NoDup (contents p b)) as Hn by (rewrite Hc; apply hashes_of_nodup).
      eapply (NoDup_lookup _ i j (entry_th e, entry_hi p e, entry_sn p e) Hn); unfold contents; rewrite list_lookup_fmap.
      - by rewrite Hi.
      - rewrite Hj. cbn. congruence.
    Qed.

    Lemma good_visible : first_hash_visible p hs -> ends_visibly p b.
    Proof using Hc Hset Hlist.
      intros Hvis e Hl Hz.
      assert (e ∈ b) as Hin.
      { apply last_Some_elem_of in Hl. rewrite <- (take_drop (p_start p) b). apply elem_of_app. by left. }
      destruct (good_elem e Hin) as (j & h & Hj & _ & E1 & E2 & E3).
      assert (forall n l, Forall (fun x => x = 0) l -> le_dec (take n l) = 0) as Hdec.
      { clear. intros n l Hl. apply (Forall_take _ n) in Hl. induction Hl as [|x l' -> _ IH]; [done|]. cbn [le_dec]. rewrite IH. done. }
      unfold is_zero_entry in Hz.
      assert (entry_hi p e = 0) as E0.
      { unfold entry_hi. rewrite Hdec; [reflexivity|]. by apply Forall_drop. }
      assert (entry_sn p e = 0) as E4.
      { unfold entry_sn. rewrite Hdec; [reflexivity|]. by apply Forall_drop. }
      assert (j = 0)%nat as -> by lia. apply (Hvis h Hj). split; [|congruence].
      rewrite <- E1. unfold entry_th. by apply Forall_take.
    Qed.

    Lemma good_index_of h : length h = 32%nat -> bytes h -> bin_num p (abbreviated h) = Z.of_nat k ->
      lookup_by_hash p probe b (truncated h) (sort_num p (abbreviated h)) = Some (first_position h 0 hs).
    Proof using All.
      intros Hl Hb Hbn. destruct (abbr_ok p Hset h Hl Hb) as (_ & Hsn & _).
      rewrite (C19_lookup_finds_lone_sort_numbers_partial p probe); [|done|apply good_searchable|lia|apply good_at_most_one].
      f_equal. destruct (decide (h ∈ hs)) as [Hin|Hin].
      - destruct (first_position_some h 0 hs Hin) as (j & -> & Hj & _). cbn [plus].
        destruct (elem_good j h Hj Hbn) as (e & Heb & E1 & E2 & E3). rewrite <- E2.
        apply elem_of_list_lookup in Heb as [q Hq]. eapply first_index_unique; [apply good_at_most_one|done|done|done].
      - rewrite (first_position_none _ _ _ Hin). apply first_index_none. intros (e & Heb & E1 & E3).
        destruct (good_elem e Heb) as (j & h' & Hj & Hb' & G1 & G2 & G3).
        pose proof (elem_of_list_lookup_2 _ _ _ Hj) as Hin'. destruct (elem_ok p hs Hlist h' Hin') as [Hl' Hby'].
        assert (h' = h) as ->; [|done].
        rewrite <- (rebuild_parts h' Hl' Hby'), <- (rebuild_parts h Hl Hb).
        rewrite (parts_inj p Hset h' h) by (done || congruence). congruence.
    Qed.

    Lemma good_get i h : hs !! i = Some h -> bin_num p (abbreviated h) = Z.of_nat k ->
      lookup_by_index p b (Z.of_nat i) (Z.of_nat k) = h.
    Proof using All.
      intros Hi Hbn. destruct (elem_ok p hs Hlist h (elem_of_list_lookup_2 _ _ _ Hi)) as [Hl Hb].
      destruct (elem_good i h Hi Hbn) as (e & Heb & E1 & E2 & E3).
      destruct (lookup_by_index_present p b (Z.of_nat i) (Z.of_nat k) e Heb E2) as (x & Hx & X2 & ->).
      destruct (good_elem x Hx) as (jx & hx & Hjx & Hbx & X1 & X2' & X3).
      assert (jx = i) as -> by lia. rewrite Hi in Hjx. injection Hjx as <-. rewrite X1, X3, <- Hbx.
      destruct (abbr_ok p Hset h Hl Hb) as (_ & _ & ->). by apply rebuild_parts.
    Qed.
  End Facts.

  Lemma good_load s bins bn : files_hold p (h3_files s) bins -> length bins = Z.to_nat (p_bins p) -> 0 <= bn < p_bins p ->
    exists b, bins !! Z.to_nat bn = Some b /\ load_bin p (h3_files s) bn = Some b.
  Proof using Hset.
    intros Hf Hlen Hbn. pose proof (set_bins p Hset) as Hbins.
    destruct (lookup_lt_is_Some_2 bins (Z.to_nat bn)) as [b Hb]; [lia|]. exists b. split; [done|].
    pose proof (files_hold_load p (h3_files s) bins (Z.to_nat bn) b ltac:(apply Hset) ltac:(lia) Hf Hb) as H.
    by rewrite Z2Nat.id in H by lia.
  Qed.

  (** ** Answers of a good store *)
  Lemma good_answers s hs : good s hs ->
    h3_count s = length hs /\
    (forall h, length h = 32%nat -> bytes h -> h3_index_of p probe s h = Some (first_position h 0 hs)) /\
    (forall i, h3_get p s i = hs !! i).
  Proof using Hprobe Hset.
    intros (Hram & Hl & Hc & Hnd & Hv & (init & ws & Hinv & Hall) & bins & Hf & Hlen & Hbins).
    pose proof (set_bins p Hset) as Hb2. destruct (bin_room_ok p Hb2) as [Hroom1 Hroom2].
    split; [|split].
    - unfold h3_count. destruct Hinv as (_ & _ & -> & _). rewrite <- (arr_all_length 0), Hall. apply fmap_length.
    - intros h Hlh Hby. destruct (abbr_ok p Hset h Hlh Hby) as (Hbn & _ & _).
      destruct (good_load s bins _ Hf Hlen Hbn) as (b & Hbk & Hlb). destruct (Hbins _ _ Hbk) as (He & Hso & Hco).
      unfold h3_index_of. rewrite Hram, Hlb. cbn [mbind option_bind].
      eapply good_index_of; [done|done|done|exact He|done|exact Hco|done|done|lia].
    - intros i. unfold h3_get. pose proof (wf_read_inv (bin_room p) init ws (h3_nums s) i ltac:(lia) Hinv) as [_ Hr].
      rewrite <- arr_all_lookup, Hall, list_lookup_fmap in Hr. destruct (wf_read (h3_nums s) i) as [wf' r]. cbn [snd] in Hr. subst r.
      destruct (hs !! i) as [h|] eqn:Hi; cbn [fmap option_fmap option_map]; [|done].
      pose proof (list_range p hs Hset Hl h (elem_of_list_lookup_2 _ _ _ Hi)) as Hbn.
      destruct (good_load s bins _ Hf Hlen Hbn) as (b & Hbk & Hlb). destruct (Hbins _ _ Hbk) as (He & Hso & Hco).
      rewrite Hlb. cbn [mbind option_bind]. f_equal. rewrite <- (Z2Nat.id (bin_num p (abbreviated h))) by lia.
      eapply good_get; [done|done|done|exact He|done|exact Hco|done|lia].
  Qed.

  (** ** Appending *)
  Lemma insert_spec b th hi sn : searchable p b -> sizes_ok p -> 0 <= hi < 2 ^ 63 -> 0 <= sn < 2 ^ 64 ->
    hi < pow256 (hash_bytes p) -> sn < pow256 (p_snb p) -> length th = 24%nat -> bytes th ->
    (forall e, e ∈ b -> entry_sn p e <> sn) ->
    exists b', insert_entry p probe b sn hi th = Some b' /\ (length b <= length b')%nat /\ entries_ok p b' /\ sn_sorted p b' /\
      contents p b' ≡ₚ contents p b ++ [(th, hi, sn)].
  Proof using Hprobe.
    intros Hsea Hsz H1 H2 H3 H4 H5 H6 Hno. pose proof (searchable_range p b Hsea) as Hrg. destruct Hsea as (S1 & S2 & S3 & S4).
    unfold insert_entry. rewrite (entry_enc_some p th hi sn) by done. cbn [mbind option_bind].
    destruct (entry_fields p th hi sn) as (F1 & F2 & F3 & F4); try done. cbn zeta in F1, F2, F3, F4.
    set (e := th ++ le_enc (hash_bytes p) hi ++ le_enc (p_snb p) sn) in *.
    destruct (find_index_spec p probe b Hprobe S3 S4 Hrg sn ltac:(lia)) as (i & -> & Hi & Hge & Hor). cbn [mbind option_bind].
    destruct (Z.ltb_spec (Z.of_nat (length b)) i); [lia|].
    exists (take (Z.to_nat i) b ++ e :: drop (Z.to_nat i) b). split; [done|]. split; [|split; [|split]].
    - rewrite app_length. cbn [length]. rewrite take_length, drop_length. lia.
    - unfold entries_ok in *. apply Forall_app. split; [by apply Forall_take|]. constructor; [|by apply Forall_drop].
      split; [done|]. unfold e, bytes. repeat (apply Forall_app; split); [done|apply le_enc_bytes..].
    - unfold sn_sorted in *. rewrite fmap_app, fmap_cons. apply sorted_insert.
      + rewrite <- fmap_app, take_drop. done.
      + intros y Hy. apply elem_of_list_fmap in Hy as (x & -> & Hx). rewrite F4.
        apply elem_of_take in Hx as (j & Hj & Hji). 
        assert (sn_at p b (Z.of_nat j) = Some (entry_sn p x)) as Ha.
        { unfold sn_at. destruct (Z.ltb_spec (Z.of_nat j) 0); [lia|]. by rewrite Nat2Z.id, Hj. }
        destruct Hor as [Hlt|Heq].
        * pose proof (Hlt (Z.of_nat j) _ ltac:(lia) Ha). lia.
        * exfalso. unfold sn_at in Heq. destruct (i <? 0); [done|]. apply fmap_Some_1 in Heq as (y & Hy & E).
          apply (Hno y); [by eapply elem_of_list_lookup_2|done].
      + intros y Hy. apply elem_of_list_fmap in Hy as (x & -> & Hx). rewrite F4.
        apply elem_of_list_lookup in Hx as [j Hj]. rewrite lookup_drop in Hj.
        apply (Hge (i + Z.of_nat j)); [lia|]. unfold sn_at. destruct (Z.ltb_spec (i + Z.of_nat j) 0); [lia|].
        replace (Z.to_nat (i + Z.of_nat j)) with (Z.to_nat i + j)%nat by lia. by rewrite Hj.
    - unfold contents. rewrite fmap_app, fmap_cons, F2, F3, F4. rewrite <- (take_drop (Z.to_nat i) b) at 3. rewrite fmap_app.
      rewrite <- app_assoc. f_equiv. rewrite <- Permutation_cons_append. done.
  Qed.

  Lemma good_append s hs h : good s hs -> hash_list_ok p (hs ++ [h]) -> no_collisions (hs ++ [h]) -> h ∉ hs ->
    first_hash_visible p (hs ++ [h]) ->
    exists s', h3_append p probe s h = (s', Some (length hs)) /\ good s' (hs ++ [h]).
  Proof using Hprobe Hset.
    intros Hg Hl' Hc' Hnew Hv'.
    destruct (good_answers s hs Hg) as (Hcount & _ & _).
    destruct Hg as (Hram & Hl & Hc & Hnd & Hv & (init & ws & Hinv & Hall) & bins & Hf & Hlen & Hbins).
    pose proof (set_bins p Hset) as Hb2. destruct (bin_room_ok p Hb2) as [Hroom1 Hroom2].
    assert (length h = 32%nat /\ bytes h) as [Hlh Hby].
    { destruct Hl' as (Hf' & _). apply Forall_app in Hf' as [_ Hf']. by apply Forall_cons in Hf' as [? _]. }
    destruct (abbr_ok p Hset h Hlh Hby) as (Hbn & Hsn & _).
    destruct (good_load s bins _ Hf Hlen Hbn) as (b & Hbk & Hlb). destruct (Hbins _ _ Hbk) as (He & Hso & Hco).
    set (k := Z.to_nat (bin_num p (abbreviated h))) in *.
    assert (bin_num p (abbreviated h) = Z.of_nat k) as Ek by lia.
    assert (forall e, e ∈ b -> entry_sn p e <> sort_num p (abbreviated h)) as Hfresh.
    { intros e Hin E. destruct (good_elem hs Hl k b Hco e Hin) as (j & h' & Hj & Hb' & E1 & E2 & E3).
      pose proof (elem_of_list_lookup_2 _ _ _ Hj) as Hin'. destruct (elem_ok p hs Hl h' Hin') as [Hl2 Hb3].
      assert (h' = h) as ->; [|done].
      apply Hc'; [apply elem_of_app; by left|apply elem_of_app; right; by left|]. right. apply (parts_inj p Hset); congruence || done. }
    destruct Hl' as (Hl1 & Hl2 & Hl3). rewrite app_length in Hl2, Hl3. cbn [length] in Hl2, Hl3.
    assert (pow256 (p_snb p) <= 2 ^ 64) as Hle by (rewrite <- pow256_8; apply pow256_le, Hset).
    destruct (insert_spec b (truncated h) (Z.of_nat (length hs)) (sort_num p (abbreviated h))) as (b' & Hins & Hlen' & He' & Hso' & Hco').
    { by eapply good_searchable. }
    { split; apply Hset. }
    { lia. }
    { lia. }
    { lia. }
    { lia. }
    { unfold truncated. rewrite take_length, drop_length. lia. }
    { unfold truncated. by apply Forall_take, Forall_drop. }
    { done. }
    set (bins' := <[k := b']> bins).
    assert (forall j x, bins' !! j = Some x -> entries_ok p x /\ sn_sorted p x /\ contents p x ≡ₚ hashes_of p whole_slot j 0 (hs ++ [h])) as Hbins'.
    { intros j x Hj. rewrite hashes_of_app. cbn [hashes_of plus]. unfold whole_slot at 2. fold k.
      unfold bins' in Hj. apply list_lookup_insert_Some in Hj as [(E & E' & _)|(Hne & Hj)].
      - subst j x. split; [done|]. split; [done|]. rewrite Hco', Hco. rewrite decide_True by done. done.
      - destruct (Hbins _ _ Hj) as (J1 & J2 & J3). split; [done|]. split; [done|]. rewrite decide_False by (intros [= E]; by apply Hne). by rewrite app_nil_r. }
    assert (hash_list_ok p (hs ++ [h])) as Hl'.
    { split; [done|]. rewrite app_length. cbn [length]. split; lia. }
    destruct (files_hold_save p (h3_files s) bins k b b') as (f' & Hsave & Hf').
    { apply Hset. }
    { lia. }
    { done. }
    { done. }
    { done. }
    { assert (bins' !! k = Some b') as Hk by (apply list_lookup_insert; by eapply lookup_lt_Some).
      destruct (Hbins' _ _ Hk) as (J1 & J2 & J3). split; [done|]. by eapply good_visible. }
    rewrite <- Ek in Hsave.
    exists (mk_hs3 (wf_write (h3_nums s) (bin_num p (abbreviated h)) (wf_count (h3_nums s))) f' None). split.
    - unfold h3_append. rewrite Hram, Hlb. cbn [mbind option_bind]. unfold h3_count in Hcount. rewrite Hcount, Hins. cbn [mbind option_bind].
      rewrite Hsave. done.
    - split; [done|]. split; [done|]. split; [done|]. split.
      { apply NoDup_app. split; [done|]. split; [|apply NoDup_singleton]. intros x Hx Hx'. apply elem_of_list_singleton in Hx' as ->. done. }
      split; [done|]. cbn [h3_nums h3_files]. split.
      + exists init, ((arr_count init ws, bin_num p (abbreviated h)) :: ws). split.
        * destruct Hinv as (I1 & I2 & I3 & I4). rewrite I3. apply wf_write_inv; [lia| |done].
          unfold fits. rewrite decide_False by lia. lia.
        * rewrite arr_all_append, Hall, fmap_app. done.
      + exists bins'. split; [done|]. split; [unfold bins'; by rewrite insert_length|done].
  Qed.

  (** a preloaded store without repeated hashes is good *)
  Lemma good_preloaded srt hs threads bytes_per_pass nums f : sorts p srt -> hash_list_ok p hs -> no_collisions hs -> NoDup hs ->
    first_hash_visible p hs -> (0 < threads)%nat -> 0 <= bytes_per_pass -> preload p srt hs threads bytes_per_pass nums f ->
    exists s, h3_open p nums f false = Some s /\ good s hs.
  Proof using Hset.
    intros Hsrt Hl Hc Hnd Hv Ht Hb Hpre.
    destruct (preload_result p srt hs Hsrt Hset Hl Hv threads bytes_per_pass nums f Ht Hb Hpre) as (raw & Hlen & Hraw & Hf & ->).
    set (ns := (fun h => bin_num p (abbreviated h)) <$> hs).
    pose proof (set_bins p Hset) as Hb2. destruct (bin_room_ok p Hb2) as [Hroom1 Hroom2].
    assert (Forall (fits (bin_room p)) ns) as Hfits.
    { apply Forall_fmap, Forall_forall. intros h Hh. pose proof (list_range p hs Hset Hl h Hh). cbn. unfold fits.
      rewrite decide_False by lia. lia. }
    eexists. split; [unfold h3_open; rewrite wf_open_words by lia; cbn [mbind option_bind]; reflexivity|].
    split; [done|]. split; [done|]. split; [done|]. split; [done|]. split; [done|]. cbn [h3_nums h3_files]. split.
    - exists ns, []. split; [apply wf_new_inv; [lia|done]|]. by rewrite arr_all_nil.
    - exists (sort_dedup srt <$> raw). split; [done|]. split; [by rewrite fmap_length|].
      intros k b Hk. apply list_lookup_fmap_Some in Hk as (r & Hr & ->). destruct (Hraw _ _ Hr) as [He Hco].
      split; [by eapply sorted_ok|]. split; [apply entry_le_sn_sorted; by apply (sort_dedup_facts p srt r Hsrt)|].
      rewrite <- Hco. unfold contents.
      enough (sort_dedup srt r ≡ₚ r) as -> by done.
      (* nothing is removed: all truncated hashes differ *)
      assert (NoDup (entry_th <$> r)) as Hn.
      { apply NoDup_alt. intros i j x Hi Hj. apply list_lookup_fmap_Some in Hi as (e & Hi & Ex), Hj as (e' & Hj & Ex').
        assert (contents p r ≡ₚ hashes_of p whole_slot k 0 hs) as Hco' by (by rewrite Hco).
        destruct (good_elem hs Hl k r Hco' e (elem_of_list_lookup_2 _ _ _ Hi)) as (m & h & Hm & Hb1 & E1 & E2 & E3).
        destruct (good_elem hs Hl k r Hco' e' (elem_of_list_lookup_2 _ _ _ Hj)) as (m' & h' & Hm' & Hb' & E1' & E2' & E3').
        assert (h = h') as <-.
        { apply Hc; [by eapply elem_of_list_lookup_2..|]. left. congruence. }
        assert (m = m') as <- by (by eapply NoDup_lookup).
        assert (NoDup (contents p r)) as Hnc by (rewrite Hco; apply hashes_of_nodup).
        eapply (NoDup_lookup _ i j (entry_th e, entry_hi p e, entry_sn p e) Hnc); unfold contents; rewrite list_lookup_fmap.
        - by rewrite Hi.
        - rewrite Hj. cbn. congruence. }
      destruct (sort_dedup_perm p srt r Hsrt) as (l & Hp & _ & ->). rewrite <- Hp. 
      assert (NoDup (entry_th <$> l)) as Hn' by (by rewrite Hp). clear -Hn'.
      destruct l as [|e l]; [done|]. f_equiv. rewrite fmap_cons in Hn'. 
      enough (forall lst, lst ∉ (entry_th <$> l) -> NoDup (entry_th <$> l) -> dedup_from lst l = l) as ->.
      { done. }
      { by apply NoDup_cons in Hn' as [? _]. }
      { by apply NoDup_cons in Hn' as [_ ?]. }
      clear. induction l as [|x l IH]; intros lst Hni Hnd; [done|]. rewrite fmap_cons in *. apply NoDup_cons in Hnd as [H1 H2].
      apply not_elem_of_cons in Hni as [H3 H4]. cbn [dedup_from]. rewrite decide_False by congruence. f_equal. by apply IH.
  Qed.
End Good.

(** ** C65 *)

(** Appending one hash after another. *)
Fixpoint append_all (p : params) (probe : Z -> Z -> Z -> Z -> Z -> Z) (s : hash_store3) (hs : list (list Z)) : hash_store3 * list (option nat) :=
  match hs with
  | [] => (s, [])
  | h :: hs' => let r := h3_append p probe s h in let q := append_all p probe (fst r) hs' in (fst q, snd r :: snd q)
  end.

(** C65. Appending new hashes to a preloaded index: each append returns the next index, and afterwards all answers
    are right for the preloaded and the appended hashes together. *)
Theorem C65_appends_to_a_preloaded_index_partial :
  forall p probe srt hs new threads bytes_per_pass nums f,
    probe_ok probe -> sorts p srt -> settings_ok p -> hash_list_ok p (hs ++ new) -> no_collisions (hs ++ new) -> NoDup (hs ++ new) ->
    first_hash_visible p hs -> first_hash_visible p (hs ++ new) ->
    (0 < threads)%nat -> 0 <= bytes_per_pass -> preload p srt hs threads bytes_per_pass nums f ->
    exists s, h3_open p nums f false = Some s /\
      snd (append_all p probe s new) = (fun i => Some (length hs + i)%nat) <$> seq 0 (length new) /\
      let s' := fst (append_all p probe s new) in
      h3_count s' = length (hs ++ new) /\
      (forall h, length h = 32%nat -> bytes h -> h3_index_of p probe s' h = Some (first_position h 0 (hs ++ new))) /\
      (forall i, h3_get p s' i = (hs ++ new) !! i).
Proof.
  intros p probe srt hs new threads bpp nums f Hp Hs Hset Hl Hc Hnd Hv Hv' Ht Hb Hpre.
  assert (forall l l', hash_list_ok p (l ++ l') -> hash_list_ok p l) as Lok.
  { intros l l' (A & B & C). rewrite app_length in B, C. apply Forall_app in A as [A _]. split; [done|]. split; lia. }
  assert (forall l l', no_collisions (l ++ l') -> no_collisions l) as Lcol.
  { intros l l' H x y Hx Hy. apply H; apply elem_of_app; by left. }
  destruct (good_preloaded p Hset srt hs threads bpp nums f) as (s & Hs1 & Hg); try done.
  { by eapply Lok. }
  { by eapply Lcol. }
  { by apply NoDup_app in Hnd as [? _]. }
  exists s. split; [done|]. clear Hpre Hs1 f nums. revert hs s Hl Hc Hnd Hv Hv' Hg.
  induction new as [|h new IH]; intros hs s Hl Hc Hnd Hv Hv' Hg.
  - split; [done|]. cbn [append_all fst]. rewrite app_nil_r. by apply good_answers.
  - assert (first_hash_visible p (hs ++ [h])) as Hv1.
    { intros x Hx. apply Hv'. destruct hs; cbn in Hx |- *; done. }
    assert (h ∉ hs) as Hnew.
    { apply NoDup_app in Hnd as (_ & Hd & _). intros Hin. apply (Hd h Hin). by left. }
    replace (hs ++ h :: new) with ((hs ++ [h]) ++ new) in * by (by rewrite <- app_assoc).
    destruct (good_append p probe Hp Hset s hs h Hg) as (s' & Happ & Hg'); [by eapply Lok|by eapply Lcol|done|done|].
    cbn [append_all]. rewrite Happ. cbn [fst snd].
    destruct (IH (hs ++ [h]) s' Hl Hc Hnd Hv1 Hv' Hg') as (E & Hrest). split; [|done].
    rewrite E. cbn [length seq]. rewrite fmap_cons. f_equal; [f_equal; lia|].
    rewrite app_length. cbn [length]. change (seq 1 (length new)) with (seq (S 0) (length new)). rewrite <- fmap_S_seq, <- list_fmap_compose.
    apply list_fmap_ext. intros _ i _. cbn. f_equal. lia.
Qed.

(** C65. A freshly created index (CreateHashStore) takes no hash outside bin 0: the append fails, but the count
    has gone up. *)
Theorem C65_created_index_refuses_most_hashes_refuted :
  forall p probe h, settings_ok p -> (0 < p_start p)%nat -> length h = 32%nat -> bytes h -> 0 < bin_num p (abbreviated h) ->
    exists s s', h3_open p (fst (h3_create p)) (snd (h3_create p)) false = Some s /\ h3_count s = 0%nat /\
      h3_append p probe s h = (s', None) /\ h3_count s' = 1%nat /\ h3_index_of p probe s' h = None.
Proof.
  intros p probe h Hset Hst Hl Hb Hpos. pose proof (set_bins p Hset) as Hb2. destruct (bin_room_ok p Hb2) as [_ Hroom2].
  set (bn := bin_num p (abbreviated h)) in *.
  assert (load_bin p (snd (h3_create p)) bn = None) as Hload.
  { unfold load_bin. destruct (Z.ltb_spec bn 0); [lia|]. unfold h3_create. cbn [snd f_starts]. unfold file_read.
    rewrite replicate_length. pose proof (entry_bytes_pos p). rewrite decide_False; [done|]. 
    assert (1 <= Z.to_nat bn)%nat by lia. nia. }
  pose proof (wf_open_words (bin_room p) [] ltac:(lia)) as Hopen.
  set (s := mk_hs3 (wf_new [] (bin_room p) 0) (snd (h3_create p)) None).
  assert (h3_append p probe s h = (mk_hs3 (wf_write (h3_nums s) bn (wf_count (h3_nums s))) (h3_files s) None, None)) as Happ.
  { unfold h3_append. fold bn. unfold s. cbn [h3_ram h3_nums h3_files]. rewrite Hload. reflexivity. }
  eexists s, _. split; [unfold h3_open; exact (f_equal (fun o => wf ← o; Some (mk_hs3 wf (snd (h3_create p)) None)) Hopen)|].
  split; [reflexivity|]. split; [exact Happ|]. split; [reflexivity|].
  unfold h3_index_of, s. cbn [h3_ram h3_files]. fold bn. by rewrite Hload.
Qed.

Lemma ex_append_no_collisions : no_collisions [ex_hash 255 1; ex_hash 0 2; ex_hash 9 4].
Proof.
  intros h h' Hh Hh' [E|E];
    repeat (apply elem_of_cons in Hh as [->|Hh] || (apply elem_of_nil in Hh; destruct Hh));
    repeat (apply elem_of_cons in Hh' as [->|Hh'] || (apply elem_of_nil in Hh'; destruct Hh')); try reflexivity;
    exfalso; revert E; vm_compute; discriminate.
Qed.

Example C65_example :
  settings_ok ex_params /\ (0 < p_start ex_params)%nat /\
  hash_list_ok ex_params ([ex_hash 255 1; ex_hash 0 2] ++ [ex_hash 9 4]) /\ no_collisions ([ex_hash 255 1; ex_hash 0 2] ++ [ex_hash 9 4]) /\
  NoDup ([ex_hash 255 1; ex_hash 0 2] ++ [ex_hash 9 4]) /\
  first_hash_visible ex_params [ex_hash 255 1; ex_hash 0 2] /\ first_hash_visible ex_params ([ex_hash 255 1; ex_hash 0 2] ++ [ex_hash 9 4]) /\
  0 < bin_num ex_params (abbreviated (ex_hash 9 4)).
Proof.
  cbn [app]. split; [apply ex_settings_ok|]. split; [vm_compute; lia|]. split; [|split; [apply ex_append_no_collisions|]].
  - split; [|split; vm_compute; congruence]. rewrite !Forall_cons. repeat split; try apply ex_hash_ok; lia || constructor.
  - split; [|split; [|split]].
    + apply NoDup_ListNoDup. repeat constructor; cbn [In]; vm_compute; intuition discriminate.
    + intros h [= <-] [H _]. vm_compute in H. rewrite !Forall_cons in H. intuition discriminate.
    + intros h [= <-] [H _]. vm_compute in H. rewrite !Forall_cons in H. intuition discriminate.
    + vm_compute. reflexivity.
Qed.

Print Assumptions C65_appends_to_a_preloaded_index_partial.
Print Assumptions C65_created_index_refuses_most_hashes_refuted.
