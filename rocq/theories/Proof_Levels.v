(** Reading the level files back: what append wrote, in the order it was written. *)
From Verif Require Import Base Model_Levels.

(** ** What the files hold *)

Definition lv_data (k : lchunk) (l : nat) : list Z := match lc_levels k !! l with Some lv => fst lv ++ snd lv | None => [] end.
Definition level_data (ks : list lchunk) (l : nat) : list Z := concat (map (fun k => lv_data k l) ks).
Definition depth (ks : list lchunk) : nat := max_list (map (fun k => length (lc_levels k)) ks).

Lemma level_data_app ks ks' l : level_data (ks ++ ks') l = level_data ks l ++ level_data ks' l.
Proof. unfold level_data. rewrite map_app. apply concat_app. Qed.

Lemma depth_app ks ks' : depth (ks ++ ks') = max (depth ks) (depth ks').
Proof.
  unfold depth. induction ks as [|k ks IH]; cbn [map app max_list fold_right]; [lia|].
  change (foldr Nat.max 0%nat (map (fun k => length (lc_levels k)) (ks ++ ks'))) with (max_list (map (fun k => length (lc_levels k)) (ks ++ ks'))).
  rewrite IH. lia.
Qed.
Lemma depth_one k : depth [k] = length (lc_levels k).
Proof. unfold depth. cbn. lia. Qed.
Lemma depth_in ks k : k ∈ ks -> (length (lc_levels k) <= depth ks)%nat.
Proof.
  intros Hk. apply elem_of_list_split in Hk as (a & b & ->). rewrite depth_app.
  change (k :: b) with ([k] ++ b). rewrite depth_app, depth_one. lia.
Qed.

(** what append leaves in the level files *)
Lemma append_levels_lookup w lvs : forall l fs,
  (forall i j, (i < 65)%nat -> (j < 65)%nat -> w i = w j -> i = j) -> (l + length lvs <= 65)%nat ->
  forall i, (i < 65)%nat ->
  append_levels w l lvs fs !! w i =
    match (if decide (l <= i)%nat then lvs !! (i - l)%nat else None) with
    | Some lv => Some (default [] (fs !! w i) ++ fst lv ++ snd lv)
    | None => fs !! w i
    end.
Proof.
  induction lvs as [|lv lvs IH]; intros l fs Hw Hlen i Hi.
  - cbn. by destruct (decide _).
  - cbn [append_levels]. cbn [length] in Hlen. rewrite IH by (done || lia).
    destruct (decide (S l <= i)%nat) as [H1|H1].
    + rewrite decide_True by lia. replace (i - l)%nat with (S (i - S l)) by lia. cbn [lookup list_lookup].
      rewrite lookup_insert_ne; [done|]. intros E. apply Hw in E; lia.
    + destruct (decide (l <= i)%nat) as [H2|H2].
      * assert (i = l) by lia. subst i. rewrite Nat.sub_diag, lookup_insert. done.
      * rewrite lookup_insert_ne; [done|]. intros E. apply Hw in E; lia.
Qed.

Lemma append_levels_other w lvs : forall l fs n, (forall i, (l <= i < l + length lvs)%nat -> w i <> n) ->
  append_levels w l lvs fs !! n = fs !! n.
Proof.
  induction lvs as [|lv lvs IH]; intros l fs n Hn; [done|]. cbn [append_levels]. rewrite IH.
  - apply lookup_insert_ne. apply Hn. cbn [length]. lia.
  - intros i Hi. apply Hn. cbn [length]. lia.
Qed.

Definition inj65 (w : nat -> fname) := forall i j, (i < 65)%nat -> (j < 65)%nat -> w i = w j -> i = j.

Lemma append_chunks_level w ks : inj65 w -> (depth ks <= 65)%nat -> forall i, (i < 65)%nat ->
  lf_level (append_chunks w lf_empty ks) !! w i = if decide (i < depth ks)%nat then Some (level_data ks i) else None.
Proof.
  intros Hw. induction ks as [|k ks IH] using rev_ind; intros Hd i Hi; [by cbn; rewrite lookup_empty|].
  rewrite depth_app, depth_one in Hd. unfold append_chunks. rewrite foldl_app. cbn [foldl append_chunk lf_level].
  fold (append_chunks w lf_empty ks).
  rewrite (append_levels_lookup w) by (done || lia). rewrite decide_True by lia. rewrite Nat.sub_0_r.
  rewrite IH by lia. rewrite depth_app, depth_one, level_data_app.
  assert (E : level_data [k] i = lv_data k i) by (unfold level_data; cbn [map concat]; apply app_nil_r).
  rewrite E. unfold lv_data.
  destruct (lc_levels k !! i) as [lv|] eqn:El.
  - pose proof (lookup_lt_Some _ _ _ El) as H. rewrite (decide_True (P := (i < depth ks `max` _)%nat)) by lia.
    destruct (decide (i < depth ks)%nat) as [H1|H1]; cbn [default from_option]; unfold Datatypes.id; [done|].
    f_equal. replace (level_data ks i) with (@nil Z); [done|].
    symmetry. unfold level_data. apply concat_nil_Forall. apply Forall_map, Forall_forall. intros k' Hk'. unfold lv_data.
    rewrite lookup_ge_None_2; [done|]. pose proof (depth_in ks k' Hk'). lia.
  - apply lookup_ge_None_1 in El. destruct (decide (i < depth ks)%nat) as [H1|H1].
    + rewrite decide_True by lia. rewrite app_nil_r. done.
    + rewrite decide_False by lia. done.
Qed.

Lemma append_chunks_other w ks n : (forall i, (i < depth ks)%nat -> w i <> n) ->
  lf_level (append_chunks w lf_empty ks) !! n = None.
Proof.
  induction ks as [|k ks IH] using rev_ind; intros Hn; [by cbn; rewrite lookup_empty|].
  rewrite depth_app, depth_one in Hn. unfold append_chunks. rewrite foldl_app. cbn [foldl append_chunk lf_level].
  fold (append_chunks w lf_empty ks). rewrite append_levels_other; [apply IH|]; intros i Hi; apply Hn; lia.
Qed.

Lemma append_chunks_info w ks : lf_info (append_chunks w lf_empty ks) = concat (map info_entry ks).
Proof.
  induction ks as [|k ks IH] using rev_ind; [done|]. unfold append_chunks. rewrite foldl_app. cbn [foldl append_chunk lf_info].
  fold (append_chunks w lf_empty ks). rewrite IH, map_app, concat_app. cbn [map concat]. rewrite app_nil_r. done.
Qed.

(** ** Mapping the level files *)

Lemma mmap_levels_all r lead fs (d : nat -> list Z) : forall n l m,
  (m <= n)%nat -> (forall i, (i < m)%nat -> fs !! r (l + i)%nat = Some (d (l + i)%nat)) ->
  (m < n -> fs !! r (l + m)%nat = None)%nat -> (0 < m)%nat ->
  mmap_levels r lead fs l n = map d (seq l m).
Proof.
  assert (F : forall n l m, (m <= n)%nat -> (forall i, (i < m)%nat -> fs !! r (l + i)%nat = Some (d (l + i)%nat)) ->
    (m < n -> fs !! r (l + m)%nat = None)%nat -> mmap_levels r false fs l n = map d (seq l m)).
  { induction n as [|n IH]; intros l m Hm Hi Hn.
    - assert (m = 0)%nat by lia. by subst m.
    - cbn [mmap_levels]. destruct m as [|m].
      + rewrite Nat.add_0_r in Hn. rewrite Hn by lia. done.
      + pose proof (Hi 0%nat ltac:(lia)) as H0. rewrite Nat.add_0_r in H0. rewrite H0. cbn [seq map]. f_equal. apply IH; [lia| |].
        * intros i Hi'. replace (S l + i)%nat with (l + S i)%nat by lia. apply Hi. lia.
        * intros H. replace (S l + m)%nat with (l + S m)%nat by lia. apply Hn. lia. }
  intros n l m Hm Hi Hn Hp. destruct lead; [|by apply F].
  destruct n as [|n]; [lia|]. destruct m as [|m]; [lia|]. cbn [mmap_levels].
  pose proof (Hi 0%nat ltac:(lia)) as H0. rewrite Nat.add_0_r in H0. rewrite H0. cbn [seq map]. f_equal. apply F; [lia| |].
  - intros i Hi'. replace (S l + i)%nat with (l + S i)%nat by lia. apply Hi. lia.
  - intros H. replace (S l + m)%nat with (l + S m)%nat by lia. apply Hn. lia.
Qed.

(** ** Reading *)

Lemma slice_mid (a b c : list Z) : slice (a ++ b ++ c) (length a) (length b) = Some b.
Proof.
  unfold slice, file_read. rewrite decide_True by (rewrite !app_length; lia).
  rewrite drop_app_alt by done. rewrite take_app_alt by done. done.
Qed.
Lemma slice_mid_eq f (a b c : list Z) off n : f = a ++ b ++ c -> off = length a -> n = length b -> slice f off n = Some b.
Proof. intros -> -> ->. apply slice_mid. Qed.

Definition sized (k : lchunk) : Prop :=
  0 <= lc_first k < 2^63 /\
  Forall (fun lv => Z.of_nat (length (fst lv)) < 2^64 /\ Z.of_nat (length (snd lv)) < 2^64) (lc_levels k).

Lemma le8_nat n : Z.of_nat n < 2^64 -> Z.to_nat (le_dec (le_enc 8 (Z.of_nat n))) = n.
Proof. intros H. rewrite le_dec_enc_small; [lia|]. change (pow256 8) with (2^64). lia. Qed.

Lemma info_sizes_length lv : length (info_sizes lv) = 16%nat.
Proof. unfold info_sizes. rewrite app_length, !le_enc_length. done. Qed.
Lemma info_sizes_concat_length lvs : length (concat (map info_sizes lvs)) = (16 * length lvs)%nat.
Proof. induction lvs as [|lv lvs IH]; [done|]. cbn [map concat length]. rewrite app_length, IH, info_sizes_length. lia. Qed.

Lemma read_levels_ok maps info lvs : forall pre post l acc,
  info = pre ++ concat (map info_sizes lvs) ++ post ->
  Forall (fun lv : list Z * list Z => Z.of_nat (length (fst lv)) < 2^64 /\ Z.of_nat (length (snd lv)) < 2^64) lvs ->
  (forall j lv, lvs !! j = Some lv -> exists a z, maps !! (l + j)%nat = Some (a ++ fst lv ++ snd lv ++ z) /\ acc !! (l + j)%nat = Some (length a)) ->
  exists acc', read_levels maps info (length pre) acc l (length lvs) = ROk (lvs, acc', (length pre + 16 * length lvs)%nat) /\
    forall i, acc' !! i = match (if decide (l <= i)%nat then lvs !! (i - l)%nat else None) with
                          | Some lv => (fun u => (u + length (fst lv ++ snd lv))%nat) <$> acc !! i
                          | None => acc !! i end.
Proof.
  induction lvs as [|lv lvs IH]; intros pre post l acc E Hs Hm.
  - exists acc. cbn [length read_levels]. split; [f_equal; f_equal; lia|]. intros i. by destruct (decide _).
  - apply Forall_cons in Hs as [[Ha Hb] Hs].
    destruct (Hm 0%nat lv eq_refl) as (a & z & Em & Eu). rewrite Nat.add_0_r in Em, Eu.
    cbn [map concat] in E. unfold info_sizes in E at 1. rewrite <- !app_assoc in E.
    cbn [length read_levels].
    destruct (Nat.ltb_spec (length info - length pre) 16) as [Hlt|_].
    { rewrite E, !app_length, !le_enc_length in Hlt. lia. }
    rewrite (slice_mid_eq info pre _ _ (length pre) 8 E eq_refl) by (rewrite le_enc_length; done).
    rewrite (slice_mid_eq info (pre ++ le_enc 8 (Z.of_nat (length (fst lv)))) (le_enc 8 (Z.of_nat (length (snd lv)))) (concat (map info_sizes lvs) ++ post))
      by (rewrite ?app_length, ?le_enc_length, <- ?app_assoc; done).
    rewrite Em, Eu. cbv zeta. rewrite !le8_nat by done.
    rewrite (slice_mid_eq _ a (fst lv) (snd lv ++ z)) by done.
    rewrite (slice_mid_eq _ (a ++ fst lv) (snd lv) z) by (rewrite ?app_length, <- ?app_assoc; done).
    destruct (IH (pre ++ info_sizes lv) post (S l) (<[l:=(length a + length (fst lv) + length (snd lv))%nat]> acc)) as (acc' & Er & Hacc').
    { rewrite E. unfold info_sizes. rewrite <- !app_assoc. done. }
    { done. }
    { intros j lv' Hj. destruct (Hm (S j) lv' Hj) as (a' & z' & Em' & Eu'). exists a', z'. replace (S l + j)%nat with (l + S j)%nat by lia.
      split; [done|]. rewrite list_lookup_insert_ne by lia. done. }
    rewrite app_length, info_sizes_length in Er. rewrite Er. exists acc'. split.
    + destruct lv. cbn [fst snd]. do 2 f_equal. lia.
    + intros i. rewrite Hacc'. destruct (decide (S l <= i)%nat) as [H1|H1].
      * rewrite (decide_True (P := (l <= i)%nat)) by lia. replace (i - l)%nat with (S (i - S l)) by lia. cbn [lookup list_lookup].
        rewrite list_lookup_insert_ne by lia. done.
      * destruct (decide (l <= i)%nat) as [H2|H2].
        -- assert (i = l) by lia. subst i. rewrite Nat.sub_diag. cbn [lookup list_lookup].
           rewrite list_lookup_insert by (eapply lookup_lt_Some; exact Eu). rewrite Eu. cbn [fmap option_fmap option_map]. f_equal. rewrite app_length. lia.
        -- rewrite list_lookup_insert_ne by lia. done.
Qed.

(** what the loop over the information file makes of the chunks it meets *)
Fixpoint collect (step idx : nat) (todo chunks : list lchunk) : list lchunk :=
  match todo with
  | [] => chunks
  | k :: t => collect step (idx + step) t (<[idx := k]> (chunks ++ [empty_chunk]))
  end.

Lemma lv_data_length_le k l lv : lc_levels k !! l = Some lv -> lv_data k l = fst lv ++ snd lv.
Proof. unfold lv_data. intros ->. done. Qed.

Lemma info_entry_length k : length (info_entry k) = (9 + 16 * length (lc_levels k))%nat.
Proof. unfold info_entry. rewrite app_length, le_enc_length. cbn [length]. rewrite info_sizes_concat_length. lia. Qed.

Lemma read_chunks_ok step mx ks maps info :
  info = concat (map info_entry ks) -> Forall sized ks -> (depth ks <= 65)%nat ->
  maps = map (level_data ks) (seq 0 (depth ks)) ->
  forall todo done fuel idx acc chunks,
  ks = done ++ todo -> (length todo < fuel)%nat -> length acc = 65%nat ->
  (forall i, (i < 65)%nat -> acc !! i = Some (length (level_data done i))) ->
  (forall j, (j < length todo)%nat -> (idx + step * j < mx)%nat) ->
  read_chunks step mx maps info fuel (length (concat (map info_entry done))) idx acc chunks = ROk (collect step idx todo chunks).
Proof.
  intros Einfo Hsz Hd Emaps. induction todo as [|k todo IH]; intros dn fuel idx acc chunks Eks Hf Hal Hacc Hmx.
  - destruct fuel as [|fuel]; [cbn [length] in Hf; lia|]. cbn [read_chunks collect].
    rewrite app_nil_r in Eks. subst dn. rewrite Einfo, Nat.ltb_irrefl. done.
  - destruct fuel as [|fuel]; [cbn [length] in Hf; lia|]. cbn [read_chunks collect].
    assert (Ei : info = concat (map info_entry dn) ++ info_entry k ++ concat (map info_entry todo)).
    { rewrite Einfo, Eks, map_app, concat_app. done. }
    assert (Hk : sized k) by (rewrite Eks, Forall_app, Forall_cons in Hsz; tauto).
    assert (Hkd : (length (lc_levels k) <= depth ks)%nat).
    { apply depth_in. rewrite Eks. set_solver. }
    set (pre := concat (map info_entry dn)) in *.
    assert (Hlen : length info = (length pre + (9 + 16 * length (lc_levels k)) + length (concat (map info_entry todo)))%nat).
    { rewrite Ei, !app_length, info_entry_length. lia. }
    destruct (Nat.ltb_spec (length pre) (length info)) as [_|H]; [|lia].
    destruct (Nat.leb_spec mx idx) as [H|_].
    { specialize (Hmx 0%nat). cbn [length] in Hmx. lia. }
    destruct (Nat.ltb_spec (length info - length pre) 8) as [H|_]; [lia|].
    destruct (Nat.ltb_spec (length info - (length pre + 8)) 1) as [H|_]; [lia|].
    unfold info_entry in Ei at 1. rewrite <- app_assoc in Ei.
    rewrite (slice_mid_eq info pre (le_enc 8 (lc_first k)) _ (length pre) 8 Ei) by (rewrite ?le_enc_length; done).
    assert (En : info !! (length pre + 8)%nat = Some (Z.of_nat (length (lc_levels k)) mod 256)).
    { rewrite Ei, lookup_app_r by lia. replace (length pre + 8 - length pre)%nat with 8%nat by lia.
      rewrite lookup_app_r by (rewrite le_enc_length; lia). rewrite le_enc_length. done. }
    rewrite En. rewrite Z.mod_small by lia. rewrite Nat2Z.id.
    destruct (Nat.ltb_spec (length maps) (length (lc_levels k))) as [H|_].
    { rewrite Emaps, map_length, seq_length in H. lia. }
    destruct (read_levels_ok maps info (lc_levels k) (pre ++ le_enc 8 (lc_first k) ++ [Z.of_nat (length (lc_levels k)) mod 256])
                (concat (map info_entry todo)) 0 acc) as (acc' & Er & Hacc').
    { rewrite Ei. rewrite <- !app_assoc. cbn [app]. done. }
    { apply Hk. }
    { intros j lv Hj. exists (level_data dn j), (level_data todo j). pose proof (lookup_lt_Some _ _ _ Hj). cbn [Nat.add]. split.
      - rewrite Emaps, list_lookup_fmap, lookup_seq_lt by lia. cbn [fmap option_fmap option_map Nat.add]. f_equal.
        rewrite Eks, level_data_app. f_equal. change (k :: todo) with ([k] ++ todo). rewrite level_data_app.
        rewrite app_assoc. f_equal. unfold level_data. cbn [map concat]. rewrite app_nil_r. by apply lv_data_length_le.
      - apply Hacc. lia. }
    rewrite !app_length, le_enc_length in Er. cbn [length] in Er.
    replace (length pre + (8 + 1))%nat with (length pre + 9)%nat in Er by lia. rewrite Er.
    assert (Ep : length (concat (map info_entry (dn ++ [k]))) = (length pre + 9 + 16 * length (lc_levels k))%nat).
    { rewrite map_app, concat_app, app_length. fold pre. cbn [map concat]. rewrite app_nil_r, info_entry_length. lia. }
    rewrite <- Ep.
    replace (mk_lc (to_int64 (le_dec (le_enc 8 (lc_first k)))) (lc_levels k)) with k.
    2: { destruct Hk as [Hf1 _]. rewrite le_dec_enc_small by (change (pow256 8) with (2^64); lia). unfold to_int64.
         destruct (Z.ltb_spec (lc_first k) (2^63)); [|lia]. by destruct k. }
    apply IH.
    + rewrite Eks, <- app_assoc. done.
    + cbn [length] in Hf. lia.
    + apply (f_equal length) in Er as _ || idtac.
      assert (forall i, is_Some (acc' !! i) <-> is_Some (acc !! i)) as His.
      { intros i. rewrite Hacc'. destruct (if decide _ then _ else _); [|done]. by rewrite fmap_is_Some. }
      apply (anti_symm le).
      * destruct (decide (length acc' <= 65)%nat); [done|]. exfalso.
        assert (is_Some (acc' !! 65%nat)) as H by (apply lookup_lt_is_Some; lia). apply His, lookup_lt_is_Some in H. lia.
      * destruct (decide (65 <= length acc')%nat); [done|]. exfalso.
        assert (is_Some (acc !! length acc')) as H by (apply lookup_lt_is_Some; lia). apply His, lookup_lt_is_Some in H. lia.
    + intros i Hi. rewrite Hacc'. rewrite decide_True by lia. rewrite Nat.sub_0_r, Hacc by done.
      rewrite level_data_app, app_length. replace (level_data [k] i) with (lv_data k i) by (unfold level_data; cbn [map concat]; rewrite app_nil_r; done).
      unfold lv_data. destruct (lc_levels k !! i); cbn [fmap option_fmap option_map length]; f_equal; lia.
    + intros j Hj. specialize (Hmx (S j)). cbn [length] in Hmx. lia.
Qed.

(** ** Reopening *)

Lemma concat_info_length ks : (length ks <= length (concat (map info_entry ks)))%nat.
Proof.
  induction ks as [|k ks IH]; [done|]. cbn [map concat length]. rewrite app_length, info_entry_length. lia.
Qed.

Lemma reopen_ok step mx w r lead ks :
  inj65 w -> ks <> [] -> Forall sized ks -> (0 < depth ks <= 65)%nat ->
  (forall l, (l < depth ks)%nat -> r l = w l) ->
  (depth ks < 65 -> forall l, (l < depth ks)%nat -> w l <> r (depth ks))%nat ->
  (forall j, (j < length ks)%nat -> (step * j < mx)%nat) ->
  reopen step mx r lead (append_chunks w lf_empty ks) = ROk (collect step 0 ks []).
Proof.
  intros Hw Hne Hsz Hd Hr Hr2 Hmx. unfold reopen. rewrite append_chunks_info.
  assert (Em : mmap_levels r lead (lf_level (append_chunks w lf_empty ks)) 0 65 = map (level_data ks) (seq 0 (depth ks))).
  { apply mmap_levels_all; [lia| | |lia].
    - intros i Hi. cbn [Nat.add]. rewrite Hr by done. rewrite append_chunks_level by (done || lia). by rewrite decide_True.
    - intros H. cbn [Nat.add]. apply append_chunks_other. intros i Hi. by apply Hr2. }
  rewrite Em. cbv zeta. pose proof (concat_info_length ks) as Hcl.
  destruct (concat (map info_entry ks)) as [|b0 bs] eqn:Ec.
  - destruct ks; [done|]. cbn [length] in Hcl. lia.
  - rewrite <- Ec in *. clear Ec b0 bs.
    apply (read_chunks_ok step mx ks _ _ eq_refl Hsz ltac:(lia) eq_refl ks []); [done|lia| | |].
    + apply replicate_length.
    + intros i Hi. rewrite lookup_replicate_2 by done. done.
    + intros j Hj. cbn [Nat.add]. by apply Hmx.
Qed.

Lemma collect_one todo chunks : collect 1 (length chunks) todo chunks = chunks ++ todo.
Proof.
  revert chunks. induction todo as [|k todo IH]; intros chunks; cbn [collect]; [by rewrite app_nil_r|].
  replace (<[length chunks:=k]> (chunks ++ [empty_chunk])) with (chunks ++ [k]).
  - replace (length chunks + 1)%nat with (length (chunks ++ [k])) by (rewrite app_length; done). rewrite IH, <- app_assoc. done.
  - rewrite insert_app_r_alt by lia. rewrite Nat.sub_diag. done.
Qed.

Lemma collect_zero todo k0 chunks :
  collect 0 0 todo (k0 :: chunks) = default k0 (last todo) :: chunks ++ replicate (length todo) empty_chunk.
Proof.
  revert k0 chunks. induction todo as [|k todo IH]; intros k0 chunks; cbn [collect].
  - cbn. rewrite app_nil_r. done.
  - cbn [app Nat.add]. change (<[0%nat:=k]> (k0 :: chunks ++ [empty_chunk])) with (k :: (chunks ++ [empty_chunk])).
    rewrite IH. rewrite last_cons. f_equal; [by destruct (last todo)|]. rewrite <- app_assoc. cbn [length replicate app]. done.
Qed.

Lemma hex_inj : inj65 hex_name.
Proof. intros i j Hi Hj [= H1 H2]. pose proof (Z.div_mod (Z.of_nat i) 16). pose proof (Z.div_mod (Z.of_nat j) 16). lia. Qed.
Lemma dec_inj : inj65 dec_name.
Proof. intros i j Hi Hj [= H1 H2]. pose proof (Z.div_mod (Z.of_nat i) 10). pose proof (Z.div_mod (Z.of_nat j) 10). lia. Qed.
