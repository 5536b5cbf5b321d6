(** Bins saved to and loaded from files. *)
From Coq Require Import Sorting.Sorted.
From Verif Require Import Base Model_Word Model_Folders Model_MapStore Model_Bins Spec_Bins Proof_Bins Proof_Folders Prop_Folders.

(** ** Zero bytes at the end *)
Definition ends_in (l : list Z) (n : nat) : Prop := exists l', l = l' ++ replicate n 0 /\ last l' <> Some 0.

Lemma ends_in_unique l n m : ends_in l n -> ends_in l m -> n = m.
Proof.
  assert (forall l1 l2 n m, l1 ++ replicate n 0 = l2 ++ replicate m 0 -> last l1 <> Some 0 -> (n < m)%nat -> False) as H.
  { intros l1 l2 a b E Hl Hab.
    replace b with ((b - a) + a)%nat in E by lia. rewrite replicate_add, app_assoc in E.
    apply app_inv_tail in E. apply Hl. rewrite E.
    replace (b - a)%nat with (S (b - a - 1)) by lia. rewrite replicate_S_end, app_assoc. apply last_snoc. }
  intros (l1 & E1 & H1) (l2 & E2 & H2). destruct (Nat.lt_trichotomy n m) as [Hlt|[->|Hlt]]; [|done|]; exfalso.
  - eapply H; [|exact H1|exact Hlt]. rewrite <- E1, E2. done.
  - eapply H; [|exact H2|exact Hlt]. rewrite <- E2, E1. done.
Qed.

Lemma ends_in_exists l : exists n, ends_in l n.
Proof.
  induction l as [|x l [n (l' & -> & Hl)]] using rev_ind; [exists 0%nat, []; done|].
  destruct (decide (x = 0)) as [->|Hx].
  - exists (S n), l'. split; [|done]. rewrite replicate_S_end, app_assoc. done.
  - exists 0%nat, ((l' ++ replicate n 0) ++ [x]). split; [by rewrite app_nil_r|]. rewrite last_snoc. congruence.
Qed.

Lemma ends_in_zeroes l n k : ends_in l n -> ends_in (l ++ replicate k 0) (n + k).
Proof. intros (l' & -> & H). exists l'. rewrite replicate_add, app_assoc. done. Qed.

Lemma ends_in_tail l1 l2 n : (n < length l2)%nat -> ends_in l2 n -> ends_in (l1 ++ l2) n.
Proof.
  intros Hn (l' & -> & H). exists (l1 ++ l'). rewrite app_assoc. split; [done|].
  rewrite app_length, replicate_length in Hn. rewrite last_app. destruct (last l') eqn:E; [congruence|].
  apply last_None in E. subst. cbn in Hn. lia.
Qed.

Lemma zero_tail_spec data n : (n <= length data)%nat -> ends_in (take n data) (zero_tail data n).
Proof.
  induction n as [|n IH]; intros Hn; cbn [zero_tail].
  - exists []. done.
  - destruct (lookup_lt_is_Some_2 data n) as [x Hx]; [lia|]. rewrite (take_S_r _ _ x Hx). case_bool_decide as H0.
    + rewrite Hx in H0. injection H0 as ->. replace (S (zero_tail data n)) with (zero_tail data n + 1)%nat by lia.
      apply (ends_in_zeroes _ _ 1), IH. lia.
    + exists (take n data ++ [x]). rewrite app_nil_r. split; [done|]. rewrite last_snoc. congruence.
Qed.

Lemma chunk_zero l : bytes l -> le_dec l = 0 -> l = replicate (length l) 0.
Proof.
  intros Hb H. apply le_dec_inj; [done| | |].
  - apply Forall_replicate. unfold is_byte. lia.
  - by rewrite replicate_length.
  - by rewrite le_dec_replicate0.
Qed.

Lemma chunk_log l n : bytes l -> length l = 8%nat -> le_dec l <> 0 -> ends_in l n ->
  Z.to_nat ((63 - Z.log2 (le_dec l)) / 8) = n.
Proof.
  intros Hb Hl Hne (l' & -> & Hlast).
  destruct (last l') as [x|] eqn:E.
  - apply last_Some in E as [l0 ->]. rewrite <- app_assoc in *. rewrite le_dec_app. cbn [app le_dec].
    rewrite !app_length, replicate_length in Hl. cbn [length] in Hl. rewrite le_dec_replicate0.
    apply Forall_app in Hb as [Hb0 Hb]. apply Forall_cons in Hb as [Hx _].
    pose proof (le_dec_range l0 Hb0) as R. unfold is_byte in Hx.
    assert (x <> 0) by congruence.
    replace (x + 256 * 0) with x by lia.
    assert (pow256 (length l0) = 2 ^ (8 * (7 - Z.of_nat n))) as Ep.
    { unfold pow256. change 256 with (2 ^ 8). rewrite <- Z.pow_mul_r by lia. f_equal. lia. }
    rewrite Ep in *. set (k := 7 - Z.of_nat n) in *. assert (0 <= k) by lia.
    assert (8 * k <= Z.log2 (le_dec l0 + 2 ^ (8 * k) * x) < 8 * k + 8) as Hlog.
    { split.
      - apply Z.log2_le_pow2; nia.
      - apply Z.log2_lt_pow2; [nia|]. rewrite Z.pow_add_r by lia. change (2 ^ 8) with 256. nia. }
    assert ((63 - Z.log2 (le_dec l0 + 2 ^ (8 * k) * x)) / 8 = Z.of_nat n) as ->; [|lia].
    symmetry. apply (Z.div_unique _ _ _ (63 - Z.log2 (le_dec l0 + 2 ^ (8 * k) * x) - 8 * Z.of_nat n)); lia.
  - apply last_None in E. subst. cbn [app] in Hne. rewrite le_dec_replicate0 in Hne. done.
Qed.

Lemma zero_chunks_spec fuel data n : bytes data -> (n <= length data)%nat -> (n < fuel)%nat ->
  ends_in (take n data) (zero_chunks fuel data n).
Proof.
  intros Hb. revert n. induction fuel as [|fuel IH]; intros n Hn Hf; [lia|]. cbn [zero_chunks].
  destruct (decide (8 <= n)%nat) as [H8|H8]; [|by apply zero_tail_spec].
  assert (take n data = take (n - 8) data ++ take 8 (drop (n - 8) data)) as Et.
  { rewrite take_drop_commute. replace (n - 8 + 8)%nat with n by lia.
    rewrite <- (take_drop (n - 8) (take n data)) at 1. rewrite take_take. f_equal. f_equal. lia. }
  assert (length (take 8 (drop (n - 8) data)) = 8%nat) as Hl8 by (rewrite take_length, drop_length; lia).
  assert (bytes (take 8 (drop (n - 8) data))) as Hb8 by (by apply Forall_take, Forall_drop).
  rewrite Et. destruct (Z.eqb_spec (le_dec (take 8 (drop (n - 8) data))) 0) as [H0|H0].
  - rewrite (chunk_zero _ Hb8 H0), Hl8, Nat.add_comm. apply ends_in_zeroes, IH; lia.
  - destruct (ends_in_exists (take 8 (drop (n - 8) data))) as [m Hm].
    rewrite (chunk_log _ m Hb8 Hl8 H0 Hm). apply ends_in_tail; [|done]. rewrite Hl8.
    destruct Hm as (l' & El & _). rewrite El in Hl8. rewrite app_length, replicate_length in Hl8.
    destruct l' as [|y l']; [|cbn in Hl8; lia]. cbn [app] in El. rewrite El, le_dec_replicate0 in H0. done.
Qed.

Lemma count_zero_bytes_spec data : bytes data -> ends_in data (count_zero_bytes_at_end data).
Proof.
  intros Hb. pose proof (zero_chunks_spec (S (length data)) data (length data) Hb ltac:(lia) ltac:(lia)) as H.
  rewrite take_ge in H by lia. done.
Qed.

(** ** A bin start *)
Definition bin_start (p : params) (b : bin) : list Z :=
  concat (take (p_start p) b) ++ replicate ((p_start p - length b) * entry_bytes p) 0.

Lemma entry_bytes_pos p : (0 < entry_bytes p)%nat.
Proof. unfold entry_bytes. lia. Qed.

Lemma entries_chunks p b : entries_ok p b -> chunks (entry_bytes p) b.
Proof. intros H. eapply Forall_impl; [exact H|]. by intros ? [? _]. Qed.

Lemma entries_bytes p b : entries_ok p b -> bytes (concat b).
Proof.
  induction 1 as [|e b [_ He] _ IH]; cbn [concat]; [constructor|]. by apply Forall_app.
Qed.

Lemma bin_start_length p b : entries_ok p b -> length (bin_start p b) = (entry_bytes p * p_start p)%nat.
Proof.
  intros H. unfold bin_start. rewrite app_length, replicate_length, (chunks_concat_length (entry_bytes p)).
  - rewrite take_length. nia.
  - by apply Forall_take, entries_chunks.
Qed.

Lemma to_entries_concat n w b : chunks w b -> n = length b -> to_entries n w (concat b) = b.
Proof.
  intros H ->. induction H as [|e b He Hb IH]; cbn [to_entries concat length]; [done|].
  rewrite take_app_alt, drop_app_alt by done. f_equal. done.
Qed.

Lemma entries_of_concat p b : entries_ok p b -> entries_of p (concat b) = b.
Proof.
  intros H. apply entries_chunks in H. unfold entries_of. apply to_entries_concat; [done|].
  rewrite (chunks_concat_length _ _ H). apply Nat.div_mul. pose proof (entry_bytes_pos p). lia.
Qed.

Lemma zero_entry_length e n : ends_in e n -> ~ is_zero_entry e -> (n < length e)%nat.
Proof.
  intros (l' & -> & Hl) Hz. rewrite app_length, replicate_length. destruct l' as [|x l']; [|cbn; lia].
  exfalso. apply Hz. cbn [app]. apply Forall_replicate. done.
Qed.

Lemma bin_start_zero_entries p b : entries_ok p b -> ends_visibly p b ->
  (count_zero_bytes_at_end (bin_start p b) / entry_bytes p = p_start p - length b)%nat.
Proof.
  intros Hok Hv. pose proof (entry_bytes_pos p) as Hw.
  assert (bytes (bin_start p b)) as Hb.
  { unfold bin_start. apply Forall_app. split; [by apply (entries_bytes p), Forall_take|].
    apply Forall_replicate. unfold is_byte. lia. }
  pose proof (count_zero_bytes_spec _ Hb) as Hc.
  assert (exists n, (n < entry_bytes p)%nat /\ ends_in (concat (take (p_start p) b)) n) as (n & Hn & He).
  { unfold ends_visibly in Hv. pose proof (Forall_take _ (p_start p) _ Hok) as Hok'.
    destruct (last (take (p_start p) b)) as [e|] eqn:E.
    - apply last_Some in E as [l0 E]. rewrite E in *. rewrite concat_app. cbn [concat]. rewrite app_nil_r.
      apply Forall_app in Hok' as [_ Hok']. apply Forall_cons in Hok' as [[Hl _] _].
      destruct (ends_in_exists e) as [n Hn]. pose proof (zero_entry_length e n Hn (Hv e eq_refl)) as Hlt.
      exists n. split; [lia|]. by apply ends_in_tail.
    - apply last_None in E. rewrite E. exists 0%nat. split; [lia|]. exists []. done. }
  pose proof (ends_in_zeroes _ _ ((p_start p - length b) * entry_bytes p) He) as He'.
  rewrite (ends_in_unique _ _ _ Hc He'). rewrite Nat.div_add by lia. rewrite Nat.div_small by done. done.
Qed.

Definition over_of (p : params) (f : bin_files) (bn : nat) : list Z :=
  match overflow_path p (Z.of_nat bn) with Some path => default [] (f_over f !! path) | None => [] end.

Lemma overflow_path_eq p bn x y z : number_to_path 0 (p_digits p) bn = Some (x, y, z) ->
  overflow_path p bn = Some (x, y).
Proof. unfold overflow_path. by intros ->. Qed.

Lemma overflow_path_some p bn : (1 <= p_digits p)%nat -> 0 <= bn < 2 ^ 63 -> exists path, overflow_path p bn = Some path.
Proof.
  intros Hd Hb. destruct (number_to_path_spec 0 (p_digits p) bn Hd ltac:(lia)) as (x & y & E).
  exists (x, y). by eapply overflow_path_eq.
Qed.

Lemma overflow_path_inj p a b path : (1 <= p_digits p)%nat -> 0 <= a < 2 ^ 63 -> 0 <= b < 2 ^ 63 ->
  overflow_path p a = Some path -> overflow_path p b = Some path -> a = b.
Proof.
  intros Hd Ha Hb Ea Eb.
  destruct (number_to_path_spec 0 (p_digits p) a Hd ltac:(lia)) as (x & y & E1).
  destruct (number_to_path_spec 0 (p_digits p) b Hd ltac:(lia)) as (x' & y' & E2).
  rewrite (overflow_path_eq _ _ _ _ _ E1) in Ea. rewrite (overflow_path_eq _ _ _ _ _ E2) in Eb.
  rewrite <- Ea in Eb. clear Ea path. apply (inj Some) in Eb.
  destruct (C09_same_file_iff_same_slot 0 (p_digits p) a b x y _ x' y' _ Hd Ha Hb E1 E2) as [[Hsame _] _].
  rewrite Nat2Z.inj_0, Z.pow_0_r, !Z.div_1_r in Hsame. apply Hsame. by rewrite Eb.
Qed.

Global Opaque overflow_path.

Lemma load_from_slice_ok p f b bn : (1 <= p_digits p)%nat -> Z.of_nat bn < 2 ^ 63 ->
  entries_ok p b -> ends_visibly p b -> over_of p f bn = concat (drop (p_start p) b) ->
  load_from_slice p f (bin_start p b) (Z.of_nat bn) = Some b.
Proof.
  intros Hd Hbn Hok Hv Hover. unfold load_from_slice. rewrite bin_start_zero_entries by done.
  destruct (decide _) as [Hz|Hz].
  - f_equal. replace (p_start p - (p_start p - length b))%nat with (length b) by lia.
    unfold bin_start. rewrite (take_ge b) by lia.
    rewrite take_app_alt; [by apply entries_of_concat|].
    rewrite (chunks_concat_length (entry_bytes p)) by (by apply entries_chunks). lia.
  - destruct (overflow_path_some p (Z.of_nat bn) Hd ltac:(lia)) as [path Ep]. unfold over_of in Hover.
    rewrite Ep in *. cbn [mbind option_bind]. f_equal. rewrite Hover. unfold bin_start.
    replace (p_start p - length b)%nat with 0%nat by lia. cbn [Nat.mul replicate]. rewrite app_nil_r.
    rewrite <- concat_app, take_drop. by apply entries_of_concat.
Qed.

(** ** All the files *)
Record files_hold (p : params) (f : bin_files) (bins : list bin) : Prop := {
  fh_starts : f_starts f = concat (bin_start p <$> bins);
  fh_over : forall bn b, bins !! bn = Some b -> over_of p f bn = concat (drop (p_start p) b);
  fh_ok : Forall (storable p) bins }.

Lemma starts_chunks p bins : Forall (storable p) bins -> chunks (entry_bytes p * p_start p) (bin_start p <$> bins).
Proof.
  intros H. apply Forall_fmap. eapply Forall_impl; [exact H|]. intros b [Hb _]. by apply bin_start_length.
Qed.

Lemma files_hold_load p f bins bn b : (1 <= p_digits p)%nat -> Z.of_nat (length bins) <= 2 ^ 63 ->
  files_hold p f bins -> bins !! bn = Some b -> load_bin p f (Z.of_nat bn) = Some b.
Proof.
  intros Hd Hlen [Hs Ho Hok] Hb. unfold load_bin.
  pose proof (lookup_lt_Some _ _ _ Hb) as Hlt.
  destruct (Z.ltb_spec (Z.of_nat bn) 0); [lia|]. rewrite Nat2Z.id.
  pose proof (starts_chunks p bins Hok) as Hch.
  unfold file_read. rewrite Hs.
  rewrite decide_True.
  2:{ rewrite (chunks_concat_length _ _ Hch), fmap_length. nia. }
  cbn [mbind option_bind].
  replace (bn * entry_bytes p * p_start p)%nat with (bn * (entry_bytes p * p_start p))%nat by lia.
  rewrite (chunks_read _ _ _ Hch), list_lookup_fmap, Hb. cbn [fmap option_fmap option_map default from_option]. unfold id.
  rewrite Forall_lookup in Hok. destruct (Hok _ _ Hb) as [H1 H2].
  apply load_from_slice_ok; [done|lia|done|done|by apply Ho].
Qed.

Lemma files_hold_load_none p f bins bn : (0 < p_start p)%nat ->
  files_hold p f bins -> (length bins <= bn)%nat -> load_bin p f (Z.of_nat bn) = None.
Proof.
  intros Hst [Hs Ho Hok] Hge. unfold load_bin.
  destruct (Z.ltb_spec (Z.of_nat bn) 0); [lia|]. rewrite Nat2Z.id.
  pose proof (starts_chunks p bins Hok) as Hch. pose proof (entry_bytes_pos p).
  unfold file_read. rewrite Hs. rewrite decide_False; [done|].
  rewrite (chunks_concat_length _ _ Hch), fmap_length. nia.
Qed.

Lemma files_hold_load_all p f bins : (1 <= p_digits p)%nat -> Z.of_nat (length bins) <= 2 ^ 63 ->
  files_hold p f bins -> load_all p f (length bins) 0 0 = Some bins.
Proof.
  intros Hd Hlen Hf.
  assert (forall n k, (n + k)%nat = length bins ->
    load_all p f n (Z.of_nat k) (k * (entry_bytes p * p_start p)) = Some (drop k bins)) as H.
  { induction n as [|n IH]; intros k Hk; cbn [load_all].
    - rewrite drop_ge by lia. done.
    - destruct (lookup_lt_is_Some_2 bins k) as [b Hb]; [lia|].
      pose proof (files_hold_load p f bins k b Hd Hlen Hf Hb) as Hl. unfold load_bin in Hl.
      destruct (Z.ltb_spec (Z.of_nat k) 0); [lia|]. rewrite Nat2Z.id in Hl.
      replace (k * entry_bytes p * p_start p)%nat with (k * (entry_bytes p * p_start p))%nat in Hl by lia.
      destruct (file_read _ _ _) as [raw|]; [|done]. cbn [mbind option_bind] in *. rewrite Hl.
      cbn [mbind option_bind].
      replace (Z.of_nat k + 1) with (Z.of_nat (S k)) by lia.
      replace (k * (entry_bytes p * p_start p) + entry_bytes p * p_start p)%nat
        with (S k * (entry_bytes p * p_start p))%nat by lia.
      rewrite IH by lia. cbn [mbind option_bind]. rewrite <- (drop_S _ _ _ Hb). done. }
  rewrite <- (drop_0 bins) at 2. apply (H (length bins) 0%nat). lia.
Qed.

Lemma file_write_inside f off d : (off <= length f)%nat ->
  file_write f off d = take off f ++ d ++ drop (off + length d) f.
Proof.
  intros H. unfold file_write. destruct d as [|x d].
  - cbn [length app]. rewrite Nat.add_0_r, take_drop. done.
  - rewrite take_app_le by lia. done.
Qed.

Lemma concat_start_write p bins bn old b : Forall (storable p) bins -> bins !! bn = Some old ->
  (length old <= length b)%nat -> entries_ok p b ->
  file_write (concat (bin_start p <$> bins)) (bn * p_start p * entry_bytes p)
    (concat (take (length b `min` p_start p) b)) = concat (bin_start p <$> <[bn := b]> bins).
Proof.
  intros Hok Hold Hle Hb. pose proof (starts_chunks p bins Hok) as Hch.
  pose proof (lookup_lt_Some _ _ _ Hold) as Hlt.
  assert (entries_ok p old) as Hoo by (rewrite Forall_lookup in Hok; by destruct (Hok _ _ Hold)).
  pose proof (entry_bytes_pos p) as Hw.
  set (w := (entry_bytes p * p_start p)%nat) in *.
  replace (bn * p_start p * entry_bytes p)%nat with (bn * w)%nat by (unfold w; lia).
  assert (concat (take (length b `min` p_start p) b) = concat (take (p_start p) b)) as ->.
  { f_equal. destruct (decide (p_start p <= length b)%nat); [by rewrite Nat.min_r by lia|].
    rewrite !take_ge by lia. done. }
  set (d := concat (take (p_start p) b)).
  assert (length d = (length b `min` p_start p) * entry_bytes p)%nat as Hd.
  { unfold d. rewrite (chunks_concat_length (entry_bytes p)) by (by apply Forall_take, entries_chunks).
    rewrite take_length. f_equal. lia. }
  assert (bin_start p <$> <[bn := b]> bins = <[bn := bin_start p b]> (bin_start p <$> bins)) as -> by apply list_fmap_insert.
  rewrite insert_take_drop by (by rewrite fmap_length).
  rewrite concat_app. cbn [concat].
  rewrite <- (chunks_take w _ bn Hch), <- (chunks_drop w _ (S bn) Hch).
  set (F := concat (bin_start p <$> bins)) in *.
  assert (length F = length bins * w)%nat as HF by (unfold F; rewrite (chunks_concat_length _ _ Hch), fmap_length; done).
  rewrite file_write_inside by nia.
  f_equal. unfold bin_start. fold d. rewrite <- app_assoc. f_equal.
  (* what was after the old entries: zeroes, then the next bins *)
  assert (take w (drop (bn * w) F) = bin_start p old) as Eold.
  { unfold F. rewrite (chunks_read _ _ _ Hch), list_lookup_fmap, Hold. done. }
  assert (drop (bn * w) F = bin_start p old ++ drop (S bn * w) F) as Edrop.
  { rewrite <- (take_drop w (drop (bn * w) F)), Eold, drop_drop. f_equal. f_equal. lia. }
  rewrite <- drop_drop, Edrop.
  rewrite drop_app_le.
  2:{ rewrite bin_start_length, Hd by done. nia. }
  f_equal. unfold bin_start. set (d' := concat (take (p_start p) old)).
  assert (length d' = (length old `min` p_start p) * entry_bytes p)%nat as Hd'.
  { unfold d'. rewrite (chunks_concat_length (entry_bytes p)) by (by apply Forall_take, entries_chunks).
    rewrite take_length. f_equal. lia. }
  rewrite drop_app_ge by nia. rewrite drop_replicate. f_equal. rewrite Hd, Hd'. nia.
Qed.

Lemma files_hold_save p f bins bn old b : (1 <= p_digits p)%nat -> Z.of_nat (length bins) <= 2 ^ 63 ->
  files_hold p f bins -> bins !! bn = Some old -> (length old <= length b)%nat -> storable p b ->
  exists f', save_bin p f (Z.of_nat bn) b = Some f' /\ files_hold p f' (<[bn := b]> bins).
Proof.
  intros Hd Hlen [Hs Ho Hok] Hold Hle [Hb1 Hb2]. unfold save_bin.
  pose proof (lookup_lt_Some _ _ _ Hold) as Hlt.
  destruct (overflow_path_some p (Z.of_nat bn) Hd ltac:(lia)) as [path Ep]. rewrite Ep.
  destruct (Z.ltb_spec (Z.of_nat bn) 0); [lia|]. rewrite Nat2Z.id. cbn [mbind option_bind].
  set (over := if decide (p_start p < length b)%nat then <[path := concat (drop (length b `min` p_start p) b)]> (f_over f)
               else f_over f).
  assert ((if decide (p_start p < length b)%nat then Some (<[path := concat (drop (length b `min` p_start p) b)]> (f_over f))
           else Some (f_over f)) = Some over) as Eo by (unfold over; by destruct (decide _)).
  cbn [mbind option_bind] in Eo |- *. rewrite Eo. cbn [option_bind]. eexists. split; [reflexivity|]. split; cbn [f_starts f_over].
  - rewrite Hs. by eapply concat_start_write.
  - intros k x Hk. unfold over_of. cbn [f_over]. destruct (decide (k = bn)) as [->|Hne].
    + rewrite list_lookup_insert in Hk by done. injection Hk as <-. rewrite Ep. unfold over.
      destruct (decide _) as [Hlong|Hshort].
      * rewrite lookup_insert. cbn [default from_option]. unfold id. f_equal. f_equal. lia.
      * specialize (Ho _ _ Hold). unfold over_of in Ho. rewrite Ep in Ho. rewrite Ho.
        rewrite !drop_ge by lia. done.
    + rewrite list_lookup_insert_ne in Hk by done. rewrite <- (Ho _ _ Hk). unfold over_of.
      pose proof (lookup_lt_Some _ _ _ Hk).
      destruct (overflow_path_some p (Z.of_nat k) Hd ltac:(lia)) as [path' Ep']. rewrite Ep'.
      unfold over. destruct (decide _); [|done]. rewrite lookup_insert_ne; [done|].
      intros ->. apply Hne. apply Nat2Z.inj. eapply (overflow_path_inj p); [done| | |exact Ep'|exact Ep]; lia.
  - apply Forall_insert; done.
Qed.

Lemma empty_storable p : storable p [].
Proof. split; [constructor|]. intros e. rewrite take_nil. done. Qed.

Lemma files_hold_initial p : files_hold p (initial_files p ∅) (replicate (Z.to_nat (p_bins p)) []).
Proof.
  split.
  - cbn [initial_files f_starts]. rewrite fmap_replicate. unfold bin_start. rewrite take_nil. cbn [concat app length].
    rewrite Nat.sub_0_r. induction (Z.to_nat (p_bins p)) as [|n IH]; cbn [replicate concat]; [done|].
    rewrite <- IH, <- replicate_add. f_equal. lia.
  - intros bn b Hb. apply lookup_replicate in Hb as [-> _]. rewrite drop_nil. unfold over_of. cbn.
    destruct (overflow_path _ _); [by rewrite lookup_empty|done].
  - apply Forall_replicate, empty_storable.
Qed.

(** all the saves, one after another *)
Fixpoint save_all (p : params) (f : bin_files) (saves : list (nat * bin)) : option bin_files :=
  match saves with
  | [] => Some f
  | (bn, b) :: saves' => f' ← save_bin p f (Z.of_nat bn) b; save_all p f' saves'
  end.

Lemma files_hold_saves p f bins saves : (1 <= p_digits p)%nat -> Z.of_nat (length bins) <= 2 ^ 63 ->
  files_hold p f bins -> growing p bins saves ->
  exists f', save_all p f saves = Some f' /\ files_hold p f' (final_bins bins saves) /\
    length (final_bins bins saves) = length bins.
Proof.
  intros Hd. revert f bins. induction saves as [|[bn b] saves IH]; intros f bins Hlen Hf Hg; cbn [save_all final_bins].
  - eauto.
  - cbn [growing] in Hg. destruct Hg as ((old & Hold & Hle) & Hst & Hg).
    destruct (files_hold_save p f bins bn old b Hd Hlen Hf Hold Hle Hst) as (f1 & E1 & Hf1).
    rewrite E1. cbn [mbind option_bind].
    destruct (IH f1 (<[bn := b]> bins)) as (f2 & E2 & Hf2 & Hl2); [by rewrite insert_length|done|done|].
    exists f2. rewrite insert_length in Hl2. done.
Qed.
