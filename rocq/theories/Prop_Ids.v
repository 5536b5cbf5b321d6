(** C33: identifier conversions are inverse, never alias the no-match value, and are stored faithfully. *)
From Verif Require Import Base Model_Ids Model_Chunk.

Lemma i64_id z : - 2^63 <= z < 2^63 -> i64 z = z.
Proof. intros H. unfold i64. by apply to_i64_to_u64. Qed.
Lemma u64_id z : 0 <= z < 2^64 -> to_u64 z = z.
Proof. intros H. unfold to_u64. by apply Z.mod_small. Qed.
Lemma to_i64_small z : 0 <= z < 2^63 -> to_i64 z = z.
Proof. intros H. unfold to_i64. destruct (Z.ltb_spec z (2^63)); lia. Qed.

(** ** Conversions.  [g] ranges over every index below the last int64, [off] over every first index not above it. *)

Theorem C33_conversions_are_inverse : forall g off, 0 <= off <= g -> g < 2^63 - 1 ->
  global_of_single (single_of_global g) = g /\
  (exists h, hid_of_global g off = Some h /\ global_of_hid h off = g /\ 1 <= h < 2^64) /\
  1 <= single_of_global g < 2^64 /\
  global_of_top (top_of_global g off) off = g /\ 0 <= top_of_global g off.
Proof.
  intros g off H1 H2. split_and!.
  - unfold single_of_global, global_of_single. rewrite (i64_id (g + 1)) by lia. rewrite u64_id by lia.
    rewrite to_i64_small by lia. rewrite i64_id by lia. lia.
  - exists (g - off + 1). unfold hid_of_global, global_of_hid.
    destruct (Z.eqb_spec g (-1)); [lia|]. destruct (Z.ltb_spec g off); [lia|].
    rewrite !(i64_id (g - off)) by lia. rewrite (i64_id (g - off + 1)) by lia. rewrite u64_id by lia. split; [done|].
    destruct (Z.eqb_spec (g - off + 1) 0); [lia|]. rewrite to_i64_small by lia. rewrite !i64_id by (rewrite ?i64_id; lia). lia.
  - unfold single_of_global. rewrite (i64_id (g + 1)) by lia. rewrite u64_id by lia. lia.
  - unfold single_of_global. rewrite (i64_id (g + 1)) by lia. rewrite u64_id by lia. lia.
  - unfold global_of_top, top_of_global. rewrite (i64_id (g - off)) by lia. rewrite i64_id; lia.
  - unfold top_of_global. rewrite (i64_id (g - off)) by lia. lia.
Qed.

(** the other way round, and no match stays no match *)
Theorem C33_identifiers_come_back : forall h off, 1 <= h -> 0 <= off -> h + off < 2^63 ->
  hid_of_global (global_of_hid h off) off = Some h /\
  single_of_global (global_of_single h) = h /\
  hid_of_global (-1) off = Some 0 /\ global_of_hid 0 off = -1.
Proof.
  intros h off H1 H2 H3.
  assert (E : global_of_hid h off = h - 1 + off).
  { unfold global_of_hid. destruct (Z.eqb_spec h 0); [lia|]. rewrite to_i64_small by lia. rewrite !i64_id by (rewrite ?i64_id; lia). done. }
  split_and!; [| |done|done].
  - rewrite E. unfold hid_of_global. destruct (Z.eqb_spec (h - 1 + off) (-1)); [lia|]. destruct (Z.ltb_spec (h - 1 + off) off); [lia|].
    rewrite !i64_id by (rewrite ?i64_id; lia). rewrite u64_id by lia. f_equal. lia.
  - unfold single_of_global, global_of_single. rewrite to_i64_small by lia. rewrite (i64_id (h - 1)) by lia. rewrite i64_id by lia. rewrite u64_id by lia. lia.
Qed.

(** An index below the first is refused, not renumbered. *)
Theorem C33_below_the_first_refused : forall g off, 0 <= g < off -> off < 2^63 -> hid_of_global g off = None /\ chunk_hid_of_global g off = None.
Proof.
  intros g off H1 H2. unfold hid_of_global, chunk_hid_of_global.
  destruct (Z.eqb_spec g (-1)); [lia|]. destruct (Z.ltb_spec g off); [|lia]. split; [done|].
  cbv zeta. rewrite !i64_id by (rewrite ?i64_id; lia). destruct (Z.ltb_spec (g - off + 1) 1); [done|lia].
Qed.

(** weddingcake: inverse exactly when the identifier is a uint32, refused otherwise *)
Theorem C33_chunk_conversions : forall g off, 0 <= off <= g -> g < 2^63 - 1 ->
  (g - off + 1 < 2^32 -> exists h, chunk_hid_of_global g off = Some h /\ chunk_global_of_hid h off = g /\ 1 <= h < 2^32) /\
  (2^32 <= g - off + 1 -> chunk_hid_of_global g off = None).
Proof.
  intros g off H1 H2. unfold chunk_hid_of_global, chunk_global_of_hid. destruct (Z.eqb_spec g (-1)); [lia|]. cbv zeta.
  rewrite !(i64_id (g - off)) by lia. rewrite (i64_id (g - off + 1)) by lia. destruct (Z.ltb_spec (g - off + 1) 1); [lia|]. split; intros H3.
  - destruct (Z.ltb_spec (2^32 - 1) (g - off + 1)); [lia|]. exists (g - off + 1). rewrite Z.mod_small by lia. split; [done|].
    destruct (Z.eqb_spec (g - off + 1) 0); [lia|]. rewrite !i64_id by (rewrite ?i64_id; lia). lia.
  - destruct (Z.ltb_spec (2^32 - 1) (g - off + 1)); [done|lia].
Qed.

(** weddingcake: identifiers come back too, and no match stays no match whatever the first index *)
Theorem C33_chunk_identifiers_come_back : forall h off, 0 <= off -> 0 <= h < 2^32 -> h + off < 2^63 ->
  chunk_hid_of_global (chunk_global_of_hid h off) off = Some h /\
  chunk_hid_of_global (-1) off = Some 0 /\ chunk_global_of_hid 0 off = -1.
Proof.
  intros h off H1 H2 H3. split_and!; [|done|done].
  unfold chunk_global_of_hid. destruct (Z.eqb_spec h 0) as [->|Hh]; [done|].
  rewrite !i64_id by (rewrite ?i64_id; lia). unfold chunk_hid_of_global.
  destruct (Z.eqb_spec (h - 1 + off) (-1)); [lia|]. cbv zeta. rewrite !i64_id by (rewrite ?i64_id; lia).
  destruct (Z.ltb_spec (h - 1 + off - off + 1) 1); [lia|].
  destruct (Z.ltb_spec (2^32 - 1) (h - 1 + off - off + 1)); [lia|].
  f_equal. rewrite Z.mod_small; lia.
Qed.

(** two indices never share an identifier *)
Theorem C33_no_two_indices_alias : forall g g' off, 0 <= off <= g -> off <= g' -> g < 2^63 - 1 -> g' < 2^63 - 1 ->
  hid_of_global g off = hid_of_global g' off -> g = g'.
Proof.
  intros g g' off H1 H2 H3 H4 E. destruct (C33_conversions_are_inverse g off H1 H3) as (_ & (h & Eh & Eg & _) & _).
  destruct (C33_conversions_are_inverse g' off ltac:(lia) H4) as (_ & (h' & Eh' & Eg' & _) & _).
  rewrite Eh, Eh' in E. apply (inj Some) in E as ->. congruence.
Qed.

(** in range means: one of the [count] indices starting at the first *)
Theorem C33_range_check : forall g off count, 0 <= off -> 0 <= count -> off + count < 2^63 ->
  global_in_range g off count = true <-> exists i, 0 <= i < count /\ g = off + i.
Proof.
  intros g off count H1 H2 H3. unfold global_in_range. rewrite i64_id by lia. rewrite andb_true_iff, Z.leb_le, Z.ltb_lt. split.
  - intros [Ha Hb]. exists (g - off). lia.
  - intros (i & Hi & ->). lia.
Qed.

(** ** Storage *)

Lemma lor_add a b n : 0 <= a < 2^n -> 0 <= n -> Z.lor a (Z.shiftl b n) = a + 2^n * b.
Proof.
  intros Ha Hn. assert (L : Z.land a (Z.shiftl b n) = 0).
  { apply Z.bits_inj'. intros i Hi. rewrite Z.land_spec, Z.bits_0. destruct (Z.lt_ge_cases i n) as [H|H].
    - rewrite (Z.shiftl_spec_low b n i H). apply andb_false_r.
    - rewrite <- (Z.mod_small a (2^n)) by lia. rewrite Z.mod_pow2_bits_high by lia. done. }
  rewrite <- Z.lxor_lor by done. rewrite <- Z.add_nocarry_lxor by done. rewrite Z.shiftl_mul_pow2 by done. lia.
Qed.

Lemma byte_at_div id n : 0 <= n -> byte_at id n = id / 2^n mod 256.
Proof. intros H. unfold byte_at. rewrite Z.shiftr_div_pow2 by done. done. Qed.

Lemma le_enc_mod_le n m v : (n <= m)%nat -> le_enc n (v mod pow256 m) = le_enc n v.
Proof.
  intros H. rewrite <- (take_le_enc n m (v mod pow256 m)) by done. rewrite le_enc_mod. by apply take_le_enc.
Qed.

(** the bytes written are the little-endian bytes of the identifier *)
Lemma id_bytes_le w id : 0 <= id -> id_bytes w id = le_enc (storage w) id.
Proof.
  intros H. destruct w; cbn [id_bytes storage].
  - change (2^16) with (pow256 2). apply le_enc_mod.
  - rewrite <- (le_enc_mod_le 3 4 id) by lia. change (2^32) with (pow256 4). cbv zeta. rewrite !byte_at_div by lia.
    cbn [le_enc]. set (v := id mod pow256 4). rewrite !Z.div_div by lia. change (2^0) with 1. rewrite Z.div_1_r. done.
  - change (2^32) with (pow256 4). apply le_enc_mod.
  - rewrite !byte_at_div by lia. cbn [le_enc]. rewrite !Z.div_div by lia. change (2^0) with 1. rewrite Z.div_1_r. done.
Qed.

Lemma id_read_le w b : length b = storage w -> bytes b -> id_read w b = le_dec b.
Proof.
  intros Hl Hb. destruct w; cbn [storage] in Hl.
  - unfold id_read. rewrite take_ge by lia. done.
  - destruct b as [|b0 [|b1 [|b2 [|]]]]; try discriminate Hl. clear Hl. unfold bytes in Hb. rewrite !Forall_cons in Hb. unfold is_byte in Hb.
    unfold id_read. cbn [nth le_dec]. rewrite (lor_add b0 b1 8) by lia. rewrite lor_add by lia. lia.
  - unfold id_read. rewrite take_ge by lia. done.
  - destruct b as [|b0 [|b1 [|b2 [|b3 [|b4 [|]]]]]]; try discriminate Hl. clear Hl. unfold bytes in Hb. rewrite !Forall_cons in Hb. unfold is_byte in Hb.
    unfold id_read. cbn [nth le_dec]. rewrite (lor_add b0 b1 8) by lia. rewrite (lor_add (b0 + _) b2 16) by lia.
    rewrite (lor_add (b0 + _ + _) b3 24) by lia. rewrite lor_add by lia. lia.
Qed.

Lemma div_pos_iff a b : 0 <= a -> 0 < b -> 0 < a / b <-> b <= a.
Proof.
  intros Ha Hb. split; intros H.
  - destruct (Z.lt_ge_cases a b); [|done]. rewrite Z.div_small in H by lia. lia.
  - pose proof (Z.div_le_lower_bound a b 1 ltac:(lia) ltac:(lia)). lia.
Qed.

(** the checks refuse exactly the identifiers that do not fit *)
Lemma id_too_large_spec w id : 0 <= id < 2^64 -> id_too_large w id = (pow256 (storage w) <=? id).
Proof.
  intros H.
  assert (D : forall n, 0 <= n -> byte_at id n = id / 2^n - 256 * (id / 2^(n+8))).
  { intros n Hn. rewrite byte_at_div by done. rewrite Z.pow_add_r by lia. rewrite <- Z.div_div by lia.
    pose proof (Z.div_mod (id / 2^n) 256 ltac:(lia)). change (2^8) with 256. lia. }
  assert (B : forall n, 0 <= n -> 0 <= byte_at id n < 256).
  { intros n Hn. unfold byte_at. apply Z.mod_pos_bound. lia. }
  assert (Hi : id / 2^64 = 0) by (apply Z.div_small; lia).
  destruct w; cbn [id_too_large storage].
  - change (pow256 2) with (2^16). pose proof (Z.mod_pos_bound id (2^16) ltac:(lia)). pose proof (Z.mod_le id (2^16) ltac:(lia) ltac:(lia)).
    rewrite u64_id by lia. destruct (Z.leb_spec (2^16) id) as [L|L].
    + destruct (Z.eqb_spec (id - id mod 2^16) 0); [lia|done].
    + rewrite (Z.mod_small id (2^16)) by lia. rewrite Z.sub_diag. done.
  - change (pow256 3) with (2^24).
    pose proof (B 24 ltac:(lia)). pose proof (B 32 ltac:(lia)). pose proof (B 40 ltac:(lia)). pose proof (B 48 ltac:(lia)). pose proof (B 56 ltac:(lia)).
    pose proof (D 24 ltac:(lia)) as D24. pose proof (D 32 ltac:(lia)) as D32. pose proof (D 40 ltac:(lia)) as D40.
    pose proof (D 48 ltac:(lia)) as D48. pose proof (D 56 ltac:(lia)) as D56.
    change (24 + 8) with 32 in D24. change (32 + 8) with 40 in D32. change (40 + 8) with 48 in D40. change (48 + 8) with 56 in D48. change (56 + 8) with 64 in D56.
    assert (Ed : 0 < id / 2^24 <-> 2^24 <= id) by apply (div_pos_iff id (2^24) ltac:(lia) ltac:(lia)).
    assert (0 <= id / 2^24) by (apply Z.div_pos; lia).
    destruct (Z.leb_spec (2^24) id) as [L|L];
      repeat match goal with |- context [?x =? 0] => destruct (Z.eqb_spec x 0) end; try done; exfalso; lia.
  - change (pow256 4) with (2^32). pose proof (Z.mod_pos_bound id (2^32) ltac:(lia)). pose proof (Z.mod_le id (2^32) ltac:(lia) ltac:(lia)).
    rewrite u64_id by lia. destruct (Z.leb_spec (2^32) id) as [L|L].
    + destruct (Z.eqb_spec (id - id mod 2^32) 0); [lia|done].
    + rewrite (Z.mod_small id (2^32)) by lia. rewrite Z.sub_diag. done.
  - change (pow256 5) with (2^40).
    pose proof (B 40 ltac:(lia)). pose proof (B 48 ltac:(lia)). pose proof (B 56 ltac:(lia)).
    pose proof (D 40 ltac:(lia)) as D40. pose proof (D 48 ltac:(lia)) as D48. pose proof (D 56 ltac:(lia)) as D56.
    change (40 + 8) with 48 in D40. change (48 + 8) with 56 in D48. change (56 + 8) with 64 in D56.
    assert (Ed : 0 < id / 2^40 <-> 2^40 <= id) by apply (div_pos_iff id (2^40) ltac:(lia) ltac:(lia)).
    assert (0 <= id / 2^40) by (apply Z.div_pos; lia).
    destruct (Z.leb_spec (2^40) id) as [L|L];
      repeat match goal with |- context [?x =? 0] => destruct (Z.eqb_spec x 0) end; try done; exfalso; lia.
Qed.

(** weddingcakeback: what fits in N bytes comes back, what does not is refused *)
Theorem C33_storage_roundtrip : forall w id, 0 <= id < 2^64 ->
  (id < 256 ^ Z.of_nat (storage w) -> exists b, id_write true w id = Some b /\ length b = storage w /\ bytes b /\ id_read w b = id) /\
  (256 ^ Z.of_nat (storage w) <= id -> id_write true w id = None).
Proof.
  intros w id H. unfold id_write. rewrite id_too_large_spec by done. cbn [andb]. fold (pow256 (storage w)). split; intros H1.
  - destruct (Z.leb_spec (pow256 (storage w)) id); [lia|]. eexists. split; [done|]. rewrite id_bytes_le by lia.
    split_and!; [apply le_enc_length|apply le_enc_bytes|].
    rewrite id_read_le; [|apply le_enc_length|apply le_enc_bytes]. apply le_dec_enc_small. lia.
  - destruct (Z.leb_spec (pow256 (storage w)) id); [done|lia].
Qed.

(** weddingcake: what fits comes back; what does not fit is cut off without a word *)
Theorem C33_unchecked_storage_partial : forall w id, 0 <= id < 2^64 ->
  exists b, id_write false w id = Some b /\ length b = storage w /\ bytes b /\ id_read w b = id mod 256 ^ Z.of_nat (storage w).
Proof.
  intros w id H. unfold id_write. cbn [andb]. eexists. split; [done|]. rewrite id_bytes_le by lia.
  split_and!; [apply le_enc_length|apply le_enc_bytes|].
  rewrite id_read_le; [|apply le_enc_length|apply le_enc_bytes]. apply le_dec_enc.
Qed.

(** the 65536th hash of a chunk with two-byte identifiers is stored as "no match"; the next one as the first hash *)
Theorem C33_unchecked_storage_refuted : exists g off h b, 0 <= off <= g /\ g < 2^63 - 1 /\
  chunk_hid_of_global g off = Some h /\ id_write false ID16 h = Some b /\ id_read ID16 b = 0 /\
  chunk_global_of_hid (id_read ID16 b) off = -1 /\
  exists h' b', chunk_hid_of_global (g + 1) off = Some h' /\ id_write false ID16 h' = Some b' /\ chunk_global_of_hid (id_read ID16 b') off = off.
Proof.
  exists 65535, 0, 65536, [0; 0]. split_and!; [lia|lia|lia|vm_compute; reflexivity..|].
  exists 65537, [1; 0]. split_and!; vm_compute; reflexivity.
Qed.

(** the serialised trees of C29, C30 and C38 use these *)
Theorem C33_tree_identifiers_agree :
  (forall back w id, 0 <= id < 2^64 -> write_id back (storage w) id = id_write back w id) /\
  (forall w b, length b = storage w -> bytes b -> read_id (storage w) b 0 = Some (id_read w b)) /\
  (forall g off, 0 <= off <= g -> g < 2^63 - 1 -> tier_lid off (single_of_global g) = hid_of_global g off).
Proof.
  split_and!.
  - intros back w id H. unfold write_id, id_write. rewrite id_bytes_le by lia. destruct back; [|done]. cbn [andb].
    rewrite id_too_large_spec by done. done.
  - intros w b Hl Hb. unfold read_id, file_read. rewrite decide_True by lia. rewrite drop_0, take_ge by lia. cbn. f_equal. symmetry. by apply id_read_le.
  - intros g off H1 H2. unfold tier_lid, hid_of_global, single_of_global. rewrite (i64_id (g + 1)) by lia. rewrite u64_id by lia.
    destruct (Z.eqb_spec (g + 1) 0); [lia|]. cbv zeta. replace (g + 1 - 1) with g by lia.
    destruct (Z.eqb_spec g (-1)); [lia|]. destruct (Z.ltb_spec g off); [lia|]. rewrite !i64_id by (rewrite ?i64_id; lia). rewrite u64_id by lia. done.
Qed.

Example C33_nontrivial :
  hid_of_global 70000 65535 = Some 4466 /\ global_of_hid 4466 65535 = 70000 /\
  id_write true ID24 70000 = Some [112; 17; 1] /\ id_read ID24 [112; 17; 1] = 70000 /\
  id_write true ID16 70000 = None /\ id_write true ID40 (2^40 - 1) = Some [255; 255; 255; 255; 255] /\ id_write true ID40 (2^40) = None.
Proof. vm_compute. split_and!; reflexivity. Qed.

Print Assumptions C33_conversions_are_inverse.
Print Assumptions C33_storage_roundtrip.
Print Assumptions C33_tree_identifiers_agree.
Print Assumptions C33_chunk_identifiers_come_back.
