(** Reading a serialised node returns what was written (for C29). *)
From Verif Require Import Base Model_Tree Model_Chunk Spec_Chunk.

(** ** Reading slices *)
Lemma file_read_app (a d b : list Z) off n : off = length a -> n = length d -> file_read (a ++ d ++ b) off n = Some d.
Proof.
  intros -> ->. unfold file_read. rewrite decide_True by (rewrite !app_length; lia).
  by rewrite drop_app, take_app.
Qed.
Lemma read_id_app n (a d b : list Z) off v : off = length a -> length d = n -> le_dec d = v -> read_id n (a ++ d ++ b) off = Some v.
Proof. intros H1 H2 <-. unfold read_id. by rewrite (file_read_app a d b). Qed.

Lemma byte_vals_eq : byte_vals = seqZ 0 256.
Proof. done. Qed.
Global Opaque byte_vals.
Lemma drop_two {A} (a b : A) l n : drop (2 + n) (a :: b :: l) = drop n l.
Proof. done. Qed.
Lemma lookup_two {A} (a b : A) l n : (a :: b :: l) !! (2 + n)%nat = l !! n.
Proof. done. Qed.

Lemma mapM_all {A B} (f : A -> option B) (g : A -> B) (l : list A) :
  (forall x, x ∈ l -> f x = Some (g x)) -> mapM f l = Some (g <$> l).
Proof.
  induction l as [|x l IH]; intros H; [done|]. cbn. rewrite (H x) by (by left). cbn.
  rewrite IH by (intros y Hy; apply H; by right). done.
Qed.

Lemma write_id_ok back n id : 0 <= id < pow256 n -> write_id back n id = Some (le_enc n id).
Proof. intros H. unfold write_id. destruct (Z.leb_spec (pow256 n) id); [lia|]. by rewrite andb_false_r. Qed.

(** ** Bits *)
Lemma bits_to_Z_testbit l i : 0 <= i -> Z.testbit (bits_to_Z l) i = default false (l !! Z.to_nat i).
Proof.
  revert i. induction l as [|b l IH]; intros i Hi; [by rewrite Z.testbit_0_l|].
  cbn [bits_to_Z]. rewrite Z.add_comm. destruct (decide (i = 0)) as [->|Hne].
  - rewrite Z.testbit_0_r. done.
  - replace i with (Z.succ (i - 1)) by lia. rewrite Z.testbit_succ_r by lia. rewrite IH by lia.
    replace (Z.to_nat (Z.succ (i - 1))) with (S (Z.to_nat (i - 1))) by lia. done.
Qed.
Lemma bits_to_Z_range l : 0 <= bits_to_Z l < 2 ^ Z.of_nat (length l).
Proof.
  induction l as [|b l IH]; [cbn; lia|]. cbn [bits_to_Z length]. rewrite Nat2Z.inj_succ, Z.pow_succ_r by lia.
  destruct b; cbn [Z.b2z]; lia.
Qed.
Lemma le_dec_testbit l i : bytes l -> 0 <= i ->
  Z.testbit (le_dec l) i = match l !! Z.to_nat (i / 8) with Some b => Z.testbit b (i mod 8) | None => false end.
Proof.
  intros Hb. revert i. induction Hb as [|b l Hb1 Hb IH]; intros i Hi; cbn [le_dec].
  - by rewrite Z.testbit_0_l.
  - unfold is_byte in Hb1. destruct (Z.lt_ge_cases i 8) as [Hlt|Hge].
    + rewrite (Z.div_small i 8), (Z.mod_small i 8) by lia. change (Z.to_nat 0) with 0%nat. cbn [lookup list_lookup].
      rewrite <- (Z.mod_pow2_bits_low _ 8) by lia. change (2 ^ 8) with 256.
      replace ((b + 256 * le_dec l) mod 256) with b; [done|].
      rewrite (Z.mul_comm 256), Z.mod_add by lia. by rewrite Z.mod_small by lia.
    + replace (Z.testbit (b + 256 * le_dec l) i) with (Z.testbit (le_dec l) (i - 8)).
      * rewrite IH by lia. replace ((i - 8) / 8) with (i / 8 - 1) by (replace (i - 8) with (i + (-1) * 8) by lia; rewrite Z.div_add by lia; lia).
        assert (1 <= i / 8) by (apply Z.div_le_lower_bound; lia).
        replace (Z.to_nat (i / 8)) with (S (Z.to_nat (i / 8 - 1))) by lia. cbn [lookup list_lookup].
        replace ((i - 8) mod 8) with (i mod 8); [done|]. replace (i - 8) with (i + (-1) * 8) by lia. by rewrite Z.mod_add by lia.
      * replace i with ((i - 8) + 8) at 2 by lia. rewrite <- Z.div_pow2_bits by lia. change (2 ^ 8) with 256.
        f_equal. rewrite (Z.mul_comm 256), Z.div_add by lia. rewrite Z.div_small by lia. lia.
Qed.

(** ** The words describing a group *)
Lemma lor_add a n b : 0 <= n -> 0 <= b < 2 ^ n -> Z.lor (a * 2 ^ n) b = a * 2 ^ n + b.
Proof.
  intros Hn Hb. assert (Z.land (a * 2 ^ n) b = 0) as Hl.
  { apply Z.bits_inj'. intros i Hi. rewrite Z.land_spec, Z.testbit_0_l. destruct (Z.lt_ge_cases i n).
    - by rewrite Z.mul_pow2_bits_low by lia.
    - destruct (decide (b = 0)) as [->|]; [by rewrite Z.testbit_0_l, andb_false_r|].
      rewrite (Z.bits_above_log2 b i); [by rewrite andb_false_r|lia|]. assert (Z.log2 b < n) by (apply Z.log2_lt_pow2; lia). lia. }
  rewrite <- Z.lxor_lor by done. by rewrite <- Z.add_nocarry_lxor.
Qed.
Lemma land_65535 z : Z.land z 65535 = z mod 2 ^ 16.
Proof. change 65535 with (Z.ones 16). apply Z.land_ones. lia. Qed.
Lemma medium_slots_alt z : medium_slots z = (z / 2 ^ 16) mod 256.
Proof.
  unfold medium_slots. rewrite Z.shiftr_land. change (Z.shiftr 16711680 16) with (Z.ones 8). rewrite Z.land_ones by lia.
  by rewrite Z.shiftr_div_pow2 by lia.
Qed.
Lemma tiny_slots_alt z : tiny_slots z = (z / 2 ^ 24) mod 256.
Proof.
  unfold tiny_slots. rewrite Z.shiftr_land. change (Z.shiftr 4278190080 24) with (Z.ones 8). rewrite Z.land_ones by lia.
  by rewrite Z.shiftr_div_pow2 by lia.
Qed.

Lemma byte_vals_elem v : v ∈ byte_vals <-> 0 <= v < 256.
Proof. rewrite byte_vals_eq, elem_of_seqZ. lia. Qed.

Section Node.
  Context (c : config) (Hc : config_ok c).

  Lemma size_small s : cap_ok s -> (1 <= byte_size c s)%nat /\ Z.of_nat (byte_size c s) < 2 ^ 16.
  Proof using Hc.
    destruct Hc as [Hn Hh HR Hhl _ _ _]. destruct s as [f cap]. unfold cap_ok, byte_size. cbn [s_fmt s_cap]. change (2 ^ 16) with 65536.
    destruct f; intros Hcap; nia.
  Qed.
  Lemma spec_word_range s : cap_ok s -> 0 <= spec_word c s < pow256 4.
  Proof using Hc.
    intros Hcap. pose proof (size_small s Hcap) as [_ Hs]. change (2^16) with 65536 in Hs. change (pow256 4) with 4294967296.
    unfold spec_word. unfold cap_ok in Hcap. destruct (s_fmt s) eqn:E; try lia.
    - rewrite lor_add by (change (2 ^ 24) with 16777216; lia). change (2 ^ 24) with 16777216. lia.
    - rewrite lor_add by (change (2 ^ 16) with 65536; lia). change (2 ^ 16) with 65536. lia.
  Qed.
  Lemma spec_word_size s : cap_ok s -> Z.land (spec_word c s) 65535 = Z.of_nat (byte_size c s).
  Proof using Hc.
    intros Hcap. pose proof (size_small s Hcap) as [_ Hs]. rewrite land_65535. unfold spec_word. unfold cap_ok in Hcap.
    destruct (s_fmt s) eqn:E; try (apply Z.mod_small; lia).
    - rewrite lor_add by (change (2 ^ 24) with 16777216; change (2 ^ 16) with 65536 in Hs; lia).
      replace (Z.of_nat (s_cap s) * 2 ^ 24) with (Z.of_nat (s_cap s) * 2 ^ 8 * 2 ^ 16) by lia.
      rewrite Z.add_comm, Z.mod_add by lia. apply Z.mod_small. lia.
    - rewrite lor_add by lia. rewrite Z.add_comm, Z.mod_add by lia. apply Z.mod_small. lia.
  Qed.
  (** telling the formats apart *)
  Lemma word_full s : s_fmt s = FFull -> spec_word c s = full_word c.
  Proof. intros E. unfold spec_word, full_word, byte_size. by rewrite E. Qed.
  Lemma word_leaf s : cap_ok s -> (spec_word c s =? Z.of_nat (c_R c + c_hid c)) = bool_decide (s_fmt s = FLeaf).
  Proof using Hc.
    intros Hcap. pose proof (size_small s Hcap) as [_ Hs]. change (2^16) with 65536 in Hs. destruct Hc as [Hn Hh HR Hhl _ _ _]. unfold cap_ok in Hcap.
    unfold spec_word. destruct (s_fmt s) eqn:E; unfold byte_size in *; rewrite E in *.
    - rewrite lor_add by (change (2 ^ 24) with 16777216; lia). change (2 ^ 24) with 16777216. rewrite bool_decide_false by done. lia.
    - rewrite lor_add by (change (2 ^ 16) with 65536; lia). change (2 ^ 16) with 65536. rewrite bool_decide_false by done. lia.
    - rewrite bool_decide_false by done. lia.
    - rewrite bool_decide_true by done. lia.
  Qed.
  Lemma word_not_full s : cap_ok s -> s_fmt s <> FFull -> s_fmt s <> FLeaf -> (spec_word c s =? full_word c) = false.
  Proof using Hc.
    intros Hcap H1 H2. pose proof (size_small s Hcap) as [_ Hs]. change (2^16) with 65536 in Hs. destruct Hc as [Hn Hh HR Hhl _ _ _]. unfold cap_ok in Hcap.
    unfold spec_word, full_word. destruct (s_fmt s) eqn:E; try done; unfold byte_size in *; rewrite E in *.
    - rewrite lor_add by (change (2 ^ 24) with 16777216; lia). change (2 ^ 24) with 16777216. lia.
    - rewrite lor_add by (change (2 ^ 16) with 65536; lia). change (2 ^ 16) with 65536. lia.
  Qed.
  Lemma word_medium s : cap_ok s -> s_fmt s = FMedium -> medium_slots (spec_word c s) = Z.of_nat (s_cap s).
  Proof using Hc.
    intros Hcap E. pose proof (size_small s Hcap) as [_ Hs]. rewrite medium_slots_alt. unfold cap_ok in Hcap. rewrite E in Hcap. unfold spec_word. rewrite E.
    rewrite lor_add by lia. rewrite Z.add_comm, Z.div_add by lia. rewrite Z.div_small by lia. apply Z.mod_small. lia.
  Qed.
  Lemma word_tiny s : cap_ok s -> s_fmt s = FTiny -> medium_slots (spec_word c s) = 0 /\ tiny_slots (spec_word c s) = Z.of_nat (s_cap s).
  Proof using Hc.
    intros Hcap E. pose proof (size_small s Hcap) as [_ Hs]. rewrite medium_slots_alt, tiny_slots_alt. unfold cap_ok in Hcap. rewrite E in Hcap. unfold spec_word. rewrite E.
    change (2 ^ 16) with 65536 in Hs. rewrite lor_add by (change (2 ^ 24) with 16777216; lia). split.
    - replace (Z.of_nat (s_cap s) * 2 ^ 24) with (Z.of_nat (s_cap s) * 2 ^ 8 * 2 ^ 16) by lia. rewrite Z.add_comm, Z.div_add by lia.
      rewrite Z.div_small by (change (2 ^ 16) with 65536; lia). change (2 ^ 8) with 256. rewrite Z.add_0_l. by rewrite Z.mod_mul by lia.
    - rewrite Z.add_comm, Z.div_add by lia. rewrite Z.div_small by (change (2 ^ 24) with 16777216; lia). apply Z.mod_small. lia.
  Qed.

  (** ** The slots of a node *)
  Context (ch : Z -> option Z) (Hch : forall v id, 0 <= v < 256 -> ch v = Some id -> 0 < id < pow256 (c_nid c)).

  Lemma ch_default v : 0 <= v < 256 -> 0 <= default 0 (ch v) < pow256 (c_nid c).
  Proof using Hch. intros Hv. pose proof (pow256_pos (c_nid c)). destruct (ch v) eqn:E; cbn; [apply Hch in E; lia|lia]. Qed.

  Lemma byte_vals_lookup v : 0 <= v < 256 -> byte_vals !! Z.to_nat v = Some v.
  Proof. intros H. rewrite byte_vals_eq. rewrite lookup_seqZ. lia. Qed.
  Lemma chunks_enc {A} (f : A -> Z) (l : list A) : chunks (c_nid c) ((fun x => le_enc (c_nid c) (f x)) <$> l).
  Proof. apply Forall_fmap, Forall_forall. intros x _. cbn. apply le_enc_length. Qed.

  Context (bi : Z).
  (** the full table *)
  Definition full_bytes : list Z := (if c_back c then 170 else 0) :: bi :: concat ((fun v => le_enc (c_nid c) (default 0 (ch v))) <$> byte_vals).
  Lemma encode_full_eq : encode_full c bi ch = Some full_bytes.
  Proof using Hch.
    unfold encode_full. rewrite (mapM_all _ (fun v => le_enc (c_nid c) (default 0 (ch v)))); [done|].
    intros v Hv%byte_vals_elem. by apply write_id_ok, ch_default.
  Qed.
  Lemma full_bytes_length : length full_bytes = (1 + 1 + 256 * c_nid c)%nat.
  Proof.
    unfold full_bytes. cbn [length]. rewrite (chunks_concat_length (c_nid c)) by apply chunks_enc. rewrite fmap_length.
    rewrite byte_vals_eq. rewrite seqZ_length. change (Z.to_nat 256) with 256%nat. lia.
  Qed.
  Lemma full_next v : 0 <= v < 256 -> next_id c (full_word c) full_bytes v = Some (default 0 (ch v)).
  Proof using Hch.
    intros Hv. unfold next_id. rewrite Z.eqb_refl. unfold read_id, file_read. rewrite decide_True.
    - unfold full_bytes. rewrite <- drop_drop. cbn [drop]. rewrite drop_0. rewrite (chunks_read (c_nid c)) by apply chunks_enc.
      rewrite list_lookup_fmap, byte_vals_lookup by done. cbn. f_equal. by apply le_dec_enc_small, ch_default.
    - rewrite full_bytes_length. nia.
  Qed.
  Lemma full_byte_index : byte_index c (full_word c) full_bytes = Some bi.
  Proof. unfold byte_index. rewrite Z.eqb_refl. cbn. by destruct (c_back c). Qed.

  (** the bitmap *)
  Lemma flag_bytes_bytes : bytes (flag_bytes ch).
  Proof.
    unfold flag_bytes. apply Forall_fmap, Forall_forall. intros b _. cbn. unfold is_byte, flag_byte.
    pose proof (bits_to_Z_range (map (fun j => bool_decide (is_Some (ch (8 * b + j)))) (seqZ 0 8))) as H. rewrite map_length, seqZ_length in H. exact H.
  Qed.
  Lemma flag_bytes_length : length (flag_bytes ch) = 32%nat.
  Proof. unfold flag_bytes. by rewrite map_length, seqZ_length. Qed.
  Lemma flag_bytes_lookup i : (i < 32)%nat -> flag_bytes ch !! i = Some (flag_byte ch (Z.of_nat i)).
  Proof.
    intros H. unfold flag_bytes. change (map (flag_byte ch)) with (fmap (M:=list) (flag_byte ch)). rewrite list_lookup_fmap.
    replace (seqZ 0 32 !! i) with (Some (Z.of_nat i)); [done|]. symmetry. apply lookup_seqZ. lia.
  Qed.
  Lemma flag_byte_testbit b j : 0 <= j < 8 -> Z.testbit (flag_byte ch b) j = bool_decide (is_Some (ch (8 * b + j))).
  Proof.
    intros Hj. unfold flag_byte. rewrite bits_to_Z_testbit by lia.
    change (map (fun j => bool_decide (is_Some (ch (8 * b + j))))) with (fmap (M:=list) (fun j => bool_decide (is_Some (ch (8 * b + j))))).
    rewrite list_lookup_fmap. replace (seqZ 0 8 !! Z.to_nat j) with (Some j); [done|]. symmetry. apply lookup_seqZ. lia.
  Qed.
  (** the four 64-bit blocks *)
  Definition block (k : nat) : Z := le_dec (take 8 (drop (8 * k) (flag_bytes ch))).
  Lemma block_testbit k i : (k < 4)%nat -> 0 <= i < 64 -> Z.testbit (block k) i = bool_decide (is_Some (ch (64 * Z.of_nat k + i))).
  Proof.
    intros Hk Hi. unfold block. rewrite le_dec_testbit; [|apply Forall_take, Forall_drop, flag_bytes_bytes|lia].
    assert (0 <= i / 8 < 8) by (split; [apply Z.div_pos; lia|apply Z.div_lt_upper_bound; lia]).
    rewrite lookup_take by lia. rewrite lookup_drop, flag_bytes_lookup by lia.
    pose proof (Z.mod_pos_bound i 8). rewrite flag_byte_testbit by lia.
    replace (8 * Z.of_nat (8 * k + Z.to_nat (i / 8)) + i mod 8) with (64 * Z.of_nat k + i); [done|].
    pose proof (Z.div_mod i 8). lia.
  Qed.

  Lemma omap_count (l : list Z) : length (omap ch l) = length (filter (fun v => is_Some (ch v)) l).
  Proof.
    induction l as [|v l IH]; [done|]. cbn [omap list_omap]. rewrite filter_cons. destruct (ch v) as [id|] eqn:E.
    - rewrite decide_True by eauto. cbn. by rewrite IH.
    - rewrite decide_False by (intros [? [=]]). done.
  Qed.
  Lemma filter_shift (P Q : Z -> Prop) `{HP : !forall x, Decision (P x)} `{HQ : !forall x, Decision (Q x)} a n b :
    (forall i, 0 <= i < n -> (P (a + i) <-> Q (b + i))) -> length (filter P (seqZ a n)) = length (filter Q (seqZ b n)).
  Proof.
    destruct (Z.lt_ge_cases n 0); [intros _; rewrite !seqZ_nil by lia; done|].
    revert a b. pattern n. apply natlike_ind; [intros; by rewrite !seqZ_nil by lia| |done].
    clear n H. intros n Hn IH a b Hpq. rewrite !(seqZ_cons _ (Z.succ n)) by lia. rewrite !Z.pred_succ. rewrite !filter_cons.
    pose proof (Hpq 0 ltac:(lia)) as Hz. rewrite !Z.add_0_r in Hz.
    assert (length (filter P (seqZ (Z.succ a) n)) = length (filter Q (seqZ (Z.succ b) n))) as E.
    { apply IH. intros i Hi. specialize (Hpq (i + 1) ltac:(lia)). replace (Z.succ a + i) with (a + (i + 1)) by lia. replace (Z.succ b + i) with (b + (i + 1)) by lia. done. }
    destruct (decide (P a)), (decide (Q b)); cbn [length]; tauto || lia.
  Qed.
  Lemma popcount_masked z m : 0 <= m <= 64 -> popcount (Z.land z (2 ^ m - 1)) = length (filter (fun i => Z.testbit z i = true) (seqZ 0 m)).
  Proof.
    intros Hm. unfold popcount. replace 64 with (m + (64 - m)) by lia. rewrite seqZ_app by lia. rewrite filter_app, app_length.
    replace (2 ^ m - 1) with (Z.ones m) by (rewrite Z.ones_equiv; lia).
    rewrite (filter_shift (fun i => Z.testbit (Z.land z (Z.ones m)) i = true) (fun i => Z.testbit z i = true) 0 m 0).
    - rewrite (filter_shift (fun i => Z.testbit (Z.land z (Z.ones m)) i = true) (fun i => False) (0 + m) (64 - m) 0).
      + induction (seqZ 0 (64 - m)) as [|x l IH]; [cbn; lia|]. rewrite filter_cons, decide_False by tauto. done.
      + intros i Hi. rewrite Z.land_spec, Z.ones_spec_high by lia. rewrite andb_false_r. split; done.
    - intros i Hi. rewrite Z.land_spec, Z.ones_spec_low by lia. by rewrite andb_true_r.
  Qed.
  Lemma popcount_block k m : (k < 4)%nat -> 0 <= m <= 64 ->
    length (filter (fun i => Z.testbit (block k) i = true) (seqZ 0 m)) = length (omap ch (seqZ (64 * Z.of_nat k) m)).
  Proof.
    intros Hk Hm. rewrite omap_count. apply filter_shift. intros i Hi. rewrite Z.add_0_l, block_testbit by lia. by rewrite bool_decide_eq_true.
  Qed.
  Lemma popcount_whole k : (k < 4)%nat -> popcount (block k) = length (omap ch (seqZ (64 * Z.of_nat k) 64)).
  Proof. intros Hk. apply (popcount_block k 64); [done|lia]. Qed.

  Definition medium_bytes (cap : nat) : list Z :=
    (if c_back c then 85 else 0) :: bi :: flag_bytes ch ++ concat (le_enc (c_nid c) <$> omap ch byte_vals) ++
      replicate ((cap - length (omap ch byte_vals)) * c_nid c) 0.
  Lemma encode_medium_eq cap : (length (omap ch byte_vals) <= cap)%nat -> encode_medium c cap bi ch = Some (medium_bytes cap).
  Proof using Hch.
    intros Hcap. unfold encode_medium. rewrite (mapM_all _ (le_enc (c_nid c))).
    - cbn [mbind option_bind]. rewrite fmap_length. destruct (Nat.ltb_spec cap (length (omap ch byte_vals))); [lia|]. done.
    - intros id Hid. apply elem_of_list_omap in Hid as (v & Hv%byte_vals_elem & E). apply write_id_ok. apply Hch in E; lia.
  Qed.
  Lemma medium_bytes_length cap : (length (omap ch byte_vals) <= cap)%nat -> length (medium_bytes cap) = (1 + 1 + 32 + cap * c_nid c)%nat.
  Proof.
    intros Hcap. unfold medium_bytes. cbn [length]. rewrite !app_length, flag_bytes_length, replicate_length.
    rewrite (chunks_concat_length (c_nid c)) by apply (chunks_enc (fun x => x)). rewrite fmap_length. nia.
  Qed.
  Lemma read_block cap k : (k < 4)%nat -> (length (omap ch byte_vals) <= cap)%nat -> read_id 8 (medium_bytes cap) (2 + 8 * k) = Some (block k).
  Proof.
    intros Hk Hcap. unfold read_id, file_read. rewrite decide_True by (rewrite medium_bytes_length by done; lia). cbn [fmap option_fmap option_map].
    unfold block, medium_bytes. rewrite drop_two. rewrite drop_app_le by (rewrite flag_bytes_length; lia).
    rewrite take_app_le by (rewrite drop_length, flag_bytes_length; lia). done.
  Qed.
  Lemma medium_next cap w v : 0 <= v < 256 -> (length (omap ch byte_vals) <= cap)%nat -> (w =? full_word c) = false -> 0 < medium_slots w ->
    next_id c w (medium_bytes cap) v = Some (default 0 (ch v)).
  Proof using Hch.
    intros Hv Hcap Hw Hm. unfold next_id. rewrite Hw. destruct (Z.ltb_spec 0 (medium_slots w)); [|lia].
    assert (0 <= v / 8 < 32) as Hq by (split; [apply Z.div_pos; lia|apply Z.div_lt_upper_bound; lia]).
    assert (medium_bytes cap !! (2 + Z.to_nat (v / 8))%nat = Some (flag_byte ch (v / 8))) as ->.
    { unfold medium_bytes. rewrite lookup_two. rewrite lookup_app_l by (rewrite flag_bytes_length; lia).
      rewrite flag_bytes_lookup by lia. by rewrite Z2Nat.id by lia. }
    cbn [mbind option_bind]. pose proof (Z.mod_pos_bound v 8 ltac:(lia)). rewrite flag_byte_testbit by lia.
    rewrite <- (Z.div_mod v 8) by lia. destruct (ch v) as [id|] eqn:E.
    2: { rewrite bool_decide_false by (by intros [? [=]]). done. }
    rewrite bool_decide_true by eauto. cbn [negb].
    rewrite (read_block cap 0 : (_ -> _ -> read_id 8 _ 2 = _)), (read_block cap 1 : (_ -> _ -> read_id 8 _ 10 = _)), (read_block cap 2 : (_ -> _ -> read_id 8 _ 18 = _)), (read_block cap 3 : (_ -> _ -> read_id 8 _ 26 = _)) by (lia || done). cbn [mbind option_bind].
    assert (0 <= v / 64 < 4) as Hq64 by (split; [apply Z.div_pos; lia|apply Z.div_lt_upper_bound; lia]).
    pose proof (Z.mod_pos_bound v 64 ltac:(lia)) as Hm64. pose proof (Z.div_mod v 64 ltac:(lia)) as Hdm.
    rewrite !popcount_masked by lia. rewrite !popcount_block by lia. rewrite !popcount_whole by lia.
    match goal with |- read_id _ _ (34 + ?o * _) = _ => assert (o = length (omap ch (seqZ 0 v))) as -> end.
    { assert (forall a n m x, 0 <= n -> 0 <= m -> x = n + m -> length (omap ch (seqZ a x)) = (length (omap ch (seqZ a n)) + length (omap ch (seqZ (a + n)%Z m)))%nat) as Happ.
      { intros a n m x Hn Hm' ->. rewrite seqZ_app by lia. by rewrite omap_app, app_length. }
      change (64 * Z.of_nat 0) with 0. change (64 * Z.of_nat 1) with (0 + 64). change (64 * Z.of_nat 2) with (0 + 128). change (64 * Z.of_nat 3) with (0 + 192).
      pose proof (Happ 0 64 64 128 ltac:(lia) ltac:(lia) ltac:(lia)) as H1. pose proof (Happ 0 128 64 192 ltac:(lia) ltac:(lia) ltac:(lia)) as H2.
      destruct (Z.eqb_spec (v / 64) 0) as [E0|E0]; [replace (v mod 64) with v by lia; done|].
      destruct (Z.eqb_spec (v / 64) 1) as [E1|E1]; [pose proof (Happ 0 64 (v mod 64) v ltac:(lia) ltac:(lia) ltac:(lia)); lia|].
      destruct (Z.eqb_spec (v / 64) 2) as [E2|E2]; [pose proof (Happ 0 128 (v mod 64) v ltac:(lia) ltac:(lia) ltac:(lia)); lia|].
      assert (v / 64 = 3) as E3 by lia. pose proof (Happ 0 192 (v mod 64) v ltac:(lia) ltac:(lia) ltac:(lia)); lia. }
    assert (omap ch byte_vals !! length (omap ch (seqZ 0 v)) = Some id) as El.
    { rewrite byte_vals_eq. replace 256 with (v + (256 - v)) by lia. rewrite seqZ_app, omap_app by lia.
      rewrite lookup_app_r by done. rewrite Nat.sub_diag. rewrite seqZ_cons by lia. cbn [omap list_omap]. rewrite Z.add_0_l, E. done. }
    pose proof (lookup_lt_Some _ _ _ El) as Hlt.
    unfold read_id, file_read. rewrite decide_True by (rewrite medium_bytes_length by done; nia). cbn [fmap option_fmap option_map].
    unfold medium_bytes. change 34%nat with (2 + 32)%nat. rewrite <- Nat.add_assoc. rewrite drop_two, <- drop_drop.
    replace (drop 32 _) with (concat (le_enc (c_nid c) <$> omap ch byte_vals) ++ replicate ((cap - length (omap ch byte_vals)) * c_nid c) 0).
    2: { symmetry. apply drop_app_alt. by rewrite flag_bytes_length. }
    set (o := length (omap ch (seqZ 0 v))) in *.
    rewrite drop_app_le by (rewrite (chunks_concat_length (c_nid c)) by apply (chunks_enc (fun x => x)); rewrite fmap_length; nia).
    rewrite take_app_le by (rewrite drop_length, (chunks_concat_length (c_nid c)) by apply (chunks_enc (fun x => x)); rewrite fmap_length; nia).
    rewrite (chunks_read (c_nid c)) by apply (chunks_enc (fun x => x)). rewrite list_lookup_fmap, El. cbn. f_equal.
    apply le_dec_enc_small. apply Hch in E; lia.
  Qed.
  Lemma medium_byte_index cap w : (w =? full_word c) = false -> 0 < medium_slots w -> byte_index c w (medium_bytes cap) = Some bi.
  Proof.
    intros Hw Hm. unfold byte_index. rewrite Hw. destruct (Z.ltb_spec 0 (medium_slots w)); [|lia]. cbn. by destruct (c_back c).
  Qed.

  (** the short list *)
  Definition tiny_one (p : Z * Z) : list Z := fst p :: le_enc (c_nid c) (snd p).
  Definition pairs (l : list Z) : list (Z * Z) := omap (fun v => pair v <$> ch v) l.
  Lemma pairs_length l : length (pairs l) = length (omap ch l).
  Proof. unfold pairs. induction l as [|v l IH]; [done|]. cbn [omap list_omap]. destruct (ch v); cbn; by rewrite IH. Qed.
  Definition tiny_bytes (cap : nat) : list Z :=
    bi :: concat (tiny_one <$> (pairs byte_vals ++ replicate (cap - length (pairs byte_vals)) (0, 0))).
  Lemma tiny_one_length p : length (tiny_one p) = S (c_nid c).
  Proof. unfold tiny_one. cbn [length]. by rewrite le_enc_length. Qed.
  Lemma tiny_chunks ps : chunks (S (c_nid c)) (tiny_one <$> ps).
  Proof. apply Forall_fmap, Forall_forall. intros x _. apply tiny_one_length. Qed.
  Lemma tiny_concat_length ps : length (concat (tiny_one <$> ps)) = (length ps * S (c_nid c))%nat.
  Proof. rewrite (chunks_concat_length (S (c_nid c))) by apply tiny_chunks. by rewrite fmap_length. Qed.
  Lemma tiny_bytes_length cap : (length (omap ch byte_vals) <= cap)%nat -> length (tiny_bytes cap) = (1 + cap * (1 + c_nid c))%nat.
  Proof.
    intros H. unfold tiny_bytes. cbn [length]. rewrite tiny_concat_length, app_length, replicate_length, pairs_length. 
    replace (length (omap ch byte_vals) + (cap - length (omap ch byte_vals)))%nat with cap by lia. lia.
  Qed.
  Lemma tiny_entries (l : list Z) : (forall v, v ∈ l -> 0 <= v < 256) -> mapM (tiny_entry c ch) l = Some ((fun v => match ch v with Some id => tiny_one (v, id) | None => [] end) <$> l).
  Proof using Hch.
    intros Hl. apply mapM_all. intros v Hv%Hl. unfold tiny_entry. destruct (ch v) as [id|] eqn:E; [|done].
    rewrite write_id_ok; [done|]. apply Hch in E; lia.
  Qed.
  Lemma concat_entries l : concat ((fun v => match ch v with Some id => tiny_one (v, id) | None => [] end) <$> l) = concat (tiny_one <$> pairs l).
  Proof. unfold pairs. induction l as [|v l IH]; [done|]. cbn. destruct (ch v); cbn; by rewrite IH. Qed.
  Lemma le_enc_zero n : le_enc n 0 = replicate n 0.
  Proof. induction n as [|n IH]; [done|]. cbn. by rewrite Zdiv_0_l, IH, Zmod_0_l. Qed.
  Lemma tiny_padding n : concat (tiny_one <$> replicate n (0, 0)) = replicate (n * S (c_nid c)) 0.
  Proof.
    induction n as [|n IH]; [done|]. cbn [replicate fmap list_fmap concat]. rewrite IH. unfold tiny_one. cbn [fst snd]. rewrite le_enc_zero.
    change (0 :: replicate (c_nid c) 0) with (replicate (S (c_nid c)) 0). rewrite <- replicate_add. done.
  Qed.
  Lemma encode_tiny_eq cap : (cap <= 5)%nat -> (length (omap ch byte_vals) <= cap)%nat -> encode_tiny c cap bi ch = Some (tiny_bytes cap).
  Proof using Hc Hch.
    intros Hcap Hl. destruct Hc as [Hn _ _ _ _ _ _]. unfold encode_tiny. destruct (Nat.ltb_spec 46 (1 + (1 + c_nid c) * cap)); [nia|].
    rewrite tiny_entries by (intros v; apply byte_vals_elem). cbn [mbind option_bind]. rewrite concat_entries, tiny_concat_length, pairs_length.
    destruct (Nat.ltb_spec 46 (1 + length (omap ch byte_vals) * S (c_nid c))); [nia|]. f_equal.
    unfold tiny_bytes. change (1 + (1 + c_nid c) * cap)%nat with (S ((1 + c_nid c) * cap)). cbn [take]. f_equal.
    rewrite fmap_app, concat_app, tiny_padding. rewrite take_app_ge by (rewrite tiny_concat_length, pairs_length; nia). f_equal.
    rewrite tiny_concat_length, pairs_length. rewrite take_replicate. f_equal. nia.
  Qed.
  Fixpoint assoc_first (ps : list (Z * Z)) (v : Z) : Z :=
    match ps with [] => 0 | p :: ps' => if fst p =? v then snd p else assoc_first ps' v end.
  Lemma tiny_scan_spec ps pre v : (forall p, p ∈ ps -> 0 <= snd p < pow256 (c_nid c)) ->
    tiny_scan c (pre ++ concat (tiny_one <$> ps)) (length ps) (length pre) v = Some (assoc_first ps v).
  Proof.
    revert pre. induction ps as [|p ps IH]; intros pre Hp; [done|]. cbn [length fmap list_fmap concat tiny_scan assoc_first].
    assert ((pre ++ tiny_one p ++ concat (tiny_one <$> ps)) !! length pre = Some (fst p)) as ->.
    { rewrite lookup_app_r by lia. by rewrite Nat.sub_diag. }
    cbn [mbind option_bind]. destruct (fst p =? v).
    - replace (pre ++ tiny_one p ++ concat (tiny_one <$> ps)) with ((pre ++ [fst p]) ++ le_enc (c_nid c) (snd p) ++ concat (tiny_one <$> ps)) by (by rewrite <- app_assoc).
      apply read_id_app; [rewrite app_length; cbn; lia|apply le_enc_length|]. apply le_dec_enc_small, Hp. by left.
    - rewrite app_assoc. replace (S (length pre) + c_nid c)%nat with (length (pre ++ tiny_one p)) by (rewrite app_length, tiny_one_length; lia).
      apply IH. intros q Hq. apply Hp. by right.
  Qed.
  Lemma assoc_first_pairs l tl v : v ∈ l -> assoc_first tl v = 0 -> assoc_first (pairs l ++ tl) v = default 0 (ch v).
  Proof.
    intros Hv Ht. induction l as [|x l IH]; [by apply elem_of_nil in Hv|]. unfold pairs. cbn [omap list_omap].
    destruct (decide (x = v)) as [->|Hne].
    - destruct (ch v) as [id|] eqn:E; cbn.
      + by rewrite Z.eqb_refl.
      + clear IH Hv. induction l as [|y l IH]; [done|]. cbn [omap list_omap]. destruct (decide (y = v)) as [->|]; [rewrite E; exact IH|].
        destruct (ch y); [|exact IH]. cbn. destruct (Z.eqb_spec y v); [done|exact IH].
    - apply elem_of_cons in Hv as [->|Hv]; [done|]. destruct (ch x); [|by apply IH]. cbn. destruct (Z.eqb_spec x v); [done|]. by apply IH.
  Qed.
  Lemma assoc_first_zero n v : assoc_first (replicate n (0, 0)) v = 0.
  Proof. induction n as [|n IH]; [done|]. cbn [replicate assoc_first fst snd]. by destruct (0 =? v). Qed.
  Lemma tiny_next cap w v : 0 <= v < 256 -> (length (omap ch byte_vals) <= cap)%nat -> (0 < cap)%nat -> (w =? full_word c) = false -> medium_slots w = 0 -> tiny_slots w = Z.of_nat cap ->
    next_id c w (tiny_bytes cap) v = Some (default 0 (ch v)).
  Proof using Hch.
    intros Hv Hl Hpos Hw Hm Ht. unfold next_id. rewrite Hw, Hm, Ht. cbn [Z.ltb Z.compare]. destruct (Z.ltb_spec 0 (Z.of_nat cap)); [|lia].
    rewrite Nat2Z.id. unfold tiny_bytes. set (ps := pairs byte_vals ++ _).
    assert (length ps = cap) as Hps by (unfold ps; rewrite app_length, replicate_length, pairs_length; lia).
    pose proof (tiny_scan_spec ps [bi] v) as Hs. cbn [length app] in Hs. rewrite Hps in Hs. rewrite Hs.
    - f_equal. apply assoc_first_pairs; [|apply assoc_first_zero]. rewrite byte_vals_eq. apply elem_of_seqZ. lia.
    - intros p Hp. apply elem_of_app in Hp as [Hp|Hp].
      + unfold pairs in Hp. apply elem_of_list_omap in Hp as (x & Hx%byte_vals_elem & E). destruct (ch x) as [id|] eqn:E'; [|done]. injection E as <-. cbn. apply Hch in E'; lia.
      + apply elem_of_replicate in Hp as [-> _]. cbn. pose proof (pow256_pos (c_nid c)). lia.
  Qed.
  Lemma tiny_byte_index cap w : (w =? full_word c) = false -> medium_slots w = 0 -> 0 < tiny_slots w -> byte_index c w (tiny_bytes cap) = Some bi.
  Proof. intros Hw Hm Ht. unfold byte_index. rewrite Hw, Hm. cbn [Z.ltb Z.compare]. destruct (Z.ltb_spec 0 (tiny_slots w)); [done|lia]. Qed.

  (** ** Together *)
  Definition node_bytes (s : nspec) : list Z :=
    match s_fmt s with FTiny => tiny_bytes (s_cap s) | FMedium => medium_bytes (s_cap s) | _ => full_bytes end.
  Lemma fits_alt s : fits ch s -> cap_ok s /\ s_fmt s <> FLeaf /\ (s_fmt s <> FFull -> (length (omap ch byte_vals) <= s_cap s)%nat).
  Proof. unfold fits, used. by rewrite <- byte_vals_eq, <- omap_count. Qed.
  Lemma encode_slots_eq s : fits ch s -> encode_slots c s bi ch = Some (node_bytes s).
  Proof using Hc Hch.
    intros (Hcap & Hl & Hf)%fits_alt. unfold encode_slots, node_bytes, cap_ok in *. destruct (s_fmt s); [| | |done].
    - apply encode_tiny_eq; [lia|by apply Hf].
    - apply encode_medium_eq. by apply Hf.
    - apply encode_full_eq.
  Qed.
  Lemma node_bytes_length s : fits ch s -> length (node_bytes s) = byte_size c s.
  Proof.
    intros (Hcap & Hl & Hf)%fits_alt. unfold node_bytes, byte_size. destruct (s_fmt s); [| | |done].
    - apply tiny_bytes_length. by apply Hf.
    - apply medium_bytes_length. by apply Hf.
    - apply full_bytes_length.
  Qed.
  Lemma node_next s v : fits ch s -> 0 <= v < 256 -> next_id c (spec_word c s) (node_bytes s) v = Some (default 0 (ch v)).
  Proof using Hc Hch.
    intros (Hcap & Hl & Hf)%fits_alt Hv. unfold node_bytes. destruct (s_fmt s) eqn:E; [| | |done].
    - pose proof (word_tiny s Hcap E) as [Hm Ht]. unfold cap_ok in *. rewrite E in *. apply tiny_next; try done; [by apply Hf|lia|].
      apply word_not_full; [unfold cap_ok; by rewrite E|by rewrite E|by rewrite E].
    - pose proof (word_medium s Hcap E) as Hm. apply medium_next; try done; [by apply Hf|apply word_not_full; [done|by rewrite E|by rewrite E]|].
      unfold cap_ok in *. rewrite E in *. lia.
    - rewrite (word_full s E). by apply full_next.
  Qed.
  Lemma node_byte_index s : fits ch s -> byte_index c (spec_word c s) (node_bytes s) = Some bi.
  Proof using Hc Hch.
    intros (Hcap & Hl & Hf)%fits_alt. unfold node_bytes. destruct (s_fmt s) eqn:E; [| | |done].
    - pose proof (word_tiny s Hcap E) as [Hm Ht]. unfold cap_ok in *. rewrite E in *. apply tiny_byte_index; try done; [|lia].
      apply word_not_full; [unfold cap_ok; by rewrite E|by rewrite E|by rewrite E].
    - pose proof (word_medium s Hcap E) as Hm. apply medium_byte_index; try done; [apply word_not_full; [done|by rewrite E|by rewrite E]|].
      unfold cap_ok in *. rewrite E in *. lia.
    - rewrite (word_full s E). apply full_byte_index.
  Qed.

  (** every child *)
  Lemma nonzero_all l : (forall x, x ∈ l -> x <> 0) -> nonzero l = l.
  Proof using.
    unfold nonzero. induction l as [|x l IH]; intros H; [done|]. rewrite filter_cons_True by (apply H; by left). f_equal. apply IH. intros y Hy. apply H. by right.
  Qed.
  Lemma nonzero_app l l' : nonzero (l ++ l') = nonzero l ++ nonzero l'.
  Proof using. apply filter_app. Qed.
  Lemma nonzero_padding n : nonzero (snd <$> replicate n (0, 0)) = [].
  Proof using.
    unfold nonzero. induction n as [|n IH]; [done|]. cbn [replicate]. rewrite fmap_cons, filter_cons_False; [exact IH|]. intros H'. by apply H'.
  Qed.
  Lemma omap_nonzero x : x ∈ omap ch byte_vals -> 0 < x < pow256 (c_nid c).
  Proof using Hch. intros Hx. apply elem_of_list_omap in Hx as (v & Hv%byte_vals_elem & E). by apply Hch in E. Qed.
  Lemma nonzero_default l : (forall v, v ∈ l -> 0 <= v < 256) -> nonzero ((fun v => default 0 (ch v)) <$> l) = omap ch l.
  Proof using Hch.
    unfold nonzero. induction l as [|v l IH]; intros H; [done|]. rewrite fmap_cons. cbn [omap list_omap]. pose proof (H v ltac:(by left)) as Hv. pose proof (IH (fun w Hw => H w (elem_of_list_further _ _ _ Hw))) as E.
    destruct (ch v) as [id|] eqn:Ev; cbn [default from_option].
    - unfold Datatypes.id. rewrite filter_cons_True by (apply Hch in Ev; lia). f_equal. exact E.
    - rewrite filter_cons_False by (intros H'; apply H'; done). exact E.
  Qed.
  Lemma full_all : all_ids c (full_word c) full_bytes = Some (omap ch byte_vals).
  Proof using Hch.
    unfold all_ids. rewrite Z.eqb_refl. rewrite (mapM_all _ (fun v => default 0 (ch v))).
    - cbn [fmap option_fmap option_map]. rewrite nonzero_default; [done|]. intros v. apply byte_vals_elem.
    - intros v Hv%byte_vals_elem. pose proof (full_next v Hv) as E. unfold next_id in E. by rewrite Z.eqb_refl in E.
  Qed.
  Lemma mapM_reads (g : nat -> option Z) (l : list Z) : (forall i x, l !! i = Some x -> g i = Some x) -> mapM g (seq 0 (length l)) = Some l.
  Proof using.
    intros H. apply mapM_Some_2. apply Forall2_same_length_lookup. rewrite seq_length. split; [done|].
    intros i j x Hi Hx. apply lookup_seq in Hi as [-> _]. cbn. by apply H.
  Qed.
  Lemma medium_all cap w : (length (omap ch byte_vals) <= cap)%nat -> (w =? full_word c) = false -> 0 < medium_slots w ->
    all_ids c w (medium_bytes cap) = Some (omap ch byte_vals).
  Proof using Hch.
    intros Hcap Hw Hm. unfold all_ids. rewrite Hw. destruct (Z.ltb_spec 0 (medium_slots w)); [|lia].
    rewrite (read_block cap 0 : (_ -> _ -> read_id 8 _ 2 = _)), (read_block cap 1 : (_ -> _ -> read_id 8 _ 10 = _)), (read_block cap 2 : (_ -> _ -> read_id 8 _ 18 = _)), (read_block cap 3 : (_ -> _ -> read_id 8 _ 26 = _)) by (lia || done). cbn [mbind option_bind].
    rewrite !popcount_whole by lia.
    assert (length (omap ch (seqZ (64 * Z.of_nat 0) 64)) + length (omap ch (seqZ (64 * Z.of_nat 1) 64)) + length (omap ch (seqZ (64 * Z.of_nat 2) 64)) + length (omap ch (seqZ (64 * Z.of_nat 3) 64)) = length (omap ch byte_vals))%nat as ->.
    { assert (forall a n m, 0 <= n -> 0 <= m -> length (omap ch (seqZ a (n + m))) = (length (omap ch (seqZ a n)) + length (omap ch (seqZ (a + n) m)))%nat) as Happ.
      { intros a n m Hn Hm'. rewrite seqZ_app by lia. by rewrite omap_app, app_length. }
      rewrite byte_vals_eq. pose proof (Happ 0 192 64 ltac:(lia) ltac:(lia)) as H1. pose proof (Happ 0 128 64 ltac:(lia) ltac:(lia)) as H2. pose proof (Happ 0 64 64 ltac:(lia) ltac:(lia)) as H3.
      change (64 * Z.of_nat 0) with 0. change (64 * Z.of_nat 1) with (0 + 64). change (64 * Z.of_nat 2) with (0 + 128). change (64 * Z.of_nat 3) with (0 + 192).
      change (192 + 64) with 256 in H1. change (128 + 64) with 192 in H2. change (64 + 64) with 128 in H3. rewrite H1, H2, H3. done. }
    rewrite mapM_reads; [cbn [fmap option_fmap option_map]; rewrite nonzero_all; [done|]; intros x Hx%omap_nonzero; lia|].
    intros o id El. pose proof (lookup_lt_Some _ _ _ El) as Hlt. pose proof (omap_nonzero id (elem_of_list_lookup_2 _ _ _ El)) as Hid.
    unfold read_id, file_read. rewrite decide_True by (rewrite medium_bytes_length by done; nia). cbn [fmap option_fmap option_map].
    unfold medium_bytes. change 34%nat with (2 + 32)%nat. rewrite <- Nat.add_assoc. rewrite drop_two, <- drop_drop.
    replace (drop 32 _) with (concat (le_enc (c_nid c) <$> omap ch byte_vals) ++ replicate ((cap - length (omap ch byte_vals)) * c_nid c) 0).
    2: { symmetry. apply drop_app_alt. by rewrite flag_bytes_length. }
    rewrite drop_app_le by (rewrite (chunks_concat_length (c_nid c)) by apply (chunks_enc (fun x => x)); rewrite fmap_length; nia).
    rewrite take_app_le by (rewrite drop_length, (chunks_concat_length (c_nid c)) by apply (chunks_enc (fun x => x)); rewrite fmap_length; nia).
    rewrite (chunks_read (c_nid c)) by apply (chunks_enc (fun x => x)). rewrite list_lookup_fmap, El. cbn. f_equal.
    apply le_dec_enc_small. lia.
  Qed.
  Lemma pairs_snd l : snd <$> pairs l = omap ch l.
  Proof. unfold pairs. induction l as [|v l IH]; [done|]. cbn [omap list_omap]. destruct (ch v) as [id|]; [|exact IH]. cbn. by rewrite IH. Qed.
  Lemma tiny_reads ps : (forall p, p ∈ ps -> 0 <= snd p < pow256 (c_nid c)) ->
    mapM (fun i => read_id (c_nid c) (bi :: concat (tiny_one <$> ps)) (2 + i * (1 + c_nid c))) (seq 0 (length ps)) = Some (snd <$> ps).
  Proof using c ch bi.
    clear Hch. intros Hp. rewrite <- (fmap_length snd ps). apply mapM_reads. intros i x Hx. rewrite list_lookup_fmap in Hx. destruct (ps !! i) as [[v y]|] eqn:Ei; [|done]. cbn in Hx. injection Hx as ->.
    assert (Hr : 0 <= x < pow256 (c_nid c)) by (apply (Hp (v, x)); by eapply elem_of_list_lookup_2).
    pose proof (lookup_lt_Some _ _ _ Ei) as Hlt.
    pose proof (read_id_app (c_nid c) (bi :: concat (tiny_one <$> take i ps) ++ [v]) (le_enc (c_nid c) x) (concat (tiny_one <$> drop (S i) ps)) (2 + i * (1 + c_nid c)) x) as Hrd.
    assert (E : bi :: concat (tiny_one <$> ps) = (bi :: concat (tiny_one <$> take i ps) ++ [v]) ++ le_enc (c_nid c) x ++ concat (tiny_one <$> drop (S i) ps)).
    { rewrite <- (take_drop_middle _ _ _ Ei) at 1. rewrite fmap_app, fmap_cons, concat_app. cbn [concat app]. f_equal. rewrite <- app_assoc. done. }
    rewrite E. apply Hrd; [|apply le_enc_length|by apply le_dec_enc_small].
    cbn [length]. rewrite app_length, tiny_concat_length, take_length. cbn [length]. lia.
  Qed.
  Lemma tiny_all cap w : (length (omap ch byte_vals) <= cap)%nat -> (0 < cap)%nat -> (w =? full_word c) = false -> medium_slots w = 0 -> tiny_slots w = Z.of_nat cap ->
    all_ids c w (tiny_bytes cap) = Some (omap ch byte_vals).
  Proof using Hch.
    intros Hl Hpos Hw Hm Ht. unfold all_ids. rewrite Hw, Hm, Ht. cbn [Z.ltb Z.compare]. destruct (Z.ltb_spec 0 (Z.of_nat cap)); [|lia]. rewrite Nat2Z.id.
    unfold tiny_bytes. pose proof (tiny_reads (pairs byte_vals ++ replicate (cap - length (pairs byte_vals)) (0, 0))) as Hr.
    assert (length (pairs byte_vals ++ replicate (cap - length (pairs byte_vals)) (0, 0)) = cap) as Hps by (rewrite app_length, replicate_length, pairs_length; lia).
    rewrite Hps in Hr. rewrite Hr.
    - cbn [fmap option_fmap option_map]. rewrite fmap_app, pairs_snd, nonzero_app, nonzero_padding, app_nil_r. f_equal. apply nonzero_all. intros x Hx%omap_nonzero. lia.
    - intros p [Hp|Hp]%elem_of_app.
      + assert (Hin : snd p ∈ omap ch byte_vals) by (rewrite <- pairs_snd; apply elem_of_list_fmap; by exists p). apply omap_nonzero in Hin. lia.
      + apply elem_of_replicate in Hp as [-> _]. cbn. pose proof (pow256_pos (c_nid c)). lia.
  Qed.
  Lemma node_all s : fits ch s -> all_ids c (spec_word c s) (node_bytes s) = Some (omap ch byte_vals).
  Proof using Hc Hch.
    intros (Hcap & Hl & Hf)%fits_alt. unfold node_bytes. destruct (s_fmt s) eqn:E; [| | |done].
    - pose proof (word_tiny s Hcap E) as [Hm Ht]. unfold cap_ok in *. rewrite E in *. apply tiny_all; try done; [by apply Hf|lia|].
      apply word_not_full; [unfold cap_ok; by rewrite E|by rewrite E|by rewrite E].
    - pose proof (word_medium s Hcap E) as Hm. apply medium_all; try done; [by apply Hf|apply word_not_full; [done|by rewrite E|by rewrite E]|].
      unfold cap_ok in *. rewrite E in *. lia.
    - rewrite (word_full s E). apply full_all.
  Qed.
End Node.
