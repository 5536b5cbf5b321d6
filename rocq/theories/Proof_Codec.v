From Verif Require Import Base Model_Codec Spec_Codec.

(** ** VarInt *)
Lemma take_exact_app n l r : length l = n -> take_exact n (l ++ r) = Some l.
Proof.
  intros H. unfold take_exact. rewrite app_length. destruct (decide _); [|lia].
  rewrite take_app_alt by done. done.
Qed.

Lemma varint_dec_enc v r : 0 <= v < 2^63 ->
  varint_dec (varint_enc v ++ r) = Some (v, length (varint_enc v)).
Proof.
  intros Hv. unfold varint_enc.
  destruct (Z.ltb_spec v 0xFD) as [H1|H1].
  { cbn [le_enc take app varint_dec length].
    rewrite Z.mod_small by lia. destruct (Z.ltb_spec v 0xFD); [done|lia]. }
  destruct (Z.leb_spec v 0xFFFF) as [H2|H2].
  { rewrite take_le_enc by lia. cbn [app]. unfold varint_dec.
    change (0xFD <? 0xFD) with false. change (0xFD =? 0xFD) with true. cbv iota.
    rewrite take_exact_app by apply le_enc_length. cbn [fmap option_fmap option_map].
    rewrite le_dec_enc_small by (unfold pow256; cbn; lia). cbn [length]. rewrite le_enc_length. done. }
  destruct (Z.leb_spec v 0xFFFFFFFF) as [H3|H3].
  { rewrite take_le_enc by lia. cbn [app]. unfold varint_dec.
    change (0xFE <? 0xFD) with false. change (0xFE =? 0xFD) with false. change (0xFE =? 0xFE) with true. cbv iota.
    rewrite take_exact_app by apply le_enc_length. cbn [fmap option_fmap option_map].
    rewrite le_dec_enc_small by (unfold pow256; cbn; lia). cbn [length]. rewrite le_enc_length. done. }
  rewrite take_le_enc by lia. cbn [app]. unfold varint_dec.
  change (0xFF <? 0xFD) with false. change (0xFF =? 0xFD) with false. change (0xFF =? 0xFE) with false. cbv iota.
  rewrite take_exact_app by apply le_enc_length. cbn [fmap option_fmap option_map].
  rewrite le_dec_enc_small by (unfold pow256; cbn; lia).
  rewrite to_i64_small by lia. cbn [length]. rewrite le_enc_length. done.
Qed.

Lemma varint_enc_nonempty v : varint_enc v <> [].
Proof.
  unfold varint_enc. destruct (v <? 0xFD); [done|].
  destruct (v <=? 0xFFFF); [done|]. destruct (v <=? 0xFFFFFFFF); done.
Qed.

Lemma varint_enc_bytes v : bytes (varint_enc v).
Proof.
  unfold varint_enc, bytes.
  destruct (v <? 0xFD); [apply Forall_take, le_enc_bytes|].
  destruct (v <=? 0xFFFF); [|destruct (v <=? 0xFFFFFFFF)];
    (constructor; [unfold is_byte; lia|apply Forall_take, le_enc_bytes]).
Qed.

(** the decoder looks only at the bytes it consumes *)
Lemma varint_dec_prefix l v n r : varint_dec l = Some (v, n) -> varint_dec (l ++ r) = Some (v, n).
Proof.
  destruct l as [|b l]; [done|]. cbn [app varint_dec].
  assert (forall k d, take_exact k l = Some d -> take_exact k (l ++ r) = Some d) as G.
  { intros k d. unfold take_exact. destruct (decide _) as [H|]; [|done]. intros [= <-].
    rewrite app_length. destruct (decide _); [|lia]. rewrite take_app_le by done. done. }
  destruct (b <? 0xFD); [done|].
  destruct (b =? 0xFD); [|destruct (b =? 0xFE)].
  - destruct (take_exact 2 l) eqn:E; [|done]. rewrite (G _ _ E). done.
  - destruct (take_exact 4 l) eqn:E; [|done]. rewrite (G _ _ E). done.
  - destruct (take_exact 8 l) eqn:E; [|done]. rewrite (G _ _ E). done.
Qed.

Lemma varint_dec_used l v n : varint_dec l = Some (v, n) -> (n <= length l)%nat.
Proof.
  destruct l as [|b l]; [done|]. cbn [varint_dec length].
  assert (forall k d, take_exact k l = Some d -> (k <= length l)%nat) as G.
  { intros k d. unfold take_exact. destruct (decide _); done. }
  destruct (b <? 0xFD); [intros [= <- <-]; lia|].
  destruct (b =? 0xFD); [|destruct (b =? 0xFE)].
  - destruct (take_exact 2 l) eqn:E; [|done]. apply G in E. intros [= <- <-]. lia.
  - destruct (take_exact 4 l) eqn:E; [|done]. apply G in E. intros [= <- <-]. lia.
  - destruct (take_exact 8 l) eqn:E; [|done]. apply G in E. intros [= <- <-]. lia.
Qed.

Lemma varint_strict_prefix v p : 0 <= v < 2^63 -> strict_prefix p (varint_enc v) -> varint_dec p = None.
Proof.
  intros Hv (t & Ht & E). destruct (varint_dec p) as [[x n]|] eqn:D; [|done]. exfalso.
  pose proof (varint_dec_used _ _ _ D) as Hu.
  apply (varint_dec_prefix _ _ _ t) in D.
  pose proof (varint_dec_enc v [] Hv) as D'. rewrite app_nil_r, E, D in D'.
  injection D' as _ Hn. rewrite app_length in Hn. destruct t; [done|]. cbn in Hn. lia.
Qed.

(** ** IntArrayArray *)
Lemma load_elems_save es arr r : (es <= 8)%nat ->
  iaa_load_elems es (length arr) (concat (map (fun v => take es (le_enc 8 v)) arr) ++ r)
  = Some (map (stored_as es) arr, r).
Proof.
  intros Hes. induction arr as [|v arr IH]; cbn [length iaa_load_elems map concat app]; [done|].
  rewrite <- app_assoc. rewrite take_le_enc by done.
  rewrite take_exact_app by apply le_enc_length.
  rewrite drop_app_alt by (rewrite le_enc_length; done). rewrite IH.
  rewrite le_dec_app, le_dec_replicate0, Z.mul_0_r, Z.add_0_r, le_dec_enc. done.
Qed.

Lemma load_arrays_save es (arrs : nat -> list Z) i n r m t :
  (es <= 8)%nat ->
  (forall k, (i <= k < i + n)%nat -> Z.of_nat (length (arrs k)) < 2^63) ->
  exists m',
    iaa_load_arrays es i n (concat (map (fun k => iaa_save_one es (arrs k)) (seq i n)) ++ r) m t
      = Some (m', t + fold_right Z.add 0 (map (fun k => Z.of_nat (length (arrs k))) (seq i n))) /\
    (forall k, (i <= k < i + n)%nat -> m' !! k = Some (map (stored_as es) (arrs k))) /\
    (forall k, ~ (i <= k < i + n)%nat -> m' !! k = m !! k).
Proof.
  intros Hes. revert i m t. induction n as [|n IH]; intros i m t Hlen; cbn [seq map concat iaa_load_arrays app fold_right].
  - exists m. rewrite Z.add_0_r. split_and!; [done| |done]. intros; lia.
  - assert (iaa_save_one es (arrs i) = varint_enc (Z.of_nat (length (arrs i))) ++
        concat (map (fun v => take es (le_enc 8 v)) (arrs i))) as -> by done.
    rewrite <- !app_assoc.
    rewrite varint_dec_enc by (specialize (Hlen i); lia).
    rewrite drop_app. destruct (Z.ltb_spec (Z.of_nat (length (arrs i))) 0); [lia|].
    rewrite Nat2Z.id, load_elems_save by done.
    destruct (IH (S i) (<[i := map (stored_as es) (arrs i)]> m) (t + Z.of_nat (length (arrs i)))) as (m' & E & H1 & H2).
    { intros k Hk. apply Hlen. lia. }
    exists m'. rewrite E. split_and!.
    + f_equal. f_equal. lia.
    + intros k Hk. destruct (decide (k = i)) as [->|Hne].
      * rewrite H2 by lia. apply lookup_insert.
      * apply H1. lia.
    + intros k Hk. rewrite H2 by lia. apply lookup_insert_ne. lia.
Qed.

Lemma iaa_append_get a key v k :
  iaa_get (iaa_append a key v) k = if decide (k = key) then iaa_get a key ++ [v] else iaa_get a k.
Proof.
  unfold iaa_get, iaa_append. cbn [iaa_map].
  destruct (decide (k = key)) as [->|Hne].
  - destruct (iaa_map a !! key) as [arr|]; rewrite lookup_insert; done.
  - destruct (iaa_map a !! key) as [arr|]; rewrite lookup_insert_ne by done; done.
Qed.

(** ** Hex *)
Lemma nibble_digit n : 0 <= n < 16 -> ascii_to_nibble (hex_digit n) = n.
Proof.
  intros H. unfold ascii_to_nibble, hex_digit.
  destruct (Z.ltb_spec n 10); repeat (case_match; try lia).
  all: rewrite ?andb_true_iff, ?andb_false_iff, ?Z.leb_le, ?Z.leb_gt in *; lia.
Qed.

Lemma digit_nibble c : is_hex_char c -> hex_digit (ascii_to_nibble c) = lower c.
Proof.
  unfold is_hex_char, ascii_to_nibble, hex_digit, lower. intros H.
  destruct (decide _); repeat case_match;
  rewrite ?andb_true_iff, ?andb_false_iff, ?Z.leb_le, ?Z.leb_gt, ?Z.ltb_lt, ?Z.ltb_ge in *; lia.
Qed.

Lemma nibble_range c : 0 <= ascii_to_nibble c < 16.
Proof.
  unfold ascii_to_nibble. repeat case_match;
  rewrite ?andb_true_iff, ?andb_false_iff, ?Z.leb_le, ?Z.leb_gt in *; lia.
Qed.

Lemma hex_encode_length l : length (hex_encode l) = (2 * length l)%nat.
Proof. induction l as [|b l IH]; cbn; [done|]. unfold hex_encode in IH. rewrite IH. lia. Qed.

Lemma hex_encode_even l i : hex_encode l !! (2 * i)%nat = (fun b => hex_digit (b / 16)) <$> l !! i.
Proof.
  revert i. induction l as [|b l IH]; intros i; [destruct i; done|].
  destruct i as [|i]; [done|]. replace (2 * S i)%nat with (S (S (2 * i))) by lia.
  change (hex_encode (b :: l)) with (hex_digit (b / 16) :: hex_digit (b mod 16) :: hex_encode l).
  cbn [lookup list_lookup]. rewrite IH. done.
Qed.

Lemma hex_encode_odd l i : hex_encode l !! (2 * i + 1)%nat = (fun b => hex_digit (b mod 16)) <$> l !! i.
Proof.
  revert i. induction l as [|b l IH]; intros i; [destruct i; done|].
  destruct i as [|i]; [done|]. replace (2 * S i + 1)%nat with (S (S (2 * i + 1))) by lia.
  change (hex_encode (b :: l)) with (hex_digit (b / 16) :: hex_digit (b mod 16) :: hex_encode l).
  cbn [lookup list_lookup]. rewrite IH. done.
Qed.

Lemma rev32 (h : list Z) : length h = 32%nat ->
  map (fun i => default 0 (h !! (31 - i)%nat)) (seq 0 32) = reverse h.
Proof.
  intros Hl. apply list_eq. intros i. change (@map nat Z) with (@fmap list _ nat Z).
  rewrite list_lookup_fmap. destruct (decide (i < 32)%nat) as [Hi|Hi].
  - rewrite lookup_seq_lt by done. cbn [fmap option_fmap option_map].
    rewrite reverse_lookup by lia. rewrite Hl. cbn [Nat.add].
    replace (32 - S i)%nat with (31 - i)%nat by lia.
    destruct (lookup_lt_is_Some_2 h (31 - i)%nat) as [x Hx]; [lia|]. rewrite Hx. done.
  - rewrite lookup_seq_ge by lia. rewrite lookup_ge_None_2; [done|]. rewrite reverse_length. lia.
Qed.

Lemma hex_of_hash_length h : length (hex_of_hash h) = 64%nat.
Proof. unfold hex_of_hash. rewrite hex_encode_length. done. Qed.

Lemma hash_hex_roundtrip h : length h = 32%nat -> bytes h -> hash_of_hex (hex_of_hash h) = Some h.
Proof.
  intros Hl Hb. unfold hash_of_hex. rewrite hex_of_hash_length.
  destruct (decide _) as [_|]; [|done]. f_equal. apply list_eq. intros i.
  change (@map nat Z) with (@fmap list _ nat Z).
  rewrite list_lookup_fmap. destruct (decide (i < 32)%nat) as [Hi|Hi].
  - rewrite lookup_seq_lt by done. cbn [fmap option_fmap option_map]. cbn [Nat.add].
    unfold hex_of_hash. rewrite rev32 by done.
    replace (62 - 2 * i)%nat with (2 * (31 - i))%nat by lia.
    replace (63 - 2 * i)%nat with (2 * (31 - i) + 1)%nat by lia.
    rewrite hex_encode_even, hex_encode_odd, reverse_lookup by lia. rewrite Hl.
    replace (32 - S (31 - i))%nat with i by lia.
    destruct (lookup_lt_is_Some_2 h i) as [x Hx]; [lia|]. rewrite Hx.
    cbn [fmap option_fmap option_map default from_option id].
    eapply Forall_lookup_1 in Hb; [|exact Hx]. unfold is_byte in Hb.
    unfold hex_lookup. rewrite !nibble_digit.
    + f_equal. symmetry. apply Z.div_mod. lia.
    + apply Z.mod_pos_bound. lia.
    + split; [apply Z.div_pos; lia|apply Z.div_lt_upper_bound; lia].
  - rewrite lookup_seq_ge by lia. rewrite lookup_ge_None_2 by lia. done.
Qed.

Lemma hash_of_hex_ok t h : hash_of_hex t = Some h -> length h = 32%nat /\ bytes h /\ length t = 64%nat.
Proof.
  unfold hash_of_hex. destruct (decide _) as [Ht|]; [|done]. intros E. apply (inj Some) in E. rewrite <- E. clear E.
  rewrite map_length, seq_length. split_and!; [done| |done].
  apply Forall_map, Forall_true. intros i. unfold is_byte, hex_lookup.
  pose proof (nibble_range (default 0 (t !! (62 - 2 * i)%nat))).
  pose proof (nibble_range (default 0 (t !! (63 - 2 * i)%nat))). lia.
Qed.

Lemma hex_hash_roundtrip t : length t = 64%nat -> Forall is_hex_char t ->
  exists h, hash_of_hex t = Some h /\ hex_of_hash h = map lower t.
Proof.
  intros Hl Hc. destruct (hash_of_hex t) as [h|] eqn:E.
  2:{ unfold hash_of_hex in E. destruct (decide _); done. }
  exists h. split; [done|]. destruct (hash_of_hex_ok _ _ E) as (Hh & Hb & _).
  unfold hash_of_hex in E. destruct (decide _); [|done]. apply (inj Some) in E.
  apply list_eq. intros k. change (@map Z Z lower) with (@fmap list _ Z Z lower). rewrite list_lookup_fmap.
  unfold hex_of_hash. rewrite rev32 by done.
  destruct (decide (k < 64)%nat) as [Hk|Hk].
  2:{ rewrite lookup_ge_None_2 by (rewrite hex_encode_length, reverse_length; lia).
      rewrite lookup_ge_None_2 by lia. done. }
  destruct (lookup_lt_is_Some_2 t k) as [c Hcc]; [lia|]. rewrite Hcc. cbn [fmap option_fmap option_map].
  pose proof (Forall_lookup_1 _ _ _ _ Hc Hcc) as Hhex.
  assert (forall i, (i < 32)%nat -> h !! i = Some (hex_lookup (default 0 (t !! (62 - 2 * i)%nat)) (default 0 (t !! (63 - 2 * i)%nat)))) as Hhi.
  { intros i Hi. rewrite <- E. change (@map nat Z) with (@fmap list _ nat Z).
    rewrite list_lookup_fmap, lookup_seq_lt by done. done. }
  destruct (Nat.even k) eqn:Ev.
  - apply Nat.even_spec in Ev as [j ->]. rewrite hex_encode_even, reverse_lookup by lia.
    rewrite Hh, Hhi by lia. cbn [fmap option_fmap option_map].
    replace (62 - 2 * (32 - S j))%nat with (2 * j)%nat by lia. rewrite Hcc. cbn [default from_option id].
    unfold hex_lookup. f_equal. rewrite Z.mul_comm, Z.div_add_l by lia.
    rewrite Z.div_small by apply nibble_range. rewrite Z.add_0_r. apply digit_nibble, Hhex.
  - assert (Nat.odd k = true) as Ho by (unfold Nat.odd; rewrite Ev; done).
    apply Nat.odd_spec in Ho as [j ->]. rewrite hex_encode_odd, reverse_lookup by lia.
    rewrite Hh, Hhi by lia. cbn [fmap option_fmap option_map].
    replace (63 - 2 * (32 - S j))%nat with (2 * j + 1)%nat by lia. rewrite Hcc. cbn [default from_option id].
    unfold hex_lookup. f_equal. rewrite Z.add_comm, Z.mul_comm, Z_mod_plus_full.
    rewrite Z.mod_small by apply nibble_range. apply digit_nibble, Hhex.
Qed.
