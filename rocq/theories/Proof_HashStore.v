(** Proofs about the stores of indexed hashes. *)
From Verif Require Import Base Model_Word Spec_Word Proof_Word Model_HashStore Spec_HashStore.
From Coq Require Import ZifyBool ZifyNat.

(** ** The linear store *)
Definition bhs_rep (l : list (list Z)) (s : hash_file) : Prop :=
  s = mk_hf (concat l) (length l) /\ Forall (fun h => length h = 32%nat) l.

Lemma bhs_get_rep l s i : bhs_rep l s -> bhs_get s i = l !! i.
Proof.
  intros [-> Hl]. unfold bhs_get, hf_read. cbn [hf_data]. rewrite (chunks_read 32) by done.
  destruct (l !! i) as [h|] eqn:E; cbn [default from_option]; unfold id.
  - eapply Forall_lookup_1 in Hl; eauto. cbn in Hl. destruct (decide _); [done|congruence].
  - done.
Qed.

Lemma bhs_append_rep l s h : length h = 32%nat -> bhs_rep l s ->
  bhs_rep (l ++ [h]) (bhs_append s h).1 /\ (bhs_append s h).2 = length l.
Proof.
  intros Hh [-> Hl]. unfold bhs_append. cbn [hf_count fst snd]. split; [|done].
  split; [|apply Forall_app; split; [done|constructor; done]].
  unfold hf_write. cbn [hf_data hf_count].
  rewrite (chunks_write 32), rec_write_append by (done || lia).
  rewrite app_length. cbn [length]. f_equal. lia.
Qed.

Lemma bhs_open_rep l : Forall (fun h => length h = 32%nat) l -> bhs_rep l (bhs_open (concat l)).
Proof.
  intros Hl. split; [|done]. unfold bhs_open, hf_new. rewrite (chunks_concat_length 32) by done.
  rewrite Nat.div_mul by lia. done.
Qed.

Lemma bhs_scan_spec l s h : bhs_rep l s -> forall n i, (i + n = length l)%nat ->
  (forall j, (j < i)%nat -> l !! j <> Some h) -> first_occurrence l h (bhs_scan s h i n).
Proof.
  intros Hr n. induction n as [|n IH]; intros i Hi Hb; cbn [bhs_scan].
  - cbn. intros Hin. apply elem_of_list_lookup in Hin as [j Hj].
    pose proof (lookup_lt_Some _ _ _ Hj). apply (Hb j); [lia|done].
  - pose proof (bhs_get_rep l s i Hr) as Hg. unfold bhs_get in Hg. rewrite Hg.
    destruct (lookup_lt_is_Some_2 l i) as [g E]; [lia|]. rewrite E.
    destruct (decide (g = h)) as [->|Hne].
    + split; done.
    + apply IH; [lia|]. intros j Hj. destruct (decide (j = i)) as [->|]; [congruence|apply Hb; lia].
Qed.

(** ** Words *)
Section Store.
  Context (nb nbits cpc : nat).
  Context (Hp : hs_params nb nbits cpc).

  Let Hnb : (1 <= nb <= 7)%nat. Proof using Hp. apply Hp. Qed.
  Let Hcpc : (2 <= cpc <= 8)%nat. Proof using Hp. apply Hp. Qed.
  Let Hbuf : (nb * (cpc + 1) <= 32)%nat. Proof using Hp. apply Hp. Qed.

  Lemma msb_val : hs_msb nb = 128 * pow256 (nb - 1).
  Proof using Hp.
    unfold hs_msb, pow256. destruct Hnb as [H1 H2].
    replace (256 ^ Z.of_nat (nb - 1)) with (2 ^ (8 * (Z.of_nat nb - 1))).
    2:{ change 256 with (2^8). rewrite <- Z.pow_mul_r by lia. f_equal. lia. }
    assert (2 ^ (8 * (Z.of_nat nb - 1)) <= 2 ^ 48) by (apply Z.pow_le_mono_r; lia).
    assert (0 < 2 ^ (8 * (Z.of_nat nb - 1))) by (apply Z.pow_pos_nonneg; lia).
    rewrite Z.mod_small by lia. apply to_i64_small. lia.
  Qed.

  Lemma msb_twice : pow256 nb = 2 * hs_msb nb.
  Proof using Hp.
    rewrite msb_val. replace nb with (S (nb - 1)) at 1 by lia. rewrite pow256_S. lia.
  Qed.

  Lemma msb_pos : 128 <= hs_msb nb.
  Proof using Hp. rewrite msb_val. pose proof (pow256_pos (nb - 1)). lia. Qed.

  Lemma msb_pow : hs_msb nb = 2 ^ (8 * Z.of_nat nb - 1).
  Proof using Hp.
    rewrite msb_val. unfold pow256. change 256 with (2^8). rewrite <- Z.pow_mul_r by lia.
    change 128 with (2^7). rewrite <- Z.pow_add_r by lia. f_equal. lia.
  Qed.

  Lemma land_msb_low v : 0 <= v < hs_msb nb -> Z.land v (hs_msb nb) = 0.
  Proof using Hp.
    intros Hv. rewrite msb_pow in *. apply Z.bits_inj'. intros n Hn.
    rewrite Z.land_spec, Z.bits_0, Z.pow2_bits_eqb by lia.
    destruct (Z.eqb_spec (8 * Z.of_nat nb - 1) n) as [<-|]; [|apply andb_false_r].
    rewrite andb_true_r. rewrite <- (Z.mod_small v (2 ^ (8 * Z.of_nat nb - 1))) by lia.
    apply Z.mod_pow2_bits_high. lia.
  Qed.

  Lemma lor_msb v : 0 <= v < hs_msb nb -> Z.lor v (hs_msb nb) = v + hs_msb nb.
  Proof using Hp.
    intros Hv. rewrite <- Z.lxor_lor by (apply land_msb_low, Hv).
    symmetry. apply Z.add_nocarry_lxor, land_msb_low, Hv.
  Qed.

  Lemma land_msb_high v : 0 <= v < hs_msb nb -> Z.land (v + hs_msb nb) (hs_msb nb) = hs_msb nb.
  Proof using Hp.
    intros Hv. rewrite <- lor_msb by done. 
    apply Z.bits_inj'. intros n Hn. rewrite Z.land_spec, Z.lor_spec. destruct (Z.testbit (hs_msb nb) n), (Z.testbit v n); done.
  Qed.

  Lemma land_not_msb v : 0 <= v < hs_msb nb -> Z.land (v + hs_msb nb) (Z.lnot (hs_msb nb)) = v.
  Proof using Hp.
    intros Hv. rewrite <- lor_msb by done. apply Z.bits_inj'. intros n Hn.
    rewrite Z.land_spec, Z.lor_spec, Z.lnot_spec by done.
    pose proof (land_msb_low v Hv) as H0. apply (f_equal (fun z => Z.testbit z n)) in H0.
    rewrite Z.land_spec, Z.bits_0 in H0.
    destruct (Z.testbit (hs_msb nb) n), (Z.testbit v n); done.
  Qed.

  Lemma word_enc v : 0 <= v < pow256 nb -> hs_word (le_enc nb v) = v.
  Proof using Hp.
    intros Hv. unfold hs_word. rewrite le_dec_enc_small by done. apply to_i64_small.
    assert (pow256 nb <= pow256 7) by (apply pow256_le; lia).
    assert (pow256 7 <= 2^63) by (vm_compute; discriminate). lia.
  Qed.

  Lemma words_read W i v : W !! i = Some v ->
    file_read (word_bytes nb W) (i * nb) nb = Some (le_enc nb v).
  Proof using Hp.
    intros E. unfold file_read. pose proof (lookup_lt_Some _ _ _ E).
    rewrite word_bytes_length, word_bytes_read, E. destruct (decide _) as [|n]; [done|].
    exfalso. apply n. replace (i * nb + nb)%nat with (S i * nb)%nat by lia. apply Nat.mul_le_mono_r. lia.
  Qed.

  Lemma words_write W i v : (i < length W)%nat ->
    file_write (word_bytes nb W) (i * nb) (le_enc nb v) = word_bytes nb (<[i := v]> W).
  Proof using Hp.
    intros Hi. rewrite <- (take_le_enc nb 8) by lia. rewrite word_bytes_write by lia. f_equal.
    rewrite <- insert_rec_write. replace (S i - length W)%nat with 0%nat by lia. cbn [replicate].
    rewrite app_nil_r. done.
  Qed.

  Lemma words_app W V : word_bytes nb (W ++ V) = word_bytes nb W ++ word_bytes nb V.
  Proof. unfold word_bytes. rewrite map_app, concat_app. done. Qed.

  Lemma words_zero n : word_bytes nb (replicate n 0) = replicate (nb * n) 0.
  Proof.
    unfold word_bytes. induction n as [|n IH]; cbn [replicate map concat]; [rewrite Nat.mul_0_r; done|].
    rewrite IH, le_enc_0, <- replicate_add. f_equal. lia.
  Qed.

  (** ** Chunks of [cpc + 1] words *)
  Definition sized (K : list (list Z)) : Prop := chunks (cpc + 1) K.
  Definition cbytes (K : list (list Z)) : list Z := word_bytes nb (concat K).

  Lemma sized_lookup K c ch j : sized K -> K !! c = Some ch -> (j < cpc + 1)%nat ->
    concat K !! (c * (cpc + 1) + j)%nat = ch !! j.
  Proof.
    intros HK Hc Hj. pose proof (chunks_read _ _ c HK) as H. rewrite Hc in H.
    cbn [default from_option] in H. unfold id in H. rewrite <- H.
    rewrite lookup_take by lia. rewrite lookup_drop. reflexivity.
  Qed.

  Lemma sized_len K c ch : sized K -> K !! c = Some ch -> length ch = (cpc + 1)%nat.
  Proof. intros HK Hc. exact (Forall_lookup_1 _ _ _ _ HK Hc). Qed.

  Lemma sized_insert K c ch j v : sized K -> K !! c = Some ch -> (j < cpc + 1)%nat ->
    <[(c * (cpc + 1) + j)%nat := v]> (concat K) = concat (<[c := <[j := v]> ch]> K).
  Proof.
    intros HK. revert c. induction HK as [|x K Hx HK IH]; intros c Hc Hj; [done|].
    destruct c as [|c]; cbn in Hc.
    - injection Hc as ->. cbn [Nat.mul Nat.add concat].
      change (<[0%nat := <[j := v]> ch]> (ch :: K)) with (<[j := v]> ch :: K). cbn [concat].
      apply insert_app_l. lia.
    - change (<[S c := <[j := v]> ch]> (x :: K)) with (x :: <[c := <[j := v]> ch]> K). cbn [concat].
      rewrite <- IH by done.
      replace (S c * (cpc + 1) + j)%nat with (length x + (c * (cpc + 1) + j))%nat by (rewrite Hx; cbn; lia).
      apply insert_app_r.
  Qed.

  Lemma sized_insert_sized K c ch j v : sized K -> K !! c = Some ch -> sized (<[c := <[j := v]> ch]> K).
  Proof.
    intros HK Hc. apply Forall_insert; [done|]. rewrite insert_length. eapply sized_len; eauto.
  Qed.

  Lemma cbytes_length K : sized K -> length (cbytes K) = (length K * (nb * (cpc + 1)))%nat.
  Proof.
    intros HK. unfold cbytes. rewrite word_bytes_length, (chunks_concat_length (cpc + 1)) by done. lia.
  Qed.

  Lemma avail_chunks K : sized K -> (length (cbytes K) / (nb * (cpc + 1)))%nat = length K.
  Proof using Hp. intros HK. rewrite cbytes_length by done. apply Nat.div_mul. lia. Qed.

  Lemma chunk_read K c ch : sized K -> K !! c = Some ch ->
    file_read (cbytes K) (c * (cpc + 1) * nb) (nb * (cpc + 1)) = Some (word_bytes nb ch).
  Proof using Hp.
    intros HK Hc. unfold file_read. rewrite cbytes_length by done.
    pose proof (lookup_lt_Some _ _ _ Hc).
    destruct (decide _) as [_|n]; [|exfalso; apply n; nia]. f_equal.
    unfold cbytes, word_bytes. rewrite chunks_drop by apply word_bytes_chunks.
    rewrite (Nat.mul_comm nb), chunks_take by (rewrite skipn_map; apply word_bytes_chunks). f_equal.
    rewrite skipn_map, firstn_map. f_equal.
    rewrite chunks_read by done. rewrite Hc. done.
  Qed.

  Lemma slot_read K c ch j v : sized K -> K !! c = Some ch -> ch !! j = Some v ->
    file_read (cbytes K) ((c * (cpc + 1) + j) * nb) nb = Some (le_enc nb v).
  Proof using Hp.
    intros HK Hc Hj. pose proof (lookup_lt_Some _ _ _ Hj) as Hl. rewrite (sized_len K c ch HK Hc) in Hl.
    apply words_read. rewrite (sized_lookup K c ch) by done. exact Hj.
  Qed.

  Lemma slot_write K c ch j v : sized K -> K !! c = Some ch -> (j < cpc + 1)%nat ->
    file_write (cbytes K) ((c * (cpc + 1) + j) * nb) (le_enc nb v) = cbytes (<[c := <[j := v]> ch]> K).
  Proof using Hp.
    intros HK Hc Hj. unfold cbytes. rewrite <- sized_insert by done. apply words_write.
    rewrite (chunks_concat_length (cpc + 1)) by done. pose proof (lookup_lt_Some _ _ _ Hc). nia.
  Qed.

  Lemma slot_take (ch : list Z) j v : ch !! j = Some v ->
    take nb (drop (j * nb) (word_bytes nb ch)) = le_enc nb v.
  Proof. intros E. rewrite word_bytes_read, E. done. Qed.

  (** ** Chains *)
  Definition good (v : Z) : Prop := 0 < v < pow256 nb.
  Definition chunk_of (vs : list Z) (link : Z) : list Z := vs ++ replicate (cpc - length vs) 0 ++ [link].

  Inductive chain (K : list (list Z)) : list nat -> list Z -> Prop :=
  | chain_last c vs : (1 <= length vs <= cpc)%nat -> K !! c = Some (chunk_of vs 0) -> chain K [c] vs
  | chain_more c c' cs vs1 vs2 : length vs1 = cpc -> K !! c = Some (chunk_of vs1 (Z.of_nat c' + 1)) ->
      chain K (c' :: cs) vs2 -> chain K (c :: c' :: cs) (vs1 ++ vs2).

  Lemma chunk_of_slot vs link j v : vs !! j = Some v -> chunk_of vs link !! j = Some v.
  Proof. intros E. unfold chunk_of. apply lookup_app_l_Some, E. Qed.
  Lemma chunk_of_zero vs link j : (length vs <= j < cpc)%nat -> chunk_of vs link !! j = Some 0.
  Proof.
    intros Hj. unfold chunk_of. rewrite lookup_app_r by lia.
    rewrite lookup_app_l by (rewrite replicate_length; lia). apply lookup_replicate_2. lia.
  Qed.
  Lemma chunk_of_link vs link : (length vs <= cpc)%nat -> chunk_of vs link !! cpc = Some link.
  Proof.
    intros Hj. unfold chunk_of. rewrite lookup_app_r by lia.
    rewrite lookup_app_r by (rewrite replicate_length; lia). rewrite replicate_length.
    replace (_ - _ - _)%nat with 0%nat by lia. done.
  Qed.
  Lemma chunk_of_set vs link v : (length vs < cpc)%nat ->
    <[length vs := v]> (chunk_of vs link) = chunk_of (vs ++ [v]) link.
  Proof.
    intros H. unfold chunk_of. rewrite app_length. cbn [length].
    replace (cpc - length vs)%nat with (S (cpc - (length vs + 1))) by lia. cbn [replicate].
    replace (length vs) with (length vs + 0)%nat at 1 by lia. rewrite insert_app_r.
    rewrite <- app_assoc. done.
  Qed.
  Lemma chunk_of_link_set vs link link' : (length vs <= cpc)%nat ->
    <[cpc := link']> (chunk_of vs link) = chunk_of vs link'.
  Proof.
    intros H. unfold chunk_of. replace cpc with (length vs + (cpc - length vs))%nat at 1 by lia.
    rewrite insert_app_r. f_equal.
    replace (cpc - length vs)%nat with (length (replicate (cpc - length vs) 0%Z) + 0)%nat at 1
      by (rewrite replicate_length; lia).
    rewrite insert_app_r. done.
  Qed.
  Lemma chunk_of_length vs link : (length vs <= cpc)%nat -> length (chunk_of vs link) = (cpc + 1)%nat.
  Proof. intros H. unfold chunk_of. rewrite !app_length, replicate_length. cbn [length]. lia. Qed.

  (** walking along the slots of a chunk with a vacancy *)
  Lemma walk_vacant K c vs link fuel j :
    (length vs < cpc)%nat -> Forall good vs -> (j <= length vs)%nat -> (length vs - j < fuel)%nat ->
    hs_walk nb cpc fuel (cbytes K) c (word_bytes nb (chunk_of vs link)) j = WAt (cbytes K) c (length vs).
  Proof using Hp.
    intros Hl Hg. revert j. induction fuel as [|fuel IH]; intros j Hj Hf; [lia|]. cbn [hs_walk].
    destruct (decide (j = length vs)) as [->|Hne].
    - rewrite (slot_take _ _ 0) by (apply chunk_of_zero; lia).
      rewrite word_enc by (pose proof (pow256_pos nb); lia). done.
    - destruct (lookup_lt_is_Some_2 vs j) as [v Hv]; [lia|].
      rewrite (slot_take _ _ v) by (apply chunk_of_slot, Hv).
      assert (good v) as Hgv by (eapply Forall_lookup_1 in Hg; eauto). unfold good in Hgv.
      rewrite word_enc by lia. destruct (Z.eqb_spec v 0); [lia|].
      destruct (decide (S j = cpc)); [lia|]. apply IH; lia.
  Qed.

  (** walking along a full chunk *)
  Lemma walk_full coll c vs link fuel j :
    length vs = cpc -> Forall good vs -> (j < cpc)%nat -> (cpc - j <= fuel)%nat ->
    exists fuel', (fuel' = fuel - (cpc - j))%nat /\
    hs_walk nb cpc fuel coll c (word_bytes nb (chunk_of vs link)) j =
    (let next := hs_word (take nb (drop (cpc * nb) (word_bytes nb (chunk_of vs link)))) in
        if next =? 0 then
          if decide (zerobuf < nb * (cpc + 1))%nat then WPanic else
          let avail := (length coll / (nb * (cpc + 1)))%nat in
          let coll1 := file_write coll (length coll) (replicate (nb * (cpc + 1)) 0) in
          let coll2 := file_write coll1 ((c * (cpc + 1) + cpc) * nb) (le_enc nb (Z.of_nat avail + 1)) in
          WAt coll2 avail 0
        else
          let chunk' := Z.to_nat (next - 1) in
          match file_read coll (chunk' * (cpc + 1) * nb) (nb * (cpc + 1)) with
          | None => WErr
          | Some cb' => hs_walk nb cpc fuel' coll chunk' cb' 0
          end).
  Proof using Hp.
    intros Hl Hg. revert j. induction fuel as [|fuel IH]; intros j Hj Hf; [lia|].
    destruct (lookup_lt_is_Some_2 vs j) as [v Hv]; [lia|].
    assert (good v) as Hgv by (eapply Forall_lookup_1 in Hg; eauto). unfold good in Hgv.
    destruct (decide (S j = cpc)) as [Hlast|Hne].
    - exists fuel. split; [lia|]. cbn [hs_walk].
      rewrite (slot_take _ j v) by (apply chunk_of_slot, Hv).
      rewrite word_enc by lia. destruct (Z.eqb_spec v 0); [lia|].
      destruct (decide (S j = cpc)); [|lia]. done.
    - destruct (IH (S j)) as (f' & -> & E); [lia|lia|].
      eexists. split; [|]. 2:{ cbn [hs_walk].
      rewrite (slot_take _ j v) by (apply chunk_of_slot, Hv).
      rewrite word_enc by lia. destruct (Z.eqb_spec v 0); [lia|].
      destruct (decide (S j = cpc)); [lia|]. apply E. } lia.
  Qed.

  (** *** Appending a value to a chain *)
  Lemma chain_in_range K cs vs c : chain K cs vs -> c ∈ cs -> (c < length K)%nat.
  Proof.
    induction 1 as [c0 vs Hl Hc|c0 c' cs vs1 vs2 Hl Hc Hch IH]; intros Hin.
    - apply elem_of_list_singleton in Hin as ->. apply lookup_lt_Some in Hc. done.
    - apply elem_of_cons in Hin as [->|Hin]; [apply lookup_lt_Some in Hc; done|auto].
  Qed.

  Lemma chain_frame K K' cs vs : chain K cs vs -> (forall c, c ∈ cs -> K' !! c = K !! c) -> chain K' cs vs.
  Proof.
    induction 1 as [c0 vs Hl Hc|c0 c' cs vs1 vs2 Hl Hc Hch IH]; intros Hf.
    - apply chain_last; [done|]. rewrite Hf by (apply elem_of_list_singleton; done). done.
    - apply chain_more; [done| |].
      + rewrite Hf by (apply elem_of_cons; auto). done.
      + apply IH. intros c Hc'. apply Hf. apply elem_of_cons; auto.
  Qed.

  Lemma chain_head K cs vs : chain K cs vs -> exists c cs', cs = c :: cs'.
  Proof. destruct 1; eauto. Qed.

  Lemma chain_nonempty K cs vs : chain K cs vs -> (1 <= length vs)%nat.
  Proof using Hp. destruct 1; [lia|]. rewrite app_length. lia. Qed.

  Lemma chain_append K cs vs v fuel c0 cs0 ch0 :
    chain K cs vs -> sized K -> NoDup cs -> Forall good vs -> good v -> (length vs < fuel)%nat ->
    Z.of_nat (length K) + 1 < pow256 nb -> cs = c0 :: cs0 -> K !! c0 = Some ch0 ->
    exists K1 c j ch cs',
      hs_walk nb cpc fuel (cbytes K) c0 (word_bytes nb ch0) 0 = WAt (cbytes K1) c j /\
      sized K1 /\ K1 !! c = Some ch /\ (j < cpc)%nat /\
      (let K2 := <[c := <[j := v]> ch]> K1 in
       chain K2 cs' (vs ++ [v]) /\
       (forall c1, (c1 < length K)%nat -> c1 ∉ cs -> K2 !! c1 = K !! c1)) /\
      (length K <= length K1 <= S (length K))%nat /\
      (cs' = cs \/ (cs' = cs ++ [length K] /\ length K1 = S (length K))).
  Proof using Hp.
    intros Hch. revert fuel c0 cs0 ch0.
    induction Hch as [c vs Hl Hc|c c' cs vs1 vs2 Hl Hc Hch IH];
      intros fuel c0 cs0 ch0 HK Hnd Hg Hv Hf Hcap Ecs Hc0; injection Ecs as <- <-.
    - rewrite Hc in Hc0. injection Hc0 as <-.
      destruct (decide (length vs = cpc)) as [Hfull|Hvac].
      + destruct (walk_full (cbytes K) c vs 0 fuel 0) as (f' & _ & ->); [done|done|lia|lia|].
        rewrite (slot_take _ cpc 0) by (apply chunk_of_link; lia).
        rewrite word_enc by (pose proof (pow256_pos nb); lia). cbn zeta.
        change (0 =? 0) with true. cbv iota.
        unfold zerobuf. destruct (decide (32 < nb * (cpc + 1))%nat); [lia|].
        rewrite avail_chunks by done.
        rewrite file_write_append.
        assert (cbytes K ++ replicate (nb * (cpc + 1)) 0 = cbytes (K ++ [chunk_of [] 0])) as ->.
        { unfold cbytes. rewrite concat_app, words_app. f_equal. cbn [concat]. rewrite app_nil_r.
          unfold chunk_of. cbn [length app]. rewrite Nat.sub_0_r.
          change [0] with (replicate 1 0). rewrite <- replicate_add, words_zero. done. }
        pose proof (lookup_lt_Some _ _ _ Hc) as Hclt.
        assert (sized (K ++ [chunk_of [] 0])) as HK0.
        { apply Forall_app. split; [done|]. constructor; [apply chunk_of_length; cbn; lia|constructor]. }
        assert ((K ++ [chunk_of [] 0]) !! c = Some (chunk_of vs 0)) as Hc1 by (rewrite lookup_app_l by done; done).
        rewrite (slot_write _ c _ cpc _ HK0 Hc1) by lia.
        rewrite chunk_of_link_set by lia.
        set (K1 := <[c := chunk_of vs (Z.of_nat (length K) + 1)]> (K ++ [chunk_of [] 0])).
        assert (sized K1) as HK1.
        { apply Forall_insert; [done|]. apply chunk_of_length. lia. }
        assert (K1 !! length K = Some (chunk_of [] 0)) as Hn.
        { unfold K1. rewrite list_lookup_insert_ne by lia. rewrite lookup_app_r by lia.
          rewrite Nat.sub_diag. done. }
        exists K1, (length K), 0%nat, (chunk_of [] 0), [c; length K].
        assert (<[0%nat := v]> (chunk_of [] 0) = chunk_of [v] 0) as Ev.
        { change 0%nat with (length (@nil Z)). rewrite chunk_of_set by (cbn; lia). done. }
        assert (length K1 = S (length K)) as Hlen.
        { unfold K1. rewrite insert_length, app_length. cbn [length]. lia. }
        split; [done|]. split; [done|]. split; [done|]. split; [lia|].
        split; [|split; [lia|right; done]].
        rewrite Ev. split.
        * apply chain_more.
          -- lia.
          -- rewrite list_lookup_insert_ne by lia. unfold K1. rewrite list_lookup_insert; [done|].
             rewrite app_length. cbn. lia.
          -- apply chain_last; [cbn; lia|]. rewrite list_lookup_insert by lia. done.
        * intros c1 Hc1' Hnin. rewrite list_lookup_insert_ne by lia. unfold K1.
          rewrite list_lookup_insert_ne by (intros ->; apply Hnin, elem_of_list_here).
          rewrite lookup_app_l by done. done.
      + exists K, c, (length vs), (chunk_of vs 0), [c].
        split; [apply walk_vacant; (done || lia)|]. split; [done|]. split; [done|]. split; [lia|].
        split; [|split; [lia|left; done]].
        rewrite chunk_of_set by lia. pose proof (lookup_lt_Some _ _ _ Hc) as Hclt. split.
        * apply chain_last; [rewrite app_length; cbn [length]; lia|]. rewrite list_lookup_insert by done. done.
        * intros c1 _ Hnin. rewrite list_lookup_insert_ne; [done|]. intros ->. apply Hnin, elem_of_list_here.
    - rewrite Hc in Hc0. injection Hc0 as <-.
      apply Forall_app in Hg as [Hg1 Hg2]. rewrite app_length in Hf.
      apply NoDup_cons in Hnd as [Hnin Hnd].
      destruct (walk_full (cbytes K) c vs1 (Z.of_nat c' + 1) fuel 0) as (f' & Hf' & ->); [done|done|lia|lia|].
      rewrite (slot_take _ cpc (Z.of_nat c' + 1)) by (apply chunk_of_link; lia).
      assert (c' < length K)%nat as Hc'lt by (eapply chain_in_range; [done|apply elem_of_list_here]).
      rewrite word_enc by lia. cbn zeta.
      destruct (Z.eqb_spec (Z.of_nat c' + 1) 0); [lia|].
      replace (Z.to_nat (Z.of_nat c' + 1 - 1)) with c' by lia.
      destruct (lookup_lt_is_Some_2 K c' Hc'lt) as [ch' Hch'].
      rewrite (chunk_read K c' ch') by done.
      destruct (IH f' c' cs ch') as (K1 & cx & j & ch & cs' & E & HK1 & Hcx & Hj & [Hchain Hfr] & Hlen & Hcs');
        [done|done|done|done|lia|done|done|done|].
      exists K1, cx, j, ch, (c :: cs'). split; [done|]. split; [done|]. split; [done|]. split; [done|].
      assert (exists cs'', cs' = c' :: cs'') as [cs'' ->].
      { destruct Hcs' as [->|[-> _]]; eauto. }
      split; [split|].
      + rewrite <- app_assoc. apply chain_more; [done| |done].
        rewrite Hfr; [done| |done]. apply lookup_lt_Some in Hc. done.
      + intros c1 Hc1 Hn. apply Hfr; [done|]. intros Hin. apply Hn. apply elem_of_cons. auto.
      + split; [done|]. destruct Hcs' as [E'|[E' ?]]; [left|right]; rewrite E'; done.
  Qed.

  (** *** Looking along a chain *)
  Fixpoint scanv (l : list (list Z)) (h : list Z) (vs : list Z) : fres :=
    match vs with
    | [] => RAbsent
    | v :: vs' =>
        match l !! Z.to_nat (v - 1) with
        | None => RErr
        | Some g => if decide (g = h) then RFound (Z.to_nat (v - 1)) else scanv l h vs'
        end
    end.

  Lemma scanv_app l h vs1 vs2 :
    scanv l h (vs1 ++ vs2) = match scanv l h vs1 with RAbsent => scanv l h vs2 | r => r end.
  Proof.
    induction vs1 as [|v vs1 IH]; cbn [app scanv]; [done|].
    destruct (l !! _); [|done]. destruct (decide _); [done|]. apply IH.
  Qed.

  Lemma find_slots l s K c vs link h fuel j :
    bhs_rep l (hs_hashes s) -> hs_coll s = cbytes K -> sized K ->
    K !! c = Some (chunk_of vs link) -> (length vs <= cpc)%nat -> Forall good vs -> (j <= length vs)%nat ->
    (length vs - j < fuel)%nat ->
    exists fuel', (fuel' = fuel - (length vs - j))%nat /\
    hs_find nb cpc fuel s h (S c) j =
    match scanv l h (drop j vs) with
    | RAbsent => hs_find nb cpc fuel' s h (S c) (length vs)
    | r => r
    end.
  Proof using Hp.
    intros Hr Hco HK Hc Hl Hg. revert j. induction fuel as [|fuel IH]; intros j Hj Hf; [lia|].
    destruct (decide (j = length vs)) as [->|Hne].
    - exists (S fuel). split; [lia|]. rewrite drop_all. done.
    - destruct (lookup_lt_is_Some_2 vs j) as [v Hv]; [lia|].
      assert (good v) as Hgv by exact (Forall_lookup_1 _ _ _ _ Hg Hv). unfold good in Hgv.
      destruct (IH (S j)) as (f' & -> & E); [lia|lia|].
      eexists. split; [reflexivity|].
      replace (S fuel - (length vs - j))%nat with (fuel - (length vs - S j))%nat by lia.
      rewrite (drop_S _ _ _ Hv). cbn [scanv]. cbn [hs_find].
      replace (S c - 1)%nat with c by lia. rewrite Hco.
      rewrite (slot_read K c _ j v HK Hc) by (apply chunk_of_slot, Hv).
      rewrite word_enc by lia. destruct (Z.eqb_spec v 0); [lia|].
      destruct (decide (j < cpc)%nat); [|lia].
      rewrite (bhs_get_rep l) by done.
      destruct (l !! _); [|done]. destruct (decide _); [done|]. exact E.
  Qed.

  Lemma chain_find l s K cs vs h fuel c0 cs0 :
    bhs_rep l (hs_hashes s) -> hs_coll s = cbytes K -> sized K -> Forall good vs ->
    chain K cs vs -> Z.of_nat (length K) + 1 < pow256 nb -> cs = c0 :: cs0 ->
    (length vs + length cs < fuel)%nat ->
    hs_find nb cpc fuel s h (S c0) 0 = scanv l h vs.
  Proof using Hp.
    intros Hr Hco HK Hg Hch Hcap. revert fuel c0 cs0 Hg.
    induction Hch as [c vs Hl Hc|c c' cs vs1 vs2 Hl Hc Hch IH]; intros fuel c0 cs0 Hg Ecs Hf;
      injection Ecs as <- <-; cbn [length] in Hf.
    - destruct (find_slots l s K c vs 0 h fuel 0) as (f' & Hf' & ->); try done; try lia.
      rewrite drop_0. destruct (scanv l h vs); try done.
      destruct f' as [|f']; [lia|]. cbn [hs_find]. replace (S c - 1)%nat with c by lia. rewrite Hco.
      assert (chunk_of vs 0 !! length vs = Some 0) as Hz.
      { destruct (decide (length vs = cpc)) as [E|].
        - rewrite E at 1. apply chunk_of_link. lia.
        - apply chunk_of_zero. lia. }
      rewrite (slot_read K c _ _ 0 HK Hc Hz).
      rewrite word_enc by (pose proof (pow256_pos nb); lia). done.
    - apply Forall_app in Hg as [Hg1 Hg2]. rewrite app_length in Hf.
      destruct (find_slots l s K c vs1 (Z.of_nat c' + 1) h fuel 0) as (f' & Hf' & ->); try done; try lia.
      rewrite drop_0, scanv_app. destruct (scanv l h vs1); try done.
      destruct f' as [|f']; [lia|]. cbn [hs_find]. replace (S c - 1)%nat with c by lia. rewrite Hco.
      assert (chunk_of vs1 (Z.of_nat c' + 1) !! length vs1 = Some (Z.of_nat c' + 1)) as Hz.
      { rewrite Hl at 1. apply chunk_of_link. lia. }
      rewrite (slot_read K c _ _ _ HK Hc Hz).
      assert (c' < length K)%nat as Hc'lt by (eapply chain_in_range; [done|apply elem_of_list_here]).
      rewrite word_enc by lia. destruct (Z.eqb_spec (Z.of_nat c' + 1) 0); [lia|].
      destruct (decide (length vs1 < cpc)%nat); [lia|].
      replace (Z.to_nat (Z.of_nat c' + 1)) with (S c') by lia.
      apply (IH f' c' cs); [done|done|]. cbn [length]. lia.
  Qed.

  Lemma chain_nodup_bound K cs vs : chain K cs vs -> NoDup cs ->
    (length cs <= length K)%nat /\ (length vs <= length cs * cpc)%nat.
  Proof.
    intros Hch Hnd. split.
    - rewrite <- (seq_length (length K) 0). apply submseteq_length, NoDup_submseteq; [done|].
      intros c Hc. apply elem_of_seq. pose proof (chain_in_range K cs vs c Hch Hc). lia.
    - clear Hnd. induction Hch as [c vs Hl Hc|c c' cs vs1 vs2 Hl Hc Hch IH]; cbn [length] in *; [lia|].
      rewrite app_length. lia.
  Qed.

  (** ** The store *)
  (** The entries (index plus one) of the hashes with partial key [k], in order. *)
  Fixpoint vals (k i : nat) (l : list (list Z)) : list Z :=
    match l with
    | [] => []
    | h :: l' => (if decide (hs_key nbits h = k) then [Z.of_nat i + 1] else []) ++ vals k (S i) l'
    end.

  Lemma vals_snoc k i l h :
    vals k i (l ++ [h]) = vals k i l ++ (if decide (hs_key nbits h = k) then [Z.of_nat (i + length l) + 1] else []).
  Proof.
    revert i. induction l as [|x l IH]; intros i; cbn [vals app length].
    - rewrite Nat.add_0_r, app_nil_r. done.
    - rewrite IH, <- app_assoc. do 3 f_equal. destruct (decide _); [|done]. do 2 f_equal. lia.
  Qed.

  Lemma vals_good k i l : Z.of_nat (i + length l) + 1 <= hs_msb nb -> Forall good (vals k i l).
  Proof using Hp.
    revert i. induction l as [|x l IH]; intros i Hi; cbn [vals length] in *; [constructor|].
    apply Forall_app. split; [|apply IH; lia]. destruct (decide _); [|constructor].
    constructor; [|constructor]. unfold good. rewrite msb_twice. pose proof msb_pos. lia.
  Qed.

  Lemma vals_length k i l : (length (vals k i l) <= length l)%nat.
  Proof.
    revert i. induction l as [|x l IH]; intros i; cbn [vals length]; [lia|].
    rewrite app_length. specialize (IH (S i)). destruct (decide _); cbn [length]; lia.
  Qed.

  Lemma scanv_vals l h i l0 l1 : l = l0 ++ l1 -> i = length l0 -> h ∉ l0 ->
    first_occurrence l h (scanv l h (vals (hs_key nbits h) i l1)).
  Proof.
    revert i l0. induction l1 as [|x l1 IH]; intros i l0 El Ei Hn; cbn [vals].
    - cbn. rewrite El, app_nil_r. done.
    - assert (l !! i = Some x) as Hx.
      { rewrite El, Ei. rewrite lookup_app_r, Nat.sub_diag by lia. done. }
      destruct (decide (x = h)) as [->|Hne].
      + destruct (decide _); [|done]. cbn [app scanv].
        replace (Z.to_nat (Z.of_nat i + 1 - 1)) with i by lia. rewrite Hx.
        destruct (decide _); [|done]. split; [done|]. intros j Hj Hj'.
        rewrite El, lookup_app_l in Hj' by lia. apply Hn. apply elem_of_list_lookup_2 in Hj'. done.
      + assert (first_occurrence l h (scanv l h (vals (hs_key nbits h) (S i) l1))) as HI.
        { apply (IH (S i) (l0 ++ [x])).
          - rewrite <- app_assoc. done.
          - rewrite app_length. cbn [length]. lia.
          - rewrite elem_of_app, elem_of_list_singleton. intros [?|?]; [done|congruence]. }
        destruct (decide _); [|done]. cbn [app scanv].
        replace (Z.to_nat (Z.of_nat i + 1 - 1)) with i by lia. rewrite Hx.
        destruct (decide (x = h)); done.
  Qed.

  Lemma key_range h : is_hash h -> (hs_key nbits h < 2 ^ nbits)%nat.
  Proof using Hp.
    intros Hh. unfold hs_key.
    replace (2 ^ Z.of_nat nbits - 1) with (Z.ones (Z.of_nat nbits)) by (rewrite Z.ones_equiv; lia).
    rewrite Z.land_ones by lia.
    assert (0 < 2 ^ Z.of_nat nbits) by (apply Z.pow_pos_nonneg; lia).
    pose proof (Z.mod_pos_bound (to_i64 (le_dec (take 8 h))) (2 ^ Z.of_nat nbits)).
    apply Nat2Z.inj_lt. rewrite Z2Nat.id by lia. rewrite Nat2Z.inj_pow. change (Z.of_nat 2) with 2. lia.
  Qed.

  Definition key_inv (K : list (list Z)) (lk : Z) (cs : list nat) (vs : list Z) : Prop :=
    match vs with
    | [] => lk = 0 /\ cs = []
    | [v] => lk = v /\ cs = []
    | _ => chain K cs vs /\ NoDup cs /\ lk = Z.of_nat (default 0%nat (head cs)) + 1 + hs_msb nb
    end.

  Definition hs_inv (l : list (list Z)) (s : hash_store) : Prop :=
    exists (L : list Z) (K : list (list Z)) (ch : nat -> list nat),
      bhs_rep l (hs_hashes s) /\ hs_lkp s = word_bytes nb L /\ length L = (2 ^ nbits)%nat /\
      hs_coll s = cbytes K /\ sized K /\ (length K <= length l)%nat /\
      (forall k, (k < 2 ^ nbits)%nat -> exists lk, L !! k = Some lk /\ key_inv K lk (ch k) (vals k 0 l)) /\
      (forall k k' c, (k < 2 ^ nbits)%nat -> (k' < 2 ^ nbits)%nat -> c ∈ ch k -> c ∈ ch k' -> k = k').

  Lemma key_inv_frame K K' lk cs vs :
    key_inv K lk cs vs -> (forall c, c ∈ cs -> K' !! c = K !! c) -> key_inv K' lk cs vs.
  Proof.
    intros H Hf. destruct vs as [|v [|v' vs]]; [done|done|]. destruct H as (H1 & H2 & H3).
    split; [|done]. eapply chain_frame; eauto.
  Qed.

  Lemma key_inv_range K lk cs vs c : key_inv K lk cs vs -> c ∈ cs -> (c < length K)%nat.
  Proof.
    intros H Hc. destruct vs as [|v [|v' vs]].
    - destruct H as [_ ->]. apply elem_of_nil in Hc. done.
    - destruct H as [_ ->]. apply elem_of_nil in Hc. done.
    - destruct H as (H & _). eapply chain_in_range; eauto.
  Qed.

  Lemma create_inv : hs_inv [] (hs_create nb nbits).
  Proof.
    exists (replicate (2 ^ nbits) 0), [], (fun _ => []). unfold hs_create. cbn [hs_hashes hs_lkp hs_coll].
    split_and!.
    - apply (bhs_open_rep []). constructor.
    - rewrite words_zero. done.
    - apply replicate_length.
    - done.
    - constructor.
    - done.
    - intros k Hk. exists 0. split; [apply lookup_replicate_2; done|]. done.
    - intros k k' c _ _ Hc. apply elem_of_nil in Hc. done.
  Qed.

  Lemma reopen_inv l s : hs_inv l s -> hs_reopen s = s.
  Proof.
    intros (L & K & ch & [Hh Hall] & _). destruct s as [hf lk co]. unfold hs_reopen. cbn [hs_hashes hs_lkp hs_coll] in *.
    f_equal. rewrite Hh. cbn [hf_data]. apply bhs_open_rep, Hall.
  Qed.

  Lemma vals_bound k i l v : v ∈ vals k i l -> Z.of_nat i < v <= Z.of_nat (i + length l).
  Proof.
    revert i. induction l as [|x l IH]; intros i Hin; cbn [vals] in Hin; [apply elem_of_nil in Hin; done|].
    apply elem_of_app in Hin as [Hin|Hin].
    - destruct (decide _); [|apply elem_of_nil in Hin; done].
      apply elem_of_list_singleton in Hin as ->. cbn [length]. lia.
    - apply IH in Hin. cbn [length]. lia.
  Qed.

  Lemma index_of_inv l s h : hs_inv l s -> is_hash h -> Z.of_nat (length l) < hs_msb nb ->
    first_occurrence l h (hs_index_of nb nbits cpc s h).
  Proof using Hp.
    intros (L & K & ch & Hr & HL & HLl & Hco & HK & HKl & Hkeys & _) Hh Hcap.
    unfold hs_index_of. destruct (decide (nb = 0)%nat); [lia|]. destruct (decide (8 < nb)%nat); [lia|].
    pose proof (key_range h Hh) as Hk. set (k := hs_key nbits h) in *.
    destruct (Hkeys k Hk) as (lk & Elk & Hinv). rewrite HL, (words_read L k lk) by done.
    pose proof (scanv_vals l h 0 [] l eq_refl eq_refl (not_elem_of_nil h)) as Hspec. fold k in Hspec.
    pose proof (vals_good k 0 l) as Hg. cbn [Nat.add] in Hg. specialize (Hg ltac:(lia)).
    pose proof msb_pos as Hm. pose proof msb_twice as Hm2.
    destruct (vals k 0 l) as [|v [|v' vs]] eqn:Ev; cbn [key_inv] in Hinv.
    - destruct Hinv as [-> _]. rewrite word_enc by lia. rewrite land_msb_low by lia.
      change (0 =? 0) with true. cbv iota. done.
    - destruct Hinv as [-> _].
      pose proof (vals_bound k 0 l v) as Hvb. rewrite Ev in Hvb. specialize (Hvb ltac:(apply elem_of_list_here)).
      cbn [Nat.add] in Hvb.
      rewrite word_enc by lia. rewrite land_msb_low by lia.
      change (0 =? 0) with true. cbv iota. destruct (Z.eqb_spec v 0); [lia|].
      rewrite (bhs_get_rep l) by done. cbn [scanv] in Hspec.
      destruct (l !! Z.to_nat (v - 1)); [|done]. destruct (decide _); done.
    - destruct Hinv as (Hch & Hnd & ->).
      destruct (chain_head K (ch k) _ Hch) as (c0 & cs0 & Ecs). rewrite Ecs. cbn [head default from_option].
      unfold id.
      assert (c0 < length K)%nat as Hc0.
      { eapply chain_in_range; [done|]. rewrite Ecs. apply elem_of_list_here. }
      rewrite word_enc by lia. rewrite land_msb_high by lia.
      destruct (Z.eqb_spec (hs_msb nb) 0); [lia|]. rewrite land_not_msb by lia.
      replace (Z.to_nat (Z.of_nat c0 + 1)) with (S c0) by lia.
      destruct (decide (S c0 = 0)%nat); [lia|].
      rewrite (chain_find l s K (ch k) (v :: v' :: vs) h _ c0 cs0); [done|done|done|done|done|done|lia|done|].
      destruct (chain_nodup_bound K (ch k) _ Hch Hnd) as [Hb1 Hb2].
      unfold hs_fuel. rewrite Hco, cbytes_length by done. nia.
  Qed.

  Lemma append_inv l s h : hs_inv l s -> is_hash h -> Z.of_nat (length l) < hs_msb nb - 1 ->
    (hs_append nb nbits cpc s h).2 = RFound (length l) /\
    hs_inv (l ++ [h]) (hs_append nb nbits cpc s h).1.
  Proof using Hp.
    intros (L & K & ch & Hr & HL & HLl & Hco & HK & HKl & Hkeys & Hdis) Hh Hcap.
    unfold hs_append. destruct (bhs_append_rep l (hs_hashes s) h (proj1 Hh) Hr) as [Hr' Hidx].
    destruct (bhs_append (hs_hashes s) h) as [hf valnum]. cbn [fst snd] in Hr', Hidx. subst valnum.
    destruct (decide (nb = 0)%nat); [lia|].
    destruct (Z.leb_spec (hs_msb nb) (Z.of_nat (length l))); [lia|].
    destruct (decide (8 < nb)%nat); [lia|]. destruct (decide (8 < cpc)%nat); [lia|].
    pose proof (key_range h Hh) as Hk. set (k := hs_key nbits h) in *.
    destruct (Hkeys k Hk) as (lk & Elk & Hinv). rewrite HL, (words_read L k lk) by done.
    pose proof (vals_good k 0 l) as Hg. cbn [Nat.add] in Hg. specialize (Hg ltac:(lia)).
    pose proof msb_pos as Hm. pose proof msb_twice as Hm2.
    assert (vals k 0 (l ++ [h]) = vals k 0 l ++ [Z.of_nat (length l) + 1]) as Ekk.
    { rewrite vals_snoc. fold k. destruct (decide (k = k)); [|done]. cbn [Nat.add]. done. }
    assert (forall k', k' <> k -> vals k' 0 (l ++ [h]) = vals k' 0 l) as Eother.
    { intros k' Hne. rewrite vals_snoc. fold k. destruct (decide (k = k')); [congruence|]. apply app_nil_r. }
    assert (good (Z.of_nat (length l) + 1)) as Hgv by (unfold good; lia).
    (* rebuilding the invariant from the new table, chunks and chains *)
    assert (forall L' K' ch', length L' = length L -> sized K' -> (length K' <= length l + 1)%nat ->
      (exists lk', L' !! k = Some lk' /\ key_inv K' lk' ch' (vals k 0 l ++ [Z.of_nat (length l) + 1])) ->
      (forall k', k' <> k -> L' !! k' = L !! k') ->
      (forall c, (c < length K)%nat -> c ∉ ch k -> K' !! c = K !! c) ->
      (forall c, c ∈ ch' -> c ∈ ch k \/ (length K <= c)%nat) ->
      hs_inv (l ++ [h]) (mk_hs hf (word_bytes nb L') (cbytes K'))) as Hre.
    { intros L' K' ch' HL' HK' HKl' Hkk HLo HKo Hch'.
      exists L', K', (fun k' => if decide (k' = k) then ch' else ch k'). cbn [hs_hashes hs_lkp hs_coll].
      split_and!; try done; try lia.
      - rewrite app_length. cbn [length]. lia.
      - intros k' Hk'. destruct (decide (k' = k)) as [->|Hne].
        + destruct Hkk as (lk' & ? & ?). exists lk'. rewrite Ekk. done.
        + destruct (Hkeys k' Hk') as (lk' & E' & Hi'). exists lk'. rewrite HLo, Eother by done.
          split; [done|]. eapply key_inv_frame; [done|]. intros c Hc.
          pose proof (key_inv_range _ _ _ _ c Hi' Hc). apply HKo; [done|].
          intros Hc2. apply Hne. eapply Hdis; eauto.
      - intros k1 k2 c Hk1 Hk2. destruct (decide (k1 = k)) as [->|N1], (decide (k2 = k)) as [->|N2]; try done.
        + intros Hc1 Hc2. destruct (Hch' c Hc1) as [Hin|Hge]; [eapply Hdis; eauto|].
          destruct (Hkeys k2 Hk2) as (lk' & _ & Hi'). pose proof (key_inv_range _ _ _ _ c Hi' Hc2). lia.
        + intros Hc1 Hc2. destruct (Hch' c Hc2) as [Hin|Hge]; [eapply Hdis; eauto|].
          destruct (Hkeys k1 Hk1) as (lk' & _ & Hi'). pose proof (key_inv_range _ _ _ _ c Hi' Hc1). lia.
        + eapply Hdis; eauto. }
    assert (k < length L)%nat as HkL by lia.
    destruct (vals k 0 l) as [|v [|v' vs]] eqn:Ev; cbn [key_inv] in Hinv.
    - (* vacant *)
      destruct Hinv as [-> Hch0]. rewrite word_enc by lia. change (0 =? 0) with true. cbv iota. cbn [fst snd].
      split; [done|]. rewrite words_write by done. rewrite Hco.
      apply (Hre _ K []); [apply insert_length|done|lia| | |done|].
      + exists (Z.of_nat (length l) + 1). split; [apply list_lookup_insert; done|]. done.
      + intros k' Hne. apply list_lookup_insert_ne. done.
      + intros c Hc. apply elem_of_nil in Hc. done.
    - (* first collision *)
      destruct Hinv as [-> Hch0].
      pose proof (vals_bound k 0 l v) as Hvb. rewrite Ev in Hvb. specialize (Hvb ltac:(apply elem_of_list_here)).
      cbn [Nat.add] in Hvb.
      rewrite word_enc by lia. destruct (Z.eqb_spec v 0); [lia|]. rewrite land_msb_low by lia.
      change (0 =? 0) with true. cbv iota.
      rewrite Hco, avail_chunks by done.
      destruct (Z.leb_spec (hs_msb nb) (Z.of_nat (length K) + 1)); [lia|].
      unfold zerobuf. destruct (decide (cpc = 0 \/ 32 < (cpc - 1) * nb)%nat); [nia|]. cbn [fst snd].
      split; [done|]. rewrite lor_msb by lia. rewrite words_write by done.
      assert (file_write (file_write (file_write (cbytes K) (length (cbytes K)) (le_enc nb v))
               (length (cbytes K) + nb) (le_enc nb (Z.of_nat (length l) + 1)))
               (length (cbytes K) + nb * 2) (replicate ((cpc - 1) * nb) 0)
              = cbytes (K ++ [chunk_of [v; Z.of_nat (length l) + 1] 0])) as ->.
      { rewrite file_write_append.
        replace (length (cbytes K) + nb)%nat with (length (cbytes K ++ le_enc nb v))
          by (rewrite app_length, le_enc_length; done).
        rewrite file_write_append.
        replace (length (cbytes K) + nb * 2)%nat
          with (length ((cbytes K ++ le_enc nb v) ++ le_enc nb (Z.of_nat (length l) + 1)))
          by (rewrite !app_length, !le_enc_length; lia).
        rewrite file_write_append. unfold cbytes. rewrite concat_app, words_app. rewrite <- !app_assoc. f_equal.
        cbn [concat]. rewrite app_nil_r. unfold chunk_of. cbn [length].
        change [0] with (replicate 1 0). rewrite <- replicate_add.
        rewrite (words_app [v; Z.of_nat (length l) + 1]), words_zero.
        unfold word_bytes. cbn [map concat]. rewrite app_nil_r, <- app_assoc. do 3 f_equal.
        replace (cpc - 2 + 1)%nat with (cpc - 1)%nat by lia. lia. }
      apply (Hre _ _ [length K]).
      + apply insert_length.
      + apply Forall_app. split; [done|]. constructor; [|constructor]. apply chunk_of_length. cbn. lia.
      + rewrite app_length. cbn [length]. lia.
      + exists (Z.of_nat (length K) + 1 + hs_msb nb). split; [apply list_lookup_insert; done|].
        cbn [app key_inv]. split; [|split; [apply NoDup_singleton|done]].
        apply chain_last; [cbn; lia|]. rewrite lookup_app_r, Nat.sub_diag by lia. done.
      + intros k' Hne. apply list_lookup_insert_ne. done.
      + intros c Hc _. apply lookup_app_l. done.
      + intros c Hc. apply elem_of_list_singleton in Hc as ->. right. done.
    - (* a chain *)
      destruct Hinv as (Hch & Hnd & ->).
      destruct (chain_head K (ch k) _ Hch) as (c0 & cs0 & Ecs). rewrite Ecs. cbn [head default from_option].
      unfold id.
      assert (c0 < length K)%nat as Hc0.
      { eapply chain_in_range; [done|]. rewrite Ecs. apply elem_of_list_here. }
      rewrite word_enc by lia. destruct (Z.eqb_spec (Z.of_nat c0 + 1 + hs_msb nb) 0); [lia|].
      rewrite land_msb_high by lia.
      destruct (Z.eqb_spec (hs_msb nb) 0); [lia|]. rewrite land_not_msb by lia.
      replace (Z.to_nat (Z.of_nat c0 + 1 - 1)) with c0 by lia. rewrite Hco.
      destruct (lookup_lt_is_Some_2 K c0 Hc0) as [ch0 Hch0].
      rewrite (chunk_read K c0 ch0) by done.
      destruct (chain_nodup_bound K (ch k) _ Hch Hnd) as [Hb1 Hb2].
      destruct (chain_append K (ch k) (v :: v' :: vs) (Z.of_nat (length l) + 1) (hs_fuel s) c0 cs0 ch0)
        as (K1 & c & j & chx & cs' & Ew & HK1 & Hc & Hj & [Hchain Hfr] & Hlen & Hcs'); try done.
      { unfold hs_fuel. rewrite Hco, cbytes_length by done. nia. }
      { lia. }
      rewrite Ew. cbn [fst snd]. split; [done|].
      rewrite (slot_write K1 c chx j) by (done || lia).
      apply (Hre L _ cs'); try done.
      + apply sized_insert_sized; done.
      + rewrite insert_length. lia.
      + exists (Z.of_nat c0 + 1 + hs_msb nb). split; [rewrite Elk, Ecs; done|].
        cbn [app key_inv]. split; [exact Hchain|]. split.
        * destruct Hcs' as [->|[-> _]]; [done|]. apply NoDup_app. split; [done|]. split; [|apply NoDup_singleton].
          intros c1 Hc1 Hc2. apply elem_of_list_singleton in Hc2 as ->.
          pose proof (chain_in_range _ _ _ _ Hch Hc1). lia.
        * destruct Hcs' as [->|[-> _]]; rewrite Ecs; done.
      + intros c1 Hc1. destruct Hcs' as [->|[-> _]]; [left; done|].
        apply elem_of_app in Hc1 as [?|Hc1]; [left; done|]. apply elem_of_list_singleton in Hc1 as ->. right. done.
  Qed.

  Lemma run_inv ops l s : hs_inv l s -> Forall is_hash (appended ops) ->
    Z.of_nat (length l + length (appended ops)) < hs_msb nb ->
    (hs_run nb nbits cpc s ops).2 = RFound <$> seq (length l) (length (appended ops)) /\
    hs_inv (l ++ appended ops) (hs_run nb nbits cpc s ops).1.
  Proof using Hp.
    revert l s. induction ops as [|[h|] ops IH]; intros l s Hinv Hall Hcap; cbn [hs_run appended] in *.
    - rewrite app_nil_r. done.
    - apply Forall_cons in Hall as [Hh Hall]. cbn [length] in *.
      destruct (append_inv l s h Hinv Hh) as [Hr Hinv']; [lia|].
      destruct (hs_append nb nbits cpc s h) as [s1 r]. cbn [fst snd] in *.
      destruct (IH (l ++ [h]) s1 Hinv' Hall) as [H1 H2]; [rewrite app_length; cbn [length]; lia|].
      destruct (hs_run nb nbits cpc s1 ops) as [s2 rs]. cbn [fst snd] in *. subst.
      rewrite <- app_assoc in H2. split; [|done]. rewrite app_length. cbn [length seq fmap list_fmap].
      do 3 f_equal. lia.
    - rewrite (reopen_inv l) by done. auto.
  Qed.
End Store.

(** ** The in-memory index *)
Lemma mi_run_inv hs : forall l s, bhs_rep l (mi_store s) -> mi_count s = length l ->
  Forall (fun h => length h = 32%nat) hs ->
  (forall h, last_occurrence l h (mi_index_of s h)) ->
  (mi_run s hs).2 = seq (length l) (length hs) /\ bhs_rep (l ++ hs) (mi_store (mi_run s hs).1) /\
  mi_count (mi_run s hs).1 = length (l ++ hs) /\
  (forall h, last_occurrence (l ++ hs) h (mi_index_of (mi_run s hs).1 h)).
Proof.
  induction hs as [|h hs IH]; intros l s Hr Hc Hall Hm; cbn [mi_run length seq].
  - rewrite app_nil_r. done.
  - apply Forall_cons in Hall as [Hh Hall].
    destruct (bhs_append_rep l (mi_store s) h Hh Hr) as [Hr' Hidx].
    destruct (mi_append s h) as [s1 i] eqn:E. unfold mi_append in E.
    destruct (bhs_append (mi_store s) h) as [hf idx]. cbn [fst snd] in *. injection E as <- <-. subst idx.
    destruct (IH (l ++ [h]) (mk_mi (<[h := mi_count s]> (mi_map s)) hf (S (mi_count s)))) as (H1 & H2 & H3 & H4).
    + done.
    + cbn [mi_count]. rewrite app_length. cbn [length]. lia.
    + done.
    + intros g. unfold mi_index_of. cbn [mi_map]. destruct (decide (g = h)) as [->|Hne].
      * rewrite lookup_insert. cbn. rewrite Hc. split.
        -- rewrite lookup_app_r, Nat.sub_diag by lia. done.
        -- intros j Hj. rewrite lookup_ge_None_2; [done|]. rewrite app_length. cbn. lia.
      * rewrite lookup_insert_ne by done. specialize (Hm g). unfold mi_index_of in Hm.
        destruct (mi_map s !! g) as [v|]; cbn in Hm |- *.
        -- destruct Hm as [Hm1 Hm2]. split; [apply lookup_app_l_Some, Hm1|].
           intros j Hj. destruct (decide (j < length l)%nat) as [Hlt|Hge].
           ++ rewrite lookup_app_l by done. apply Hm2, Hj.
           ++ rewrite lookup_app_r by lia. destruct (j - length l)%nat as [|n]; [cbn; congruence|rewrite lookup_ge_None_2 by (cbn; lia); done].
        -- rewrite elem_of_app, elem_of_list_singleton. intros [?|?]; done.
    + destruct (mi_run _ hs) as [s2 is]. cbn [fst snd] in *. subst is.
      rewrite <- app_assoc in *. cbn [app] in *.
      split_and!; try done. rewrite app_length. cbn [length]. do 2 f_equal. lia.
Qed.
