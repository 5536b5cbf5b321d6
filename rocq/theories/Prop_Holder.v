(** C47 median time, C49 transaction heights, C48 block hash stream. *)
From stdpp Require Import sorting.
From Verif Require Import Base Model_Holder Spec_Holder Proof_Holder.

(** ** C47 *)
(** For every chain that is visited, the i-th reported median time is the element of rank n/2 among the
    timestamps of the last n = min(11, i+1) blocks. *)
Theorem C47_median_is_the_middle_of_the_last_eleven fl ix bs s h meds :
  Z.of_nat (length bs) < 2^32 -> visit fl ix bs = Some (s, h, meds) ->
  length meds = length bs /\
  forall i m, meds !! i = Some m -> has_rank (last_eleven (bk_time <$> bs) i) ((11 `min` S i) / 2) m.
Proof.
  intros Hb. unfold visit. destruct bs as [|b bs]; [done|].
  destruct (genesis_spec fl ix b) as [G1 G2].
  destruct (decide (take 4 (bk_hash b) = [0x6f; 0xe2; 0x8c; 0x0a])) as [E|E]; [|by rewrite G2].
  destruct (G1 E) as (s0 & h0 & -> & I & Hc). pose proof (visit_rest_spec fl ix bs [b] s0 h0 I) as V.
  cbn [length] in *. specialize (V ltac:(lia)).
  destruct (visit_rest fl s0 h0 bs) as [[[s' h'] meds']|]; [|done].
  intros [= <- <- <-]. destruct V as (V1 & V2 & V3 & V4). cbn [app length] in *. split; [lia|].
  intros [|i] m Hm.
  - cbn in Hm. injection Hm as <-. rewrite Hc. cbn [from_option snd].
    change (11 `min` 1)%nat with (length [bk_time b]).
    change (last_eleven (bk_time <$> b :: bs) 0) with [bk_time b].
    apply (median_rank [bk_time b]). done.
  - exact (V4 i m Hm).
Qed.

(** An element of a given rank is unique, so this determines the reported time. *)
Theorem C47_rank_determines_the_value w r m m' : has_rank w r m -> has_rank w r m' -> m = m'.
Proof.
  assert (Mono : forall m m', m < m' -> (length (filter (fun x => (x <= m)%Z) w) <= length (filter (fun x => (x < m')%Z) w))%nat).
  { clear. intros m m' H. induction w as [|a w IH]; [done|]. rewrite !filter_cons.
    destruct (decide (a <= m)); [rewrite decide_True by lia; cbn [length]; lia|].
    destruct (decide (a < m')); cbn [length]; lia. }
  intros [_ H1] [_ H2]. destruct (Z.lt_trichotomy m m') as [H|[H|H]]; [|done|];
    specialize (Mono _ _ H); lia.
Qed.

(** ** C49 *)
(** Visiting a chain succeeds exactly when it starts with the genesis block and every block names its
    predecessor; a block with a wrong previous hash is never accepted. *)
Theorem C49_visited_iff_linked fl ix bs :
  Z.of_nat (length bs) < 2^32 ->
  is_Some (visit fl ix bs) <-> genesis_first bs /\ linked bs.
Proof.
  intros Hb. unfold visit. destruct bs as [|b bs].
  - split; [by intros [? ?]|]. intros [(b & Hb' & _) _]. done.
  - destruct (genesis_spec fl ix b) as [G1 G2].
    destruct (decide (take 4 (bk_hash b) = [0x6f; 0xe2; 0x8c; 0x0a])) as [E|E].
    2:{ rewrite G2 by done. split; [by intros [? ?]|]. intros [(c & Hc & Hh) _]. injection Hc as <-. done. }
    destruct (G1 E) as (s0 & h0 & -> & I & Hc). pose proof (visit_rest_spec fl ix bs [b] s0 h0 I) as V.
    cbn [length] in *. specialize (V ltac:(lia)).
    assert (L : forall i c, bs !! i = Some c ->
      last (bk_hash <$> ([b] ++ take i bs)) = bk_hash <$> (b :: bs) !! i).
    { intros i c Hi. rewrite last_lookup, list_lookup_fmap, fmap_length, app_length, take_length.
      apply lookup_lt_Some in Hi. cbn [length].
      replace (pred (1 + i `min` length bs)) with i by lia. f_equal.
      destruct i as [|i]; [done|]. cbn [app]. change (take (S i) bs !! i = bs !! i). rewrite lookup_take by lia. done. }
    destruct (visit_rest fl s0 h0 bs) as [[[s' h'] meds']|].
    + destruct V as (_ & _ & V3 & _). split; [|by eauto]. intros _. split; [exists b; done|].
      intros i x c Hx Hc'. change (bs !! i = Some c) in Hc'. pose proof (V3 i c Hc') as H1. rewrite (L _ _ Hc'), Hx in H1.
      cbn in H1. congruence.
    + split; [by intros [? ?]|]. intros [_ Hl]. exfalso. destruct V as (i & c & Hi & Hne).
      apply Hne. rewrite (L _ _ Hi).
      destruct (lookup_lt_is_Some_2 (b :: bs) i) as [x Hx]; [apply lookup_lt_Some in Hi; cbn; lia|].
      rewrite Hx. cbn. f_equal. symmetry. eapply Hl; eauto.
Qed.

(** What has been recorded after visiting a chain: block h starts at the number of earlier transactions;
    a transaction is recorded under exactly its block and its hash under exactly its number. *)
Theorem C49_recorded_heights fl bs s h meds :
  Z.of_nat (length bs) < 2^32 -> visit fl true bs = Some (s, h, meds) ->
  (forall k f, EFirst k f ∈ hd_log s <->
     exists j, k = Z.of_nat j /\ (j < length bs)%nat /\ f = Z.of_nat (trans_before bs j)) /\
  (forall t k, EParent t k ∈ hd_log s <->
     exists j n, k = Z.of_nat j /\ t = Z.of_nat n /\ (trans_before bs j <= n < trans_before bs (S j))%nat) /\
  (forall id t, EHash id t ∈ hd_log s <->
     exists n, t = Z.of_nat n /\ concat (bk_txids <$> bs) !! n = Some id).
Proof.
  intros Hb Hv.
  assert (Hlog : hd_log s = events 0 0 bs).
  { unfold visit in Hv. destruct bs as [|b bs]; [done|].
    destruct (genesis_spec fl true b) as [G1 G2].
    destruct (decide (take 4 (bk_hash b) = [0x6f; 0xe2; 0x8c; 0x0a])) as [E|E]; [|by rewrite G2 in Hv].
    destruct (G1 E) as (s0 & h0 & E0 & I & Hc). rewrite E0 in Hv. pose proof (visit_rest_spec fl true bs [b] s0 h0 I) as V.
    cbn [length] in *. specialize (V ltac:(lia)).
    destruct (visit_rest fl s0 h0 bs) as [[[s' h'] meds']|]; [|done].
    injection Hv as <- <- <-. destruct V as (V1 & _). exact (hv_log _ _ _ _ _ V1). }
  rewrite Hlog.
  assert (TS : forall j b, bs !! j = Some b -> trans_before bs (S j) = (trans_before bs j + length (bk_txids b))%nat).
  { intros j b Hj. unfold trans_before. rewrite (take_S_r _ _ _ Hj), fmap_app, concat_app, app_length. cbn. rewrite app_nil_r. done. }
  assert (TE : forall j, (length bs <= j)%nat -> trans_before bs (S j) = trans_before bs j).
  { intros j Hj. unfold trans_before. rewrite !take_ge by lia. done. }
  assert (TN : forall j b i, bs !! j = Some b -> (i < length (bk_txids b))%nat ->
     concat (bk_txids <$> bs) !! (trans_before bs j + i)%nat = bk_txids b !! i).
  { intros j b i Hj Hi. unfold trans_before.
    assert (Ec : concat (bk_txids <$> bs) = concat (bk_txids <$> take j bs) ++ bk_txids b ++ concat (bk_txids <$> drop (S j) bs)).
    { rewrite <-(take_drop_middle _ _ _ Hj) at 1. rewrite fmap_app, concat_app. done. }
    rewrite Ec. rewrite lookup_app_r by lia.
    rewrite lookup_app_l by lia. f_equal. lia. }
  split; [|split].
  - intros k f. rewrite elem_of_events. split.
    + intros (j & b & Hj & [E|(i & id & _ & [E|E])]); try done. injection E as -> ->. exists j.
      split; [lia|]. split; [by eapply lookup_lt_Some|]. lia.
    + intros (j & -> & Hj & ->). destruct (lookup_lt_is_Some_2 _ _ Hj) as [b Hb']. exists j, b. split; [done|]. left. f_equal; lia.
  - intros t k. rewrite elem_of_events. split.
    + intros (j & b & Hj & [E|(i & id & Hi & [E|E])]); try done. injection E as -> ->.
      exists j, (trans_before bs j + i)%nat. split; [lia|]. split; [lia|]. rewrite (TS _ _ Hj).
      apply lookup_lt_Some in Hi. lia.
    + intros (j & n & -> & -> & H1 & H2).
      destruct (decide (j < length bs)%nat) as [Hj|Hj]; [|rewrite TE in H2 by lia; lia].
      destruct (lookup_lt_is_Some_2 _ _ Hj) as [b Hb']. rewrite (TS _ _ Hb') in H2.
      destruct (lookup_lt_is_Some_2 (bk_txids b) (n - trans_before bs j)) as [id Hid]; [lia|].
      exists j, b. split; [done|]. right. exists (n - trans_before bs j)%nat, id. split; [done|]. left. f_equal; lia.
  - intros id t. rewrite elem_of_events. split.
    + intros (j & b & Hj & [E|(i & id' & Hi & [E|E])]); try done. injection E as -> ->.
      exists (trans_before bs j + i)%nat. split; [lia|]. rewrite (TN _ _ _ Hj); [done|]. by eapply lookup_lt_Some.
    + intros (n & -> & Hn).
      assert (exists j b i, bs !! j = Some b /\ n = (trans_before bs j + i)%nat /\ (i < length (bk_txids b))%nat) as (j & b & i & Hj & -> & Hi).
      { clear -Hn. revert n Hn. induction bs as [|b bs IH]; intros n Hn; [done|].
        cbn [fmap list_fmap concat] in Hn.
        destruct (decide (n < length (bk_txids b))%nat) as [Hlt|Hge].
        - exists 0%nat, b, n. done.
        - rewrite lookup_app_r in Hn by lia. destruct (IH _ Hn) as (j & c & i & Hj & Hi & Hl).
          exists (S j), c, i. split; [done|]. split; [|done].
          unfold trans_before. cbn [take fmap list_fmap concat]. rewrite app_length. unfold trans_before in Hi. lia. }
      rewrite (TN _ _ _ Hj Hi) in Hn.
      exists j, b. split; [done|]. right. exists i, id. split; [done|]. right. f_equal; lia.
Qed.

(** Only the handle of the block last visited gives a next block: the handle of an earlier block is
    refused, whatever block would come next (a handle that is a hash must differ from the present one). *)
Theorem C49_stale_handles_refused fl ix bs1 bs2 s1 h1 m1 s2 h2 m2 nb :
  Z.of_nat (length (bs1 ++ bs2)) < 2^32 -> bs2 <> [] ->
  visit fl ix bs1 = Some (s1, h1, m1) -> visit fl ix (bs1 ++ bs2) = Some (s2, h2, m2) ->
  (fl = Cri -> bk_hash <$> last bs1 <> bk_hash <$> last bs2) ->
  next_block fl s2 h1 nb = HPanic.
Proof.
  intros Hb Hne V1 V2 Hd. rewrite app_length in Hb.
  apply visit_inv in V1; [|lia]. apply visit_inv in V2; [|rewrite app_length; lia].
  destruct (hv_cur _ _ _ _ _ V1) as (b1 & x1 & L1 & _ & M1).
  destruct (hv_cur _ _ _ _ _ V2) as (b2 & x2 & L2 & C2 & _).
  unfold next_block. rewrite C2.
  assert (Hl : (0 < length bs2)%nat) by (destruct bs2; [done|cbn; lia]).
  assert (holds_block fl b2 (Z.of_nat (length (bs1 ++ bs2)) - 1) h1 = false) as ->; [|done].
  rewrite app_length in *. destruct fl; cbn [make_handle] in M1.
  - destruct (_ || _); [done|]. destruct (_ =? 0xFFFFFFFF) eqn:E; [lia|].
    injection M1 as <-. cbn [holds_block]. lia.
  - injection M1 as <-. cbn [holds_block]. apply bool_decide_eq_false. intros E.
    apply Hd; [done|]. rewrite L1. rewrite last_app in L2.
    destruct (last bs2) as [c|] eqn:El; [injection L2 as ->; cbn; congruence|].
    by apply last_None in El.
Qed.

(** A three block chain meets the hypotheses. *)
Definition ex_b0 := mk_blk [0x6f; 0xe2; 0x8c; 0x0a; 1] [0] 100 [[1]].
Definition ex_b1 := mk_blk [5] [0x6f; 0xe2; 0x8c; 0x0a; 1] 90 [[2]; [3]].
Definition ex_b2 := mk_blk [6] [5] 95 [[4]].
Example C49_ex_chain : exists s,
  visit Chi true [ex_b0; ex_b1; ex_b2] = Some (s, HNum 2, [100; 100; 95]) /\
  hd_log s = [EFirst 0 0; EParent 0 0; EHash [1] 0; EFirst 1 1; EParent 1 1; EHash [2] 1; EParent 2 1; EHash [3] 2;
              EFirst 2 3; EParent 3 2; EHash [4] 3].
Proof. eexists. split; [vm_compute; reflexivity|vm_compute; reflexivity]. Qed.
Example C49_ex_stale : exists s1 m1 s2 m2 nb,
  visit Chi true [ex_b0] = Some (s1, HNum 0, m1) /\ visit Chi true ([ex_b0] ++ [ex_b1]) = Some (s2, HNum 1, m2) /\
  next_block Chi s2 (HNum 0) nb = HPanic /\ next_block Chi s2 (HNum 1) nb <> HPanic.
Proof. eexists _, _, _, _, (Some ex_b2). vm_compute. done. Qed.
Example C49_ex_wrong_prev : visit Cri true [ex_b0; ex_b2] = None.
Proof. vm_compute. done. Qed.

(** ** C48 *)
(** When the chain has at least one block more than asked for, exactly the first n hashes are sent, in
    order, wherever the request boundaries fall. *)
Theorem C48_stream_is_the_prefix_partial hash hs server g n :
  header_chain hash hs -> answers hash hs server -> hs !! 0%nat = Some g -> (n < length hs)%nat ->
  stream_hashes server (hash g) n = hash <$> take n hs.
Proof.
  intros C A Hg Hn. unfold stream_hashes. destruct (decide (n = 0%nat)) as [->|H0]; [by rewrite take_0|].
  rewrite (stream_spec hash hs server n C A Hn n 0 g Hg) by lia.
  rewrite drop_0, Nat.sub_0_r. done.
Qed.

(** Whatever the server answers, exactly n hashes are sent before the channel is closed. *)
Theorem C48_always_sends_n_hashes server g n : length (stream_hashes server g n) = n.
Proof.
  unfold stream_hashes. destruct (decide (n = 0%nat)) as [->|H0]; [done|].
  rewrite stream_length; lia.
Qed.

(** For every chain: asked for all of its blocks (at most 1000), the last hash sent is 32 zero bytes
    instead of the hash of the last block.  (The end of the chain is never noticed.) *)
Theorem C48_last_block_is_sent_as_zeroes hash hs server g :
  header_chain hash hs -> answers hash hs server -> hs !! 0%nat = Some g -> Z.of_nat (length hs) <= 1000 ->
  stream_hashes server (hash g) (length hs) = (hash <$> take (length hs - 1) hs) ++ [replicate 32 0].
Proof.
  intros (C & D & L) A Hg Hn. unfold stream_hashes. pose proof bh_val as BH.
  assert (H0 : length hs <> 0%nat) by (apply lookup_lt_Some in Hg; lia).
  rewrite decide_False by done.
  destruct (length hs) as [|n] eqn:El; [done|]. cbn [stream_loop].
  rewrite decide_True by lia. rewrite (A 0%nat g Hg), bh_eq, drop_0, (take_ge hs) by lia.
  replace ((batch_headers - 2) `min` (S n - 0))%nat with (S n) by lia.
  rewrite seq_S, fmap_app. cbn [fmap list_fmap Nat.add]. rewrite Nat.sub_succ, Nat.sub_0_r. f_equal.
  - apply list_eq. intros i. change (list_fmap ?A ?B ?f ?l) with (f <$> l). rewrite !list_lookup_fmap.
    destruct (decide (i < n)%nat) as [Hi|Hi].
    + rewrite lookup_seq_lt by done. rewrite lookup_take by done.
      destruct (lookup_lt_is_Some_2 hs i) as [x Hx]; [lia|]. destruct (lookup_lt_is_Some_2 hs (S i)) as [y Hy]; [lia|].
      rewrite Hx. cbn [fmap option_fmap option_map Nat.add]. f_equal. rewrite prev_hash_chunk by (done || lia).
      replace (i + 1)%nat with (S i) by lia. rewrite Hy. cbn [default from_option]. unfold id. eapply L; eauto.
    + rewrite lookup_seq_ge by lia. rewrite lookup_take_ge by lia. done.
  - f_equal. unfold prev_hash_of, read_full.
    rewrite skipn_firstn_comm, take_take.
    rewrite drop_app_ge by (rewrite (chunks_concat_length 80) by done; lia).
    rewrite drop_replicate, take_replicate. f_equal.
    rewrite (chunks_concat_length 80) by done. lia.
Qed.

(** So the property fails at the end of the chain: a hash is sent that is not the hash of a block. *)
Theorem C48_only_existing_blocks_refuted : exists hash hs server g n,
  header_chain hash hs /\ answers hash hs server /\ hs !! 0%nat = Some g /\ (n <= length hs)%nat /\
  exists x, x ∈ stream_hashes server (hash g) n /\ x ∉ hash <$> hs.
Proof.
  set (g := replicate 80 7). set (hash := fun _ : list Z => replicate 32 1).
  assert (C : header_chain hash [g]).
  { split; [by repeat constructor|]. split; [apply NoDup_singleton|]. intros [|i] h k H1 H2; done. }
  assert (A : answers hash [g] (fun _ => g)).
  { intros [|i] h H; [|done]. injection H as <-. rewrite drop_0. rewrite take_ge; [cbn; by rewrite ?app_nil_r|].
    cbn [length]. lia. }
  exists hash, [g], (fun _ => g), g, 1%nat.
  split; [done|]. split; [done|]. split; [done|]. split; [done|].
  exists (replicate 32 0). split.
  - change 1%nat with (length [g]).
    rewrite (C48_last_block_is_sent_as_zeroes hash [g] (fun _ => g) g C A); [|done|cbn [length]; lia].
    apply elem_of_app. right. by apply elem_of_list_singleton.
  - cbn. intros H. apply elem_of_list_singleton in H. done.
Qed.

(** A two block chain meets the hypotheses of the positive theorem. *)
Example C48_ex_chain : exists hs server g,
  header_chain (fun h => take 32 h) hs /\ answers (fun h => take 32 h) hs server /\ hs !! 0%nat = Some g /\ (1 < length hs)%nat.
Proof.
  set (g := replicate 80 7). set (k := replicate 4 1 ++ replicate 32 7 ++ replicate 44 2).
  exists [g; k], (fun h => if decide (h = replicate 32 7) then g ++ k else k), g.
  split; [|split; [|split; [done|cbn; lia]]].
  - split; [by repeat constructor|]. split.
    + apply NoDup_cons. split; [|apply NoDup_singleton]. vm_compute. intros H. inversion H as [|? ? ? H2]; inversion H2.
    + intros [|[|i]] h x H1 H2; try done. injection H1 as <-. injection H2 as <-. vm_compute. done.
  - intros [|[|i]] h H; try done; injection H as <-.
    + vm_compute. done.
    + vm_compute. done.
Qed.

Print Assumptions C47_median_is_the_middle_of_the_last_eleven.
Print Assumptions C47_rank_determines_the_value.
Print Assumptions C49_visited_iff_linked.
Print Assumptions C49_recorded_heights.
Print Assumptions C49_stale_handles_refused.
Print Assumptions C48_stream_is_the_prefix_partial.
Print Assumptions C48_always_sends_n_hashes.
Print Assumptions C48_last_block_is_sent_as_zeroes.
Print Assumptions C48_only_existing_blocks_refuted.
