(** C59, what a limited main pass leaves: every block but the last stored one reads back in full, the last
    stored transaction cannot be read. *)
From Verif Require Import Base Model_Chain Spec_Chain Proof_Chain Prop_Chain.

Section Limited.
  Context (u : setup) (ix : stores) (bs pre post : list cblock) (vw : view) (A : ast).
  Context (Ebs : bs = pre ++ post) (HX : indexed ix bs) (HV : sees read_files vw ix A) (HI : sofar u bs pre A).
  Ltac inrd := unfold read_files; set_solver.

  Lemma tagged_split : tagged bs = tagged pre ++ tagged post.
  Proof. unfold tagged. by rewrite Ebs, map_app, concat_app. Qed.

  Lemma limited_counts (f total : fid) (len : (bool * ctx) -> nat) j p :
    f ∈ read_files -> total ∈ read_files ->
    a_f A f = starts (map len (tagged pre)) -> length (a_f A total) = sum (map len (tagged pre)) ->
    tagged pre !! j = Some p -> (S j < length (tagged pre))%nat ->
    (tot ← cnt vw total; first ← rd vw f (Z.of_nat j);
     if bool_decide (Z.of_nat j + 1 < ntrn vw) then (nxt ← rd vw f (Z.of_nat j + 1); Some (nxt - first)) else Some (tot - first))
    = Some (Z.of_nat (len p)) /\
    rd vw f (Z.of_nat j) = Some (Z.of_nat (sum (take j (map len (tagged pre))))).
  Proof.
    intros Hf Ht E1 E2 Hp Hj.
    assert (rd vw f (Z.of_nat j) = Some (Z.of_nat (sum (take j (map len (tagged pre)))))) as Hr.
    { rewrite (rd_ok _ _ _ HV), E1, starts_lookup by (try done; rewrite map_length; lia). done. }
    split; [|done]. rewrite (cnt_ok _ _ _ HV), E2 by done. cbn [mbind option_bind]. rewrite Hr. cbn [mbind option_bind].
    rewrite (ntrn_eq _ _ _ _ HX HV).
    assert (map len (tagged pre) !! j = Some (len p)) as Hl.
    { change (map len) with (fmap (M := list) len). by rewrite list_lookup_fmap, Hp. }
    pose proof (sum_take_S _ _ _ Hl) as Hs.
    rewrite bool_decide_eq_true_2 by (rewrite tagged_split, app_length; lia).
    replace (Z.of_nat j + 1) with (Z.of_nat (S j)) by lia.
    rewrite (rd_ok _ _ _ HV), E1, starts_lookup by (try done; rewrite map_length; lia).
    cbn [mbind option_bind]. f_equal. rewrite Hs. lia.
  Qed.

  Lemma limited_trans j c t : tagged pre !! j = Some (c, t) -> (S j < length (tagged pre))%nat ->
    read_trans vw (Z.of_nat j) = Some (t_hash t, map (fun i => (source_number bs (i_src i), i_vout i)) (kept u (c, t)),
      map (fun o => (o_sats o, o_addr o)) (t_outs t)).
  Proof.
    intros Hj Hlt. destruct HI as [HB HT]. unfold read_trans.
    assert (tagged bs !! j = Some (c, t)) as Hjb by (rewrite tagged_split; by apply lookup_app_l_Some).
    assert (trans_hash vw (Z.of_nat j) = Some (t_hash t)) as ->.
    { unfold trans_hash. rewrite (proj1 HV). destruct HX as (_ & (_ & _ & ->) & _). unfold tx_hashes.
      rewrite <- tagged_snd, map_map. by rewrite lookup_map, Hjb. }
    cbn [mbind option_bind].
    destruct (limited_counts FirstTxi TxiTx (nin u) j (c, t)) as [E1 E2]; [inrd|inrd|apply HT| |done|done|].
    { by rewrite (it_txi_tx _ _ _ _ HT), len_sources. }
    unfold txi_count. rewrite E1. cbn [mbind option_bind].
    assert (mapM (fun i => ti ← nth_txi vw (Z.of_nat j) i; read_in vw ti) (indices (Z.of_nat (nin u (c, t)))) =
            Some (map (fun i => (source_number bs (i_src i), i_vout i)) (kept u (c, t)))) as ->.
    { unfold nin. rewrite <- imap_const. apply (indices_mapM _ (fun _ i => (source_number bs (i_src i), i_vout i))).
      intros i x Hx. unfold nth_txi. rewrite E2. cbn [mbind option_bind]. rewrite <- Nat2Z.inj_add.
      unfold read_in, txi_source. pose proof (lookup_lt_Some _ _ _ Hx) as Hi.
      rewrite !(rd_ok _ _ _ HV) by inrd. rewrite (it_txi_tx _ _ _ _ HT), (it_txi_vout _ _ _ _ HT).
      pose proof (lookup_concat_map (fun p => sources bs (kept u p)) (tagged pre) j (c, t) i Hj) as Q1.
      pose proof (lookup_concat_map (fun p => map i_vout (kept u p)) (tagged pre) j (c, t) i Hj) as Q2.
      cbv beta in Q1, Q2.
      assert (map (fun q => length (sources bs (kept u q))) (tagged pre) = map (nin u) (tagged pre)) as R1.
      { apply map_ext. intros q. unfold sources, nin. by rewrite map_length. }
      assert (map (fun q => length (map i_vout (kept u q))) (tagged pre) = map (nin u) (tagged pre)) as R2.
      { apply map_ext. intros q. unfold nin. by rewrite map_length. }
      rewrite R1 in Q1. rewrite R2 in Q2. rewrite Q1, Q2 by (unfold sources; by rewrite map_length). unfold sources.
      rewrite !lookup_map, Hx. done. }
    cbn [mbind option_bind].
    destruct (limited_counts FirstTxo TxoSats nout j (c, t)) as [F1 F2]; [inrd|inrd|apply HT| |done|done|].
    { by rewrite (it_sats _ _ _ _ HT), map_length, sum_nout. }
    unfold txo_count. rewrite F1. cbn [mbind option_bind].
    assert (mapM (fun i => to ← nth_txo vw (Z.of_nat j) i; read_out vw to) (indices (Z.of_nat (nout (c, t)))) =
            Some (map (fun o => (o_sats o, o_addr o)) (t_outs t))) as ->; [|done].
    unfold nout. rewrite <- imap_const. apply (indices_mapM _ (fun _ o => (o_sats o, o_addr o))).
    intros i o Ho. unfold nth_txo. rewrite F2. cbn [mbind option_bind]. rewrite <- Nat2Z.inj_add.
    pose proof (lookup_lt_Some _ _ _ Ho) as Hi.
    assert (outs (tagged pre) !! (sum (take j (map nout (tagged pre))) + i)%nat = Some o) as Hoo.
    { unfold outs. rewrite <- Ho. apply (lookup_concat_map (fun p => t_outs p.2) (tagged pre) j (c, t) i Hj). done. }
    unfold read_out, txo_sats, txo_address. rewrite !(rd_ok _ _ _ HV) by inrd. rewrite (it_sats _ _ _ _ HT), (it_addr _ _ _ _ HT).
    unfold addr_numbers. rewrite !lookup_map, Hoo. cbn [fmap option_fmap option_map mbind option_bind].
    assert (address_hash vw (first_of (addr_hashes bs) (o_addr o)) = Some (o_addr o)) as ->; [|done].
    unfold address_hash. rewrite (proj1 HV). destruct HX as (_ & _ & (_ & _ & Hat)).
    assert (addr_hashes bs !! (sum (take j (map nout (tagged pre))) + i)%nat = Some (o_addr o)) as HL.
    { unfold addr_hashes. rewrite <- tagged_snd, <- outs_snd, lookup_map, tagged_split, outs_app.
      erewrite lookup_app_l_Some by exact Hoo. done. }
    destruct (first_of_cases (addr_hashes bs) (o_addr o)) as [[Hn _]|(k & Ek & Hk & _)].
    - destruct Hn. by eapply elem_of_list_lookup_2.
    - rewrite Ek. by apply Hat.
  Qed.

  Lemma limited_block k b : pre !! k = Some b -> (S k < length pre)%nat ->
    (sum (take (S k) (map ntx pre)) < sum (map ntx pre))%nat ->
    read_block vw (Z.of_nat k) = Some (shown_block u bs b).
  Proof.
    intros Hk Hlt Hmore. pose proof HI as [HB HT]. unfold read_block.
    assert (bs !! k = Some b) as Hkb by (rewrite Ebs; by apply lookup_app_l_Some).
    assert (length pre <= length bs)%nat as Hle by (rewrite Ebs, app_length; lia).
    assert (block_hash vw (Z.of_nat k) = Some (b_hash b)) as ->.
    { unfold block_hash. rewrite (proj1 HV). destruct HX as ((_ & _ & ->) & _). unfold block_hashes.
      by rewrite lookup_map, Hkb. }
    cbn [mbind option_bind].
    assert (rd vw FirstTrans (Z.of_nat k) = Some (Z.of_nat (sum (take k (map ntx pre))))) as Hr.
    { rewrite (rd_ok _ _ _ HV), (ib_first _ _ _ HB), starts_lookup by (try inrd; rewrite map_length; lia). done. }
    assert (map ntx pre !! k = Some (ntx b)) as Hl. { by rewrite lookup_map, Hk. }
    pose proof (sum_take_S _ _ _ Hl) as Hs.
    assert (trans_count vw (Z.of_nat k) = Some (Z.of_nat (ntx b))) as ->.
    { unfold trans_count. rewrite Hr. cbn [mbind option_bind]. rewrite (nblk_eq _ _ _ _ HX HV), bool_decide_eq_true_2 by lia.
      replace (Z.of_nat k + 1) with (Z.of_nat (S k)) by lia.
      rewrite (rd_ok _ _ _ HV), (ib_first _ _ _ HB), starts_lookup by (try inrd; rewrite map_length; lia).
      cbn [mbind option_bind]. f_equal. rewrite Hs. lia. }
    cbn [mbind option_bind].
    assert (mapM (fun i => t ← nth_trans vw (Z.of_nat k) i; read_trans vw t) (indices (Z.of_nat (ntx b))) =
            Some (imap (shown_tx u bs) (b_txs b))) as ->; [|done].
    apply (indices_mapM _ (shown_tx u bs)). intros i t Ht. unfold nth_trans. rewrite Hr. cbn [mbind option_bind].
    pose proof (lookup_lt_Some _ _ _ Ht) as Hi.
    rewrite <- Nat2Z.inj_add. rewrite (limited_trans _ (bool_decide (i = 0%nat)) t).
    - unfold shown_tx. rewrite <- kept_shown. done.
    - unfold tagged. assert (tag b !! i = Some (bool_decide (i = 0%nat), t)) as Hti. { unfold tag. by rewrite list_lookup_imap, Ht. }
      rewrite <- Hti. rewrite <- (lookup_concat_map tag pre k b i Hk) by (by eapply lookup_lt_Some).
      do 2 f_equal. f_equal. f_equal. apply map_ext. intros q. by rewrite tag_length.
    - rewrite tagged_length. rewrite Hs in Hmore. unfold ntx in *. lia.
  Qed.

  (** The last stored transaction, when the chain goes on *)
  Lemma limited_last : (0 < length (tagged pre) < length (tagged bs))%nat ->
    read_trans vw (Z.of_nat (length (tagged pre)) - 1) = None.
  Proof.
    intros Hl. pose proof HI as [HB HT]. unfold read_trans. destruct (trans_hash _ _); [cbn [mbind option_bind]|done].
    assert (txi_count vw (Z.of_nat (length (tagged pre)) - 1) = None) as ->; [|done].
    unfold txi_count. destruct (cnt vw TxiTx); [cbn [mbind option_bind]|done]. destruct (rd vw FirstTxi (Z.of_nat (length (tagged pre)) - 1)); [|done].
    cbn [mbind option_bind]. rewrite (ntrn_eq _ _ _ _ HX HV), bool_decide_eq_true_2 by lia.
    replace (Z.of_nat (length (tagged pre)) - 1 + 1) with (Z.of_nat (length (tagged pre))) by lia.
    rewrite (rd_ok _ _ _ HV), (it_first_txi _ _ _ _ HT) by inrd.
    rewrite (proj2 (lookup_ge_None _ _)); [done|]. rewrite starts_length, map_length. done.
  Qed.
End Limited.

(** The main pass over the first [n] blocks (jobs/intrinsicparallel.go:252-255), the hash stores covering all of
    them: every block followed by a stored transaction of a later block reads back in full, down to the sources of its
    inputs and the addresses of its outputs, in the same process and after opening the folder again. *)
Theorem C59_earlier_blocks_read_back_in_full_partial :
  forall u ix bs n prev_txo prev_trans, good_chain u ix bs -> prev_txo <= 0 -> prev_trans <= 0 ->
  exists s, run_chain u ix (take n bs) (c_create u prev_txo prev_trans) = Some s /\
    forall r k b m c, bs !! k = Some b -> (k < m < n)%nat -> bs !! m = Some c -> b_txs c <> [] ->
      read_block (view_of r ix s) (Z.of_nat k) = Some (shown_block u bs b).
Proof.
  intros u ix bs n pt ptr [H1 H2 H3 H4] Hp Hq.
  destruct (run_chain_ok u ix bs H1 H2 H3 H4 (take n bs) (drop n bs) pt ptr) as (s & A & E & HR & HI); [by rewrite take_drop|done|done|].
  exists s. split; [done|]. intros r k b m c Hb Hkm Hc Hne. pose proof (view_sees r u ix s A HR) as HV.
  pose proof (lookup_lt_Some _ _ _ Hc) as Hm.
  apply (limited_block u ix bs (take n bs) (drop n bs) _ A); try done.
  - by rewrite take_drop.
  - rewrite lookup_take by lia. done.
  - rewrite take_length. lia.
  - set (l := map ntx (take n bs)).
    assert (l !! m = Some (ntx c)) as Hl by (unfold l; rewrite lookup_map, lookup_take, Hc by lia; done).
    rewrite <- (take_drop (S k) l) at 2. rewrite sum_app.
    assert (drop (S k) l !! (m - S k)%nat = Some (ntx c)) as Hd by (rewrite lookup_drop; rewrite <- Hl; f_equal; lia).
    destruct (sum_take_S _ _ _ Hd). rewrite <- (take_drop (S (m - S k)) (drop (S k) l)) at 1.
    rewrite sum_app, (sum_take_S _ _ _ Hd). unfold ntx. destruct (b_txs c); [done|]. cbn [length]. lia.
Qed.

(** ... but when the limit cuts the chain between two transactions, the last stored transaction cannot be read, and
    so the block that holds it cannot either, whatever its place. *)
Theorem C59_last_stored_transaction_readable_refuted :
  forall u ix bs n prev_txo prev_trans, good_chain u ix bs -> prev_txo <= 0 -> prev_trans <= 0 ->
  (exists k b, (k < n)%nat /\ bs !! k = Some b /\ b_txs b <> []) ->
  (exists k b, (n <= k)%nat /\ bs !! k = Some b /\ b_txs b <> []) ->
  exists s, run_chain u ix (take n bs) (c_create u prev_txo prev_trans) = Some s /\
    forall r, read_trans (view_of r ix s) (Z.of_nat (length (txs_of (take n bs))) - 1) = None.
Proof.
  intros u ix bs n pt ptr [H1 H2 H3 H4] Hp Hq (k & b & Hk & Hb & Hne) (k' & b' & Hk' & Hb' & Hne').
  destruct (run_chain_ok u ix bs H1 H2 H3 H4 (take n bs) (drop n bs) pt ptr) as (s & A & E & HR & HI); [by rewrite take_drop|done|done|].
  exists s. split; [done|]. intros r. pose proof (view_sees r u ix s A HR) as HV.
  assert (forall l : list cblock, length (txs_of l) = length (tagged l)) as Hsz.
  { intros l. by rewrite txs_length, tagged_length. }
  assert (forall (l : list cblock) i (x : cblock), l !! i = Some x -> b_txs x <> [] -> (0 < length (tagged l))%nat) as Hpos.
  { intros l i x Hx Hn. rewrite <- Hsz. unfold txs_of. destruct (b_txs x) as [|t ts] eqn:Ex; [done|].
    assert (t ∈ concat (map b_txs l)) as Hin.
    { apply elem_of_list_In, in_concat. exists (b_txs x). split; [|apply elem_of_list_In; rewrite Ex; apply elem_of_list_here].
      apply in_map, elem_of_list_In. by eapply elem_of_list_lookup_2. }
    destruct (concat (map b_txs l)); [by apply elem_of_nil in Hin|]. cbn [length]. lia. }
  rewrite Hsz. apply (limited_last u ix bs (take n bs) (drop n bs) _ A); [by rewrite take_drop|done|done|done|]. split.
  - apply (Hpos _ k b); [|done]. by rewrite lookup_take.
  - rewrite <- (take_drop n bs) at 2. unfold tagged. rewrite map_app, concat_app, app_length.
    pose proof (Hpos (drop n bs) (k' - n)%nat b') as Hd. unfold tagged in Hd. rewrite lookup_drop in Hd.
    specialize (Hd ltac:(rewrite <- Hb'; f_equal; lia) Hne'). lia.
Qed.

(** Three blocks, of which two are stored *)
Definition lim_bs : list cblock :=
  [mk_cblock [1] ∅ [mk_ctx [10] {[ 0%nat := 1 ]} [] [mk_cout 5000000000 [100]]];
   mk_cblock [2] ∅ [mk_ctx [11] {[ 0%nat := 2 ]} [] [mk_cout 5000000000 [101]];
                    mk_ctx [12] {[ 0%nat := 1 ]} [mk_cin (SrcHash [10]) 0] [mk_cout 2000000000 [100]; mk_cout 3000000000 [102]]];
   mk_cblock [3] ∅ [mk_ctx [13] {[ 0%nat := 1 ]} [] [mk_cout 5000000000 [101]]]].
Example lim_good : good_chain ex_u (ideal_stores lim_bs) lim_bs.
Proof.
  constructor.
  - apply ideal_indexed.
  - constructor.
    + forall_list ltac:(discriminate).
    + split; [apply NoDup_nil_2|]. apply NoDup_singleton.
    + forall_list ltac:(apply Forall_nil_2).
    + change (txs_of lim_bs) with [mk_ctx [10] {[ 0%nat := 1 ]} [] [mk_cout 5000000000 [100]]; mk_ctx [11] {[ 0%nat := 2 ]} [] [mk_cout 5000000000 [101]];
                    mk_ctx [12] {[ 0%nat := 1 ]} [mk_cin (SrcHash [10]) 0] [mk_cout 2000000000 [100]; mk_cout 3000000000 [102]];
                    mk_ctx [13] {[ 0%nat := 1 ]} [] [mk_cout 5000000000 [101]]].
      forall_list ltac:(apply Forall_cons_2; [eexists; split; [reflexivity|apply fits_small; [cbn; lia|change (pow256 (width (TrnInt 0))) with (2^32); lia]]|apply Forall_nil_2]).
    + vm_compute. done.
    + vm_compute. done.
    + vm_compute. done.
    + vm_compute. done.
    + intros k b n t i Hk Hn Hi.
      destruct k as [|[|[|k]]]; cbn in Hk; [injection Hk as <-..|done]; cbn [b_txs] in Hn.
      * destruct n as [|n]; cbn in Hn; [injection Hn as <-|done]. cbn in Hi. by apply elem_of_nil in Hi.
      * destruct n as [|[|n]]; cbn in Hn; [injection Hn as <-..|done]; cbn in Hi; [by apply elem_of_nil in Hi|].
        apply elem_of_list_singleton in Hi as ->. vm_compute. done.
      * destruct n as [|n]; cbn in Hn; [injection Hn as <-|done]. cbn in Hi. by apply elem_of_nil in Hi.
    + change (outs_of (txs_of lim_bs)) with [mk_cout 5000000000 [100]; mk_cout 5000000000 [101]; mk_cout 2000000000 [100]; mk_cout 3000000000 [102]; mk_cout 5000000000 [101]].
      forall_list ltac:(cbn [o_sats]; lia).
  - change (block_hashes lim_bs) with [[1]; [2]; [3]]. apply NoDup_cons_2; [set_solver|]. apply NoDup_cons_2; [set_solver|apply NoDup_singleton].
  - by left.
Qed.
Example C59_limited_nontrivial :
  good_chain ex_u (ideal_stores lim_bs) lim_bs /\
  exists s, run_chain ex_u (ideal_stores lim_bs) (take 2 lim_bs) (c_create ex_u (-1) (-1)) = Some s /\
    read_block (open_read_only (ideal_stores lim_bs) s) 0 = Some ([1], [([10], [], [(5000000000, [100])])]) /\
    trans_count (open_read_only (ideal_stores lim_bs) s) 1 = None /\
    read_trans (open_read_only (ideal_stores lim_bs) s) 2 = None.
Proof.
  split; [apply lim_good|].
  destruct (C59_earlier_blocks_read_back_in_full_partial ex_u (ideal_stores lim_bs) lim_bs 2 (-1) (-1) lim_good) as (s & E & H1); [lia|lia|].
  destruct (C59_last_stored_block_readable_refuted ex_u (ideal_stores lim_bs) lim_bs 2 (-1) (-1) lim_good) as (s' & E' & H2); [lia|lia|cbn; lia|].
  destruct (C59_last_stored_transaction_readable_refuted ex_u (ideal_stores lim_bs) lim_bs 2 (-1) (-1) lim_good) as (s'' & E'' & H3); [lia|lia| | |].
  { exists 1%nat. eexists. split; [lia|split; [reflexivity|discriminate]]. }
  { exists 2%nat. eexists. split; [lia|split; [reflexivity|discriminate]]. }
  rewrite E in E', E''. apply (inj Some) in E', E''. subst s' s''. exists s. split; [done|]. split; [|split].
  - pose proof (H1 Reopened 0%nat (mk_cblock [1] ∅ [mk_ctx [10] {[ 0%nat := 1 ]} [] [mk_cout 5000000000 [100]]]) 1%nat _ eq_refl ltac:(lia) eq_refl ltac:(discriminate)) as H.
    exact H.
  - exact (proj1 (H2 Reopened)).
  - exact (H3 Reopened).
Qed.

Print Assumptions C59_earlier_blocks_read_back_in_full_partial.
Print Assumptions C59_last_stored_transaction_readable_refuted.
