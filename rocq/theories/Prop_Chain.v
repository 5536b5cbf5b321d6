(** Properties C44-C46, C50, C59-C62: the chain storage. *)
From Verif Require Import Base Spec_Word Model_Word Proof_Word Spec_MapStore Model_MapStore Proof_MapStore Prop_MapStore
  Model_Chain Spec_Chain Proof_Chain.

(** A hash store that does what the other properties promise, for the examples *)
Definition ideal_store (l : list hash) : hstore :=
  mk_hs (first_of l) (Z.of_nat (length l)) (fun i => if decide (0 <= i) then l !! Z.to_nat i else None).
Lemma ideal_faithful l : faithful (ideal_store l) l.
Proof.
  split_and!; try done. intros i. cbn [hs_at ideal_store]. rewrite decide_True by lia. by rewrite Nat2Z.id.
Qed.
Lemma faithful_finds s l : faithful s l -> finds s l.
Proof. intros (H1 & H2 & H3). split; [done|]. split; [done|]. intros i h Hi _. by rewrite H3. Qed.
Definition ideal_stores (bs : list cblock) : stores :=
  mk_stores (ideal_store (block_hashes bs)) (ideal_store (tx_hashes bs)) (ideal_store (addr_hashes bs)).
Lemma ideal_indexed bs : indexed (ideal_stores bs) bs.
Proof. split; [apply ideal_faithful|]. split; [apply ideal_faithful|]. apply faithful_finds, ideal_faithful. Qed.

(** Assumptions common to the theorems: hash stores that hold the chain's hashes, numbers that fit, no
    two blocks with the same hash, and, unless the source indexes the transactions, no two transactions
    with the same hash. *)
Record good_chain (u : setup) (ix : stores) (bs : list cblock) : Prop := {
  gc_indexed : indexed ix bs;
  gc_storable : storable u bs;
  gc_blocks : NoDup (block_hashes bs);
  gc_txs : u_deleg u = true \/ NoDup (tx_hashes bs) }.

Lemma run_whole u ix bs pt ptr : good_chain u ix bs -> pt <= 0 -> ptr <= 0 ->
  exists s A, run_chain u ix bs (c_create u pt ptr) = Some s /\ Rep u s A /\ sofar u bs bs A.
Proof.
  intros [H1 H2 H3 H4] Hp Hq. destruct (run_chain_ok u ix bs H1 H2 H3 H4 bs [] pt ptr) as (s & A & E & HR & HI);
    [by rewrite app_nil_r|done|done|]. eauto.
Qed.

(** The two ways of reading: the same process, or a later one that opens the folder *)
Inductive reader := InProcess | Reopened.
Definition view_of (r : reader) (ix : stores) (s : cst) : view :=
  match r with InProcess => as_readable ix s | Reopened => open_read_only ix s end.
Lemma view_sees r u ix s A : Rep u s A -> sees read_files (view_of r ix s) ix A.
Proof.
  intros HR. destruct r; cbn [view_of].
  - eapply sees_weaken; [apply (read_files_handed u)|by apply as_readable_sees].
  - eapply sees_weaken; [apply (read_files_all u)|by apply open_sees].
Qed.

Lemma outs_lookup bs j c t i o : tagged bs !! j = Some (c, t) -> t_outs t !! i = Some o ->
  outs (tagged bs) !! (sum (take j (map nout (tagged bs))) + i)%nat = Some o.
Proof.
  intros Hj Ho. rewrite <- Ho. apply (lookup_concat_map (fun p => t_outs p.2) (tagged bs) j (c, t) i Hj).
  by eapply lookup_lt_Some.
Qed.

(** *** C44 *)
(** Appending never fails, and a walk over the blocks, in either direction, shows what was appended. *)
Theorem C44_blocks_read_back :
  forall u ix bs prev_txo prev_trans, good_chain u ix bs -> bs <> [] -> prev_txo <= 0 -> prev_trans <= 0 ->
  exists s, run_chain u ix bs (c_create u prev_txo prev_trans) = Some s /\
    forall r fuel, (length bs <= fuel)%nat ->
      walk (next_block (view_of r ix s)) (read_block (view_of r ix s)) fuel genesis = Some (shown_chain u bs) /\
      walk parent_block (read_block (view_of r ix s)) fuel (latest_block (view_of r ix s)) = Some (rev (shown_chain u bs)).
Proof.
  intros u ix bs pt ptr HG Hne Hp Hq. destruct (run_whole u ix bs pt ptr HG Hp Hq) as (s & A & E & HR & HI).
  exists s. split; [done|]. intros r fuel Hf. pose proof (view_sees r u ix s A HR) as HV. destruct HG as [HX _ _ _].
  assert (0 < length bs)%nat as Hpos by (destruct bs; [done|cbn; lia]).
  assert (forall i x, shown_chain u bs !! i = Some x -> read_block (view_of r ix s) (Z.of_nat i) = Some x) as Hv.
  { intros i x Hx. unfold shown_chain in Hx. rewrite lookup_map in Hx. destruct (bs !! i) as [b|] eqn:Eb; [|done].
    cbn in Hx. injection Hx as <-. by eapply read_block_ok. }
  assert (length (shown_chain u bs) = length bs) as Hlen. { unfold shown_chain. by rewrite map_length. }
  split.
  - rewrite (walk_forward _ _ (shown_chain u bs) 0 fuel Hv); [done| |lia|lia].
    intros i Hi. unfold next_block. rewrite (nblk_eq _ _ _ _ HX HV), Hlen.
    case_bool_decide; case_bool_decide; lia.
  - unfold latest_block. rewrite (nblk_eq _ _ _ _ HX HV). rewrite bool_decide_eq_false_2 by lia.
    replace (Z.of_nat (length bs) - 1) with (Z.of_nat (length bs - 1)) by lia.
    rewrite (walk_backward _ (shown_chain u bs)) by (done || lia).
    f_equal. f_equal. apply take_ge. lia.
Qed.

(** The same for a walk over the transactions, without blocks *)
Definition shown_txs (u : setup) (bs : list cblock) := concat (map (fun b => imap (shown_tx u bs) (b_txs b)) bs).
Theorem C44_transactions_read_back :
  forall u ix bs prev_txo prev_trans, good_chain u ix bs -> bs <> [] -> prev_txo <= 0 -> prev_trans <= 0 ->
  exists s, run_chain u ix bs (c_create u prev_txo prev_trans) = Some s /\
    forall r fuel, (length (txs_of bs) <= fuel)%nat ->
      walk (next_trans (view_of r ix s)) (read_trans (view_of r ix s)) fuel 0 = Some (shown_txs u bs) /\
      walk previous_trans (read_trans (view_of r ix s)) fuel (latest_trans (view_of r ix s)) = Some (rev (shown_txs u bs)).
Proof.
  intros u ix bs pt ptr HG Hne Hp Hq. destruct (run_whole u ix bs pt ptr HG Hp Hq) as (s & A & E & HR & HI).
  exists s. split; [done|]. intros r fuel Hf. pose proof (view_sees r u ix s A HR) as HV. destruct HG as [HX HS _ _].
  assert (shown_txs u bs = map (fun p => (t_hash p.2, map (fun i => (source_number bs (i_src i), i_vout i)) (kept u p),
      map (fun o => (o_sats o, o_addr o)) (t_outs p.2))) (tagged bs)) as Hsh.
  { unfold shown_txs, tagged. rewrite concat_map, map_map. f_equal. apply map_ext. intros b. unfold tag.
    apply list_eq. intros i. rewrite lookup_map, !list_lookup_imap. destruct (b_txs b !! i) as [t|]; [|done].
    cbn [fmap option_fmap option_map snd]. unfold shown_tx. by rewrite <- kept_shown. }
  assert (forall i x, shown_txs u bs !! i = Some x -> read_trans (view_of r ix s) (Z.of_nat i) = Some x) as Hv.
  { intros i x Hx. rewrite Hsh, lookup_map in Hx. destruct (tagged bs !! i) as [[c t]|] eqn:Eb; [|done].
    cbn in Hx. injection Hx as <-. by eapply read_trans_ok. }
  assert (length (shown_txs u bs) = length (tagged bs)) as Hlen. { rewrite Hsh. by rewrite map_length. }
  assert (length (tagged bs) = length (txs_of bs)) as Hlt. { by rewrite tagged_length, txs_length. }
  assert (0 < length (tagged bs))%nat as Hpos.
  { pose proof (so_blocks _ _ HS) as Hb. destruct bs as [|b bs']; [done|]. apply Forall_cons in Hb as [Hb _].
    rewrite tagged_length. cbn [map foldr]. unfold ntx. destruct (b_txs b); [done|cbn; lia]. }
  split.
  - change 0 with (Z.of_nat 0) at 1. rewrite (walk_forward _ _ (shown_txs u bs) 0 fuel Hv); [done| |lia|lia].
    intros i Hi. unfold next_trans. rewrite (ntrn_eq _ _ _ _ HX HV), Hlen.
    case_bool_decide; case_bool_decide; lia.
  - unfold latest_trans. rewrite (ntrn_eq _ _ _ _ HX HV). rewrite bool_decide_eq_false_2 by lia.
    replace (Z.of_nat (length (tagged bs)) - 1) with (Z.of_nat (length (tagged bs) - 1)) by lia.
    change previous_trans with parent_block.
    rewrite (walk_backward _ (shown_txs u bs)) by (done || lia).
    f_equal. f_equal. apply take_ge. lia.
Qed.

(** Parents: after reopening, every transaction knows its block, every input and output its transaction;
    and the values of all outputs of a transaction can be had in one call. *)
Theorem C44_parents_and_satoshis_read_back :
  forall u ix bs prev_txo prev_trans, good_chain u ix bs -> prev_txo <= 0 -> prev_trans <= 0 ->
  exists s, run_chain u ix bs (c_create u prev_txo prev_trans) = Some s /\
    (forall k b n t, bs !! k = Some b -> b_txs b !! n = Some t ->
      let vw := open_read_only ix s in
      exists tr, nth_trans vw (Z.of_nat k) (Z.of_nat n) = Some tr /\
        parent_block_of_trans vw tr = Some (Z.of_nat k) /\
        (forall i, (i < length (shown_ins u (bool_decide (n = 0%nat)) t))%nat ->
           exists ti, nth_txi vw tr (Z.of_nat i) = Some ti /\ parent_trans_of_txi vw ti = Some tr) /\
        (forall i o, t_outs t !! i = Some o ->
           exists to, nth_txo vw tr (Z.of_nat i) = Some to /\ parent_trans_of_txo vw to = Some tr /\
             txo_of_parent vw tr (Z.of_nat i) = Some to /\ txo_sats vw to = Some (o_sats o)) /\
        (forall r, all_sats (view_of r ix s) tr = Some (map o_sats (t_outs t)))).
Proof.
  intros u ix bs pt ptr HG Hp Hq. destruct (run_whole u ix bs pt ptr HG Hp Hq) as (s & A & E & HR & HI).
  exists s. split; [done|]. intros k b n t Hk Hn vw. pose proof (view_sees Reopened u ix s A HR) as HV. destruct HG as [HX HS _ _].
  cbn [view_of] in HV. fold vw in HV.
  assert (sees (all_files u) vw ix A) as HVa by (by apply open_sees).
  pose proof HI as [HB HT].
  set (j := (sum (take k (map ntx bs)) + n)%nat). set (c := bool_decide (n = 0%nat)).
  assert (tagged bs !! j = Some (c, t)) as Hj.
  { unfold tagged, j. assert (tag b !! n = Some (c, t)) as Hti. { unfold tag. by rewrite list_lookup_imap, Hn. }
    rewrite <- Hti, <- (lookup_concat_map tag bs k b n Hk) by (by eapply lookup_lt_Some).
    do 4 f_equal. apply map_ext. intros q. by rewrite tag_length. }
  assert (map ntx bs !! k = Some (ntx b)) as Hl by (by rewrite lookup_map, Hk).
  assert (rd vw FirstTrans (Z.of_nat k) = Some (Z.of_nat (sum (take k (map ntx bs))))) as Hr.
  { rewrite (rd_ok _ _ _ HV), (ib_first _ _ _ HB), starts_lookup; [done|rewrite map_length; by eapply lookup_lt_Some|unfold read_files; set_solver]. }
  destruct (counts_ok ix bs vw A HX HV FirstTxi TxiTx (nin u) j (c, t)) as [_ E2];
    [unfold read_files; set_solver|unfold read_files; set_solver|apply HT|by rewrite (it_txi_tx _ _ _ _ HT), len_sources|done|].
  assert (forall r, rd (view_of r ix s) FirstTxo (Z.of_nat j) = Some (Z.of_nat (sum (take j (map nout (tagged bs)))))) as F2.
  { intros r. eapply (counts_ok ix bs (view_of r ix s) A HX (view_sees r u ix s A HR) FirstTxo TxoSats nout j (c, t));
    [unfold read_files; set_solver|unfold read_files; set_solver|apply HT|by rewrite (it_sats _ _ _ _ HT), map_length, sum_nout|done]. }
  exists (Z.of_nat j). split_and!.
  - unfold nth_trans. rewrite Hr. cbn [mbind option_bind]. f_equal. unfold j. lia.
  - unfold parent_block_of_trans. rewrite (proj2 (proj2 HVa ParBlk ltac:(inall))), (ib_par _ _ _ HB).
    unfold j. rewrite (owners_lookup 0 (map ntx bs) k (ntx b) n Hl); [done|]. unfold ntx. by eapply lookup_lt_Some.
  - intros i Hi. exists (Z.of_nat (sum (take j (map (nin u) (tagged bs))) + i)). split.
    + unfold nth_txi. rewrite E2. cbn [mbind option_bind]. f_equal. lia.
    + unfold parent_trans_of_txi. rewrite (proj2 (proj2 HVa ParTxi ltac:(inall))), (it_par_txi _ _ _ _ HT).
      rewrite (owners_lookup 0 (map (nin u) (tagged bs)) j (nin u (c, t)) i); [done|by rewrite lookup_map, Hj|].
      unfold nin. rewrite kept_shown. done.
  - intros i o Ho. exists (Z.of_nat (sum (take j (map nout (tagged bs))) + i)).
    specialize (F2 Reopened). cbn [view_of] in F2. fold vw in F2. split_and!.
    + unfold nth_txo. rewrite F2. cbn [mbind option_bind]. f_equal. lia.
    + unfold parent_trans_of_txo. rewrite (proj2 (proj2 HVa ParTxo ltac:(inall))), (it_par_txo _ _ _ _ HT).
      rewrite (owners_lookup 0 (map nout (tagged bs)) j (nout (c, t)) i); [done|by rewrite lookup_map, Hj|].
      unfold nout. by eapply lookup_lt_Some.
    + unfold txo_of_parent. rewrite F2. cbn [mbind option_bind]. f_equal. lia.
    + unfold txo_sats. rewrite (rd_ok _ _ _ HV), (it_sats _ _ _ _ HT) by (unfold read_files; set_solver). rewrite lookup_map.
      by rewrite (outs_lookup bs j c t i o Hj Ho).
  - intros r. pose proof (view_sees r u ix s A HR) as HVr. unfold all_sats. rewrite (cnt_ok _ _ _ HVr FirstTxo) by (unfold read_files; set_solver).
    cbn [mbind option_bind]. rewrite F2. cbn [mbind option_bind]. rewrite (it_first_txo _ _ _ _ HT), starts_length, map_length.
    assert (map nout (tagged bs) !! j = Some (nout (c, t))) as Hlj by (by rewrite lookup_map, Hj).
    pose proof (sum_take_S _ _ _ Hlj) as Hs. pose proof (lookup_lt_Some _ _ _ Hj) as Hjl.
    assert ((if bool_decide (Z.of_nat j = Z.of_nat (length (tagged bs)) - 1) then cnt (view_of r ix s) TxoSats
             else rd (view_of r ix s) FirstTxo (Z.of_nat j + 1)) = Some (Z.of_nat (sum (take j (map nout (tagged bs))) + nout (c, t)))) as ->.
    { case_bool_decide as Hc.
      - rewrite (cnt_ok _ _ _ HVr), (it_sats _ _ _ _ HT), map_length by (unfold read_files; set_solver).
        rewrite take_ge in Hs by (rewrite map_length; lia). rewrite <- Hs, sum_nout. done.
      - replace (Z.of_nat j + 1) with (Z.of_nat (S j)) by lia.
        rewrite (rd_ok _ _ _ HVr), (it_first_txo _ _ _ _ HT), starts_lookup; [by rewrite Hs|rewrite map_length; lia|unfold read_files; set_solver]. }
    cbn [mbind option_bind].
    replace (Z.to_nat (Z.of_nat (sum (take j (map nout (tagged bs))) + nout (c, t)) - Z.of_nat (sum (take j (map nout (tagged bs)))))) with (nout (c, t)) by lia.
    unfold nout at 2. cbn [snd]. apply mapM_Some. apply Forall2_same_length_lookup_2.
    + by rewrite seq_length, map_length.
    + intros i x y Hx Hy. apply lookup_seq in Hx as [-> Hi]. rewrite lookup_map in Hy. destruct (t_outs t !! i) as [o|] eqn:Ho; [|done].
      cbn in Hy. injection Hy as <-. unfold txo_sats. cbn [Nat.add]. rewrite <- Nat2Z.inj_add.
      rewrite (rd_ok _ _ _ HVr), (it_sats _ _ _ _ HT) by (unfold read_files; set_solver). rewrite lookup_map.
      by rewrite (outs_lookup bs j c t i o Hj Ho).
Qed.

(** The requested non-essential ints read back *)
Theorem C44_ints_read_back :
  forall u ix bs prev_txo prev_trans, good_chain u ix bs -> prev_txo <= 0 -> prev_trans <= 0 ->
  exists s, run_chain u ix bs (c_create u prev_txo prev_trans) = Some s /\
    forall k b name, bs !! k = Some b ->
      let vw := open_read_only ix s in
      (name ∈ u_blk u -> block_int vw name (Z.of_nat k) = b_ints b !! name) /\
      (forall n t, name ∈ u_trn u -> b_txs b !! n = Some t ->
         nth_trans vw (Z.of_nat k) (Z.of_nat n) = Some (trans_number bs (Z.of_nat k) (Z.of_nat n)) /\
         trans_int vw name (trans_number bs (Z.of_nat k) (Z.of_nat n)) = t_ints t !! name).
Proof.
  intros u ix bs pt ptr HG Hp Hq. destruct (run_whole u ix bs pt ptr HG Hp Hq) as (s & A & E & HR & HI).
  exists s. split; [done|]. intros k b name Hk vw. destruct HG as [HX HS _ _]. pose proof HI as [HB HT].
  assert (sees (all_files u) vw ix A) as HVa by (by apply open_sees).
  split.
  - intros Hname. unfold block_int. rewrite (proj2 (proj2 HVa (BlkInt name) ltac:(by apply blk_in))).
    rewrite (ib_ints _ _ _ HB _ Hname), lookup_map, Hk. cbn [fmap option_fmap option_map]. unfold int_of.
    pose proof (Forall_lookup_1 _ _ _ _ (so_blk_ints _ _ HS) Hk) as Hb. cbv beta in Hb. rewrite Forall_forall in Hb.
    destruct (Hb name Hname) as (v & -> & _). done.
  - intros n t Hname Hn.
    assert (trans_number bs (Z.of_nat k) (Z.of_nat n) = Z.of_nat (sum (take k (map ntx bs)) + n)) as ->.
    { unfold trans_number. rewrite Nat2Z.id, Nat2Z.inj_add, txs_length. do 3 f_equal. apply (fmap_take ntx). }
    split.
    + unfold nth_trans. rewrite (proj2 (proj2 HVa FirstTrans ltac:(inall))), (ib_first _ _ _ HB), starts_lookup by (rewrite map_length; by eapply lookup_lt_Some).
      cbn [mbind option_bind]. f_equal. lia.
    + unfold trans_int. rewrite (proj2 (proj2 HVa (TrnInt name) ltac:(by apply trn_in))).
      rewrite (it_ints _ _ _ _ HT _ Hname), lookup_map.
      assert (tagged bs !! (sum (take k (map ntx bs)) + n)%nat = Some (bool_decide (n = 0%nat), t)) as Hj.
      { unfold tagged. assert (tag b !! n = Some (bool_decide (n = 0%nat), t)) as Hti. { unfold tag. by rewrite list_lookup_imap, Hn. }
        rewrite <- Hti, <- (lookup_concat_map tag bs k b n Hk) by (by eapply lookup_lt_Some).
        do 4 f_equal. apply map_ext. intros q. by rewrite tag_length. }
      rewrite Hj. cbn [fmap option_fmap option_map snd]. unfold int_of.
      pose proof (so_trn_ints _ _ HS) as Hb. rewrite <- tagged_snd in Hb.
      assert (map snd (tagged bs) !! (sum (take k (map ntx bs)) + n)%nat = Some t) as Hj2 by (by rewrite lookup_map, Hj).
      pose proof (Forall_lookup_1 _ _ _ _ Hb Hj2) as Hb2. cbv beta in Hb2. rewrite Forall_forall in Hb2.
      destruct (Hb2 name Hname) as (v & -> & _). done.
Qed.

(** A chain that meets the hypotheses: two blocks, an input spending an earlier output, an address paid twice *)
Definition ex_bs : list cblock :=
  [mk_cblock [1] ∅ [mk_ctx [10] {[ 0%nat := 1 ]} [] [mk_cout 5000000000 [100]]];
   mk_cblock [2] ∅ [mk_ctx [11] {[ 0%nat := 2 ]} [] [mk_cout 5000000000 [101]];
                    mk_ctx [12] {[ 0%nat := 1 ]} [mk_cin (SrcHash [10]) 0] [mk_cout 2000000000 [100]; mk_cout 3000000000 [102]]]].
Definition ex_u : setup := mk_setup true true [] [0%nat].
Ltac forall_list tac := repeat (apply Forall_cons_2; [tac|]); apply Forall_nil_2.
Example ex_good : good_chain ex_u (ideal_stores ex_bs) ex_bs.
Proof.
  constructor.
  - apply ideal_indexed.
  - constructor.
    + forall_list ltac:(discriminate).
    + split; [apply NoDup_nil_2|]. apply NoDup_singleton.
    + forall_list ltac:(apply Forall_nil_2).
    + change (txs_of ex_bs) with [mk_ctx [10] {[ 0%nat := 1 ]} [] [mk_cout 5000000000 [100]]; mk_ctx [11] {[ 0%nat := 2 ]} [] [mk_cout 5000000000 [101]];
                    mk_ctx [12] {[ 0%nat := 1 ]} [mk_cin (SrcHash [10]) 0] [mk_cout 2000000000 [100]; mk_cout 3000000000 [102]]].
      forall_list ltac:(apply Forall_cons_2; [eexists; split; [reflexivity|apply fits_small; [cbn; lia|change (pow256 (width (TrnInt 0))) with (2^32); lia]]|apply Forall_nil_2]).
    + vm_compute. done.
    + vm_compute. done.
    + vm_compute. done.
    + vm_compute. done.
    + intros k b n t i Hk Hn Hi.
      destruct k as [|[|k]]; cbn in Hk; [injection Hk as <-..|done]; cbn [b_txs] in Hn.
      * destruct n as [|n]; cbn in Hn; [injection Hn as <-|done]. cbn in Hi. by apply elem_of_nil in Hi.
      * destruct n as [|[|n]]; cbn in Hn; [injection Hn as <-..|done]; cbn in Hi; [by apply elem_of_nil in Hi|].
        apply elem_of_list_singleton in Hi as ->. vm_compute. done.
    + change (outs_of (txs_of ex_bs)) with [mk_cout 5000000000 [100]; mk_cout 5000000000 [101]; mk_cout 2000000000 [100]; mk_cout 3000000000 [102]].
      forall_list ltac:(cbn [o_sats]; lia).
  - change (block_hashes ex_bs) with [[1]; [2]]. apply NoDup_cons_2; [set_solver|apply NoDup_singleton].
  - by left.
Qed.
(** ... and what is seen *)
Example C44_blocks_read_back_nontrivial :
  exists s, run_chain ex_u (ideal_stores ex_bs) ex_bs (c_create ex_u (-1) (-1)) = Some s /\
    walk (next_block (open_read_only (ideal_stores ex_bs) s)) (read_block (open_read_only (ideal_stores ex_bs) s)) 5 0 =
      Some [([1], [([10], [], [(5000000000, [100])])]);
            ([2], [([11], [], [(5000000000, [101])]); ([12], [(0, 0)], [(2000000000, [100]); (3000000000, [102])])])].
Proof.
  destruct (C44_blocks_read_back ex_u (ideal_stores ex_bs) ex_bs (-1) (-1) ex_good) as (s & E & H); [done|lia|lia|].
  exists s. split; [done|]. destruct (H Reopened 5%nat) as [H1 _]; [cbn; lia|]. exact H1.
Qed.

(** *** C45 *)
Lemma more_read u ix s A r k : Rep u s A -> 0 <= k < 2^63 ->
  v_more (view_of r ix s) k = Some (if decide (file_used 5 (a_hist A) k) then Some (array_of (a_hist A) k) else None).
Proof.
  intros (_ & HM & _) Hk.
  destruct (C11_cached_arrays_are_exact more_cfg more_limit (a_hist A) (s_more s) k) as (s' & E); [cbn; lia|cbn; lia|done|done|].
  change (c_fd more_cfg) with 5%nat in E.
  destruct r; cbn [view_of as_readable open_read_only v_more]; [by rewrite E|].
  assert (k_cfg (s_more s) = more_cfg) as Hcfg.
  { destruct (cms_reach_inv more_cfg more_limit _ _ ltac:(cbn; split; cbn; lia) HM) as (Hi & _). apply Hi. }
  unfold cms_get in E. rewrite Hcfg in E. unfold ms_get, ms_flush, ms_open.
  cbn [m_cfg m_disk m_latest m_older m_latest_a m_older_a m_latest_num negb].
  destruct (Model_Folders.number_to_path (c_fd more_cfg) (c_dd more_cfg) k) as [[[folders file] nm]|]; [|done].
  destruct (load_file (c_new more_cfg) (k_disk (cms_flush (s_more s))) (folders, file)) as [[a []]|]; [| |done].
  - cbn. injection E as _ E. by rewrite <- E.
  - cbn. injection E as _ E. by rewrite <- E.
Qed.

(** The outputs of an address: the first one and the additional ones *)
Lemma paying_upto L h a n : L !! a = Some h -> (forall j, (j < a)%nat -> L !! j <> Some h) -> (n <= length L)%nat ->
  (if decide (a < n)%nat then [Z.of_nat a] else []) ++ array_of (reused_upto L n) (Z.of_nat a) =
  map Z.of_nat (filter (fun i => L !! i = Some h) (seq 0 n)).
Proof.
  intros Ha Hmin. induction n as [|n IH]; intros Hn; [done|].
  destruct (lookup_lt_is_Some_2 L n ltac:(lia)) as [g Hg].
  rewrite (reused_upto_S L n g Hg), seq_S, filter_app, map_app, <- IH by lia. cbn [Nat.add]. clear IH.
  unfold array_of. rewrite filter_app, map_app.
  assert (first_of L h = Z.of_nat a) as Hf by (by apply first_of_Some).
  destruct (decide (g = h)) as [->|Hgh].
  - rewrite Hf. rewrite (filter_cons_True _ n) by done. change (filter _ []) with (@nil nat). cbn [map].
    assert (a <= n)%nat as Han. { destruct (decide (n < a)%nat) as [Hlt|]; [by destruct (Hmin n Hlt)|lia]. }
    destruct (decide (a = n)) as [->|Hne].
    + rewrite (decide_True _ _ (eq_refl (Z.of_nat n))). rewrite (decide_True (P := (n < S n)%nat)) by lia. rewrite (decide_False (P := (n < n)%nat)) by lia.
      change (filter _ []) with (@nil (Z * Z)). cbn [map]. rewrite app_nil_r. cbn [app].
      assert (forall m, (m <= n)%nat -> filter (fun kv : Z * Z => kv.1 = Z.of_nat n) (reused_upto L m) = []) as Hno.
      { intros m Hm. induction m as [|m IHm]; [done|]. destruct (lookup_lt_is_Some_2 L m ltac:(lia)) as [g' Hg'].
        rewrite (reused_upto_S L m g' Hg'), filter_app, IHm by lia. cbn [app].
        destruct (decide (first_of L g' = Z.of_nat m)) as [|Hx]; [done|]. rewrite filter_cons_False; [done|].
        cbn [fst]. pose proof (first_of_le L g' m Hg'). lia. }
      rewrite Hno by lia. done.
    + rewrite (decide_False (P := Z.of_nat a = Z.of_nat n)) by lia. rewrite !(decide_True (P := (a < _)%nat)) by lia.
      rewrite (filter_cons_True _ (Z.of_nat a, Z.of_nat n)) by done. change (filter _ []) with (@nil (Z * Z)). cbn [map snd]. done.
  - rewrite (filter_cons_False _ n) by (rewrite Hg; congruence). change (filter _ []) with (@nil nat). cbn [map]. rewrite app_nil_r.
    assert (a <> n) as Hne. { intros ->. rewrite Ha in Hg. congruence. }
    assert (forall X (x y : X), (if decide (a < S n)%nat then x else y) = (if decide (a < n)%nat then x else y)) as ->.
    { intros X x y. destruct (decide (a < S n)%nat), (decide (a < n)%nat); try done; lia. }
    f_equal. destruct (decide (first_of L g = Z.of_nat n)) as [|Hx]; [by rewrite app_nil_r|].
    rewrite filter_cons_False; [by rewrite app_nil_r|]. cbn [fst]. intros Hgg.
    destruct (first_of_cases L g) as [[_ Hc]|(k & Ek & Hk & _)]; [lia|]. rewrite Ek in Hgg. apply Nat2Z.inj in Hgg as ->.
    rewrite Ha in Hk. congruence.
Qed.

(** What can be said of the address histories: they are exact when reported; they are reported when some
    address of the same group of 100,000 address numbers was paid twice; otherwise the reader reports an error. *)
Theorem C45_address_history_partial :
  forall u ix bs prev_txo prev_trans h, good_chain u ix bs -> prev_txo <= 0 -> prev_trans <= 0 -> h ∈ addr_hashes bs ->
  exists s, run_chain u ix bs (c_create u prev_txo prev_trans) = Some s /\
    forall r, let a := hs_index (ix_adr ix) h in
      address_hash (view_of r ix s) a = Some h /\
      address_txos (view_of r ix s) a =
        if decide (file_used 5 (reused (addr_hashes bs)) a) then Some (outputs_paying (addr_hashes bs) h) else None.
Proof.
  intros u ix bs pt ptr h HG Hp Hq Hin. destruct (run_whole u ix bs pt ptr HG Hp Hq) as (s & A & E & HR & HI).
  exists s. split; [done|]. intros r a. pose proof (view_sees r u ix s A HR) as HV. destruct HG as [HX HS _ _].
  assert (a = first_of (addr_hashes bs) h) as Ea. { unfold a. destruct HX as (_ & _ & (_ & -> & _)). done. }
  destruct (first_of_cases (addr_hashes bs) h) as [[Hn _]|(k & Ek & Hk & Hmin)]; [done|].
  assert (a_hist A = reused (addr_hashes bs)) as Hh.
  { rewrite (ad_hist _ _ _ _ (it_ai _ _ _ _ (proj2 HI))). unfold reused_upto, reused. do 2 f_equal.
    unfold addr_hashes. by rewrite map_length, outs_snd, tagged_snd. }
  assert (0 <= a < 2^63) as Hrange.
  { rewrite Ea, Ek. apply lookup_lt_Some in Hk. unfold addr_hashes in Hk. rewrite map_length in Hk.
    pose proof (so_outs _ _ HS). lia. }
  destruct (address_read u ix bs (view_of r ix s) A HX HV HI h a _ ltac:(lia) Ea (more_read u ix s A r a HR Hrange)) as [H1 H2].
  split; [done|]. rewrite H2, Hh. clear H1 H2. repeat case_decide; try done. f_equal.
  unfold outputs_paying. rewrite <- (paying_upto (addr_hashes bs) h k (length (addr_hashes bs)) Hk Hmin) by done.
  rewrite decide_True by (by eapply lookup_lt_Some). cbn [app]. rewrite Ea, Ek. done.
Qed.
(** the address paid twice of the example above *)
Example C45_address_history_nontrivial :
  exists s, run_chain ex_u (ideal_stores ex_bs) ex_bs (c_create ex_u (-1) (-1)) = Some s /\
    address_txos (open_read_only (ideal_stores ex_bs) s) 0 = Some [0; 2].
Proof.
  destruct (C45_address_history_partial ex_u (ideal_stores ex_bs) ex_bs (-1) (-1) [100] ex_good) as (s & E & H);
    [lia|lia|vm_compute; left|]. exists s. split; [done|]. destruct (H Reopened) as [_ H2].
  change (hs_index (ix_adr (ideal_stores ex_bs)) [100]) with 0 in H2. cbn [view_of] in H2. rewrite H2. reflexivity.
Qed.

(** C45 is false as stated: in a chain of one block whose outputs go to different addresses, no address has
    a history (the reader reports an error). *)
Definition lone_bs : list cblock := [mk_cblock [1] ∅ [mk_ctx [10] ∅ [] [mk_cout 5000000000 [100]]]].
Definition lone_u : setup := mk_setup true true [] [].
Example lone_good : good_chain lone_u (ideal_stores lone_bs) lone_bs.
Proof.
  constructor.
  - apply ideal_indexed.
  - constructor.
    + forall_list ltac:(discriminate).
    + split; apply NoDup_nil_2.
    + forall_list ltac:(apply Forall_nil_2).
    + change (txs_of lone_bs) with [mk_ctx [10] ∅ [] [mk_cout 5000000000 [100]]]. forall_list ltac:(apply Forall_nil_2).
    + vm_compute. done.
    + vm_compute. done.
    + vm_compute. done.
    + vm_compute. done.
    + intros k b n t i Hk Hn Hi. destruct k as [|k]; cbn in Hk; [injection Hk as <-|done]. cbn [b_txs] in Hn.
      destruct n as [|n]; cbn in Hn; [injection Hn as <-|done]. cbn in Hi. by apply elem_of_nil in Hi.
    + change (outs_of (txs_of lone_bs)) with [mk_cout 5000000000 [100]]. forall_list ltac:(cbn [o_sats]; lia).
  - apply NoDup_singleton.
  - by left.
Qed.
Theorem C45_address_history_reported_refuted :
  exists u ix bs h s, good_chain u ix bs /\ h ∈ addr_hashes bs /\ run_chain u ix bs (c_create u (-1) (-1)) = Some s /\
    forall r, address_txos (view_of r ix s) (hs_index (ix_adr ix) h) = None.
Proof.
  exists lone_u, (ideal_stores lone_bs), lone_bs, [100].
  destruct (C45_address_history_partial lone_u (ideal_stores lone_bs) lone_bs (-1) (-1) [100] lone_good) as (s & E & H);
    [lia|lia|vm_compute; left|]. exists s. split_and!; [apply lone_good|vm_compute; left|done|].
  intros r. destruct (H r) as [_ ->]. reflexivity.
Qed.

(** *** C46 *)
(** Two programs running at the same time: any one of them takes the next step. *)
Inductive pstep : prog * prog * cst -> prog * prog * cst -> Prop :=
| ps_left a k q s s' r : do_act a s = Some (s', r) -> pstep (PAct a k, q, s) (k r, q, s')
| ps_right p a k s s' r : do_act a s = Some (s', r) -> pstep (p, PAct a k, s) (p, k r, s').
Definition finished (p : prog) : Prop := exists v, p = PRet v.

(** one after the other *)
Definition one_by_one (c : prog * prog * cst) : option cst :=
  let '(p, q, s) := c in
  match exec p s with
  | Some (s1, _) => match exec q s1 with Some (s2, _) => Some s2 | None => None end
  | None => None
  end.

Inductive uses (P : act -> Prop) : prog -> Prop :=
| us_ret v : uses P (PRet v)
| us_fail : uses P PFail
| us_act a k : P a -> (forall r, uses P (k r)) -> uses P (PAct a k).
Definition both (a b : act) (s : cst) : option (cst * Z * Z) :=
  match do_act a s with
  | Some (s1, ra) => match do_act b s1 with Some (s2, rb) => Some (s2, ra, rb) | None => None end
  | None => None
  end.
Definition swap2 {X} (r : option (X * Z * Z)) : option (X * Z * Z) := match r with Some (s, a, b) => Some (s, b, a) | None => None end.

Definition in_files : list fid := [FirstTrans; FirstTxi; TxiTx; TxiVout; ParTxi].
Definition out_files : list fid := [FirstTxo; TxoSats; ParTxo; TxoAddr; TxoSpent; AddrFirst].
Definition act_of_ins (a : act) : Prop :=
  match a with ACount f | ARead f _ | AWrite f _ _ => f ∈ in_files | _ => False end.
Definition act_of_outs (a : act) : Prop :=
  match a with ACount f | ARead f _ | AWrite f _ _ => f ∈ out_files | ACheckTrans _ => False | _ => True end.

Lemma in_out_disjoint f g : f ∈ in_files -> g ∈ out_files -> f <> g.
Proof. intros Hf Hg ->. unfold in_files, out_files in *. set_solver. Qed.

(** what an action does to its own file, and to the rest *)
Definition act_file (a : act) : option fid := match a with ACount f | ARead f _ | AWrite f _ _ => Some f | _ => None end.
Definition on_file (a : act) (wf : word_file) : option (word_file * Z) :=
  match a with
  | ACount _ => Some (wf, Z.of_nat (wf_count wf))
  | ARead _ i => if i <? 0 then None else match wf_read wf (Z.to_nat i) with (wf', WVal v) => Some (wf', v) | (_, WErr) => None end
  | AWrite _ v i => if i <? 0 then None else Some (wf_write wf v (Z.to_nat i), 0)
  | _ => None
  end.
Lemma do_file_act a f s : act_file a = Some f ->
  do_act a s = match s_files s !! f with
               | Some wf => match on_file a wf with Some (wf', r) => Some (with_files s (<[f:=wf']> (s_files s)), r) | None => None end
               | None => None end.
Proof.
  destruct a; cbn [act_file do_act on_file]; intros E; try done; injection E as ->; destruct (s_files s !! f) as [wf|] eqn:El; cbn [mbind option_bind]; try done.
  - rewrite insert_id by done. by destruct s.
  - destruct (_ <? 0); [done|]. destruct (wf_read _ _) as [? []]; done.
  - destruct (_ <? 0); done.
Qed.
Definition on_rest (a : act) (m : cms) (pt ptr : Z) : option (cms * Z * Z) :=
  match do_act a (mk_cst ∅ m pt ptr) with Some (s, _) => Some (s_more s, s_prev_txo s, s_prev_trans s) | None => None end.
Lemma do_rest_act a s : act_file a = None ->
  do_act a s = match on_rest a (s_more s) (s_prev_txo s) (s_prev_trans s) with
               | Some (m, pt, ptr) => Some (mk_cst (s_files s) m pt ptr, 0) | None => None end.
Proof.
  unfold on_rest. destruct s as [fs m0 pt0 ptr0]. destruct a; cbn [act_file do_act s_more s_files s_prev_txo s_prev_trans]; intros E; try done.
  - destruct (cms_append m0 k v); cbn [mbind option_bind]; done.
  - destruct (_ <? _); done.
  - destruct (_ && _); done.
Qed.

Lemma acts_commute a b s : act_of_ins a -> act_of_outs b -> both a b s = swap2 (both b a s).
Proof.
  intros Ha Hb. unfold both.
  assert (exists f, act_file a = Some f /\ f ∈ in_files) as (f & Hf & Hin).
  { destruct a; cbn [act_of_ins] in Ha; try done; eexists; split; try done. }
  destruct (act_file b) as [g|] eqn:Hg.
  - assert (g ∈ out_files) as Hout. { destruct b; cbn in Hg; try done; injection Hg as ->; done. }
    pose proof (in_out_disjoint f g Hin Hout) as Hne.
    rewrite (do_file_act a f s Hf), (do_file_act b g s Hg).
    destruct (s_files s !! f) as [x|] eqn:Ex; destruct (s_files s !! g) as [y|] eqn:Ey; try done.
    + destruct (on_file a x) as [[x' ra]|] eqn:Ea; destruct (on_file b y) as [[y' rb]|] eqn:Eb; try done.
      * rewrite (do_file_act b g _ Hg), (do_file_act a f _ Hf). cbn [with_files s_files].
        rewrite !lookup_insert_ne, Ex, Ey, Ea, Eb by done. cbn [swap2]. unfold with_files. cbn [s_more s_prev_txo s_prev_trans].
        rewrite insert_commute by done. done.
      * rewrite (do_file_act b g _ Hg). cbn [with_files s_files]. rewrite lookup_insert_ne, Ey, Eb by done. done.
      * rewrite (do_file_act a f _ Hf). cbn [with_files s_files]. rewrite lookup_insert_ne, Ex, Ea by done. done.
    + destruct (on_file a x) as [[x' ra]|] eqn:Ea; [|done].
      rewrite (do_file_act b g _ Hg). cbn [with_files s_files]. rewrite lookup_insert_ne, Ey by done. done.
    + destruct (on_file b y) as [[y' rb]|] eqn:Eb; [|done].
      rewrite (do_file_act a f _ Hf). cbn [with_files s_files]. rewrite lookup_insert_ne, Ex by done. done.
  - rewrite (do_file_act a f s Hf), (do_rest_act b s Hg).
    destruct (on_rest b _ _ _) as [[[m pt] ptr]|] eqn:Eb.
    + rewrite (do_file_act a f _ Hf). cbn [s_files]. destruct (s_files s !! f) as [x|]; [|done].
      destruct (on_file a x) as [[x' ra]|]; [|done].
      rewrite (do_rest_act b _ Hg). cbn [with_files s_more s_prev_txo s_prev_trans]. rewrite Eb. done.
    + destruct (s_files s !! f) as [x|]; [|done]. destruct (on_file a x) as [[x' ra]|]; [|done].
      rewrite (do_rest_act b _ Hg). cbn [with_files s_more s_prev_txo s_prev_trans]. rewrite Eb. done.
Qed.

(** an action of the outputs moves in front of the whole of the inputs *)
Lemma act_moves p b s : uses act_of_ins p -> act_of_outs b ->
  match exec p s with Some (s1, v) => match do_act b s1 with Some (s2, r) => Some (s2, v, r) | None => None end | None => None end =
  match do_act b s with Some (s1, r) => match exec p s1 with Some (s2, v) => Some (s2, v, r) | None => None end | None => None end.
Proof.
  intros Hp Hb. revert s. induction Hp as [v| |a k Ha Hk IH]; intros s; cbn [exec].
  - destruct (do_act b s) as [[s1 r]|]; done.
  - destruct (do_act b s) as [[s1 r]|]; done.
  - pose proof (acts_commute a b s Ha Hb) as Hc. unfold both in Hc.
    destruct (do_act a s) as [[s1 ra]|] eqn:Ea; [rewrite IH|];
    destruct (do_act b s) as [[s2 rb]|] eqn:Eb; try done.
    + destruct (do_act a s2) as [[s3 ra']|] eqn:Ea2; destruct (do_act b s1) as [[s4 rb']|] eqn:Eb2; cbn [swap2] in Hc; try done.
      injection Hc as -> -> ->. done.
    + destruct (do_act b s1) as [[s4 rb']|]; done.
    + destruct (do_act a s2) as [[s3 ra']|]; done.
Qed.

Lemma pstep_result p q s p' q' s' : uses act_of_ins p -> uses act_of_outs q -> pstep (p, q, s) (p', q', s') ->
  uses act_of_ins p' /\ uses act_of_outs q' /\ one_by_one (p, q, s) = one_by_one (p', q', s').
Proof.
  intros Hp Hq H. inversion H as [a k q0 s0 s1 r E|p0 a k s0 s1 r E]; subst.
  - inversion Hp; subst. split_and!; auto. unfold one_by_one. cbn [exec]. by rewrite E.
  - inversion Hq; subst. split_and!; auto. unfold one_by_one. cbn [exec].
    pose proof (act_moves p' a s Hp ltac:(done)) as Hm. rewrite E in Hm.
    destruct (exec p' s) as [[s1 v]|]; destruct (exec p' s') as [[s2 v2]|]; try done.
    + destruct (do_act a s1) as [[s3 r3]|]; [|done]. by injection Hm as -> -> ->.
    + destruct (do_act a s1) as [[s3 r3]|]; done.
Qed.
Lemma psteps_result c c' : rtc pstep c c' -> uses act_of_ins c.1.1 -> uses act_of_outs c.1.2 ->
  uses act_of_ins c'.1.1 /\ uses act_of_outs c'.1.2 /\ one_by_one c = one_by_one c'.
Proof.
  induction 1 as [|[[p q] s] [[p1 q1] s1] c2 H1 _ IH]; [done|]. intros Hp Hq. cbn [fst snd] in *.
  destruct (pstep_result _ _ _ _ _ _ Hp Hq H1) as (Hp1 & Hq1 & E). destruct (IH Hp1 Hq1) as (X & Y & Z). split_and!; try done. congruence.
Qed.
Lemma pstep_acc p : forall q s, Acc (fun c' c => pstep c c') (p, q, s).
Proof.
  induction p as [v| |a k IHp].
  - induction q as [w| |b l IHq]; intros s; constructor; intros [[p' q'] s'] H; inversion H; subst. apply IHq.
  - induction q as [w| |b l IHq]; intros s; constructor; intros [[p' q'] s'] H; inversion H; subst. apply IHq.
  - induction q as [w| |b l IHq]; intros s; constructor; intros [[p' q'] s'] H; inversion H; subst; try apply IHp. apply IHq.
Qed.

Lemma uses_bind P p q : uses P p -> (forall r, uses P (q r)) -> uses P (pbind p q).
Proof. induction 1; intros Hq; cbn [pbind]; [done|constructor|constructor; auto]. Qed.
Lemma uses_pseq P ps : Forall (uses P) ps -> uses P (pseq ps).
Proof. induction 1; cbn [pseq]; [constructor|]. apply uses_bind; done. Qed.
Lemma uses_ins u ix tr c t : uses act_of_ins (p_ins u ix tr c t).
Proof.
  unfold p_ins. constructor; [cbn; unfold in_files; set_solver|]. intros n. constructor; [cbn; unfold in_files; set_solver|]. intros _.
  apply uses_pseq. apply Forall_forall. intros p Hp. apply elem_of_list_fmap in Hp as (i & -> & _). unfold p_txi.
  assert (forall k, (forall r, uses act_of_ins (k r)) -> uses act_of_ins (p_source ix (i_src i) k)) as Hs.
  { intros k Hk. destruct (i_src i); cbn [p_source]; [apply Hk| |apply Hk]. constructor; [cbn; unfold in_files; set_solver|]. intros r. apply Hk. }
  apply Hs. intros src. repeat (constructor; [cbn; unfold in_files; set_solver|intros ?]). constructor.
Qed.
Lemma uses_outs ix tr t : uses act_of_outs (p_outs ix tr t).
Proof.
  unfold p_outs. constructor; [cbn; unfold out_files; set_solver|]. intros n. constructor; [done|]. intros _.
  constructor; [cbn; unfold out_files; set_solver|]. intros _. constructor; [done|]. intros _.
  apply uses_pseq. apply Forall_forall. intros p Hp. apply elem_of_list_fmap in Hp as (o & -> & _). unfold p_txo.
  do 3 (constructor; [cbn; unfold out_files; set_solver|intros ?]).
  case_bool_decide; [constructor|]. constructor; [cbn; unfold out_files; set_solver|intros ?].
  assert (uses act_of_outs (PAct (AWrite TxoAddr (hs_index (ix_adr ix) (o_addr o)) r) (fun _ => PAct (AWrite TxoSpent 0 r) (fun _ => PRet r)))) as Hrest.
  { do 2 (constructor; [cbn; unfold out_files; set_solver|intros ?]). constructor. }
  case_bool_decide.
  - constructor; [done|]. intros _. exact Hrest.
  - constructor; [cbn; unfold out_files; set_solver|]. intros _. case_bool_decide; [|exact Hrest].
    constructor; [cbn; unfold out_files; set_solver|]. intros v. case_bool_decide; [constructor|exact Hrest].
Qed.

(** Writing the inputs and the outputs of a transaction at the same time, in any state whatsoever: every
    schedule comes to an end; a schedule that completes leaves exactly the state that writing the inputs
    first and the outputs afterwards leaves; and if that succeeds, no schedule gets stuck or fails. *)
Theorem C46_schedule_does_not_matter :
  forall u ix tr first t s, let start := (p_ins u ix tr first t, p_outs ix tr t, s) in
    Acc (fun c' c => pstep c c') start /\
    (forall p q s', rtc pstep start (p, q, s') -> finished p -> finished q -> one_by_one start = Some s') /\
    (forall s1, one_by_one start = Some s1 -> forall p q s', rtc pstep start (p, q, s') ->
       (finished p /\ finished q /\ s' = s1) \/ exists c, pstep (p, q, s') c).
Proof.
  intros u ix tr first t s start. split; [apply pstep_acc|].
  assert (forall p q s', rtc pstep start (p, q, s') -> uses act_of_ins p /\ uses act_of_outs q /\ one_by_one start = one_by_one (p, q, s')) as Hall.
  { intros p q s' H. apply (psteps_result _ _ H); [apply uses_ins|apply uses_outs]. }
  split.
  - intros p q s' H [v ->] [w ->]. destruct (Hall _ _ _ H) as (_ & _ & ->). done.
  - intros s1 E1 p q s' H. destruct (Hall _ _ _ H) as (Hp & Hq & E). rewrite E1 in E. unfold one_by_one in E.
    destruct p as [v| |a k]; cbn [exec] in E; [|done|].
    + destruct q as [w| |b l]; cbn [exec] in E; [|done|].
      * left. injection E as ->. unfold finished. eauto.
      * right. destruct (do_act b s') as [[s2 r]|] eqn:Eb; [|done]. eexists. by apply ps_right.
    + right. destruct (do_act a s') as [[s2 r]|] eqn:Eb; [|done]. eexists. by apply ps_left.
Qed.
(** a transaction of the example: both sides have something to do and the sequential run succeeds *)
Example C46_nontrivial :
  exists s1, one_by_one (p_ins ex_u (ideal_stores ex_bs) 2 false (mk_ctx [12] ∅ [mk_cin (SrcHash [10]) 0] [mk_cout 20 [100]]),
                         p_outs (ideal_stores ex_bs) 2 (mk_ctx [12] ∅ [mk_cin (SrcHash [10]) 0] [mk_cout 20 [100]]),
                         c_create ex_u (-1) (-1)) = Some s1.
Proof. vm_compute. eauto. Qed.

(** *** C50 *)
Lemma hf_app_inv init hf h : length h = 32%nat -> hf_inv init [] hf -> hf_inv (init ++ [h]) [] (hf_append hf h).1.
Proof.
  intros Hh HI. unfold hf_append. cbn [fst]. pose proof HI as (_ & _ & Hc). cbn [arr_count] in Hc.
  pose proof (hf_write_inv init [] hf h (hf_count hf) Hh HI) as HI2. unfold hf_inv in *.
  rewrite arr_all_cons, arr_all_nil in HI2. rewrite arr_all_nil. rewrite Hc. rewrite !Hc in HI2.
  rewrite (rec_write_append (replicate 32 0) init h) in HI2. destruct HI2 as (H1 & H2 & H3).
  split_and!; try done. rewrite H3. cbn [arr_count]. rewrite app_length. cbn [length]. lia.
Qed.
Lemma hf_read_inv init hf i : hf_inv init [] hf -> hf_read hf i = init !! i.
Proof.
  intros HI. pose proof (hf_run_sim init [] hf [HRead i] HI) as [_ H]. { constructor; [done|constructor]. }
  cbn in H. injection H as H. rewrite H. unfold arr_get. cbn [arr_count arr_at].
  case_decide as Hd; [by destruct (lookup_lt_is_Some_2 init i Hd) as [x ->]|]. symmetry. apply lookup_ge_None. lia.
Qed.

Lemma append_outs_inv os init hf : Forall (fun o => length (o_addr o) = 32%nat) os -> hf_inv init [] hf ->
  hf_inv (init ++ map o_addr os) [] (fold_left (fun fa o => (hf_append fa (o_addr o)).1) os hf).
Proof.
  revert init hf. induction os as [|o os IH]; intros init hf Ho HI; cbn [fold_left map]; [by rewrite app_nil_r|].
  apply Forall_cons in Ho as [Ho Hos]. specialize (IH (init ++ [o_addr o]) _ Hos (hf_app_inv _ _ _ Ho HI)).
  by rewrite <- app_assoc in IH.
Qed.
Lemma append_txs_inv ts ti ai ft fa :
  Forall (fun t => length (t_hash t) = 32%nat /\ Forall (fun o => length (o_addr o) = 32%nat) (t_outs t)) ts ->
  hf_inv ti [] ft -> hf_inv ai [] fa ->
  let '(ft', fa') := fold_left (fun '(ft, fa) t =>
      ((hf_append ft (t_hash t)).1, fold_left (fun fa o => (hf_append fa (o_addr o)).1) (t_outs t) fa)) ts (ft, fa) in
  hf_inv (ti ++ map t_hash ts) [] ft' /\ hf_inv (ai ++ map o_addr (outs_of ts)) [] fa'.
Proof.
  revert ti ai ft fa. induction ts as [|t ts IH]; intros ti ai ft fa Ht HT HA; cbn [fold_left map outs_of concat]; [by rewrite !app_nil_r|].
  apply Forall_cons in Ht as [[H1 H2] Hts].
  specialize (IH (ti ++ [t_hash t]) (ai ++ map o_addr (t_outs t)) _ _ Hts (hf_app_inv _ _ _ H1 HT) (append_outs_inv _ _ _ H2 HA)).
  destruct (fold_left _ ts _) as [ft' fa']. rewrite <- !app_assoc in IH. rewrite map_app. done.
Qed.

(** Gathering the hashes of any chain without empty blocks: the three files hold exactly the lists of the
    specification, which are the lists by which the main pass numbers blocks, transactions and outputs (C44,
    C45). *)
Theorem C50_hashes_in_storage_order :
  forall bs, Forall (fun b => b_txs b <> [] /\ length (b_hash b) = 32%nat /\
      Forall (fun t => length (t_hash t) = 32%nat /\ Forall (fun o => length (o_addr o) = 32%nat) (t_outs t)) (b_txs b)) bs ->
  exists fb ft fa, gather_hashes bs (hf_new [] 0, hf_new [] 0, hf_new [] 0) = Some (fb, ft, fa) /\
    hf_count fb = length (block_hashes bs) /\ hf_count ft = length (tx_hashes bs) /\ hf_count fa = length (addr_hashes bs) /\
    hf_data fb = concat (block_hashes bs) /\ hf_data ft = concat (tx_hashes bs) /\ hf_data fa = concat (addr_hashes bs) /\
    forall i, hf_read fb i = block_hashes bs !! i /\ hf_read ft i = tx_hashes bs !! i /\ hf_read fa i = addr_hashes bs !! i.
Proof.
  intros bs Hbs.
  assert (forall pre fb ft fa, hf_inv (block_hashes pre) [] fb -> hf_inv (tx_hashes pre) [] ft -> hf_inv (addr_hashes pre) [] fa ->
    exists fb' ft' fa', gather_hashes bs (fb, ft, fa) = Some (fb', ft', fa') /\
      hf_inv (block_hashes (pre ++ bs)) [] fb' /\ hf_inv (tx_hashes (pre ++ bs)) [] ft' /\ hf_inv (addr_hashes (pre ++ bs)) [] fa') as Hall.
  { induction Hbs as [|b bs (Hb1 & Hb2 & Hb3) _ IH]; intros pre fb ft fa H1 H2 H3.
    - exists fb, ft, fa. rewrite app_nil_r. done.
    - cbn [gather_hashes append_hashes]. rewrite bool_decide_eq_false_2 by done.
      pose proof (append_txs_inv (b_txs b) _ _ ft fa Hb3 H2 H3) as Ht.
      destruct (fold_left _ (b_txs b) (ft, fa)) as [ft1 fa1]. destruct Ht as [Ht Ha].
      destruct (IH (pre ++ [b]) (hf_append fb (b_hash b)).1 ft1 fa1) as (fb' & ft' & fa' & E & G1 & G2 & G3).
      + unfold block_hashes. rewrite map_app. by apply hf_app_inv.
      + unfold tx_hashes, txs_of in *. rewrite map_app, concat_app, map_app. cbn [map concat]. by rewrite app_nil_r.
      + unfold addr_hashes, txs_of, outs_of in *. rewrite map_app, concat_app, map_app, concat_app, map_app. cbn [map concat]. by rewrite app_nil_r.
      + exists fb', ft', fa'. rewrite <- app_assoc in G1, G2, G3. done. }
  assert (hf_inv [] [] (hf_new [] 0)) as H0. { split_and!; try done. rewrite arr_all_nil. constructor. }
  destruct (Hall [] (hf_new [] 0) (hf_new [] 0) (hf_new [] 0) H0 H0 H0) as (fb & ft & fa & E & G1 & G2 & G3).
  exists fb, ft, fa. split; [done|].
  pose proof G1 as (D1 & _ & C1). pose proof G2 as (D2 & _ & C2). pose proof G3 as (D3 & _ & C3).
  rewrite arr_all_nil in D1, D2, D3. cbn [app] in *.
  do 3 (split; [done|]). do 3 (split; [done|]).
  intros i. rewrite (hf_read_inv _ _ i G1), (hf_read_inv _ _ i G2), (hf_read_inv _ _ i G3). done.
Qed.
Example C50_nontrivial :
  Forall (fun b => b_txs b <> [] /\ length (b_hash b) = 32%nat /\
      Forall (fun t => length (t_hash t) = 32%nat /\ Forall (fun o => length (o_addr o) = 32%nat) (t_outs t)) (b_txs b))
    [mk_cblock (replicate 32 1) ∅ [mk_ctx (replicate 32 2) ∅ [] [mk_cout 5 (replicate 32 3)]; mk_ctx (replicate 32 4) ∅ [] []]].
Proof.
  apply Forall_cons_2; [|apply Forall_nil_2]. split_and!; [done|done|]. forall_list ltac:(split; [done|forall_list ltac:(done)]).
Qed.
(** The consequence for addresses: the number of an address is the number of the first output paying it. *)
Theorem C50_address_number_is_first_output :
  forall u ix bs prev_txo prev_trans h, good_chain u ix bs -> prev_txo <= 0 -> prev_trans <= 0 -> h ∈ addr_hashes bs ->
  exists s n, run_chain u ix bs (c_create u prev_txo prev_trans) = Some s /\ hs_index (ix_adr ix) h = Z.of_nat n /\
    (forall r, exists sats, read_out (view_of r ix s) (Z.of_nat n) = Some (sats, h)) /\
    (forall r i, (i < n)%nat -> exists sats h', read_out (view_of r ix s) (Z.of_nat i) = Some (sats, h') /\ h' <> h).
Proof.
  intros u ix bs pt ptr h HG Hp Hq Hin. destruct (run_whole u ix bs pt ptr HG Hp Hq) as (s & A & E & HR & HI).
  destruct HG as [HX HS _ _].
  destruct (first_of_cases (addr_hashes bs) h) as [[Hn _]|(n & En & Hk & Hmin)]; [done|].
  assert (forall r i h', addr_hashes bs !! i = Some h' -> exists sats, read_out (view_of r ix s) (Z.of_nat i) = Some (sats, h')) as Hro.
  { intros r i h' Hi. pose proof (view_sees r u ix s A HR) as HV. destruct HI as [HB HT].
    unfold read_out, txo_sats, txo_address. rewrite !(rd_ok _ _ _ HV) by (unfold read_files; set_solver).
    rewrite (it_sats _ _ _ _ HT), (it_addr _ _ _ _ HT). unfold addr_numbers. rewrite !lookup_map.
    pose proof Hi as Hi'. unfold addr_hashes in Hi'. rewrite <- tagged_snd, <- outs_snd, lookup_map in Hi'.
    destruct (outs (tagged bs) !! i) as [o|]; [|done]. cbn in Hi'. injection Hi' as <-.
    cbn [fmap option_fmap option_map mbind option_bind]. exists (o_sats o).
    assert (address_hash (view_of r ix s) (first_of (addr_hashes bs) (o_addr o)) = Some (o_addr o)) as ->; [|done].
    unfold address_hash. rewrite (proj1 HV). destruct HX as (_ & _ & (_ & _ & Hat)).
    destruct (first_of_cases (addr_hashes bs) (o_addr o)) as [[Hn _]|(k & Ek & Hk' & _)].
    - destruct Hn. by eapply elem_of_list_lookup_2.
    - rewrite Ek. by apply Hat. }
  exists s, n. split; [done|]. split; [|split].
  - destruct HX as (_ & _ & (_ & -> & _)). done.
  - intros r. by apply Hro.
  - intros r i Hi. destruct (lookup_lt_is_Some_2 (addr_hashes bs) i) as [h' Hh']; [apply lookup_lt_Some in Hk; lia|].
    destruct (Hro r i h' Hh') as [sats Hs]. exists sats, h'. split; [done|]. intros ->. by apply (Hmin i Hi).
Qed.

(** *** C59: stopping early.  The hash stores cover the whole chain, the main pass is told to stop after
    some blocks (phase3BlockLimit). *)
Theorem C59_blocks_before_the_last_read_back_partial :
  forall u ix bs n prev_txo prev_trans, good_chain u ix bs -> prev_txo <= 0 -> prev_trans <= 0 ->
  exists s, run_chain u ix (take n bs) (c_create u prev_txo prev_trans) = Some s /\
    forall r k b, (S k < n)%nat -> bs !! k = Some b -> (S k < length bs)%nat ->
      block_hash (view_of r ix s) (Z.of_nat k) = Some (b_hash b) /\
      trans_count (view_of r ix s) (Z.of_nat k) = Some (Z.of_nat (length (b_txs b))).
Proof.
  intros u ix bs n pt ptr [H1 H2 H3 H4] Hp Hq.
  destruct (run_chain_ok u ix bs H1 H2 H3 H4 (take n bs) (drop n bs) pt ptr) as (s & A & E & HR & HI); [by rewrite take_drop|done|done|].
  exists s. split; [done|]. intros r k b Hk Hb Hl. pose proof (view_sees r u ix s A HR) as HV. destruct HI as [HB HT]. split.
  - unfold block_hash. rewrite (proj1 HV). destruct H1 as ((_ & _ & ->) & _). unfold block_hashes. by rewrite lookup_map, Hb.
  - unfold trans_count. rewrite !(rd_ok _ _ _ HV) by (unfold read_files; set_solver). rewrite (ib_first _ _ _ HB).
    rewrite starts_lookup by (rewrite map_length, take_length; lia). cbn [mbind option_bind].
    rewrite (nblk_eq _ _ _ _ H1 HV), bool_decide_eq_true_2 by lia.
    replace (Z.of_nat k + 1) with (Z.of_nat (S k)) by lia. rewrite !(rd_ok _ _ _ HV) by (unfold read_files; set_solver). rewrite (ib_first _ _ _ HB).
    rewrite starts_lookup by (rewrite map_length, take_length; lia). cbn [mbind option_bind]. f_equal.
    assert (map ntx (take n bs) !! k = Some (ntx b)) as Hm by (rewrite lookup_map, lookup_take, Hb by lia; done).
    rewrite (sum_take_S _ _ _ Hm). unfold ntx. lia.
Qed.
(** ... but the number of transactions of the last stored block cannot be read, and the block reported as
    the latest one is not stored. *)
Theorem C59_last_stored_block_readable_refuted :
  forall u ix bs n prev_txo prev_trans, good_chain u ix bs -> prev_txo <= 0 -> prev_trans <= 0 -> (0 < n < length bs)%nat ->
  exists s, run_chain u ix (take n bs) (c_create u prev_txo prev_trans) = Some s /\
    forall r, trans_count (view_of r ix s) (Z.of_nat n - 1) = None /\
      read_block (view_of r ix s) (latest_block (view_of r ix s)) = None.
Proof.
  intros u ix bs n pt ptr [H1 H2 H3 H4] Hp Hq Hn.
  destruct (run_chain_ok u ix bs H1 H2 H3 H4 (take n bs) (drop n bs) pt ptr) as (s & A & E & HR & HI); [by rewrite take_drop|done|done|].
  exists s. split; [done|]. intros r. pose proof (view_sees r u ix s A HR) as HV. destruct HI as [HB HT].
  assert (forall k : nat, (n <= k)%nat -> rd (view_of r ix s) FirstTrans (Z.of_nat k) = None) as Hno.
  { intros k Hk. rewrite (rd_ok _ _ _ HV) by (unfold read_files; set_solver). rewrite (ib_first _ _ _ HB). apply lookup_ge_None.
    rewrite starts_length, map_length, take_length. lia. }
  split.
  - replace (Z.of_nat n - 1) with (Z.of_nat (n - 1)) by lia. unfold trans_count.
    rewrite (rd_ok _ _ _ HV) by (unfold read_files; set_solver). rewrite (ib_first _ _ _ HB).
    rewrite starts_lookup by (rewrite map_length, take_length; lia). cbn [mbind option_bind].
    rewrite (nblk_eq _ _ _ _ H1 HV), bool_decide_eq_true_2 by lia.
    replace (Z.of_nat (n - 1) + 1) with (Z.of_nat n) by lia. rewrite Hno by lia. done.
  - unfold latest_block. rewrite (nblk_eq _ _ _ _ H1 HV), bool_decide_eq_false_2 by lia.
    replace (Z.of_nat (length bs) - 1) with (Z.of_nat (length bs - 1)) by lia. unfold read_block, trans_count.
    rewrite Hno by lia. cbn [mbind option_bind]. by destruct (block_hash _ _).
Qed.
Example C59_nontrivial : good_chain ex_u (ideal_stores ex_bs) ex_bs /\ (0 < 1 < length ex_bs)%nat.
Proof. split; [apply ex_good|cbn; lia]. Qed.

(** *** C60: a second chain in the same process starts from the package variables left by the first *)
Theorem C60_second_chain_same_process_refuted :
  exists u ix bs s, good_chain u ix bs /\ run_chain u ix bs (c_create u (-1) (-1)) = Some s /\
    run_chain u ix bs (c_create u (s_prev_txo s) (s_prev_trans s)) = None.
Proof.
  exists ex_u, (ideal_stores ex_bs), ex_bs.
  destruct (run_whole ex_u (ideal_stores ex_bs) ex_bs (-1) (-1) ex_good) as (s & A & E & HR & HI); [lia|lia|].
  exists s. split_and!; [apply ex_good|done|].
  assert (Some (s_prev_txo s, s_prev_trans s) = (s ← run_chain ex_u (ideal_stores ex_bs) ex_bs (c_create ex_u (-1) (-1)); Some (s_prev_txo s, s_prev_trans s))) as Hs.
  { by rewrite E. }
  assert ((s ← run_chain ex_u (ideal_stores ex_bs) ex_bs (c_create ex_u (-1) (-1)); Some (s_prev_txo s, s_prev_trans s)) = Some (2, 2)) as Hv.
  { vm_compute. reflexivity. }
  rewrite Hv in Hs. injection Hs as -> ->. vm_compute. reflexivity.
Qed.
(** Each chain on its own, with the variables reset, is stored properly: C44. *)

(** *** C61: parents as seen by the process that stores the chain: the files are not handed over *)
Theorem C61_parents_in_process_refuted :
  forall ix s h, let vw := view_of InProcess ix s in
    parent_block_of_trans vw h = None /\ parent_trans_of_txi vw h = None /\ parent_trans_of_txo vw h = None.
Proof.
  intros ix s h vw. unfold parent_block_of_trans, parent_trans_of_txi, parent_trans_of_txo, rd, vw.
  cbn [view_of as_readable v_files].
  rewrite lookup_delete. rewrite lookup_delete_ne, lookup_delete by done.
  rewrite !lookup_delete_ne, lookup_delete by done. done.
Qed.

(** *** C62: an input naming a transaction that the store does not know is stored all the same *)
Definition bad_bs : list cblock :=
  [mk_cblock [1] ∅ [mk_ctx [10] ∅ [] []; mk_ctx [11] ∅ [mk_cin (SrcHash [99]) 0] []]].
Theorem C62_unknown_source_rejected_refuted :
  exists u ix bs s h, indexed ix bs /\ first_of (tx_hashes bs) h = -1 /\
    (exists b t i, b ∈ bs /\ t ∈ b_txs b /\ i ∈ t_ins t /\ i_src i = SrcHash h) /\
    run_chain u ix bs (c_create u (-1) (-1)) = Some s /\
    txi_source (view_of Reopened ix s) 0 = Some (4294967295, 0).
Proof.
  exists lone_u, (ideal_stores bad_bs), bad_bs.
  destruct (run_chain lone_u (ideal_stores bad_bs) bad_bs (c_create lone_u (-1) (-1))) as [s|] eqn:E; [|exfalso; revert E; vm_compute; discriminate].
  exists s, [99]. split_and!; [apply ideal_indexed|reflexivity| |done|].
  - eexists _, _, _. split_and!; [left|right; left|left|reflexivity].
  - assert ((s ← run_chain lone_u (ideal_stores bad_bs) bad_bs (c_create lone_u (-1) (-1)); txi_source (view_of Reopened (ideal_stores bad_bs) s) 0) = Some (4294967295, 0)) as Hv.
    { vm_compute. reflexivity. }
    rewrite E in Hv. exact Hv.
Qed.

Print Assumptions C44_blocks_read_back.
Print Assumptions C44_transactions_read_back.
Print Assumptions C44_parents_and_satoshis_read_back.
Print Assumptions C44_ints_read_back.
Print Assumptions C45_address_history_partial.
Print Assumptions C45_address_history_reported_refuted.
Print Assumptions C46_schedule_does_not_matter.
Print Assumptions C50_hashes_in_storage_order.
Print Assumptions C50_address_number_is_first_output.
Print Assumptions C59_blocks_before_the_last_read_back_partial.
Print Assumptions C59_last_stored_block_readable_refuted.
Print Assumptions C60_second_chain_same_process_refuted.
Print Assumptions C61_parents_in_process_refuted.
Print Assumptions C62_unknown_source_rejected_refuted.
