(** Properties C89 and C90: handles, and indices past the end. *)
From Verif Require Import Base Spec_Word Model_Word Proof_Word Spec_MapStore Model_MapStore Proof_MapStore Prop_MapStore
  Model_Chain Spec_Chain Proof_Chain Prop_Chain Model_Handles.

(** ** Handles of one kind, over a store that holds a list of hashes *)
Lemma by_hash_known s l h : faithful s l -> h ∈ l ->
  exists i x, by_hash s h = Ans x /\ first_of l h = Z.of_nat i /\ l !! i = Some h /\
    handle_height s x = Ans (Z.of_nat i) /\ item s x = Ans (Z.of_nat i) /\ item_hash s (Z.of_nat i) = Ans h /\
    handle_hash s x = Crashes.
Proof.
  intros (Hc & Hi & Ha) Hin. destruct (first_of_cases l h) as [[Hn _]|(i & Ei & Hl & _)]; [done|].
  exists i, (mk_handle (Z.of_nat i) zero_hash true false false). unfold by_hash. rewrite Hi, Ei.
  rewrite bool_decide_eq_false_2 by lia. unfold item_hash. rewrite Ha, Hl. done.
Qed.
Lemma by_hash_unknown s l h : faithful s l -> h ∉ l -> by_hash s h = Fails.
Proof.
  intros (Hc & Hi & Ha) Hn. unfold by_hash. rewrite Hi. destruct (first_of_cases l h) as [[_ ->]|(i & _ & Hl & _)]; [done|].
  exfalso. apply Hn. by eapply elem_of_list_lookup_2.
Qed.
Lemma by_height_ok s l i h : faithful s l -> l !! i = Some h ->
  handle_height s (by_height (Z.of_nat i)) = Ans (Z.of_nat i) /\ handle_hash s (by_height (Z.of_nat i)) = Ans h /\
  handle_invalid s (by_height (Z.of_nat i)) = Ans false /\ item s (by_height (Z.of_nat i)) = Ans (Z.of_nat i) /\
  item_hash s (Z.of_nat i) = Ans h.
Proof.
  intros (Hc & Hi & Ha) Hl. unfold handle_height, handle_hash, handle_invalid, item, item_hash, handle_height, by_height.
  cbn [d_has_height d_has_hash d_data d_height abind]. rewrite Ha, Hl, bool_decide_eq_false_2 by lia. done.
Qed.
Lemma by_height_past s l i : faithful s l -> (length l <= i)%nat ->
  handle_hash s (by_height (Z.of_nat i)) = Fails /\ item_hash s (Z.of_nat i) = Fails.
Proof.
  intros (Hc & Hi & Ha) Hl. unfold handle_hash, item_hash, by_height. cbn [d_has_hash d_data d_height].
  rewrite Ha, lookup_ge_None_2 by done. done.
Qed.
Lemma after_ok s l (i : nat) : faithful s l ->
  after s (by_height (Z.of_nat i)) = Ans (if decide (S i < length l)%nat then by_height (Z.of_nat (S i)) else invalid_handle).
Proof.
  intros (Hc & _). unfold after, handle_height, by_height. cbn [d_has_height d_height abind]. rewrite Hc. f_equal.
  case_bool_decide; case_decide; try lia; [done|]. f_equal. lia.
Qed.
Lemma before_ok s (i : nat) :
  before s (by_height (Z.of_nat i)) = Ans (match i with O => invalid_handle | S j => by_height (Z.of_nat j) end).
Proof.
  unfold before, handle_invalid, handle_height, by_height. cbn [d_has_height d_height abind].
  rewrite bool_decide_eq_false_2 by lia. f_equal. destruct i; [done|]. f_equal. lia.
Qed.
Lemma latest_ok s l : faithful s l -> l <> [] -> latest s = by_height (Z.of_nat (length l - 1)).
Proof.
  intros (Hc & _) Hl. unfold latest. rewrite Hc. destruct l as [|x l]; [done|]. rewrite bool_decide_eq_false_2 by (cbn; lia).
  f_equal. cbn [length]. lia.
Qed.

(** ** C89: handles of blocks and transactions *)

(** A handle obtained by the hash of a block leads to the block, by the hash of a transaction to the (first)
    transaction with that hash, and other hashes are reported. *)
Theorem C89_by_hash_leads_there_partial :
  forall u ix bs prev_txo prev_trans, good_chain u ix bs -> prev_txo <= 0 -> prev_trans <= 0 ->
  exists s, run_chain u ix bs (c_create u prev_txo prev_trans) = Some s /\ forall r, let vw := view_of r ix s in
    (forall k b, bs !! k = Some b -> exists h, by_hash (ix_blk ix) (b_hash b) = Ans h /\
       handle_height (ix_blk ix) h = Ans (Z.of_nat k) /\ item (ix_blk ix) h = Ans (Z.of_nat k) /\
       item_hash (ix_blk ix) (Z.of_nat k) = Ans (b_hash b) /\
       read_block vw (Z.of_nat k) = Some (shown_block u bs b)) /\
    (forall q, q ∉ block_hashes bs -> by_hash (ix_blk ix) q = Fails) /\
    (forall q, q ∈ tx_hashes bs -> exists h (j : nat) x, by_hash (ix_trn ix) q = Ans h /\
       first_of (tx_hashes bs) q = Z.of_nat j /\
       handle_height (ix_trn ix) h = Ans (Z.of_nat j) /\ item (ix_trn ix) h = Ans (Z.of_nat j) /\
       item_hash (ix_trn ix) (Z.of_nat j) = Ans q /\
       shown_txs u bs !! j = Some x /\ x.1.1 = q /\ read_trans vw (Z.of_nat j) = Some x) /\
    (forall q, q ∉ tx_hashes bs -> by_hash (ix_trn ix) q = Fails).
Proof.
  intros u ix bs pt ptr HG Hp Hq. destruct (run_whole u ix bs pt ptr HG Hp Hq) as (s & A & E & HR & HI).
  exists s. split; [done|]. intros r vw. pose proof (view_sees r u ix s A HR) as HV. fold vw in HV.
  destruct HG as [HX HS HB HT]. pose proof HX as (Fb & Ft & _). split; [|split; [|split]].
  - intros k b Hk. assert (block_hashes bs !! k = Some (b_hash b)) as Hl. { unfold block_hashes. by rewrite lookup_map, Hk. }
    destruct (by_hash_known _ _ (b_hash b) Fb) as (i & x & H1 & _ & H3 & H4 & H5 & H6 & _); [by eapply elem_of_list_lookup_2|].
    assert (i = k) as -> by (by eapply NoDup_lookup). exists x. do 4 (split; [done|]). by eapply read_block_ok.
  - intros q Hn. by eapply by_hash_unknown.
  - intros q Hin. destruct (by_hash_known _ _ q Ft Hin) as (j & x & H1 & H2 & H3 & H4 & H5 & H6 & _).
    assert (shown_txs u bs = map (fun p => (t_hash p.2, map (fun i => (source_number bs (i_src i), i_vout i)) (kept u p),
        map (fun o => (o_sats o, o_addr o)) (t_outs p.2))) (tagged bs)) as Hsh.
    { unfold shown_txs, tagged. rewrite concat_map, map_map. f_equal. apply map_ext. intros b. unfold tag.
      apply list_eq. intros i. rewrite lookup_map, !list_lookup_imap. destruct (b_txs b !! i) as [t|]; [|done].
      cbn [fmap option_fmap option_map snd]. unfold shown_tx. by rewrite <- kept_shown. }
    pose proof H3 as H3'. unfold tx_hashes in H3'. rewrite <- tagged_snd, map_map, lookup_map in H3'.
    destruct (tagged bs !! j) as [[c t]|] eqn:Ej; [|done]. cbn [fmap option_fmap option_map snd] in H3'. injection H3' as H3'.
    eexists x, j, _. do 5 (split; [done|]). rewrite Hsh, lookup_map, Ej. split; [done|]. split; [exact H3'|]. by eapply read_trans_ok.
  - intros q Hn. by eapply by_hash_unknown.
Qed.

(** The handle of a block or transaction obtained by its height gives its hash and leads to it; neighbours,
    first and last are the expected ones; a height past the end gives a handle whose hash is reported missing. *)
Theorem C89_by_height_and_neighbours :
  forall u ix bs, good_chain u ix bs -> bs <> [] ->
    Forall (fun sl : hstore * list hash => let '(s, l) := sl in
      (forall (i : nat) h, l !! i = Some h ->
         handle_hash s (by_height (Z.of_nat i)) = Ans h /\ handle_height s (by_height (Z.of_nat i)) = Ans (Z.of_nat i) /\
         handle_invalid s (by_height (Z.of_nat i)) = Ans false /\
         item s (by_height (Z.of_nat i)) = Ans (Z.of_nat i) /\ item_hash s (Z.of_nat i) = Ans h) /\
      (forall i : nat, (length l <= i)%nat -> handle_hash s (by_height (Z.of_nat i)) = Fails) /\
      (forall i : nat, (S i < length l)%nat -> after s (by_height (Z.of_nat i)) = Ans (by_height (Z.of_nat (S i))) /\
         before s (by_height (Z.of_nat (S i))) = Ans (by_height (Z.of_nat i))) /\
      latest s = by_height (Z.of_nat (length l - 1)) /\
      after s (latest s) = Ans invalid_handle /\ before s first_handle = Ans invalid_handle /\
      handle_invalid s invalid_handle = Ans true)
    [(ix_blk ix, block_hashes bs); (ix_trn ix, tx_hashes bs)].
Proof.
  intros u ix bs [(Fb & Ft & _) HS _ _] Hne.
  assert (block_hashes bs <> []) as Hb by (by destruct bs).
  assert (tx_hashes bs <> []) as Ht.
  { pose proof (so_blocks _ _ HS) as Ho. destruct bs as [|b bs']; [done|]. apply Forall_cons in Ho as [Ho _].
    unfold tx_hashes, txs_of. cbn [map concat]. by destruct (b_txs b). }
  assert (forall s l, faithful s l -> l <> [] -> (fun sl : hstore * list hash => let '(s, l) := sl in
      (forall (i : nat) h, l !! i = Some h ->
         handle_hash s (by_height (Z.of_nat i)) = Ans h /\ handle_height s (by_height (Z.of_nat i)) = Ans (Z.of_nat i) /\
         handle_invalid s (by_height (Z.of_nat i)) = Ans false /\
         item s (by_height (Z.of_nat i)) = Ans (Z.of_nat i) /\ item_hash s (Z.of_nat i) = Ans h) /\
      (forall i : nat, (length l <= i)%nat -> handle_hash s (by_height (Z.of_nat i)) = Fails) /\
      (forall i : nat, (S i < length l)%nat -> after s (by_height (Z.of_nat i)) = Ans (by_height (Z.of_nat (S i))) /\
         before s (by_height (Z.of_nat (S i))) = Ans (by_height (Z.of_nat i))) /\
      latest s = by_height (Z.of_nat (length l - 1)) /\
      after s (latest s) = Ans invalid_handle /\ before s first_handle = Ans invalid_handle /\
      handle_invalid s invalid_handle = Ans true) (s, l)) as H.
  { intros s l F Hl. split; [|split; [|split; [|split; [|split; [|split]]]]].
    - intros i h Hi. destruct (by_height_ok s l i h F Hi) as (A & B & C & D & G). done.
    - intros i Hi. by apply (by_height_past s l).
    - intros i Hi. rewrite (after_ok s l i F), decide_True by done. split; [done|]. by rewrite before_ok.
    - by apply latest_ok.
    - rewrite (latest_ok s l F Hl), (after_ok s l _ F), decide_False by lia. done.
    - apply (before_ok s 0).
    - done. }
  apply Forall_cons_2; [by apply H|]. apply Forall_cons_2; [by apply H|]. apply Forall_nil_2.
Qed.

(** C89 is false as stated: a handle obtained by hash cannot be asked for its hash, although it says it knows
    it; and the block after the invalid one is the first, so that navigation does not stay at the end. *)
Theorem C89_handle_by_hash_crashes_refuted :
  (forall u ix bs q, good_chain u ix bs -> q ∈ block_hashes bs ->
     exists h, by_hash (ix_blk ix) q = Ans h /\ handle_hash (ix_blk ix) h = Crashes) /\
  (forall u ix bs q, good_chain u ix bs -> q ∈ tx_hashes bs ->
     exists h, by_hash (ix_trn ix) q = Ans h /\ handle_hash (ix_trn ix) h = Crashes) /\
  exists u ix bs, good_chain u ix bs /\ [1] ∈ block_hashes bs /\ [10] ∈ tx_hashes bs.
Proof.
  split; [|split].
  - intros u ix bs q [(Fb & _) _ _ _] Hq. destruct (by_hash_known _ _ q Fb Hq) as (i & x & H1 & _ & _ & _ & _ & _ & H). by exists x.
  - intros u ix bs q [(_ & Ft & _) _ _ _] Hq. destruct (by_hash_known _ _ q Ft Hq) as (i & x & H1 & _ & _ & _ & _ & _ & H). by exists x.
  - exists ex_u, (ideal_stores ex_bs), ex_bs. split; [apply ex_good|]. split; vm_compute; left.
Qed.
Theorem C89_after_the_end_comes_the_start_refuted :
  forall u ix bs, good_chain u ix bs -> bs <> [] ->
    handle_invalid (ix_blk ix) invalid_handle = Ans true /\ before (ix_blk ix) invalid_handle = Ans invalid_handle /\
    after (ix_blk ix) invalid_handle = Ans first_handle /\ after (ix_trn ix) invalid_handle = Ans first_handle.
Proof.
  intros u ix bs [((Cb & _) & (Ct & _) & _) HS _ _] Hne. split; [done|]. split; [done|].
  assert (0 < length (block_hashes bs))%nat as Hb by (destruct bs; [done|cbn; lia]).
  assert (0 < length (tx_hashes bs))%nat as Ht.
  { pose proof (so_blocks _ _ HS) as Ho. destruct bs as [|b bs']; [done|]. apply Forall_cons in Ho as [Ho _].
    unfold tx_hashes, txs_of. cbn [map concat]. destruct (b_txs b); [done|cbn; lia]. }
  unfold after, handle_height, invalid_handle, by_height. cbn [d_has_height d_height abind].
  rewrite Cb, Ct, !bool_decide_eq_false_2 by lia. done.
Qed.

(** ** C89: inputs, outputs and addresses *)

Section Items.
  Context (u : setup) (ix : stores) (bs : list cblock) (vw : view) (A : ast).
  Context (HX : indexed ix bs) (HV : sees read_files vw ix A) (HI : sofar u bs bs A).

  Lemma tagged_at k b n t : bs !! k = Some b -> b_txs b !! n = Some t -> exists j,
    trans_number bs (Z.of_nat k) (Z.of_nat n) = Z.of_nat j /\ j = (sum (take k (map ntx bs)) + n)%nat /\
    tagged bs !! j = Some (bool_decide (n = 0%nat), t).
  Proof.
    intros Hk Hn. exists (sum (take k (map ntx bs)) + n)%nat. split; [|split; [done|]].
    - unfold trans_number. rewrite Nat2Z.id, Nat2Z.inj_add, txs_length. do 3 f_equal. apply (fmap_take ntx).
    - unfold tagged. assert (tag b !! n = Some (bool_decide (n = 0%nat), t)) as Hti. { unfold tag. by rewrite list_lookup_imap, Hn. }
      rewrite <- Hti, <- (lookup_concat_map tag bs k b n Hk) by (by eapply lookup_lt_Some).
      do 4 f_equal. apply map_ext. intros q. by rewrite tag_length.
  Qed.
  Lemma first_trans_at k : (k < length bs)%nat -> rd vw FirstTrans (Z.of_nat k) = Some (Z.of_nat (sum (take k (map ntx bs)))).
  Proof.
    intros Hk. destruct HI as [HB HT]. rewrite (rd_ok _ _ _ HV), (ib_first _ _ _ HB), starts_lookup; [done|by rewrite map_length|unfold read_files; set_solver].
  Qed.
  Lemma first_txo_at j p : tagged bs !! j = Some p -> rd vw FirstTxo (Z.of_nat j) = Some (Z.of_nat (out_start bs j)).
  Proof.
    intros Hj. destruct HI as [HB HT]. eapply (counts_ok ix bs vw A HX HV FirstTxo TxoSats nout j p);
      [unfold read_files; set_solver|unfold read_files; set_solver|apply HT|by rewrite (it_sats _ _ _ _ HT), map_length, sum_nout|done].
  Qed.
  Lemma first_txi_at j p : tagged bs !! j = Some p -> rd vw FirstTxi (Z.of_nat j) = Some (Z.of_nat (in_start u bs j)).
  Proof.
    intros Hj. destruct HI as [HB HT]. eapply (counts_ok ix bs vw A HX HV FirstTxi TxiTx (nin u) j p);
      [unfold read_files; set_solver|unfold read_files; set_solver|apply HT|by rewrite (it_txi_tx _ _ _ _ HT), len_sources|done].
  Qed.
  Lemma out_at n o : outs (tagged bs) !! n = Some o -> read_out vw (Z.of_nat n) = Some (o_sats o, o_addr o).
  Proof.
    intros Ho. destruct HI as [HB HT]. unfold read_out, txo_sats, txo_address. rewrite !(rd_ok _ _ _ HV) by (unfold read_files; set_solver).
    rewrite (it_sats _ _ _ _ HT), (it_addr _ _ _ _ HT). unfold addr_numbers. rewrite !lookup_map, Ho.
    cbn [fmap option_fmap option_map mbind option_bind].
    assert (address_hash vw (first_of (addr_hashes bs) (o_addr o)) = Some (o_addr o)) as ->; [|done].
    unfold address_hash. rewrite (proj1 HV). destruct HX as (_ & _ & (_ & _ & Hat)).
    assert (addr_hashes bs !! n = Some (o_addr o)) as HL.
    { unfold addr_hashes. rewrite <- tagged_snd, <- outs_snd. by rewrite lookup_map, Ho. }
    destruct (first_of_cases (addr_hashes bs) (o_addr o)) as [[Hn _]|(k & Ek & Hk' & _)].
    - destruct Hn. by eapply elem_of_list_lookup_2.
    - rewrite Ek. by apply Hat.
  Qed.
  Lemma in_at j c t i x : tagged bs !! j = Some (c, t) -> kept u (c, t) !! i = Some x ->
    rd vw TxiTx (Z.of_nat (in_start u bs j + i)) = Some (source_number bs (i_src x)) /\
    rd vw TxiVout (Z.of_nat (in_start u bs j + i)) = Some (i_vout x).
  Proof.
    intros Hj Hx. destruct HI as [HB HT]. pose proof (lookup_lt_Some _ _ _ Hx) as Hi.
    rewrite !(rd_ok _ _ _ HV) by (unfold read_files; set_solver). rewrite (it_txi_tx _ _ _ _ HT), (it_txi_vout _ _ _ _ HT).
    pose proof (lookup_concat_map (fun p => sources bs (kept u p)) (tagged bs) j (c, t) i Hj) as Q1.
    pose proof (lookup_concat_map (fun p => map i_vout (kept u p)) (tagged bs) j (c, t) i Hj) as Q2.
    cbv beta in Q1, Q2.
    assert (map (fun q => length (sources bs (kept u q))) (tagged bs) = map (nin u) (tagged bs)) as R1.
    { apply map_ext. intros q. unfold sources, nin. by rewrite map_length. }
    assert (map (fun q => length (map i_vout (kept u q))) (tagged bs) = map (nin u) (tagged bs)) as R2.
    { apply map_ext. intros q. unfold nin. by rewrite map_length. }
    rewrite R1 in Q1. rewrite R2 in Q2. unfold in_start. rewrite Q1, Q2 by (unfold sources; by rewrite map_length). unfold sources.
    rewrite !lookup_map, Hx. done.
  Qed.
  Lemma ix_is : v_ix vw = ix. Proof. apply (proj1 HV). Qed.
End Items.

(** An output named by transaction and index is the one the transaction hands out; and the source handle of
    an input leads to an output of the transaction spent. *)
Theorem C89_outputs_by_transaction :
  forall u ix bs prev_txo prev_trans, good_chain u ix bs -> prev_txo <= 0 -> prev_trans <= 0 ->
  exists s, run_chain u ix bs (c_create u prev_txo prev_trans) = Some s /\ forall r, let vw := view_of r ix s in
    (forall k b n t, bs !! k = Some b -> b_txs b !! n = Some t ->
       let th := by_height (trans_number bs (Z.of_nat k) (Z.of_nat n)) in
       nth_trans_handle vw (Z.of_nat k) (Z.of_nat n) = Ans th /\
       (forall i o, t_outs t !! i = Some o -> exists x to,
          nth_txo_handle vw (trans_number bs (Z.of_nat k) (Z.of_nat n)) (Z.of_nat i) = Ans x /\
          txo_item vw x = Ans to /\ txo_item vw (txx_by_trans th (Z.of_nat i)) = Ans to /\
          read_out vw to = Some (o_sats o, o_addr o)) /\
       (forall i c, shown_ins u (bool_decide (n = 0%nat)) t !! i = Some c -> exists x ti y,
          nth_txi_handle vw (trans_number bs (Z.of_nat k) (Z.of_nat n)) (Z.of_nat i) = Ans x /\
          txi_item vw x = Ans ti /\ txi_item vw (txx_by_trans th (Z.of_nat i)) = Ans ti /\
          source_handle vw ti = Ans y /\
          (forall m t', source_number bs (i_src c) = Z.of_nat m -> txs_of bs !! m = Some t' -> forall o,
             t_outs t' !! Z.to_nat (i_vout c) = Some o ->
             exists to, txo_item vw y = Ans to /\ read_out vw to = Some (o_sats o, o_addr o)))).
Proof.
  intros u ix bs pt ptr HG Hp Hq. destruct (run_whole u ix bs pt ptr HG Hp Hq) as (s & A & E & HR & HI).
  exists s. split; [done|]. intros r vw k b n t Hk Hn th. pose proof (view_sees r u ix s A HR) as HV. fold vw in HV.
  destruct HG as [HX HS HB HT]. destruct (tagged_at bs k b n t Hk Hn) as (j & Ej & Hjs & Hj).
  pose proof (first_txo_at u ix bs vw A HX HV HI j _ Hj) as Ho. pose proof (first_txi_at u ix bs vw A HX HV HI j _ Hj) as Hi.
  subst th. rewrite Ej. split; [|split].
  - unfold nth_trans_handle, nth_trans. rewrite (first_trans_at u ix bs vw A HX HV HI k) by (by eapply lookup_lt_Some).
    cbn [mbind option_bind of_opt abind]. do 2 f_equal. lia.
  - intros i o Hio. exists (txx_by_height (Z.of_nat (out_start bs j + i))), (Z.of_nat (out_start bs j + i)).
    unfold nth_txo_handle, nth_txo. rewrite Ho. cbn [mbind option_bind of_opt abind]. split; [do 2 f_equal; lia|]. split; [done|]. split.
    + unfold txo_item, txx_item, txx_by_trans. cbn [x_by_height x_by_trans x_trans x_index abind item handle_height by_height d_has_height d_height].
      unfold item, handle_height, by_height. cbn [d_has_height d_height abind]. rewrite Ho. cbn [of_opt abind]. f_equal. lia.
    + apply (out_at u ix bs vw A HX HV HI). unfold out_start. by eapply outs_lookup.
  - intros i c Hic. pose proof Hic as Hic'. rewrite <- kept_shown in Hic'.
    destruct (in_at u ix bs vw A HX HV HI j _ t i c Hj Hic') as [R1 R2].
    exists (txx_by_height (Z.of_nat (in_start u bs j + i))), (Z.of_nat (in_start u bs j + i)),
      (txx_by_trans (by_height (source_number bs (i_src c))) (i_vout c)).
    unfold nth_txi_handle, nth_txi. rewrite Hi. cbn [mbind option_bind of_opt abind]. split; [do 2 f_equal; lia|]. split; [done|].
    split; [|split].
    + unfold txi_item, txx_item, txx_by_trans. cbn [x_by_height x_by_trans x_trans x_index].
      unfold item, handle_height, by_height. cbn [d_has_height d_height abind]. rewrite Hi. cbn [of_opt abind]. f_equal. lia.
    + unfold source_handle. by rewrite R1, R2.
    + intros m t' Em Ht' o Hoo. rewrite Em.
      assert (exists c', tagged bs !! m = Some (c', t')) as [c' Hm].
      { pose proof Ht' as H. rewrite <- tagged_snd, lookup_map in H. destruct (tagged bs !! m) as [[c' t2]|]; [|done].
        cbn in H. injection H as ->. by exists c'. }
      assert (0 <= i_vout c) as Hv. { apply (so_in _ _ HS k b n t c Hk Hn). by eapply elem_of_list_lookup_2. }
      pose proof (first_txo_at u ix bs vw A HX HV HI m _ Hm) as Ho'.
      exists (Z.of_nat (out_start bs m + Z.to_nat (i_vout c))). split.
      * unfold txo_item, txx_item, txx_by_trans. cbn [x_by_height x_by_trans x_trans x_index].
        unfold item, handle_height, by_height. cbn [d_has_height d_height abind]. rewrite Ho'. cbn [of_opt abind]. f_equal. lia.
      * apply (out_at u ix bs vw A HX HV HI). unfold out_start. by eapply outs_lookup.
Qed.

(** An address object answers the same questions the same way however often and in whatever order they are
    asked: with the hash of the address, and with its outputs unless its file of additional outputs was never
    written (C45), when counting and fetching outputs is reported as an error and the hash is still given. *)
Definition expected (h : hash) (txos : option (list Z)) (q : query) : reply :=
  match q with
  | QHash => RHash h
  | QCount => RCount (match txos with Some l => Ans (Z.of_nat (length l)) | None => Fails end)
  | QNth n => RNth (match txos with
                    | Some l => if decide (0 <= n) then match l !! Z.to_nat n with Some o => Ans (txx_by_height o) | None => Crashes end else Crashes
                    | None => Fails end)
  end.
Section Ask.
  Context (vw : view) (i : Z) (h : hash) (txos : option (list Z)).
  Context (Hat : hs_at (ix_adr (v_ix vw)) i = Some h) (Hix : hs_index (ix_adr (v_ix vw)) h = i) (Ht : address_txos vw i = txos).
  Definition fresh (a : address) : Prop :=
    (g_has_hash (r_handle a) = true -> g_hash (r_handle a) = h) /\
    (if g_has_height (r_handle a) then g_height (r_handle a) = i else g_has_hash (r_handle a) = true) /\
    (r_populated a = true -> g_has_hash (r_handle a) = true /\ txos = Some (r_txos a)).
  Lemma ready_ok a : fresh a -> fresh (ready vw a).1 /\ g_hash (r_handle (ready vw a).1) = h /\ g_has_hash (r_handle (ready vw a).1) = true /\
    match txos with Some l => (ready vw a).2 = true /\ r_txos (ready vw a).1 = l | None => (ready vw a).2 = false end.
  Proof.
    intros (F1 & F2 & F3). unfold ready. destruct (r_populated a) eqn:Ep.
    { destruct (F3 eq_refl) as [G1 G2]. cbn [fst snd]. split; [split; [done|]; split; [done|]; by rewrite Ep|].
      split; [by apply F1|]. split; [done|]. rewrite G2. done. }
    unfold populate. set (g := r_handle a) in *.
    assert ((if g_has_height g then g_height g else hs_index (ix_adr (v_ix vw)) (g_hash g)) = i) as ->.
    { destruct (g_has_height g); [done|]. by rewrite F1. }
    assert (exists g', (if g_has_hash g then Some g
           else match hs_at (ix_adr (v_ix vw)) i with
                | Some h => Some (mk_adr (g_height g) h (g_has_height g) true)
                | None => None end) = Some g' /\ g_hash g' = h /\ g_has_hash g' = true /\ g_height g' = g_height g /\ g_has_height g' = g_has_height g)
      as (g' & -> & G1 & G2 & G3 & G4).
    { destruct (g_has_hash g) eqn:Eh; [exists g; split; [done|]; split; [by apply F1|done]|]. rewrite Hat. eexists. split; [reflexivity|]. done. }
    assert (forall p l, (p = true -> txos = Some l) -> fresh (mk_address g' p l)) as HF.
    { intros p l Hp. split; [done|]. split; [|intros Hpt; split; [exact G2|by apply Hp]]. cbn [r_handle]. rewrite G4, G3. by destruct (g_has_height g). }
    unfold address_txos, address_hash in Ht. rewrite Hat in Ht. cbn [mbind option_bind] in Ht.
    destruct (rd vw AddrFirst i) as [first|]; cbn [mbind option_bind] in Ht.
    - destruct (v_more vw i) as [[more|]|]; rewrite <- Ht; cbn [fst snd r_handle r_txos r_populated].
      + split; [by apply HF|]. done.
      + split; [apply HF; by rewrite Ep|]. done.
      + split; [apply HF; by rewrite Ep|]. done.
    - rewrite <- Ht. cbn [fst snd r_handle]. split; [apply HF; by rewrite Ep|]. done.
  Qed.
  Lemma ask_all_ok qs : forall a, fresh a -> ask_all vw a qs = map (expected h txos) qs.
  Proof.
    induction qs as [|q qs IH]; [done|]. intros a Ha. cbn [ask_all map]. destruct (ready_ok a Ha) as (R1 & R2 & R3 & R4).
    assert (ask vw a q = ((ready vw a).1, expected h txos q)) as ->.
    { destruct q as [|n|]; cbn [ask].
      - unfold address_count. destruct (ready vw a) as [a' ok]. cbn [fst snd] in *. unfold expected. destruct txos as [l|]; [destruct R4 as [-> ->]|rewrite R4]; done.
      - unfold address_nth. destruct (ready vw a) as [a' ok]. cbn [fst snd] in *. unfold expected. destruct txos as [l|]; [destruct R4 as [-> ->]|rewrite R4]; [|done].
        destruct (Z.ltb_spec n 0); [rewrite decide_False by lia|rewrite decide_True by lia]; done.
      - unfold address_own_hash. by rewrite R2. }
    f_equal. by apply IH.
  Qed.
End Ask.

Theorem C89_addresses_partial :
  forall u ix bs prev_txo prev_trans, good_chain u ix bs -> prev_txo <= 0 -> prev_trans <= 0 ->
  exists s, run_chain u ix bs (c_create u prev_txo prev_trans) = Some s /\ forall r, let vw := view_of r ix s in
    (forall q, q ∉ addr_hashes bs -> adr_by_hash vw q = Fails) /\
    (forall h, h ∈ addr_hashes bs -> exists g,
       adr_by_hash vw h = Ans g /\
       (forall i o, outs_of (txs_of bs) !! i = Some o -> o_addr o = h -> txo_address_handle vw (Z.of_nat i) = Ans g) /\
       forall qs, let known := decide (file_used 5 (reused (addr_hashes bs)) (first_of (addr_hashes bs) h)) in
         let replies := map (expected h (if known then Some (outputs_paying (addr_hashes bs) h) else None)) qs in
         ask_all vw (address_object g) qs = replies /\
         (* a handle of another chain that knows the hash only *)
         ask_all vw (address_object (mk_adr 0 h false true)) qs = replies).
Proof.
  intros u ix bs pt ptr HG Hp Hq. destruct (run_whole u ix bs pt ptr HG Hp Hq) as (s & A & E & HR & HI).
  exists s. split; [done|]. intros r vw. pose proof (view_sees r u ix s A HR) as HV. fold vw in HV.
  assert (forall h, h ∈ addr_hashes bs -> let a := hs_index (ix_adr ix) h in address_hash vw a = Some h /\ address_txos vw a =
        if decide (file_used 5 (reused (addr_hashes bs)) a) then Some (outputs_paying (addr_hashes bs) h) else None) as H45.
  { intros h Hh. destruct (C45_address_history_partial u ix bs pt ptr h HG Hp Hq Hh) as (s' & E' & H). rewrite E in E'.
    apply (inj Some) in E' as <-. apply H. }
  pose proof HG as [HX HS HB HT]. pose proof HX as (_ & _ & (Ca & Ia & Aa)). split.
  - intros q Hn. unfold adr_by_hash. rewrite (proj1 HV), Ia. destruct (first_of_cases (addr_hashes bs) q) as [[_ ->]|(k & _ & Hk & _)]; [done|].
    destruct Hn. by eapply elem_of_list_lookup_2.
  - intros h Hh. destruct (H45 h Hh) as [H1 H2]. cbv zeta in H1, H2. rewrite Ia in H1, H2.
    destruct (first_of_cases (addr_hashes bs) h) as [[Hn _]|(k & Ek & Hk & _)]; [done|].
    exists (adr_by_height (first_of (addr_hashes bs) h)). split; [|split].
    + unfold adr_by_hash. rewrite (proj1 HV), Ia. rewrite bool_decide_eq_false_2 by lia. done.
    + intros i o Hi Ho. unfold txo_address_handle. destruct HI as [HIB HIT]. rewrite (rd_ok _ _ _ HV) by (unfold read_files; set_solver).
      rewrite (it_addr _ _ _ _ HIT). unfold addr_numbers. rewrite lookup_map. pose proof Hi as Hi'. rewrite <- tagged_snd, <- outs_snd in Hi'.
      rewrite Hi'. cbn [fmap option_fmap option_map of_opt abind]. by rewrite Ho.
    + intros qs known replies. set (i := first_of (addr_hashes bs) h) in *.
      assert (hs_at (ix_adr (v_ix vw)) i = Some h) as Hat by exact H1.
      assert (hs_index (ix_adr (v_ix vw)) h = i) as Hix by (rewrite (proj1 HV); apply Ia).
      split; eapply ask_all_ok; [exact Hat|exact Hix|exact H2| |exact Hat|exact Hix|exact H2|].
      * split; [done|]. split; [done|]. done.
      * split; [done|]. split; [done|]. done.
Qed.

(** The chain of the examples meets the hypotheses; an address paid twice answers with both outputs *)
Example C89_example :
  good_chain ex_u (ideal_stores ex_bs) ex_bs /\
  exists s, run_chain ex_u (ideal_stores ex_bs) ex_bs (c_create ex_u (-1) (-1)) = Some s /\ forall r,
    ask_all (view_of r (ideal_stores ex_bs) s) (address_object (adr_by_height 0)) [QHash; QCount; QNth 1; QNth 2] =
      [RHash [100]; RCount (Ans 2); RNth (Ans (txx_by_height 2)); RNth Crashes].
Proof.
  split; [apply ex_good|].
  destruct (C89_addresses_partial ex_u (ideal_stores ex_bs) ex_bs (-1) (-1) ex_good) as (s & E & H); [lia|lia|].
  exists s. split; [done|]. intros r. destruct (H r) as [_ H']. destruct (H' [100]) as (g & Eg & _ & HQ); [vm_compute; left|].
  assert (g = adr_by_height 0) as ->.
  { unfold adr_by_hash in Eg. destruct r; cbn in Eg; by injection Eg as <-. }
  destruct (HQ [QHash; QCount; QNth 1; QNth 2]) as [-> _]. reflexivity.
Qed.

(** ** C90: asking past the end *)

(** C90 is false: a block asked for a transaction past its last one hands out the next block's first
    transaction, asked for one before its first the previous block's last, and so for outputs of
    transactions; no error is reported. *)
Theorem C90_past_the_end_is_the_neighbour :
  forall u ix bs prev_txo prev_trans, good_chain u ix bs -> prev_txo <= 0 -> prev_trans <= 0 ->
  exists s, run_chain u ix bs (c_create u prev_txo prev_trans) = Some s /\ forall r, let vw := view_of r ix s in
    (forall k b b', bs !! k = Some b -> bs !! S k = Some b' -> exists h h' hl,
       nth_trans_handle vw (Z.of_nat k) (Z.of_nat (length (b_txs b))) = Ans h /\
       nth_trans_handle vw (Z.of_nat (S k)) 0 = Ans h /\
       nth_trans_handle vw (Z.of_nat (S k)) (-1) = Ans h' /\
       nth_trans_handle vw (Z.of_nat k) (Z.of_nat (length (b_txs b)) - 1) = Ans h' /\
       handle_hash (ix_trn ix) h = Ans hl /\ head (map t_hash (b_txs b')) = Some hl) /\
    (forall m t t', txs_of bs !! m = Some t -> txs_of bs !! S m = Some t' ->
       nth_txo_handle vw (Z.of_nat m) (Z.of_nat (length (t_outs t))) = nth_txo_handle vw (Z.of_nat (S m)) 0 /\
       txo_item vw (txx_by_trans (by_height (Z.of_nat m)) (Z.of_nat (length (t_outs t)))) =
         txo_item vw (txx_by_trans (by_height (Z.of_nat (S m))) 0) /\
       forall o, head (t_outs t') = Some o -> exists to,
         txo_item vw (txx_by_trans (by_height (Z.of_nat m)) (Z.of_nat (length (t_outs t)))) = Ans to /\
         read_out vw to = Some (o_sats o, o_addr o)).
Proof.
  intros u ix bs pt ptr HG Hp Hq. destruct (run_whole u ix bs pt ptr HG Hp Hq) as (s & A & E & HR & HI).
  exists s. split; [done|]. intros r vw. pose proof (view_sees r u ix s A HR) as HV. fold vw in HV.
  destruct HG as [HX HS HB HT]. split.
  - intros k b b' Hk Hk'. set (j := sum (take (S k) (map ntx bs))).
    assert (j = sum (take k (map ntx bs)) + length (b_txs b))%nat as Hjs.
    { unfold j. rewrite (sum_take_S _ _ (ntx b)); [done|]. by rewrite lookup_map, Hk. }
    pose proof (first_trans_at u ix bs vw A HX HV HI k ltac:(by eapply lookup_lt_Some)) as F1.
    pose proof (first_trans_at u ix bs vw A HX HV HI (S k) ltac:(by eapply lookup_lt_Some)) as F2. fold j in F2.
    assert (exists t', b_txs b' !! 0%nat = Some t' /\ head (map t_hash (b_txs b')) = Some (t_hash t')) as (t' & Ht' & Hh).
    { pose proof (Forall_lookup_1 _ _ _ _ (so_blocks _ _ HS) Hk') as Hne. cbv beta in Hne. destruct (b_txs b') as [|t' l]; [done|]. by exists t'. }
    destruct (tagged_at bs (S k) b' 0 t' Hk' Ht') as (j' & _ & Ej' & Hj'). fold j in Ej'. rewrite Nat.add_0_r in Ej'. subst j'.
    exists (by_height (Z.of_nat j)), (by_height (Z.of_nat j - 1)), (t_hash t'). unfold nth_trans_handle, nth_trans. rewrite F1, F2.
    cbn [mbind option_bind of_opt abind]. split; [do 2 f_equal; lia|]. split; [do 2 f_equal; lia|]. split; [do 2 f_equal; lia|].
    split; [do 2 f_equal; lia|]. split; [|done].
    destruct HX as (_ & (_ & _ & Ft) & _). unfold handle_hash, by_height. cbn [d_has_hash d_data d_height]. rewrite Ft.
    unfold tx_hashes. rewrite <- tagged_snd, map_map, lookup_map, Hj'. done.
  - intros m t t' Hm Hm'.
    assert (forall i x, txs_of bs !! i = Some x -> exists c, tagged bs !! i = Some (c, x)) as Htag.
    { intros i x Hi. rewrite <- tagged_snd, lookup_map in Hi. destruct (tagged bs !! i) as [[c y]|]; [|done]. cbn in Hi. injection Hi as ->. by exists c. }
    destruct (Htag _ _ Hm) as [c Hc]. destruct (Htag _ _ Hm') as [c' Hc'].
    pose proof (first_txo_at u ix bs vw A HX HV HI m _ Hc) as F1. pose proof (first_txo_at u ix bs vw A HX HV HI (S m) _ Hc') as F2.
    assert (out_start bs (S m) = out_start bs m + length (t_outs t))%nat as Hs.
    { unfold out_start. rewrite (sum_take_S _ _ (nout (c, t))); [done|]. by rewrite lookup_map, Hc. }
    split; [|split].
    + unfold nth_txo_handle, nth_txo. rewrite F1, F2. cbn [mbind option_bind of_opt abind]. do 2 f_equal. lia.
    + unfold txo_item, txx_item, txx_by_trans. cbn [x_by_height x_by_trans x_trans x_index].
      unfold item, handle_height, by_height. cbn [d_has_height d_height abind]. rewrite F1, F2. cbn [of_opt abind]. f_equal. lia.
    + intros o Ho. exists (Z.of_nat (out_start bs (S m))). split.
      * unfold txo_item, txx_item, txx_by_trans. cbn [x_by_height x_by_trans x_trans x_index].
        unfold item, handle_height, by_height. cbn [d_has_height d_height abind]. rewrite F1. cbn [of_opt abind]. f_equal. lia.
      * apply (out_at u ix bs vw A HX HV HI). pose proof (outs_lookup bs (S m) c' t' 0 o Hc') as H. rewrite Nat.add_0_r in H.
        apply H. by destruct (t_outs t').
Qed.

(** What is reported: items past the end of the whole chain *)
Theorem C90_past_the_chain_is_reported_partial :
  forall u ix bs prev_txo prev_trans, good_chain u ix bs -> prev_txo <= 0 -> prev_trans <= 0 ->
  exists s, run_chain u ix bs (c_create u prev_txo prev_trans) = Some s /\ forall r, let vw := view_of r ix s in
    (forall i, (length bs <= i)%nat -> handle_hash (ix_blk ix) (by_height (Z.of_nat i)) = Fails /\
       forall n, nth_trans_handle vw (Z.of_nat i) n = Fails) /\
    (forall i, (length (txs_of bs) <= i)%nat -> handle_hash (ix_trn ix) (by_height (Z.of_nat i)) = Fails /\
       forall n, nth_txo_handle vw (Z.of_nat i) n = Fails /\ nth_txi_handle vw (Z.of_nat i) n = Fails /\
         txo_item vw (txx_by_trans (by_height (Z.of_nat i)) n) = Fails) /\
    (forall i, (length (outs_of (txs_of bs)) <= i)%nat -> txo_sats vw (Z.of_nat i) = None /\ txo_address_handle vw (Z.of_nat i) = Fails) /\
    (forall i n, i < 0 -> nth_trans_handle vw i n = Fails /\ nth_txo_handle vw i n = Fails /\ nth_txi_handle vw i n = Fails /\ txo_sats vw i = None).
Proof.
  intros u ix bs pt ptr HG Hp Hq. destruct (run_whole u ix bs pt ptr HG Hp Hq) as (s & A & E & HR & HI).
  exists s. split; [done|]. intros r vw. pose proof (view_sees r u ix s A HR) as HV. fold vw in HV.
  destruct HG as [HX HS HB HT]. pose proof HX as (Fb & Ft & _). pose proof HI as [HIB HIT].
  split; [|split; [|split]].
  - intros i Hi. split; [apply (by_height_past _ _ _ Fb); unfold block_hashes; by rewrite map_length|]. intros n.
    unfold nth_trans_handle, nth_trans. rewrite (rd_ok _ _ _ HV), (ib_first _ _ _ HIB), lookup_ge_None_2; [done|by rewrite starts_length, map_length|unfold read_files; set_solver].
  - intros i Hi. split; [apply (by_height_past _ _ _ Ft); unfold tx_hashes; by rewrite map_length|]. intros n.
    assert (length (tagged bs) <= i)%nat as Hi' by (by rewrite tagged_length, <- txs_length).
    assert (rd vw FirstTxo (Z.of_nat i) = None) as F1.
    { rewrite (rd_ok _ _ _ HV), (it_first_txo _ _ _ _ HIT), lookup_ge_None_2; [done|by rewrite starts_length, map_length|unfold read_files; set_solver]. }
    assert (rd vw FirstTxi (Z.of_nat i) = None) as F2.
    { rewrite (rd_ok _ _ _ HV), (it_first_txi _ _ _ _ HIT), lookup_ge_None_2; [done|by rewrite starts_length, map_length|unfold read_files; set_solver]. }
    split; [|split].
    + unfold nth_txo_handle, nth_txo. by rewrite F1.
    + unfold nth_txi_handle, nth_txi. by rewrite F2.
    + unfold txo_item, txx_item, txx_by_trans. cbn [x_by_height x_by_trans x_trans x_index].
      unfold item, handle_height, by_height. cbn [d_has_height d_height abind]. by rewrite F1.
  - intros i Hi. assert (length (outs (tagged bs)) <= i)%nat as Hi'. { etransitivity; [|exact Hi]. by rewrite <- tagged_snd, <- outs_snd. }
    unfold txo_sats, txo_address_handle. rewrite !(rd_ok _ _ _ HV) by (unfold read_files; set_solver).
    rewrite (it_sats _ _ _ _ HIT), (it_addr _ _ _ _ HIT). unfold addr_numbers. rewrite !lookup_map, lookup_ge_None_2 by done. done.
  - intros i n Hi. unfold nth_trans_handle, nth_txo_handle, nth_txi_handle, nth_trans, nth_txo, nth_txi, txo_sats.
    assert (forall f, rd vw f i = None) as Hr.
    { intros f. unfold rd. destruct (v_files vw !! f); [|done]. cbn [mbind option_bind]. by rewrite (proj2 (Z.ltb_lt _ _)) by done. }
    rewrite !Hr. done.
Qed.

(** Blocks 0 and 1 of the example are neighbours, and so are its transactions 0 and 1 *)
Example C90_example :
  good_chain ex_u (ideal_stores ex_bs) ex_bs /\
  (exists b b', ex_bs !! 0%nat = Some b /\ ex_bs !! 1%nat = Some b' /\ map t_hash (b_txs b') = [[11]; [12]]) /\
  (exists t t' o, txs_of ex_bs !! 1%nat = Some t /\ txs_of ex_bs !! 2%nat = Some t' /\ head (t_outs t') = Some o /\ o_addr o = [100]).
Proof. split; [apply ex_good|]. split; [do 2 eexists; split; [reflexivity|]; split; reflexivity|]. do 3 eexists. split; [reflexivity|]. split; [reflexivity|]. split; reflexivity. Qed.

(** The claim as a user would have it fails on that chain: block 0 of it has one transaction, and its
    transaction number 1 is answered *)
Theorem C90_index_past_the_end_reported_refuted :
  exists u ix bs s k b h, good_chain u ix bs /\ run_chain u ix bs (c_create u (-1) (-1)) = Some s /\
    bs !! k = Some b /\ forall r, nth_trans_handle (view_of r ix s) (Z.of_nat k) (Z.of_nat (length (b_txs b))) = Ans h /\
      handle_hash (ix_trn ix) h = Ans [11] /\ [11] ∉ map t_hash (b_txs b).
Proof.
  destruct (run_whole ex_u (ideal_stores ex_bs) ex_bs (-1) (-1) ex_good) as (s & A & E & HR & HI); [lia|lia|].
  assert (exists b, ex_bs !! 0%nat = Some b /\ length (b_txs b) = 1%nat /\ map t_hash (b_txs b) = [[10]]) as (b & Hb & Hl & Hm)
    by (eexists; split; [reflexivity|]; split; reflexivity).
  exists ex_u, (ideal_stores ex_bs), ex_bs, s, 0%nat, b, (by_height 1). split; [apply ex_good|]. split; [exact E|].
  split; [exact Hb|]. intros r. rewrite Hl, Hm. split; [|split].
  - unfold nth_trans_handle, nth_trans.
    rewrite (first_trans_at ex_u (ideal_stores ex_bs) ex_bs _ A (gc_indexed _ _ _ ex_good) (view_sees r _ _ _ _ HR) HI 0) by (apply Nat.ltb_lt; reflexivity).
    reflexivity.
  - vm_compute. reflexivity.
  - intros Hin. apply elem_of_list_singleton in Hin. discriminate.
Qed.

Print Assumptions C89_by_hash_leads_there_partial.
Print Assumptions C89_by_height_and_neighbours.
Print Assumptions C89_handle_by_hash_crashes_refuted.
Print Assumptions C89_after_the_end_comes_the_start_refuted.
Print Assumptions C89_outputs_by_transaction.
Print Assumptions C89_addresses_partial.
Print Assumptions C90_past_the_end_is_the_neighbour.
Print Assumptions C90_index_past_the_end_reported_refuted.
Print Assumptions C90_past_the_chain_is_reported_partial.
