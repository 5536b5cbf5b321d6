(** Property C87: the whole job, with the indexes that its second phase builds. *)
From Verif Require Import Base Spec_Word Model_Word Proof_Word Model_MapStore Model_Codec Model_Parse Spec_Parse Proof_Parse Prop_Parse
  Model_Json Model_JsonBlock Prop_JsonBlock
  Model_Difficulty Model_Chain Spec_Chain Proof_Chain Prop_Chain Model_Pipeline Spec_Pipeline Proof_Pipeline Prop_Pipeline
  Model_Bins Spec_Bins Proof_BinFiles Prop_Bins Model_Pass Spec_Pass Proof_Pass Prop_Pass Prop_Index Model_Adaptive Proof_Adaptive Prop_Adaptive Model_Job.
From Verif Require Spec_Holder.

(** Bins that are used again are empty. *)
Theorem C87_reused_bins_are_empty : forall old n, reuse old n = replicate n [].
Proof.
  intros old n. unfold reuse. assert (map (fun _ : bin => [] : bin) old = replicate (length old) []) as ->.
  { induction old as [|b old IH]; [done|]. cbn [map length replicate]. by rewrite IH. }
  rewrite replicate_length. rewrite <- replicate_add, take_replicate. f_equal. lia.
Qed.

Lemma params_shipped years : block_params years ∈ shipped /\ trans_params years ∈ shipped /\ address_params years ∈ shipped.
Proof. unfold block_params, trans_params, address_params, shipped. destruct (years =? 2); split_and!; set_solver. Qed.

Lemma first_position_is_first_of l h : first_position h 0 l = first_of l h.
Proof.
  destruct (first_of_cases l h) as [[Hn E]|(k & E & Hk & Hmin)].
  - rewrite E. generalize 0%nat. clear E. induction l as [|x l IH]; intros s; cbn [first_position]; [done|].
    rewrite decide_False; [|intros ->; apply Hn; by left]. apply IH. intros H. apply Hn. by right.
  - rewrite E. enough (forall s, first_position h s l = Z.of_nat (s + k)) as ->; [done|]. clear E. revert k Hk Hmin.
    induction l as [|x l IH]; intros k Hk Hmin s; [done|]. cbn [first_position].
    destruct k as [|k].
    + cbn in Hk. apply (inj Some) in Hk as ->. rewrite decide_True by done. f_equal. lia.
    + rewrite decide_False.
      * rewrite (IH k); [f_equal; lia|done|]. intros i Hi Hh. exact (Hmin (S i) ltac:(lia) Hh).
      * intros ->. exact (Hmin 0%nat ltac:(lia) eq_refl).
Qed.

(** ** Reading with another store of transaction hashes *)
Section Swap.
  Context (F : gmap fid word_file) (M : Z -> option (option (list Z))) (B A : hstore) (I : hash -> Z) (C : Z) (G G' : Z -> option hash).
  Notation vw := (mk_view F M (mk_stores B (mk_hs I C G) A)).
  Notation vw' := (mk_view F M (mk_stores B (mk_hs I C G') A)).

  Lemma read_trans_swap h x a b y : read_trans vw' h = Some (x, a, b) -> G h = Some y -> read_trans vw h = Some (y, a, b).
  Proof using.
    intros H E. unfold read_trans in *. change (trans_hash vw h) with (G h). rewrite E. cbn [mbind option_bind].
    destruct (trans_hash vw' h) as [th|]; [|done]. cbn [mbind option_bind] in H.
    change (txi_count vw h) with (txi_count vw' h). destruct (txi_count vw' h) as [ni|]; [|done]. cbn [mbind option_bind] in *.
    change (mapM (fun i => ti ← nth_txi vw h i; read_in vw ti) (indices ni))
      with (mapM (fun i => ti ← nth_txi vw' h i; read_in vw' ti) (indices ni)).
    destruct (mapM _ (indices ni)) as [ins|]; [|done]. cbn [mbind option_bind] in *.
    change (txo_count vw h) with (txo_count vw' h). destruct (txo_count vw' h) as [no|]; [|done]. cbn [mbind option_bind] in *.
    change (mapM (fun i => to ← nth_txo vw h i; read_out vw to) (indices no))
      with (mapM (fun i => to ← nth_txo vw' h i; read_out vw' to) (indices no)).
    destruct (mapM _ (indices no)) as [outs|]; [|done]. cbn [mbind option_bind] in *. congruence.
  Qed.

  Lemma read_block_swap h bh ts base (g : nat -> hash) : read_block vw' h = Some (bh, ts) -> rd vw' FirstTrans h = Some base ->
    (forall n, (n < length ts)%nat -> G (base + Z.of_nat n) = Some (g n)) ->
    read_block vw h = Some (bh, imap (fun n x => (g n, x.1.2, x.2)) ts).
  Proof using.
    intros H Hb HG. unfold read_block in *. change (block_hash vw h) with (block_hash vw' h).
    destruct (block_hash vw' h) as [bh'|]; [|done]. cbn [mbind option_bind] in *.
    change (trans_count vw h) with (trans_count vw' h). destruct (trans_count vw' h) as [nt|]; [|done]. cbn [mbind option_bind] in *.
    destruct (mapM _ (indices nt)) as [ts'|] eqn:E in H; [|done]. cbn [mbind option_bind] in H.
    apply (inj Some) in H. apply pair_equal_spec in H as [-> ->].
    apply mapM_Some in E. pose proof (Forall2_length _ _ _ E) as El. unfold indices in El. rewrite map_length, seq_length in El.
    assert (mapM (fun i => t ← nth_trans vw h i; read_trans vw t) (indices nt) = Some (imap (fun n x => (g n, x.1.2, x.2)) ts)) as ->; [|done].
    apply mapM_Some, Forall2_same_length_lookup_2; [by rewrite imap_length; apply Forall2_length in E|].
    intros n i y Hi Hy. rewrite list_lookup_imap in Hy. destruct (ts !! n) as [x|] eqn:Ex; [|done]. cbn in Hy. apply (inj Some) in Hy as <-.
    pose proof (Forall2_lookup_lr _ _ _ _ _ _ E Hi Ex) as R. cbv beta in R.
    assert (i = Z.of_nat n) as ->.
    { unfold indices in Hi. rewrite (list_lookup_fmap Z.of_nat) in Hi.
      destruct (seq 0 (Z.to_nat nt) !! n) as [m|] eqn:Em; [|done]. apply lookup_seq in Em as [-> _]. cbn in Hi. congruence. }
    unfold nth_trans in *. change (rd vw FirstTrans h) with (rd vw' FirstTrans h). rewrite Hb in *. cbn [mbind option_bind] in *.
    destruct x as [[x1 x2] x3]. cbn [fst snd]. eapply read_trans_swap; [exact R|]. apply HG. by eapply lookup_lt_Some.
  Qed.
End Swap.

(** A walk when the store of transaction hashes finds what it should but gives back the list [ids]. *)
Definition number (bs : list cblock) (k n : nat) : nat := (length (txs_of (take k bs)) + n)%nat.
Lemma walk_other u ix bs pt ptr ids :
  good_chain u (mk_stores (ix_blk ix) (mk_hs (hs_index (ix_trn ix)) (hs_count (ix_trn ix))
                 (fun i => if decide (0 <= i) then tx_hashes bs !! Z.to_nat i else None)) (ix_adr ix)) bs ->
  bs <> [] -> pt <= 0 -> ptr <= 0 -> length ids = length (tx_hashes bs) ->
  (forall i : nat, hs_at (ix_trn ix) (Z.of_nat i) = ids !! i) ->
  exists s, run_chain u ix bs (c_create u pt ptr) = Some s /\
    forall r fuel, (length bs <= fuel)%nat ->
      walk (next_block (view_of r ix s)) (read_block (view_of r ix s)) fuel genesis
        = Some (imap (fun k b => (b_hash b, imap (fun n t => (default [] (ids !! number bs k n),
            (shown_tx u bs n t).1.2, (shown_tx u bs n t).2)) (b_txs b))) bs).
Proof.
  intros HG Hne Hp Hq Hids Hat. destruct ix as [B [I C G] A]. cbn [ix_blk ix_trn ix_adr hs_index hs_count hs_at] in *.
  set (G' := fun i => if decide (0 <= i) then tx_hashes bs !! Z.to_nat i else None) in *.
  set (ix' := mk_stores B (mk_hs I C G') A) in *.
  destruct (run_whole u ix' bs pt ptr HG Hp Hq) as (s & Ab & E & HR & HI).
  exists s. split; [exact E|]. intros r fuel Hf. pose proof (view_sees r u ix' s Ab HR) as HV. destruct HG as [HX HS _ _].
  assert (0 < length bs)%nat as Hpos by (destruct bs; [done|cbn; lia]).
  set (l := imap _ bs).
  assert (length l = length bs) as Hlen by (apply imap_length).
  assert (forall i x, l !! i = Some x -> read_block (view_of r (mk_stores B (mk_hs I C G) A) s) (Z.of_nat i) = Some x) as Hv.
  { intros k x Hx. unfold l in Hx. rewrite list_lookup_imap in Hx. destruct (bs !! k) as [b|] eqn:Eb; [|done].
    cbn in Hx. apply (inj Some) in Hx as <-.
    pose proof (read_block_ok u ix' bs (view_of r ix' s) Ab HX HV HI k b Eb) as Hr.
    assert (rd (view_of r ix' s) FirstTrans (Z.of_nat k) = Some (Z.of_nat (length (txs_of (take k bs))))) as Hfirst.
    { rewrite (rd_ok _ _ _ HV) by (unfold read_files; set_solver). destruct HI as [HB _].
      rewrite (ib_first _ _ _ HB), starts_lookup by (rewrite map_length; by eapply lookup_lt_Some).
      f_equal. rewrite txs_length, Nat.add_0_l. do 2 f_equal. symmetry. apply (fmap_take ntx). }
    assert (forall n, (n < length (imap (shown_tx u bs) (b_txs b)))%nat ->
       G (Z.of_nat (length (txs_of (take k bs))) + Z.of_nat n) = Some (default [] (ids !! number bs k n))) as HGn.
    { intros n Hn. rewrite imap_length in Hn. rewrite <- Nat2Z.inj_add, Hat. fold (number bs k n).
      destruct (lookup_lt_is_Some_2 ids (number bs k n)) as [y ->]; [|done].
      rewrite Hids. unfold tx_hashes, number. rewrite map_length.
      rewrite <- (take_drop_middle _ _ _ Eb) at 2. unfold txs_of. rewrite map_app, concat_app, app_length. cbn [map concat].
      rewrite app_length. lia. }
    assert (read_block (view_of r (mk_stores B (mk_hs I C G) A) s) (Z.of_nat k) = Some (b_hash b,
       imap (fun n x => (default [] (ids !! number bs k n), x.1.2, x.2)) (imap (shown_tx u bs) (b_txs b)))) as Hrb.
    { destruct r; cbn [view_of] in *; unfold as_readable, open_read_only in *; eapply read_block_swap; done. }
    rewrite Hrb. do 2 f_equal. apply list_eq. intros n. rewrite !list_lookup_imap. by destruct (b_txs b !! n). }
  change genesis with (Z.of_nat 0). rewrite (walk_forward _ _ l 0 fuel Hv); [done| |lia|lia].
  intros i Hi.
  assert (next_block (view_of r (mk_stores B (mk_hs I C G) A) s) (Z.of_nat i) = next_block (mk_view ∅ (fun _ => None) ix') (Z.of_nat i)) as ->
    by (by destruct r).
  unfold next_block, nblk. cbn [v_ix]. destruct HX as ((-> & _) & _). unfold block_hashes. rewrite map_length, Hlen.
  case_bool_decide; case_bool_decide; lia.
Qed.

(** ** What the indexes answer *)
(** A list of hashes that the index can hold: of 32 bytes, few enough, no two of which agree in the first 8 or in
    the last 24 bytes, the first of which is not stored as zeroes (C51). *)
Definition index_ready (p : params) (hs : list hash) : Prop :=
  hash_list_ok p hs /\ no_collisions hs /\ first_hash_visible p hs.

Lemma hashes_in_concat p hs : hash_list_ok p hs -> hashes_in (concat hs) = Some hs.
Proof.
  intros Hlist. assert (chunks 32 hs) as Hc by (eapply Forall_impl; [apply Hlist|]; cbn; tauto).
  unfold hashes_in. rewrite (chunks_concat_length 32 hs Hc). rewrite decide_True by (apply Nat.mod_mul; lia).
  rewrite Nat.div_mul by lia. f_equal. by apply to_entries_concat.
Qed.

(** What the adaptive indexer needs beyond that: one worker, or in every pass a non-empty bin for every worker
    (C88). *)
Definition indexer_ready (ixr : indexer) (p : params) (hs : list hash) (threads : nat) (gb : Z) : Prop :=
  match ixr with
  | MultiPass => True
  | Adaptive order => orders_work order /\ (threads = 1%nat \/
      forall wss, adaptive_plan p (Some (concat hs)) (work_budget p gb) order = Some wss -> Forall (enough_work threads) wss)
  end.

Lemma indexer_busy p srt hs order threads gb : sorts p srt -> settings_ok p -> hash_list_ok p hs ->
  indexer_ready (Adaptive order) p hs threads gb ->
  forall wss, adaptive_plan p (Some (concat hs)) (work_budget p gb) order = Some wss -> Forall (busy threads) wss.
Proof. intros Hs Hset Hl (Ho & [-> |He]); [by apply one_busy|]. by eapply enough_all. Qed.

Lemma job_store_ok ixr p probe srt hs threads gb nums f in_ram :
  probe_ok probe -> sorts p srt -> settings_ok p -> index_ready p hs -> indexer_ready ixr p hs threads gb -> (0 < threads)%nat -> 0 <= gb ->
  phase_two ixr p srt (concat hs) threads gb nums f ->
  exists s, h3_open p nums f in_ram = Some s /\
    hs_count (job_store p probe s) = Z.of_nat (length hs) /\ (forall h, hs_index (job_store p probe s) h = first_of hs h) /\
    forall i : nat, hs_at (job_store p probe s) (Z.of_nat i)
      = (fun h => if decide (first_of hs h = Z.of_nat i) then h else replicate 32 0) <$> hs !! i.
Proof.
  intros Hp Hs Hset (Hl & Hc & Hv) Hix Ht Hgb Hrun.
  assert (exists raw, length raw = Z.to_nat (p_bins p) /\ Proof_Index.raw_bins p hs raw /\ files_hold p f (sort_dedup srt <$> raw) /\
      nums = word_bytes (bin_room p) ((fun h => bin_num p (abbreviated h)) <$> hs)) as (raw & Hlen & Hraw & Hf & ->).
  { destruct ixr as [|order].
    - destruct Hrun as (hs' & rs & ns & E & Hrs & Hm & En). rewrite (hashes_in_concat p hs Hl) in E. apply (inj Some) in E as <-.
      eapply (preload_result p srt hs Hs Hset Hl Hv threads (gb * 1024 * 1024 * 1024)); [done|lia|]. exists rs, ns. done.
    - eapply (adaptive_run_result p srt order hs threads gb); try done; [by destruct Hix|]. by eapply indexer_busy. }
  destruct (open_bins p probe srt hs Hp Hs Hset Hl Hc raw f in_ram Hlen Hraw Hf) as (s & H1 & H2 & H3 & H4 & H5).
  exists s. split; [done|]. unfold job_store. cbn [hs_count hs_index hs_at]. split; [by rewrite H2|]. split.
  - intros h. destruct (decide _) as [[Hh1 Hh2]|Hh].
    + rewrite H3 by done. cbn [default from_option]. unfold id. apply first_position_is_first_of.
    + destruct (first_of_cases hs h) as [[_ ->]|(k & _ & Hk & _)]; [done|]. destruct Hh.
      exact (Forall_lookup_1 _ _ _ _ (proj1 Hl) Hk).
  - intros i. rewrite decide_True by lia. rewrite Nat2Z.id. destruct (hs !! i) as [h|] eqn:Ei; cbn [fmap option_fmap option_map].
    + rewrite (H4 i h Ei). by rewrite first_position_is_first_of.
    + apply H5. by apply lookup_ge_None.
Qed.

Lemma first_of_nodup l (i : nat) h : NoDup l -> l !! i = Some h -> first_of l h = Z.of_nat i.
Proof.
  intros Hn Hi. destruct (first_of_cases l h) as [[Hin _]|(k & -> & Hk & _)].
  - destruct Hin. by eapply elem_of_list_lookup_2.
  - f_equal. eapply (NoDup_lookup l); done.
Qed.
Lemma store_faithful s l : NoDup l -> hs_count s = Z.of_nat (length l) -> (forall h, hs_index s h = first_of l h) ->
  (forall i : nat, hs_at s (Z.of_nat i) = (fun h => if decide (first_of l h = Z.of_nat i) then h else replicate 32 0) <$> l !! i) ->
  faithful s l.
Proof.
  intros Hn H1 H2 H3. split; [done|]. split; [done|]. intros i. rewrite H3. destruct (l !! i) as [h|] eqn:E; [|done].
  cbn [fmap option_fmap option_map]. by rewrite decide_True by (by apply first_of_nodup).
Qed.
Lemma store_finds s l : hs_count s = Z.of_nat (length l) -> (forall h, hs_index s h = first_of l h) ->
  (forall i : nat, hs_at s (Z.of_nat i) = (fun h => if decide (first_of l h = Z.of_nat i) then h else replicate 32 0) <$> l !! i) ->
  finds s l.
Proof.
  intros H1 H2 H3. split; [done|]. split; [done|]. intros i h Hi Hf. rewrite H3, Hi. cbn [fmap option_fmap option_map].
  by rewrite decide_True.
Qed.

Lemma block_nodup sha W : NoDup (txids sha W) -> Forall (fun w => NoDup (map (txid sha) w.2)) W.
Proof.
  unfold txids, all_txs. induction W as [|w W IH]; intros H; [constructor|]. cbn [map concat] in H. rewrite map_app in H.
  apply NoDup_app in H as (H1 & _ & H2). constructor; [done|by apply IH].
Qed.

(** ** C87 *)
(** The whole job: parse the blocks, gather the hashes, index them (in ranges of bins or adaptively) in any number
    of passes with any number of workers and any schedule, open the indexes (bins in memory or not), store the chain: what can be read back
    afterwards is what the blocks say.  Bitcoin's chain does not meet the hypothesis that no two transactions have
    the same identifier; see below. *)
Theorem C87_whole_job_partial sha odd chi W years probe srtb srtt srta ixr threads gb ramb ramt rama :
  (forall l, length (sha l) = 32%nat) -> is_i64 odd -> valid_chain sha W -> NoDup (txids sha W) ->
  index_ready (block_params years) (block_ids sha W) -> index_ready (trans_params years) (txids sha W) ->
  index_ready (address_params years) (receivers sha W) ->
  probe_ok probe -> sorts (block_params years) srtb -> sorts (trans_params years) srtt -> sorts (address_params years) srta ->
  indexer_ready ixr (block_params years) (block_ids sha W) threads gb -> indexer_ready ixr (trans_params years) (txids sha W) threads gb ->
  indexer_ready ixr (address_params years) (receivers sha W) threads gb ->
  (0 < threads)%nat -> 0 <= gb ->
  exists bs fb ft fa,
    mapM (parse_block sha) (map (fun w => ser_block w.1 w.2) W) = Some bs /\
    phase_one sha (difficulty_int odd) chi bs = Some (fb, ft, fa) /\
    forall nb nt na xb xt xa,
      phase_two ixr (block_params years) srtb (hf_data fb) threads gb nb xb ->
      phase_two ixr (trans_params years) srtt (hf_data ft) threads gb nt xt ->
      phase_two ixr (address_params years) srta (hf_data fa) threads gb na xa ->
      exists sb st sa,
        h3_open (block_params years) nb xb ramb = Some sb /\ h3_open (trans_params years) nt xt ramt = Some st /\
        h3_open (address_params years) na xa rama = Some sa /\
        let ix := mk_stores (job_store (block_params years) probe sb) (job_store (trans_params years) probe st)
                    (job_store (address_params years) probe sa) in
        forall prev_txo prev_trans, prev_txo <= 0 -> prev_trans <= 0 ->
        exists s, phase_three sha (difficulty_int odd) chi ix bs (c_create (job_setup chi) prev_txo prev_trans) = Some s /\
          reads_back sha W ix s.
Proof.
  intros Hsha Hodd V Hnd Rb Rt Ra Hp Sb St Sa Ib It Ia Ht Hgb. destruct (params_shipped years) as (Pb & Pt & Pa).
  destruct (C85_stored_chain_says_what_the_blocks_say sha odd chi W Hsha Hodd V) as (bs & fb & ft & fa & E1 & E2 & _ & _ & _ & D1 & D2 & D3 & _ & Hrun).
  { intros _. by apply block_nodup. }
  exists bs, fb, ft, fa. split; [done|]. split; [done|]. intros nb nt na xb xt xa Hb Htr Ha. rewrite D1 in Hb. rewrite D2 in Htr. rewrite D3 in Ha.
  destruct (job_store_ok _ _ probe _ _ _ _ _ _ ramb Hp Sb (shipped_settings_ok _ Pb) Rb Ib Ht Hgb Hb) as (sb & B1 & B2 & B3 & B4).
  destruct (job_store_ok _ _ probe _ _ _ _ _ _ ramt Hp St (shipped_settings_ok _ Pt) Rt It Ht Hgb Htr) as (st & T1 & T2 & T3 & T4).
  destruct (job_store_ok _ _ probe _ _ _ _ _ _ rama Hp Sa (shipped_settings_ok _ Pa) Ra Ia Ht Hgb Ha) as (sa & A1 & A2 & A3 & A4).
  exists sb, st, sa. split; [done|]. split; [done|]. split; [done|]. intros ix pt ptr Hpt Hptr.
  apply Hrun; [| | |done|done]; cbn [ix ix_blk ix_trn ix_adr].
  - apply store_faithful; [apply (vc_ids _ _ V)|done..].
  - by apply store_faithful.
  - by apply store_finds.
Qed.

(** Without that hypothesis everything is still stored, but only the first of the transactions with the same
    identifier keeps it: the others are shown with 32 zero bytes instead. *)
Theorem C87_repeated_ids_read_as_zeroes sha odd chi W years probe srtb srtt srta ixr threads gb ramb ramt rama :
  (forall l, length (sha l) = 32%nat) -> is_i64 odd -> valid_chain sha W ->
  (chi = false -> Forall (fun w => NoDup (map (txid sha) w.2)) W) ->
  index_ready (block_params years) (block_ids sha W) -> index_ready (trans_params years) (txids sha W) ->
  index_ready (address_params years) (receivers sha W) ->
  probe_ok probe -> sorts (block_params years) srtb -> sorts (trans_params years) srtt -> sorts (address_params years) srta ->
  indexer_ready ixr (block_params years) (block_ids sha W) threads gb -> indexer_ready ixr (trans_params years) (txids sha W) threads gb ->
  indexer_ready ixr (address_params years) (receivers sha W) threads gb ->
  (0 < threads)%nat -> 0 <= gb ->
  exists bs fb ft fa,
    mapM (parse_block sha) (map (fun w => ser_block w.1 w.2) W) = Some bs /\
    phase_one sha (difficulty_int odd) chi bs = Some (fb, ft, fa) /\
    forall nb nt na xb xt xa,
      phase_two ixr (block_params years) srtb (hf_data fb) threads gb nb xb ->
      phase_two ixr (trans_params years) srtt (hf_data ft) threads gb nt xt ->
      phase_two ixr (address_params years) srta (hf_data fa) threads gb na xa ->
      exists sb st sa,
        h3_open (block_params years) nb xb ramb = Some sb /\ h3_open (trans_params years) nt xt ramt = Some st /\
        h3_open (address_params years) na xa rama = Some sa /\
        let ix := mk_stores (job_store (block_params years) probe sb) (job_store (trans_params years) probe st)
                    (job_store (address_params years) probe sa) in
        forall prev_txo prev_trans, prev_txo <= 0 -> prev_trans <= 0 ->
        exists s, phase_three sha (difficulty_int odd) chi ix bs (c_create (job_setup chi) prev_txo prev_trans) = Some s /\
          forall r fuel, (length W <= fuel)%nat ->
            walk (next_block (view_of r ix s)) (read_block (view_of r ix s)) fuel genesis = Some (imap (seen_block sha W) W).
Proof.
  intros Hsha Hodd V Hn Rb Rt Ra Hp Sb St Sa Ib It Ia Ht Hgb. destruct (params_shipped years) as (Pb & Pt & Pa).
  set (diff := difficulty_int odd). pose proof (difficulty_int_i64 odd Hodd : forall n, is_i64 (diff n)) as Hd.
  destruct (C85_stored_chain_says_what_the_blocks_say sha odd chi W Hsha Hodd V Hn) as (bs & fb & ft & fa & E1 & E2 & _ & _ & _ & D1 & D2 & D3 & _ & _).
  exists bs, fb, ft, fa. split; [done|]. split; [done|]. intros nb nt na xb xt xa Hb Htr Ha. rewrite D1 in Hb. rewrite D2 in Htr. rewrite D3 in Ha.
  destruct (job_store_ok _ _ probe _ _ _ _ _ _ ramb Hp Sb (shipped_settings_ok _ Pb) Rb Ib Ht Hgb Hb) as (sb & B1 & B2 & B3 & B4).
  destruct (job_store_ok _ _ probe _ _ _ _ _ _ ramt Hp St (shipped_settings_ok _ Pt) Rt It Ht Hgb Htr) as (st & T1 & T2 & T3 & T4).
  destruct (job_store_ok _ _ probe _ _ _ _ _ _ rama Hp Sa (shipped_settings_ok _ Pa) Ra Ia Ht Hgb Ha) as (sa & A1 & A2 & A3 & A4).
  exists sb, st, sa. split; [done|]. split; [done|]. split; [done|]. intros ix pt ptr Hpt Hptr.
  destruct (parsed_chain sha W (vc_wf _ _ V)) as (bs' & Eb & F).
  assert (bs' = bs) as ->.
  { apply mapM_Some in E1. rewrite Forall2_fmap_l in E1. apply mapM_Some in E1. rewrite Eb in E1. by apply (inj Some) in E1. }
  destruct (presented_is sha diff chi true bs W F V Hn) as (meds & P & L & M & R).
  set (cs := zip_with (given sha diff) W meds) in *.
  assert (Lc : length cs = length W) by (unfold cs; rewrite zip_with_length, L; lia).
  assert (Hne : cs <> []).
  { destruct (vc_first _ _ V) as (w & Hw & _). intros E. rewrite E in Lc. destruct W; [done|discriminate Lc]. }
  assert (Etx : tx_hashes cs = txids sha W) by (by apply given_txids).
  set (ids := imap (fun i h => if decide (first_of (txids sha W) h = Z.of_nat i) then h else replicate 32 0) (txids sha W)).
  destruct (walk_other (job_setup chi) ix cs pt ptr ids) as (s & Es & Hw).
  - split; [|by apply given_storable| |by left].
    + unfold indexed. cbn [ix ix_blk ix_trn ix_adr]. unfold cs.
      rewrite (given_blocks sha diff W meds L), (given_txids sha diff W meds L), (given_receivers sha diff W meds L).
      split; [|split].
      * apply store_faithful; [apply (vc_ids _ _ V)|done..].
      * split; [exact T2|]. split; [exact T3|]. intros i. cbn [hs_at]. rewrite decide_True by lia. by rewrite Nat2Z.id.
      * by apply store_finds.
    + unfold cs. rewrite (given_blocks sha diff W meds L). apply (vc_ids _ _ V).
  - done.
  - done.
  - done.
  - rewrite Etx. apply imap_length.
  - intros i. cbn [ix ix_trn]. rewrite T4. unfold ids. by rewrite list_lookup_imap.
  - exists s. split; [unfold phase_three; fold diff; rewrite P; exact Es|]. intros r fuel Hf. rewrite (Hw r fuel ltac:(lia)). f_equal.
    apply list_eq. intros k. rewrite !list_lookup_imap.
    destruct (W !! k) as [w|] eqn:Ek; [|by rewrite (proj2 (lookup_ge_None cs k)) by (rewrite Lc; by apply lookup_ge_None)].
    destruct (given_lookup sha diff W meds L k w Ek) as (m & Em & Ec). fold cs in Ec. rewrite Ec. cbn [fmap option_fmap option_map mbind option_bind]. f_equal. unfold seen_block. cbn [b_hash b_txs given]. f_equal.
    apply list_eq. intros n. rewrite !list_lookup_imap. destruct (w.2 !! n) as [t|] eqn:En; [|done].
    cbn [fmap option_fmap option_map]. f_equal.
    pose proof (given_told sha diff W meds L chi) as Htold. fold cs in Htold. unfold shown_chain in Htold.
    assert (Hshown : shown_tx (job_setup chi) cs n (given_tx sha n t) = told_tx sha W n t).
    { apply (f_equal (fun l => l !! k)) in Htold. rewrite !lookup_map in Htold. rewrite Ec, Ek in Htold.
      cbn [fmap option_fmap option_map mbind option_bind] in Htold. apply (inj Some) in Htold. unfold shown_block, told_block in Htold.
      apply pair_equal_spec in Htold as [_ Htold]. apply (f_equal (fun l => l !! n)) in Htold. cbn [b_txs given] in Htold.
      rewrite !list_lookup_imap, En in Htold. cbn [fmap option_fmap option_map] in Htold. by apply (inj Some) in Htold. }
    rewrite Hshown. f_equal. f_equal. unfold ids, seen_id.
    assert (number cs k n = (length (all_txs (take k W)) + n)%nat) as ->.
    { unfold number. f_equal. unfold cs. rewrite zip_with_take.
      pose proof (f_equal length (given_txids sha diff (take k W) (take k meds) ltac:(rewrite !take_length; lia))) as Eg.
      unfold tx_hashes, txids in Eg. by rewrite !map_length in Eg. }
    rewrite list_lookup_imap.
    assert (txids sha W !! (length (all_txs (take k W)) + n)%nat = Some (txid sha t)) as ->.
    { unfold txids. rewrite lookup_map. rewrite <- (take_drop_middle _ _ _ Ek) at 2. unfold all_txs. rewrite map_app, concat_app.
      rewrite lookup_app_r by lia. cbn [map concat]. rewrite lookup_app_l by (apply lookup_lt_Some in En; lia).
      replace (_ + n - _)%nat with n by lia. by rewrite En. }
    done.
Qed.

(** ** Runs exist *)
Lemma pass_ranges_shipped p gb : p ∈ shipped -> 1 <= gb -> exists rs, pass_ranges p (gb * 1024 * 1024 * 1024) = Some rs.
Proof.
  intros Hp Hgb. assert (bins_per_pass p (gb * 1024 * 1024 * 1024) <> 0) as Hb.
  { assert (exists d, 0 < d <= 1024 * 1024 * 1024 /\ bins_per_pass p (gb * 1024 * 1024 * 1024) = (gb * 1024 * 1024 * 1024) `quot` d) as (d & Hd & ->).
    { unfold bins_per_pass. eexists. split; [|reflexivity].
      unfold shipped in Hp. repeat (apply elem_of_cons in Hp as [->|Hp]); [..|by apply elem_of_nil in Hp]; vm_compute; split; congruence. }
    rewrite Z.quot_div_nonneg by lia. assert (1 <= gb * 1024 * 1024 * 1024 / d); [|lia].
    apply Z.div_le_lower_bound; lia. }
  unfold pass_ranges. rewrite (proj2 (Z.eqb_neq _ _) Hb). eauto.
Qed.

Theorem C87_runs_exist :
  forall years ixr p srt hs threads gb, p = block_params years \/ p = trans_params years \/ p = address_params years ->
    sorts p srt -> index_ready p hs -> indexer_ready ixr p hs threads gb -> (0 < threads)%nat -> 1 <= gb ->
    exists nums f, phase_two ixr p srt (concat hs) threads gb nums f.
Proof.
  intros years ixr p srt hs threads gb Hp Hs (Hl & _ & Hv) Hix Ht Hgb. destruct (params_shipped years) as (Pb & Pt & Pa).
  assert (p ∈ shipped) as Hsh by (destruct Hp as [->|[->| ->]]; done).
  destruct ixr as [|order].
  - destruct (pass_ranges_shipped p gb Hsh Hgb) as [rs Hrs].
    destruct (C51_runs_exist p srt hs threads (gb * 1024 * 1024 * 1024) rs Hs (shipped_settings_ok p Hsh) Hl Hv Ht ltac:(lia) Hrs) as (nums & f & rs' & ns & H1 & H2 & H3).
    exists nums, f, hs, rs', ns. split; [by eapply hashes_in_concat|]. done.
  - pose proof (shipped_settings_ok p Hsh) as Hset. apply adaptive_run_exists; try done; [by destruct Hix|]. by eapply indexer_busy.
Qed.

(** ** Two chains of two blocks.  With [v = 2] all transactions differ; with [v = 1] the coinbase of the second block
    is the one of the first block again, as in Bitcoin's blocks 91812 and 91842, and 91722 and 91880. *)
Definition job_sha (l : list Z) : list Z :=
  le_enc 32 ((le_dec l + (if (length l =? 80)%nat then 2746143006 else 0)) *
    95097065754048712493019462230827768523616324208853691743435754128633565197369).
Lemma job_sha_ok l : length (job_sha l) = 32%nat /\ bytes (job_sha l).
Proof. unfold job_sha. rewrite le_enc_length. split; [done|]. apply le_enc_bytes. Qed.
Definition job_spend : wtrans :=
  mk_wtrans 3 true [mk_win (txid job_sha (ex_cb 1)) 0 [] 5 [[4; 5]; []]] [mk_wout 77 [1; 171]; mk_wout 99 [65; 172]] 500.
Definition job_h1 : wheader := mk_whead 1 (block_id job_sha ex_h0) (replicate 32 2) 1231006000 486604799 7.
Definition job_chain (v : Z) : list wblock := [(ex_h0, [ex_cb 1]); (job_h1, [ex_cb v; job_spend])].
Lemma job_spend_wf : wf_trans job_spend.
Proof.
  unfold wf_trans, job_spend, small. cbn [wt_version wt_lock wt_ins wt_outs wt_segwit length]. unfold u32.
  split_and!; try lia; try done; repeat (apply Forall_cons_2 || apply Forall_nil_2);
    unfold wf_input, wf_output, u32, small, is_i64; cbn [wi_txid wi_vout wi_sig wi_seq wi_witness wo_value wo_script length];
    split_and!; try lia; try done; repeat (apply Forall_cons_2 || apply Forall_nil_2); cbn [length]; lia.
Qed.
Lemma job_chain_valid v : v = 1 \/ v = 2 -> valid_chain job_sha (job_chain v) /\ Forall (fun w => NoDup (map (txid job_sha) w.2)) (job_chain v).
Proof.
  intros Hv. assert (u32 v) as Hu by (unfold u32; lia). split.
  - split.
    + exists (ex_h0, [ex_cb 1]). split; [done|]. vm_compute. reflexivity.
    + intros [|[|k]] w w' Hw Hw'; [|done..]. injection Hw as <-. injection Hw' as <-. reflexivity.
    + assert (H0 : wf_header ex_h0) by (unfold wf_header, u32; vm_compute; split_and!; (reflexivity || discriminate)).
      assert (H1 : wf_header job_h1) by (unfold wf_header, u32; vm_compute; split_and!; (reflexivity || discriminate)).
      apply Forall_cons_2; [|apply Forall_cons_2; [|apply Forall_nil_2]]; cbn [fst snd].
      * split; [exact H0|]. split; [|split; [discriminate|vm_compute; reflexivity]].
        apply Forall_cons_2; [|apply Forall_nil_2]. apply ex_cb_wf. unfold u32. lia.
      * split; [exact H1|]. split; [|split; [discriminate|destruct Hv as [-> | ->]; vm_compute; reflexivity]].
        apply Forall_cons_2; [|apply Forall_cons_2; [|apply Forall_nil_2]]; [apply ex_cb_wf; done|apply job_spend_wf].
    + apply (bool_decide_unpack _). vm_compute. exact I.
    + vm_compute. reflexivity.
    + vm_compute. reflexivity.
    + vm_compute. reflexivity.
    + destruct Hv as [-> | ->]; vm_compute; reflexivity.
    + intros [|[|k]] w n t i Hw Ht Hn Hi; [| |done]; injection Hw as <-; destruct n as [|[|n]]; try done.
      injection Ht as <-. apply elem_of_list_singleton in Hi as ->. apply elem_of_list_here.
    + apply (bool_decide_unpack _). vm_compute. exact I.
  - destruct Hv as [-> | ->]; (apply Forall_cons_2; [|apply Forall_cons_2; [|apply Forall_nil_2]]); apply (bool_decide_unpack _); vm_compute; exact I.
Qed.

(** No two different hashes of a list collide, by looking *)
Definition clash (h h' : hash) : bool :=
  bool_decide (h <> h') && (bool_decide (truncated h = truncated h') || bool_decide (abbreviated h = abbreviated h')).
Lemma no_clash hs : forallb (fun h => forallb (fun h' => negb (clash h h')) hs) hs = true -> no_collisions hs.
Proof.
  intros H h h' Hh Hh' E. apply elem_of_list_In in Hh, Hh'. rewrite forallb_forall in H. specialize (H h Hh). rewrite forallb_forall in H.
  specialize (H h' Hh'). apply negb_true_iff in H. unfold clash in H. destruct (decide (h = h')) as [|Hne]; [done|].
  rewrite (bool_decide_eq_true_2 (h <> h')) in H by done. cbn [andb] in H. apply orb_false_iff in H as [H1 H2].
  apply bool_decide_eq_false in H1, H2. tauto.
Qed.
Lemma ready p hs : Forall (fun h => length h = 32%nat /\ bytes h) hs -> Z.of_nat (length hs) <= 1000 -> 1000 <= pow256 (hash_bytes p) ->
  forallb (fun h => forallb (fun h' => negb (clash h h')) hs) hs = true ->
  match hs with h :: _ => existsb (fun x => negb (x =? 0)) (truncated h) | [] => true end = true -> index_ready p hs.
Proof.
  intros H1 H2 H3 H4 H5. split; [split; [done|split; lia]|]. split; [by apply no_clash|].
  intros h Hh [Hz _]. destruct hs as [|h' hs]; [done|]. cbn in Hh. apply (inj Some) in Hh as ->.
  apply existsb_exists in H5 as (x & Hx & Hx'). rewrite Forall_forall in Hz. apply elem_of_list_In in Hx. rewrite (Hz x Hx) in Hx'. done.
Qed.
Lemma job_ready v years : v = 1 \/ v = 2 ->
  index_ready (block_params years) (block_ids job_sha (job_chain v)) /\ index_ready (trans_params years) (txids job_sha (job_chain v)) /\
  index_ready (address_params years) (receivers job_sha (job_chain v)).
Proof.
  intros Hv. assert (forall l, Forall (fun h => length h = 32%nat /\ bytes h) (map job_sha l)) as Hf.
  { intros l. rewrite Forall_map, Forall_forall. intros x _. apply job_sha_ok. }
  split; [|split]; apply ready.
  - unfold block_ids, block_id. rewrite Forall_map, Forall_forall. intros x _. apply job_sha_ok.
  - vm_compute. discriminate.
  - unfold block_params. destruct (years =? 2); vm_compute; discriminate.
  - vm_compute. reflexivity.
  - vm_compute. reflexivity.
  - unfold txids, txid. rewrite Forall_map, Forall_forall. intros x _. apply job_sha_ok.
  - vm_compute. discriminate.
  - unfold trans_params. destruct (years =? 2); vm_compute; discriminate.
  - destruct Hv as [-> | ->]; vm_compute; reflexivity.
  - vm_compute. reflexivity.
  - unfold receivers. rewrite Forall_map, Forall_forall. intros x _. apply job_sha_ok.
  - vm_compute. discriminate.
  - unfold address_params. destruct (years =? 2); vm_compute; discriminate.
  - vm_compute. reflexivity.
  - vm_compute. reflexivity.
Qed.

Lemma ready_look order p hs threads gb : orders_work order ->
  match adaptive_plan p (Some (concat hs)) (work_budget p gb) order with
  | Some wss => forallb (fun ws => (threads <=? length (filter full ws))%nat) wss | None => true end = true ->
  indexer_ready (Adaptive order) p hs threads gb.
Proof.
  intros Ho H. split; [done|]. right. intros wss E. rewrite E in H. apply Forall_forall. intros ws Hws. rewrite forallb_forall in H.
  apply elem_of_list_In in Hws. apply Nat.leb_le. exact (H ws Hws).
Qed.

Example C87_example : valid_chain job_sha (job_chain 2) /\ NoDup (txids job_sha (job_chain 2)) /\
  index_ready (block_params 2) (block_ids job_sha (job_chain 2)) /\ index_ready (trans_params 2) (txids job_sha (job_chain 2)) /\
  index_ready (address_params 2) (receivers job_sha (job_chain 2)) /\
  indexer_ready (Adaptive order_work) (block_params 2) (block_ids job_sha (job_chain 2)) 2 1 /\
  (forall p hs, indexer_ready (Adaptive order_work) p hs 1 1) /\
  length (receivers job_sha (job_chain 2)) = 4%nat /\ (forall p, sorts p (isort p)).
Proof.
  destruct (job_ready 2 2 ltac:(by right)) as (H1 & H2 & H3).
  split; [apply job_chain_valid; by right|]. split; [apply (bool_decide_unpack _); vm_compute; exact I|].
  split; [exact H1|]. split; [exact H2|]. split; [exact H3|].
  split; [apply ready_look; [apply order_work_ok|vm_compute; reflexivity]|].
  split; [intros p hs; split; [apply order_work_ok|by left]|].
  split; [vm_compute; reflexivity|]. apply isort_sorts.
Qed.

(** With a repeated transaction the stored chain does not say what the blocks say, although no step reports an
    error: the walk shows zeroes for the second one. *)
Theorem C87_repeated_id_lost_refuted :
  exists sha W, (forall l, length (sha l) = 32%nat) /\ valid_chain sha W /\ Forall (fun w => NoDup (map (txid sha) w.2)) W /\
    index_ready (block_params 2) (block_ids sha W) /\ index_ready (trans_params 2) (txids sha W) /\
    index_ready (address_params 2) (receivers sha W) /\
    (exists x y, map (fun b => map (fun t => t.1.1) b.2) (map (told_block sha W) W) = [[x]; [x; y]] /\
                 map (fun b => map (fun t => t.1.1) b.2) (imap (seen_block sha W) W) = [[x]; [replicate 32 0; y]] /\ x <> replicate 32 0) /\
    forall odd chi probe srtb srtt srta ixr threads gb ramb ramt rama,
      is_i64 odd -> probe_ok probe -> sorts (block_params 2) srtb -> sorts (trans_params 2) srtt -> sorts (address_params 2) srta ->
      indexer_ready ixr (block_params 2) (block_ids sha W) threads gb -> indexer_ready ixr (trans_params 2) (txids sha W) threads gb ->
      indexer_ready ixr (address_params 2) (receivers sha W) threads gb ->
      (0 < threads)%nat -> 1 <= gb ->
      exists bs fb ft fa nb nt na xb xt xa,
        mapM (parse_block sha) (map (fun w => ser_block w.1 w.2) W) = Some bs /\
        phase_one sha (difficulty_int odd) chi bs = Some (fb, ft, fa) /\
        phase_two ixr (block_params 2) srtb (hf_data fb) threads gb nb xb /\
        phase_two ixr (trans_params 2) srtt (hf_data ft) threads gb nt xt /\
        phase_two ixr (address_params 2) srta (hf_data fa) threads gb na xa /\
        exists sb st sa,
          h3_open (block_params 2) nb xb ramb = Some sb /\ h3_open (trans_params 2) nt xt ramt = Some st /\
          h3_open (address_params 2) na xa rama = Some sa /\
          let ix := mk_stores (job_store (block_params 2) probe sb) (job_store (trans_params 2) probe st)
                      (job_store (address_params 2) probe sa) in
          exists s, phase_three sha (difficulty_int odd) chi ix bs (c_create (job_setup chi) 0 0) = Some s /\
            forall r fuel, (length W <= fuel)%nat ->
              walk (next_block (view_of r ix s)) (read_block (view_of r ix s)) fuel genesis = Some (imap (seen_block sha W) W) /\
              walk (next_block (view_of r ix s)) (read_block (view_of r ix s)) fuel genesis <> Some (map (told_block sha W) W).
Proof.
  exists job_sha, (job_chain 1). destruct (job_ready 1 2 ltac:(by left)) as (H1 & H2 & H3).
  destruct (job_chain_valid 1 ltac:(by left)) as [V Hn].
  assert (Hsha : forall l, length (job_sha l) = 32%nat) by (intros l; apply job_sha_ok).
  split; [exact Hsha|]. split; [exact V|]. split; [exact Hn|]. split; [exact H1|]. split; [exact H2|]. split; [exact H3|].
  assert (Hseen : exists x y, map (fun b => map (fun t => t.1.1) b.2) (map (told_block job_sha (job_chain 1)) (job_chain 1)) = [[x]; [x; y]] /\
                 map (fun b => map (fun t => t.1.1) b.2) (imap (seen_block job_sha (job_chain 1)) (job_chain 1)) = [[x]; [replicate 32 0; y]] /\
                 x <> replicate 32 0).
  { eexists _, _. split; [vm_compute; reflexivity|]. split; [vm_compute; reflexivity|]. vm_compute. discriminate. }
  split; [exact Hseen|].
  intros odd chi probe srtb srtt srta ixr threads gb ramb ramt rama Hodd Hp Sb St Sa Ib It Ia Ht Hgb.
  destruct (C87_repeated_ids_read_as_zeroes job_sha odd chi (job_chain 1) 2 probe srtb srtt srta ixr threads gb ramb ramt rama
    Hsha Hodd V (fun _ => Hn) H1 H2 H3 Hp Sb St Sa Ib It Ia Ht ltac:(lia)) as (bs & fb & ft & fa & E1 & E2 & Hrun).
  destruct (C85_stored_chain_says_what_the_blocks_say job_sha odd chi (job_chain 1) Hsha Hodd V (fun _ => Hn))
    as (bs' & fb' & ft' & fa' & E1' & E2' & _ & _ & _ & D1 & D2 & D3 & _ & _).
  rewrite E1 in E1'. apply (inj Some) in E1'. subst bs'. rewrite E2 in E2'. apply (inj Some) in E2'.
  apply pair_equal_spec in E2' as [E2' Efa]. apply pair_equal_spec in E2' as [Efb Eft]. rewrite <- Efb in D1. rewrite <- Eft in D2. rewrite <- Efa in D3.
  destruct (C87_runs_exist 2 ixr _ srtb _ threads gb (or_introl eq_refl) Sb H1 Ib Ht Hgb) as (nb & xb & Rb).
  destruct (C87_runs_exist 2 ixr _ srtt _ threads gb (or_intror (or_introl eq_refl)) St H2 It Ht Hgb) as (nt & xt & Rt).
  destruct (C87_runs_exist 2 ixr _ srta _ threads gb (or_intror (or_intror eq_refl)) Sa H3 Ia Ht Hgb) as (na & xa & Ra).
  rewrite <- D1 in Rb. rewrite <- D2 in Rt. rewrite <- D3 in Ra.
  exists bs, fb, ft, fa, nb, nt, na, xb, xt, xa. split; [exact E1|]. split; [exact E2|]. split; [exact Rb|]. split; [exact Rt|]. split; [exact Ra|].
  destruct (Hrun nb nt na xb xt xa Rb Rt Ra) as (sb & st & sa & O1 & O2 & O3 & Hs).
  exists sb, st, sa. split; [exact O1|]. split; [exact O2|]. split; [exact O3|]. intros ix.
  destruct (Hs 0 0 ltac:(lia) ltac:(lia)) as (s & Es & Hw). exists s. split; [exact Es|].
  intros r fuel Hf. split; [exact (Hw r fuel Hf)|]. unfold ix. rewrite (Hw r fuel Hf). intros E. apply (inj Some) in E.
  destruct Hseen as (x & y & T & S & Hx). rewrite E, T in S. congruence.
Qed.

Print Assumptions C87_reused_bins_are_empty.
Print Assumptions C87_whole_job_partial.
Print Assumptions C87_repeated_ids_read_as_zeroes.
Print Assumptions C87_runs_exist.
Print Assumptions C87_repeated_id_lost_refuted.
