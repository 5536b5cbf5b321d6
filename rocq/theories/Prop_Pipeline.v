(** From the bytes of the blocks to the stored chain. *)
From Verif Require Import Base Spec_Word Model_Word Model_MapStore Model_Codec Model_Parse Spec_Parse Proof_Parse Prop_Parse
  Model_Json Model_JsonBlock Prop_JsonBlock
  Model_Difficulty Model_Chain Spec_Chain Proof_Chain Prop_Chain Model_Pipeline Spec_Pipeline Proof_Pipeline.
From Verif Require Model_Holder Spec_Holder Prop_Holder.

Lemma given_C50 sha diff W meds : (forall l, length (sha l) = 32%nat) -> valid_chain sha W -> length meds = length W ->
  Forall (fun b => b_txs b <> [] /\ length (b_hash b) = 32%nat /\
      Forall (fun t => length (t_hash t) = 32%nat /\ Forall (fun o => length (o_addr o) = 32%nat) (t_outs t)) (b_txs b))
    (zip_with (given sha diff) W meds).
Proof.
  intros Hsha V Hlen. pose proof (vc_wf _ _ V) as HW. rewrite Forall_forall in HW.
  rewrite Forall_lookup. intros k c Hc. destruct (given_inv _ _ _ _ _ _ Hc) as (w & m & Hw & _ & ->).
  destruct (HW w ltac:(by eapply elem_of_list_lookup_2)) as (_ & _ & Hne & _). cbn [b_txs b_hash given].
  split; [intros E; apply Hne; destruct w.2; [done|discriminate E]|]. split; [apply Hsha|].
  rewrite Forall_lookup. intros n t Ht. rewrite list_lookup_imap in Ht. destruct (w.2 !! n) as [x|]; [|done].
  cbn in Ht. injection Ht as <-. cbn [t_hash t_outs given_tx]. split; [apply Hsha|].
  rewrite Forall_map, Forall_forall. intros o _. apply Hsha.
Qed.

Lemma difficulty_int_i64 odd : is_i64 odd -> forall n, is_i64 (difficulty_int odd n).
Proof.
  intros Hodd n. unfold difficulty_int. destruct (stored_difficulty n) as [d|] eqn:E; [|done]. change (default odd (Some d)) with d.
  unfold stored_difficulty, f64_round in E. unfold is_i64.
  destruct (difficulty n) as [s|s| |s m e].
  - apply (inj Some) in E. rewrite <- E. cbn [id]. lia.
  - done.
  - done.
  - cbv zeta in E. destruct (_ && _) eqn:B; [|done]. apply (inj Some) in E. rewrite <- E.
    apply andb_true_iff in B as [B1 B2]. apply Z.leb_le in B1. apply Z.ltb_lt in B2. done.
Qed.

(** What can be read from a stored chain: a walk over the blocks, in the same process or after reopening, shows
    every block; and every requested number of blocks and transactions is as in the blocks. *)
Definition reads_back (sha : list Z -> list Z) (W : list wblock) (ix : stores) (s : cst) : Prop :=
  (forall r fuel, (length W <= fuel)%nat ->
     walk (next_block (view_of r ix s)) (read_block (view_of r ix s)) fuel genesis = Some (map (told_block sha W) W)) /\
  let vw := open_read_only ix s in
  forall k w, W !! k = Some w ->
    block_int vw 1 (Z.of_nat k) = Some (wh_time w.1) /\
    (forall d, stored_difficulty (wh_bits w.1) = Some d -> block_int vw 2 (Z.of_nat k) = Some d) /\
    (exists m, block_int vw 3 (Z.of_nat k) = Some m /\
       Spec_Holder.has_rank (Spec_Holder.last_eleven (map (fun w => wh_time w.1) W) k) ((11 `min` S k) / 2) m) /\
    block_int vw 5 (Z.of_nat k) = Some (Z.of_nat (length (ser_block_stripped w.1 w.2))) /\
    block_int vw 6 (Z.of_nat k) = Some (Z.of_nat (length (ser_block w.1 w.2))) /\
    block_int vw 7 (Z.of_nat k)
      = Some (3 * Z.of_nat (length (ser_block_stripped w.1 w.2)) + Z.of_nat (length (ser_block w.1 w.2))) /\
    forall n t, w.2 !! n = Some t ->
      let tr := Z.of_nat (length (all_txs (take k W)) + n) in
      nth_trans vw (Z.of_nat k) (Z.of_nat n) = Some tr /\
      trans_int vw 1 tr = Some (size_of t) /\ trans_int vw 2 tr = Some ((weight_of t + 3) / 4) /\
      trans_int vw 3 tr = Some (weight_of t).

(** ** C85 *)
(** The whole of phases one and three, for both interfaces: the blocks of any storable chain are parsed from
    their bytes; the gathered hash lists are the block, transaction and receiver hashes of the chain; and with
    stores that answer for those lists (C01-C24 are about them) the third phase succeeds and what can be read
    back afterwards is what the blocks say. *)
Theorem C85_stored_chain_says_what_the_blocks_say sha odd chi W :
  (forall l, length (sha l) = 32%nat) -> is_i64 odd -> valid_chain sha W ->
  (chi = false -> Forall (fun w => NoDup (map (txid sha) w.2)) W) ->
  exists bs fb ft fa,
    mapM (parse_block sha) (map (fun w => ser_block w.1 w.2) W) = Some bs /\
    phase_one sha (difficulty_int odd) chi bs = Some (fb, ft, fa) /\
    hf_count fb = length (block_ids sha W) /\ hf_count ft = length (txids sha W) /\ hf_count fa = length (receivers sha W) /\
    hf_data fb = concat (block_ids sha W) /\ hf_data ft = concat (txids sha W) /\ hf_data fa = concat (receivers sha W) /\
    (forall i, hf_read fb i = block_ids sha W !! i /\ hf_read ft i = txids sha W !! i /\ hf_read fa i = receivers sha W !! i) /\
    forall ix prev_txo prev_trans,
      faithful (ix_blk ix) (block_ids sha W) -> faithful (ix_trn ix) (txids sha W) -> finds (ix_adr ix) (receivers sha W) ->
      prev_txo <= 0 -> prev_trans <= 0 ->
      exists s, phase_three sha (difficulty_int odd) chi ix bs (c_create (job_setup chi) prev_txo prev_trans) = Some s /\ reads_back sha W ix s.
Proof.
  intros Hsha Hodd V Hn. set (diff := difficulty_int odd).
  pose proof (difficulty_int_i64 odd Hodd : forall n, is_i64 (diff n)) as Hd.
  destruct (parsed_chain sha W (vc_wf _ _ V)) as (bs & Eb & F).
  destruct (presented_is sha diff chi false bs W F V Hn) as (meds1 & P1 & L1 & _).
  destruct (presented_is sha diff chi true bs W F V Hn) as (meds & P & L & M & R).
  destruct (C50_hashes_in_storage_order _ (given_C50 sha diff W meds1 Hsha V L1)) as (fb & ft & fa & G & C1 & C2 & C3 & D1 & D2 & D3 & Hr).
  rewrite (given_blocks sha diff W meds1 L1) in C1, D1. rewrite (given_txids sha diff W meds1 L1) in C2, D2.
  rewrite (given_receivers sha diff W meds1 L1) in C3, D3.
  rewrite (given_blocks sha diff W meds1 L1), (given_txids sha diff W meds1 L1), (given_receivers sha diff W meds1 L1) in Hr.
  exists bs, fb, ft, fa. split.
  { apply mapM_Some. apply mapM_Some in Eb. by rewrite Forall2_fmap_l. }
  split; [unfold phase_one; rewrite P1; exact G|].
  do 3 (split; [done|]). do 3 (split; [done|]). split; [done|].
  intros ix pt ptr I1 I2 I3 Hp Hq. set (cs := zip_with (given sha diff) W meds) in *.
  assert (HG : good_chain (job_setup chi) ix cs).
  { split.
    - unfold indexed, cs. by rewrite (given_blocks sha diff W meds L), (given_txids sha diff W meds L), (given_receivers sha diff W meds L).
    - by apply given_storable.
    - unfold cs. rewrite (given_blocks sha diff W meds L). apply (vc_ids _ _ V).
    - by left. }
  assert (Lc : length cs = length W) by (unfold cs; rewrite zip_with_length, L; lia).
  assert (Hne : cs <> []).
  { destruct (vc_first _ _ V) as (w & Hw & _). intros E. rewrite E in Lc. destruct W; [done|discriminate Lc]. }
  destruct (C44_blocks_read_back _ ix cs pt ptr HG Hne Hp Hq) as (s & E1 & Hwalk).
  destruct (C44_ints_read_back _ ix cs pt ptr HG Hp Hq) as (s' & E2 & Hints).
  rewrite E1 in E2. apply (inj Some) in E2. subst s'.
  exists s. split; [unfold phase_three; rewrite P; exact E1|]. split.
  { intros r fuel Hf. rewrite (proj1 (Hwalk r fuel ltac:(lia))). unfold cs. by rewrite (given_told sha diff W meds L). }
  intros vw k w Hw. destruct (given_lookup sha diff W meds L k w Hw) as (m & Hm & Hk). fold cs in Hk.
  assert (B : forall name, name ∈ u_blk (job_setup chi) -> block_int vw name (Z.of_nat k) = b_ints (given sha diff w m) !! name).
  { intros name Hname. by apply (Hints k _ name Hk). }
  assert (IN : forall (x : nat) l, existsb (Nat.eqb x) l = true -> x ∈ l).
  { intros x l Hx. apply existsb_exists in Hx as (y & Hy & ->%Nat.eqb_eq). by apply elem_of_list_In. }
  split; [rewrite (B 1%nat) by (by apply IN); reflexivity|].
  split; [intros d Ed; rewrite (B 2%nat) by (by apply IN); cbn [b_ints given]; unfold diff, difficulty_int; rewrite Ed; reflexivity|].
  split; [exists m; split; [rewrite (B 3%nat) by (by apply IN); reflexivity|by apply R]|].
  split; [rewrite (B 5%nat) by (by apply IN); reflexivity|].
  split; [rewrite (B 6%nat) by (by apply IN); reflexivity|].
  split; [rewrite (B 7%nat) by (by apply IN); reflexivity|].
  intros n t Ht.
  assert (Hg : b_txs (given sha diff w m) !! n = Some (given_tx sha n t)) by (cbn [b_txs given]; rewrite list_lookup_imap, Ht; done).
  destruct (proj2 (Hints k _ 1%nat Hk) n _ ltac:(by apply IN) Hg) as (T0 & T1).
  destruct (proj2 (Hints k _ 2%nat Hk) n _ ltac:(by apply IN) Hg) as (_ & T2).
  destruct (proj2 (Hints k _ 3%nat Hk) n _ ltac:(by apply IN) Hg) as (_ & T3).
  fold vw in T0, T1, T2, T3.
  assert (Etr : trans_number cs (Z.of_nat k) (Z.of_nat n) = Z.of_nat (length (all_txs (take k W)) + n)).
  { unfold trans_number. rewrite Nat2Z.id, Nat2Z.inj_add. do 2 f_equal. unfold cs.
    rewrite zip_with_take.
    pose proof (f_equal length (given_txids sha diff (take k W) (take k meds) ltac:(rewrite !take_length; lia))) as Eg.
    unfold tx_hashes, txids in Eg. by rewrite !map_length in Eg. }
  intros tr. rewrite Etr in T0, T1, T2, T3. fold tr in T0, T1, T2, T3.
  split; [exact T0|]. rewrite T1, T2, T3. split; [reflexivity|]. split; reflexivity.
Qed.

(** ** C86 *)
(** The transactions of valid blocks: only the first of a block is a coinbase. *)
Definition coinbase_first (w : wblock) : Prop := forall n t, w.2 !! n = Some t -> n <> 0%nat -> ~ is_coinbase t.

Section Json.
  Context {V : Type} (sats : V -> Z) (val : Z -> V) (sha : list Z -> list Z).
  Hypothesis Hsha : forall l, length (sha l) = 32%nat /\ bytes (sha l).

  Definition json_ready (w : wblock) : Prop :=
    bytes (wh_prev w.1) /\ bytes (wh_merkle w.1) /\ Forall (good sats val) w.2 /\ coinbase_first w.

  Lemma json_says w : well_sized w -> json_ready w ->
    exists b, parse_json_block sats (core_block val sha w.1 w.2) = Some b /\ says sha b w.
  Proof using Hsha.
    intros Hw (J1 & J2 & J3 & J4). destruct (parsed_says sha w Hw) as (bb & Eb & S).
    destruct Hw as (Hh & Ht & _ & Hl). pose proof (all_scripts_le w.1 w.2) as Hs. pose proof (txs_le w.1 w.2) as Hn.
    destruct (C78_json_and_binary_blocks_agree sats val sha Hsha w.1 w.2 Hh J1 J2 J3 ltac:(lia) ltac:(lia)) as (bj & bb' & Ej & Eb' & B).
    rewrite Eb in Eb'. apply (inj Some) in Eb'. subst bb'. exists bj. split; [done|].
    destruct B as (B1 & _ & B3 & _ & B5 & B6 & _ & B8 & B9 & B10 & B11 & (T1 & T2 & T3)).
    destruct S as [S1 S2 S3 S4 S5 S6 S7 S8 S9 S10]. split.
    1-6: congruence.
    - by rewrite B10, B11, B9.
    - by rewrite T3.
    - by rewrite B8.
    - intros n t x Hn' Hx. rewrite B8 in Hn'. destruct (S10 n t x Hn' Hx) as (G1 & G2 & G3 & G4).
      split; [done|]. split; [done|]. split.
      + intros H0 j i Hj. specialize (G3 H0 j i Hj). unfold get_txi in *. rewrite T1.
        change (map forget_null ?l) with (forget_null <$> l). rewrite list_lookup_fmap, G3. cbn [fmap option_fmap option_map].
        f_equal. unfold forget_null. cbn [txi_txid txi_vout]. rewrite decide_False; [done|]. intros Hnull.
        rewrite Forall_forall in J3. destruct (J3 x ltac:(by eapply elem_of_list_lookup_2)) as (_ & _ & _ & [Hc|Hf]).
        * exact (J4 n x Hx H0 Hc).
        * rewrite Forall_forall in Hf. apply (Hf i); [by eapply elem_of_list_lookup_2|exact Hnull].
      + intros j o Hj. destruct (G4 j o Hj) as (y & Y1 & Y2 & Y3). exists y. unfold get_txo, get_script in *. by rewrite T2, T3.
  Qed.

  (** Blocks fetched as JSON and blocks fetched as bytes lead to the same gathered hashes and, in every state and
      with every stores, to the same outcome of the third phase; the difficulty, which JSON brings along as
      a number of its own, has to round to the same integers. *)
  Theorem C86_json_and_binary_store_the_same W chi diff diffj :
    valid_chain sha W -> Forall json_ready W ->
    (chi = false -> Forall (fun w => NoDup (map (txid sha) w.2)) W) ->
    Forall (fun w => diffj (wh_bits w.1) = diff (wh_bits w.1)) W ->
    exists bj bb,
      mapM (fun w => parse_json_block sats (core_block val sha w.1 w.2)) W = Some bj /\
      mapM (parse_block sha) (map (fun w => ser_block w.1 w.2) W) = Some bb /\
      phase_one sha diffj chi bj = phase_one sha diff chi bb /\
      is_Some (phase_one sha diff chi bb) /\
      forall ix s, phase_three sha diffj chi ix bj s = phase_three sha diff chi ix bb s.
  Proof using Hsha.
    intros Vc HJ Hn Hdiff. pose proof (vc_wf _ _ Vc) as HW.
    destruct (parsed_chain sha W HW) as (bb & Eb & Fb).
    assert (exists bj, mapM (fun w => parse_json_block sats (core_block val sha w.1 w.2)) W = Some bj /\ Forall2 (says sha) bj W)
      as (bj & Ej & Fj).
    { clear -HW HJ Hsha. induction HW as [|w W Hw _ IH]; [exists []; done|]. apply Forall_cons in HJ as [Jw HJ].
      destruct (IH HJ) as (bj & Ej & Fj). destruct (json_says w Hw Jw) as (b & E & S). exists (b :: bj). split; [|by constructor].
      apply mapM_Some. apply mapM_Some in Ej. by constructor. }
    exists bj, bb. split; [done|]. split; [apply mapM_Some; apply mapM_Some in Eb; by rewrite Forall2_fmap_l|].
    assert (Same : forall indexed, exists meds, presented sha diffj chi indexed bj = Some (zip_with (given sha diff) W meds) /\
      presented sha diff chi indexed bb = Some (zip_with (given sha diff) W meds) /\ length meds = length W).
    { intros indexed. destruct (presented_is sha diffj chi indexed bj W Fj Vc Hn) as (m1 & P1 & L1 & _ & R1).
      destruct (presented_is sha diff chi indexed bb W Fb Vc Hn) as (m2 & P2 & L2 & _ & R2).
      assert (m1 = m2) as ->.
      { apply list_eq. intros k. destruct (m1 !! k) as [a|] eqn:E1.
        - destruct (m2 !! k) as [b|] eqn:E2.
          + f_equal. eapply Prop_Holder.C47_rank_determines_the_value; eauto.
          + apply lookup_lt_Some in E1. apply lookup_ge_None in E2. lia.
        - symmetry. apply lookup_ge_None. apply lookup_ge_None in E1. lia. }
      exists m2. split; [|done]. rewrite P1. f_equal. clear -Hdiff. revert m2.
      induction Hdiff as [|w W Hw _ IH]; intros [|m m2]; try done. cbn [zip_with]. rewrite IH. f_equal.
      unfold given. by rewrite Hw. }
    destruct (Same false) as (meds & S1 & S2 & L). destruct (Same true) as (meds' & S3 & S4 & _).
    unfold phase_one, phase_three. rewrite S1, S2, S3, S4. split; [done|]. split; [|done].
    destruct (C50_hashes_in_storage_order _ (given_C50 sha diff W meds (fun l => proj1 (Hsha l)) Vc L)) as (fb & ft & fa & G & _).
    cbn [mbind option_bind]. rewrite G. by eexists.
  Qed.
End Json.

(** The two interfaces store the same chain. *)
Theorem C86_handles_and_objects_store_the_same sha diff W bs :
  (forall l, length (sha l) = 32%nat) -> (forall n, is_i64 (diff n)) -> valid_chain sha W ->
  Forall (fun w => NoDup (map (txid sha) w.2)) W ->
  mapM (parse_block sha) (map (fun w => ser_block w.1 w.2) W) = Some bs ->
  phase_one sha diff true bs = phase_one sha diff false bs /\
  forall ix pt ptr, pt <= 0 -> ptr <= 0 ->
    faithful (ix_blk ix) (block_ids sha W) -> faithful (ix_trn ix) (txids sha W) -> finds (ix_adr ix) (receivers sha W) ->
    exists s1 s2, phase_three sha diff true ix bs (c_create (job_setup true) pt ptr) = Some s1 /\
      phase_three sha diff false ix bs (c_create (job_setup false) pt ptr) = Some s2 /\
      forall r fuel, (length W <= fuel)%nat ->
        walk (next_block (view_of r ix s1)) (read_block (view_of r ix s1)) fuel genesis =
        walk (next_block (view_of r ix s2)) (read_block (view_of r ix s2)) fuel genesis.
Proof.
  intros Hsha Hd V Hn Ebs. destruct (parsed_chain sha W (vc_wf _ _ V)) as (bs' & Eb & F).
  assert (bs' = bs) as ->.
  { apply mapM_Some in Eb. apply mapM_Some in Ebs. rewrite Forall2_fmap_l in Ebs. clear -Eb Ebs.
    revert bs Ebs. induction Eb as [|w b W bs' E _ IH]; intros bs H; inversion H; subst; [done|]. f_equal; [congruence|by apply IH]. }
  assert (Same : forall indexed, exists meds, presented sha diff true indexed bs = Some (zip_with (given sha diff) W meds) /\
      presented sha diff false indexed bs = Some (zip_with (given sha diff) W meds) /\ length meds = length W /\
      Forall (fun m => 0 <= m < 2^32) meds).
  { intros indexed. destruct (presented_is sha diff true indexed bs W F V ltac:(done)) as (m1 & P1 & L1 & M1 & R1).
    destruct (presented_is sha diff false indexed bs W F V ltac:(done)) as (m2 & P2 & L2 & _ & R2).
    assert (m1 = m2) as ->.
    { apply list_eq. intros k. destruct (m1 !! k) as [a|] eqn:E1.
      - destruct (m2 !! k) as [b|] eqn:E2.
        + f_equal. eapply Prop_Holder.C47_rank_determines_the_value; eauto.
        + apply lookup_lt_Some in E1. apply lookup_ge_None in E2. lia.
      - symmetry. apply lookup_ge_None. apply lookup_ge_None in E1. lia. }
    by exists m2. }
  destruct (Same false) as (meds1 & S1 & S2 & _). destruct (Same true) as (meds & S3 & S4 & L & M).
  split; [unfold phase_one; by rewrite S1, S2|].
  intros ix pt ptr Hp Hq I1 I2 I3. set (cs := zip_with (given sha diff) W meds) in *.
  assert (HG : forall chi, good_chain (job_setup chi) ix cs).
  { intros chi. split.
    - unfold indexed, cs. by rewrite (given_blocks sha diff W meds L), (given_txids sha diff W meds L), (given_receivers sha diff W meds L).
    - by apply given_storable.
    - unfold cs. rewrite (given_blocks sha diff W meds L). apply (vc_ids _ _ V).
    - by left. }
  assert (Lc : length cs = length W) by (unfold cs; rewrite zip_with_length, L; lia).
  assert (Hne : cs <> []).
  { destruct (vc_first _ _ V) as (w & Hw & _). intros E. rewrite E in Lc. destruct W; [done|discriminate Lc]. }
  destruct (C44_blocks_read_back _ ix cs pt ptr (HG true) Hne Hp Hq) as (s1 & E1 & H1).
  destruct (C44_blocks_read_back _ ix cs pt ptr (HG false) Hne Hp Hq) as (s2 & E2 & H2).
  exists s1, s2. unfold phase_three. rewrite S3, S4. split; [exact E1|]. split; [exact E2|].
  intros r fuel Hf. rewrite (proj1 (H1 r fuel ltac:(lia))), (proj1 (H2 r fuel ltac:(lia))).
  unfold cs. by rewrite !(given_told sha diff W meds L).
Qed.

(** ** A chain of two blocks, the second with a segwit transaction that spends the first coinbase and pays the same
    script again.  The stand-in for SHA-256 keeps 28 bytes of its input. *)
Definition ex_sha (l : list Z) : list Z := [0x6f; 0xe2; 0x8c; 0x0a] ++ le_enc 28 (le_dec l).
Lemma ex_sha_ok l : length (ex_sha l) = 32%nat /\ bytes (ex_sha l).
Proof.
  unfold ex_sha. rewrite app_length, le_enc_length. split; [done|]. apply Forall_app. split; [|apply le_enc_bytes].
  repeat (apply Forall_cons_2 || apply Forall_nil_2); unfold is_byte; lia.
Qed.
Definition ex_cb (v : Z) : wtrans :=
  mk_wtrans v false [mk_win (replicate 32 0) 4294967295 [4; 255] 4294967295 []] [mk_wout 5000000000 [65; 172]] 0.
Definition ex_spend : wtrans :=
  mk_wtrans 3 true [mk_win (txid ex_sha (ex_cb 1)) 0 [] 5 [[4; 5]; []]] [mk_wout 77 [1; 171]; mk_wout 99 [65; 172]] 500.
Definition ex_h0 : wheader := mk_whead 1 (replicate 32 0) (replicate 32 2) 1231006505 486604799 2083236893.
Definition ex_h1 : wheader := mk_whead 1 (block_id ex_sha ex_h0) (replicate 32 2) 1231006000 486604799 7.
Definition ex_chain : list wblock := [(ex_h0, [ex_cb 1]); (ex_h1, [ex_cb 2; ex_spend])].

Lemma ex_cb_wf v : u32 v -> wf_trans (ex_cb v).
Proof.
  intros H. unfold wf_trans, ex_cb, small. cbn [wt_version wt_lock wt_ins wt_outs wt_segwit length]. unfold u32 in *.
  split_and!; try lia; try done; repeat (apply Forall_cons_2 || apply Forall_nil_2);
    unfold wf_input, wf_output, u32, small, is_i64; cbn; split_and!; try lia; try done; apply Forall_nil_2.
Qed.
Lemma ex_spend_wf : wf_trans ex_spend.
Proof.
  unfold wf_trans, ex_spend, small. cbn [wt_version wt_lock wt_ins wt_outs wt_segwit length]. unfold u32.
  split_and!; try lia; try done; repeat (apply Forall_cons_2 || apply Forall_nil_2);
    unfold wf_input, wf_output, u32, small, is_i64; cbn [wi_txid wi_vout wi_sig wi_seq wi_witness wo_value wo_script length];
    split_and!; try lia; try done; repeat (apply Forall_cons_2 || apply Forall_nil_2); cbn [length]; lia.
Qed.
Example C85_example : valid_chain ex_sha ex_chain /\ Forall (fun w => NoDup (map (txid ex_sha) w.2)) ex_chain.
Proof.
  split.
  - split.
    + exists (ex_h0, [ex_cb 1]). split; [done|]. vm_compute. reflexivity.
    + intros [|[|k]] w w' Hw Hw'; [|done..]. injection Hw as <-. injection Hw' as <-. reflexivity.
    + assert (H0 : wf_header ex_h0) by (unfold wf_header, u32; vm_compute; split_and!; (reflexivity || discriminate)).
      assert (H1 : wf_header ex_h1) by (unfold wf_header, u32; vm_compute; split_and!; (reflexivity || discriminate)).
      apply Forall_cons_2; [|apply Forall_cons_2; [|apply Forall_nil_2]]; cbn [fst snd].
      * split; [exact H0|]. split; [|split; [discriminate|vm_compute; reflexivity]].
        apply Forall_cons_2; [|apply Forall_nil_2]. apply ex_cb_wf. unfold u32. lia.
      * split; [exact H1|]. split; [|split; [discriminate|vm_compute; reflexivity]].
        apply Forall_cons_2; [|apply Forall_cons_2; [|apply Forall_nil_2]]; [apply ex_cb_wf; unfold u32; lia|apply ex_spend_wf].
    + apply (bool_decide_unpack _). vm_compute. exact I.
    + vm_compute. reflexivity.
    + vm_compute. reflexivity.
    + vm_compute. reflexivity.
    + vm_compute. reflexivity.
    + intros [|[|k]] w n t i Hw Ht Hn Hi; [| |done]; injection Hw as <-; destruct n as [|[|n]]; try done.
      injection Ht as <-. apply elem_of_list_singleton in Hi as ->. apply elem_of_list_here.
    + apply (bool_decide_unpack _). vm_compute. exact I.
  - repeat (apply Forall_cons_2 || apply Forall_nil_2); apply (bool_decide_unpack _); vm_compute; exact I.
Qed.
(** The first inputs are gone, the spending input names transaction 0, and the second block's median time is later
    than its own time. *)
Example C85_example_told :
  map (fun b => map (fun t => (t.1.2, map fst t.2)) b.2) (map (told_block ex_sha ex_chain) ex_chain)
    = [[([], [5000000000])]; [([], [5000000000]); ([(0, 0)], [77; 99])]] /\
  (bs ← mapM (parse_block ex_sha) (map (fun w => ser_block w.1 w.2) ex_chain);
   cs ← presented ex_sha (difficulty_int 0) true true bs;
   Some (map (fun c => map (fun n => default (-1) (b_ints c !! n)) [1; 2; 3; 5; 6; 7]%nat) cs))
    = Some [[1231006505; 1; 1231006505; 145; 145; 580]; [1231006000; 1; 1231006505; 218; 225; 879]].
Proof. split; vm_compute; reflexivity. Qed.
Example C86_example : Forall (json_ready (fun x => x) (fun x => x)) ex_chain.
Proof.
  assert (B : forall n x, is_byte x -> bytes (replicate n x)) by (intros; by apply Forall_replicate).
  assert (C : forall v, u32 v -> good (fun x => x) (fun x => x) (ex_cb v)).
  { intros v Hv. split; [by apply ex_cb_wf|]. split; [|split].
    - apply Forall_cons_2; [|apply Forall_nil_2]. cbn [wi_txid]. apply B. unfold is_byte. lia.
    - apply Forall_cons_2; [|apply Forall_nil_2]. split; [|done].
      repeat (apply Forall_cons_2 || apply Forall_nil_2); unfold is_byte; lia.
    - left. eexists. split; [reflexivity|]. split; reflexivity. }
  assert (D : good (fun x => x) (fun x => x) ex_spend).
  { split; [apply ex_spend_wf|]. split; [|split].
    - apply Forall_cons_2; [|apply Forall_nil_2]. cbn [wi_txid]. apply ex_sha_ok.
    - apply Forall_cons_2; [|apply Forall_cons_2; [|apply Forall_nil_2]]; (split; [|done]);
      repeat (apply Forall_cons_2 || apply Forall_nil_2); unfold is_byte; lia.
    - right. repeat (apply Forall_cons_2 || apply Forall_nil_2). intros [_ H]. discriminate H. }
  repeat (apply Forall_cons_2 || apply Forall_nil_2); unfold json_ready; cbn [fst snd].
  - split; [apply B; unfold is_byte; lia|]. split; [apply B; unfold is_byte; lia|]. split.
    + repeat (apply Forall_cons_2 || apply Forall_nil_2). apply C. unfold u32. lia.
    + intros [|n] t Ht Hn; done.
  - split; [apply ex_sha_ok|]. split; [apply B; unfold is_byte; lia|]. split.
    + repeat (apply Forall_cons_2 || apply Forall_nil_2); [apply C; unfold u32; lia|exact D].
    + intros [|[|n]] t Ht Hn; try done. injection Ht as <-. intros (i & Hi & _ & H). injection Hi as <-. discriminate H.
Qed.

Print Assumptions C85_stored_chain_says_what_the_blocks_say.
Print Assumptions C86_json_and_binary_store_the_same.
Print Assumptions C86_handles_and_objects_store_the_same.
