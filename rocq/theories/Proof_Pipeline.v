(** From parsed blocks to what the storage is given. *)
From Verif Require Import Base Spec_Word Model_Word Model_MapStore Model_Parse Spec_Parse Proof_Parse Prop_Parse
  Model_Difficulty Model_Chain Spec_Chain Proof_Chain Prop_Chain Model_Pipeline Spec_Pipeline.
From Verif Require Model_Holder Spec_Holder Prop_Holder.

Lemma mapM_seq {A B} (f : nat -> option B) (g : A -> B) (l : list A) :
  (forall j x, l !! j = Some x -> f j = Some (g x)) -> mapM f (seq 0 (length l)) = Some (map g l).
Proof.
  intros H. apply mapM_Some. apply Forall2_same_length_lookup_2; [by rewrite seq_length, map_length|].
  intros i x y Hx Hy. apply lookup_seq in Hx as [-> Hi]. rewrite Nat.add_0_l.
  change (map g l) with (g <$> l) in Hy. rewrite list_lookup_fmap in Hy.
  destruct (l !! i) as [z|] eqn:E; [|done]. cbn in Hy. injection Hy as <-. by apply H.
Qed.

Lemma mapM_seq_list (f : nat -> option Z) (l : list Z) :
  (forall j x, l !! j = Some x -> f j = Some x) -> mapM f (seq 0 (length l)) = Some l.
Proof. intros H. rewrite (mapM_seq f id) by done. by rewrite map_id. Qed.

(** ** Scripts *)
Lemma chi_script_get st o s : Z.of_nat (length (st_scripts st)) < 2^31 -> get_script st o = Some s ->
  chi_script (st_scripts st) o = Some s.
Proof.
  intros Hl. unfold get_script, slice, sub, chi_script.
  destruct (Z.ltb_spec (txo_start o + txo_len o) (txo_start o)) as [|Hlen]; [done|].
  destruct (Z.leb_spec 0 (txo_start o)) as [H0|]; [|done]. cbn [andb].
  destruct (Z.leb_spec (txo_start o + Z.of_nat (Z.to_nat (txo_start o + txo_len o - txo_start o)))
              (Z.of_nat (length (st_scripts st)))) as [H1|]; [|done].
  intros E. apply (inj Some) in E.
  assert (to_i32 (txo_start o + txo_len o) = txo_start o + txo_len o) as ->.
  { unfold to_i32. rewrite Z.mod_small by lia. cbv zeta. destruct (Z.ltb_spec (txo_start o + txo_len o) (2^31)); lia. }
  replace (Z.to_nat (txo_start o + txo_len o - txo_start o)) with (length s).
  2:{ rewrite <- E, take_length, drop_length. lia. }
  apply mapM_seq_list. intros j x Hj. unfold byte_at.
  destruct (Z.leb_spec 0 (txo_start o + Z.of_nat j)); [|lia].
  rewrite <- E in Hj. apply lookup_take_Some in Hj as [Hj _]. rewrite lookup_drop in Hj.
  rewrite <- Hj. f_equal. lia.
Qed.

Section View.
  Context (sha : list Z -> list Z) (diff : Z -> Z).

  (** The transaction [t] of a parsed block gives what the [n]th wire transaction [w] of the block says; the inputs
      of the first one do not matter. *)
  Definition gives (st : storage) (n : nat) (t : trans) (w : wtrans) : Prop :=
    tr_txis_count t = Z.of_nat (length (wt_ins w)) /\ tr_txos_count t = Z.of_nat (length (wt_outs w)) /\
    (n <> 0%nat -> forall j i, wt_ins w !! j = Some i -> get_txi st t j = Some (mk_txi (wi_txid i) (wi_vout i))) /\
    (forall j o, wt_outs w !! j = Some o -> exists x, get_txo st t j = Some x /\
       txo_value x = wo_value o /\ get_script st x = Some (wo_script o)).
  Lemma describes_gives st n t w : describes st t w -> gives st n t w.
  Proof. intros (_ & _ & H1 & H2 & H3 & H4). done. Qed.

  (** What the storage is given *)
  Definition given_tx (n : nat) (w : wtrans) : ctx :=
    mk_ctx (txid sha w) {[ 1%nat := size_of w; 2%nat := (weight_of w + 3) / 4; 3%nat := weight_of w ]}
      (if decide (n = 0%nat) then [] else map (fun i => mk_cin (SrcHash (wi_txid i)) (wi_vout i)) (wt_ins w))
      (map (fun o => mk_cout (wo_value o) (sha (wo_script o))) (wt_outs w)).
  Definition given (w : wblock) (median : Z) : cblock :=
    mk_cblock (block_id sha w.1)
      {[ 1%nat := wh_time w.1; 2%nat := diff (wh_bits w.1); 3%nat := median;
         5%nat := Z.of_nat (length (ser_block_stripped w.1 w.2)); 6%nat := Z.of_nat (length (ser_block w.1 w.2));
         7%nat := 3 * Z.of_nat (length (ser_block_stripped w.1 w.2)) + Z.of_nat (length (ser_block w.1 w.2)) ]}
      (imap given_tx w.2).

  Lemma tx_ints_of t w : measures sha t w ->
    tx_ints t = {[ 1%nat := size_of w; 2%nat := (weight_of w + 3) / 4; 3%nat := weight_of w ]}.
  Proof.
    intros (_ & H2 & H3 & H4 & H5). unfold tx_ints. rewrite H3, H2 in H4. fold (size_of w) in H4.
    fold (weight_of w) in H4. rewrite H4 in *.
    assert (tr_vsize t = (weight_of w + 3) / 4) as ->.
    { pose proof (Z.div_mod (weight_of w + 3) 4 ltac:(lia)). pose proof (Z.mod_pos_bound (weight_of w + 3) 4 ltac:(lia)). lia. }
    by rewrite H2.
  Qed.

  Lemma ins_of st n t w : gives st n t w ->
    (if decide (n = 0%nat) then Some [] else mapM (chi_in st t) (seq 0 (Z.to_nat (tr_txis_count t))))
    = Some (if decide (n = 0%nat) then [] else map (fun i => mk_cin (SrcHash (wi_txid i)) (wi_vout i)) (wt_ins w)).
  Proof.
    intros (H1 & _ & H3 & _). destruct (decide (n = 0%nat)) as [|Hn]; [done|]. rewrite H1, Nat2Z.id.
    apply mapM_seq. intros j i Hj. unfold chi_in. by rewrite (H3 Hn _ _ Hj).
  Qed.

  Lemma chi_trans_of st n t w : Z.of_nat (length (st_scripts st)) < 2^31 -> gives st n t w -> measures sha t w ->
    chi_trans sha st n t = Some (given_tx n w).
  Proof.
    intros Hl G M. unfold chi_trans. rewrite (ins_of _ _ _ _ G). cbn [mbind option_bind].
    destruct G as (_ & H2 & _ & H4). rewrite H2, Nat2Z.id.
    rewrite (mapM_seq _ (fun o => mk_cout (wo_value o) (sha (wo_script o))) (wt_outs w)).
    2:{ intros j o Hj. destruct (H4 _ _ Hj) as (x & Ex & Ev & Es). unfold chi_out. rewrite Ex. cbn [mbind option_bind].
        rewrite (chi_script_get _ _ _ Hl Es). cbn [mbind option_bind]. by rewrite Ev. }
    cbn [mbind option_bind]. rewrite (tx_ints_of _ _ M). destruct M as (-> & _). reflexivity.
  Qed.

  Lemma cri_trans_of st n t w : gives st n t w -> measures sha t w ->
    cri_trans sha st n t = Some (given_tx n w).
  Proof.
    intros G M. unfold cri_trans. rewrite (ins_of _ _ _ _ G). cbn [mbind option_bind].
    destruct G as (_ & H2 & _ & H4). rewrite H2, Nat2Z.id.
    rewrite (mapM_seq _ (fun o => mk_cout (wo_value o) (sha (wo_script o))) (wt_outs w)).
    2:{ intros j o Hj. destruct (H4 _ _ Hj) as (x & Ex & Ev & Es). unfold cri_out. rewrite Ex. cbn [mbind option_bind].
        rewrite Es. cbn [mbind option_bind]. by rewrite Ev. }
    cbn [mbind option_bind]. rewrite (tx_ints_of _ _ M). destruct M as (-> & _). reflexivity.
  Qed.

  (** A parsed block that says what the wire block [w] says *)
  Record says (b : block) (w : wblock) : Prop := {
    sy_hash : bk_hash b = block_id sha w.1;
    sy_prev : bk_prev b = wh_prev w.1;
    sy_time : bk_time b = wh_time w.1;
    sy_bits : bk_nbits b = wh_bits w.1;
    sy_size : bk_size b = Z.of_nat (length (ser_block w.1 w.2));
    sy_stripped : bk_stripped b = Z.of_nat (length (ser_block_stripped w.1 w.2));
    sy_weight : bk_weight b = 3 * bk_stripped b + bk_size b;
    sy_scripts : Z.of_nat (length (st_scripts (bk_storage b))) < 2^31;
    sy_measures : Forall2 (measures sha) (bk_trans b) w.2;
    sy_gives : forall n t x, bk_trans b !! n = Some t -> w.2 !! n = Some x -> gives (bk_storage b) n t x
  }.

  Lemma blk_ints_of b w m : says b w -> blk_ints diff b m = b_ints (given w m).
  Proof.
    intros S. unfold blk_ints, given. cbn [b_ints].
    by rewrite (sy_weight _ _ S), (sy_stripped _ _ S), (sy_size _ _ S), (sy_time _ _ S), (sy_bits _ _ S).
  Qed.

  Lemma chi_block_of b w m : says b w -> chi_block sha diff b m = Some (given w m).
  Proof.
    intros S. unfold chi_block.
    assert (mapM (fun p => chi_trans sha (bk_storage b) p.1 p.2) (imap pair (bk_trans b)) = Some (imap given_tx w.2)) as ->.
    { apply mapM_Some. pose proof (Forall2_length _ _ _ (sy_measures _ _ S)) as Hl.
      apply Forall2_same_length_lookup_2; [by rewrite !imap_length|].
      intros n p y Hp Hy. rewrite (list_lookup_imap pair) in Hp. rewrite (list_lookup_imap given_tx) in Hy.
      destruct (bk_trans b !! n) as [t|] eqn:Et; [|done]. destruct (w.2 !! n) as [x|] eqn:Ex; [|done].
      cbn in Hp, Hy. injection Hp as <-. injection Hy as <-. cbn [fst snd].
      apply chi_trans_of; [apply (sy_scripts _ _ S)|by apply (sy_gives _ _ S)|].
      by eapply Forall2_lookup_lr; [apply (sy_measures _ _ S)|..]. }
    cbn [mbind option_bind]. rewrite (blk_ints_of _ _ _ S), (sy_hash _ _ S). reflexivity.
  Qed.

  Lemma txid_map_lookup ts : NoDup (map tr_txid ts) -> forall n t, ts !! n = Some t -> txid_map ts !! tr_txid t = Some n.
  Proof.
    unfold txid_map.
    assert (G : forall l k (m : gmap (list Z) nat), NoDup (map tr_txid l) ->
      forall h, foldl (fun m p => <[tr_txid p.2 := p.1]> m) m (imap (fun i t => ((k + i)%nat, t)) l) !! h
        = match list_find (fun t => tr_txid t = h) l with Some (i, _) => Some (k + i)%nat | None => m !! h end).
    { induction l as [|t l IH]; intros k m Hn h; [done|].
      change (map tr_txid (t :: l)) with (tr_txid t :: map tr_txid l) in Hn. apply NoDup_cons in Hn as [Hni Hn].
      cbn [imap foldl fst snd list_find].
      replace (imap ((λ i t0, ((k + i)%nat, t0)) ∘ S) l) with (imap (λ i t0, ((S k + i)%nat, t0)) l).
      2:{ apply imap_ext. intros i x _. unfold compose. f_equal. lia. }
      rewrite IH by done. destruct (decide (tr_txid t = h)) as [E|E].
      - destruct (list_find (fun t => tr_txid t = h) l) as [[i x]|] eqn:F.
        + apply list_find_Some in F as (F1 & F2 & _). exfalso. apply Hni. rewrite E, <- F2.
          apply elem_of_list_In, in_map, elem_of_list_In. by eapply elem_of_list_lookup_2.
        + rewrite E, lookup_insert. by rewrite Nat.add_0_r.
      - destruct (list_find (fun t => tr_txid t = h) l) as [[i x]|] eqn:F; cbn [fmap option_fmap option_map prod_map].
        + cbn. f_equal. lia.
        + cbn. by rewrite lookup_insert_ne. }
    intros Hn n t Hl. specialize (G ts 0%nat ∅ Hn (tr_txid t)). cbn [Nat.add] in G.
    change (imap (fun i t => (i, t)) ts) with (imap pair ts) in G. rewrite G.
    assert (list_find (fun x => tr_txid x = tr_txid t) ts = Some (n, t)) as ->; [|done].
    apply list_find_Some. split_and!; [done..|]. intros j y Hj Hlt E.
    assert (j = n); [|lia]. eapply (NoDup_lookup (tr_txid <$> ts)); [exact Hn|..]; rewrite list_lookup_fmap.
    - rewrite Hj. cbn. reflexivity.
    - rewrite Hl. cbn. by rewrite E.
  Qed.

  Lemma cri_block_of b w m : says b w -> NoDup (map (txid sha) w.2) -> cri_block sha diff b m = Some (given w m).
  Proof.
    intros S Hn. unfold cri_block. pose proof (Forall2_length _ _ _ (sy_measures _ _ S)) as Hl.
    assert (map tr_txid (bk_trans b) = map (txid sha) w.2) as Hid.
    { pose proof (sy_measures _ _ S) as F. clear -F. induction F as [|t x ts xs M _ IH]; [done|].
      cbn [map]. rewrite IH. by destruct M as (-> & _). }
    assert (mapM (cri_find sha b) (bk_trans b) = Some (imap given_tx w.2)) as ->.
    { apply mapM_Some. apply Forall2_same_length_lookup_2; [by rewrite imap_length|].
      intros n t y Ht Hy. rewrite list_lookup_imap in Hy. destruct (w.2 !! n) as [x|] eqn:Ex; [|done].
      cbn in Hy. injection Hy as <-. unfold cri_find.
      rewrite (txid_map_lookup (bk_trans b)) with (n := n) by (done || by rewrite Hid).
      cbn [mbind option_bind]. rewrite Ht. cbn [mbind option_bind].
      apply cri_trans_of; [by apply (sy_gives _ _ S)|].
      by eapply Forall2_lookup_lr; [apply (sy_measures _ _ S)|..]. }
    cbn [mbind option_bind]. rewrite (blk_ints_of _ _ _ S), (sy_hash _ _ S). reflexivity.
  Qed.

  Lemma view_blocks_of chi bs W meds : Forall2 says bs W -> length meds = length W ->
    (chi = false -> Forall (fun w => NoDup (map (txid sha) w.2)) W) ->
    view_blocks sha diff chi bs meds = Some (zip_with given W meds).
  Proof.
    intros F. revert meds. induction F as [|b w bs W S _ IH]; intros [|m meds] Hl Hn; try done.
    cbn [view_blocks zip_with].
    assert (view_block sha diff chi b m = Some (given w m)) as ->.
    { unfold view_block. destruct chi; [by apply chi_block_of|]. apply cri_block_of; [done|].
      specialize (Hn eq_refl). by apply Forall_cons in Hn as [? _]. }
    cbn [mbind option_bind]. rewrite IH; [done|by injection Hl|].
    intros E. specialize (Hn E). by apply Forall_cons in Hn as [_ ?].
  Qed.
End View.

(** ** Sizes *)
Lemma concat_len_le {A B C} (f : A -> list B) (g : A -> list C) l : (forall x, (length (f x) <= length (g x))%nat) ->
  (length (concat (map f l)) <= length (concat (map g l)))%nat.
Proof.
  intros H. induction l as [|x l IH]; [done|]. cbn [map concat]. rewrite !app_length. specialize (H x). lia.
Qed.
Lemma stripped_le t : (length (ser_stripped t) <= length (ser_trans t))%nat.
Proof. rewrite C43_stripped_drops_exactly_the_witness. lia. Qed.
Lemma block_stripped_le h ts : (length (ser_block_stripped h ts) <= length (ser_block h ts))%nat.
Proof.
  unfold ser_block_stripped, ser_block, ser_block_with. rewrite !app_length.
  pose proof (concat_len_le ser_stripped ser_trans ts stripped_le). lia.
Qed.
Lemma trans_le h ts t : t ∈ ts -> (length (ser_trans t) <= length (ser_block h ts))%nat.
Proof.
  intros H. unfold ser_block, ser_block_with. rewrite !app_length.
  assert (length (ser_trans t) <= length (concat (map ser_trans ts)))%nat; [|lia].
  induction H; cbn [map concat]; rewrite app_length; lia.
Qed.
Lemma scripts_le t : (length (scripts_of t) <= length (ser_trans t))%nat.
Proof.
  unfold scripts_of, ser_trans, ser_body. rewrite !app_length.
  assert (length (concat (map wo_script (wt_outs t))) <= length (concat (map ser_output (wt_outs t))))%nat; [|lia].
  apply concat_len_le. intros o. unfold ser_output, var_bytes. rewrite !app_length. lia.
Qed.
Lemma all_scripts_le h ts : (length (concat (map scripts_of ts)) <= length (ser_block h ts))%nat.
Proof.
  unfold ser_block, ser_block_with. rewrite !app_length.
  pose proof (concat_len_le scripts_of ser_trans ts scripts_le). lia.
Qed.
Lemma trans_pos t : (0 < length (ser_trans t))%nat.
Proof. unfold ser_trans. rewrite app_length, le_enc_length. lia. Qed.
Lemma txs_le h ts : (length ts <= length (ser_block h ts))%nat.
Proof.
  unfold ser_block, ser_block_with. rewrite !app_length.
  assert (length ts <= length (concat (map ser_trans ts)))%nat; [|lia].
  induction ts as [|t ts IH]; [done|]. cbn [map concat length]. rewrite app_length. pose proof (trans_pos t). lia.
Qed.
Lemma extend_all_scripts ts : forall st, st_scripts (extend_all st ts) = st_scripts st ++ concat (map scripts_of ts).
Proof.
  induction ts as [|t ts IH]; intros st; cbn [extend_all map concat]; [by rewrite app_nil_r|].
  rewrite IH. cbn [extend st_scripts]. by rewrite <- app_assoc.
Qed.

(** ** Parsing gives blocks that say what was serialised *)
Definition well_sized (w : wblock) : Prop :=
  wf_header w.1 /\ Forall wf_trans w.2 /\ w.2 <> [] /\ Z.of_nat (length (ser_block w.1 w.2)) < 2^30.
Lemma parsed_says sha w : well_sized w -> exists b, parse_block sha (ser_block w.1 w.2) = Some b /\ says sha b w.
Proof.
  destruct w as [h ts]. cbn [fst snd]. intros (Hh & Ht & _ & Hl). cbn [fst snd] in *.
  pose proof (all_scripts_le h ts) as Hs. pose proof (txs_le h ts) as Hn.
  assert (N : Z.of_nat (length ts) < 2^63) by lia.
  assert (S : Z.of_nat (length (concat (map scripts_of ts))) < 2^31) by lia.
  destruct (C42_block_is_read_back sha h ts Hh Ht N S) as (b & E & _ & E2 & _ & E4 & E5 & _ & F).
  destruct (C43_identifiers_and_sizes sha h ts b Hh Ht N S E) as (M1 & M2 & M3 & M4 & M5).
  exists b. split; [done|]. split; cbn [fst snd]; try done.
  - rewrite (parse_block_ser sha h ts Hh Ht N S) in E. apply (inj Some) in E. rewrite <- E. cbn [bk_storage].
    rewrite extend_all_scripts. cbn [st_empty st_scripts app]. lia.
  - intros n t x H1 H2. apply describes_gives. by eapply Forall2_lookup_lr.
Qed.
Lemma parsed_chain sha W : Forall well_sized W ->
  exists bs, mapM (fun w => parse_block sha (ser_block w.1 w.2)) W = Some bs /\ Forall2 (says sha) bs W.
Proof.
  induction 1 as [|w W Hw _ (bs & E & F)]; [exists []; done|].
  destruct (parsed_says sha w Hw) as (b & Eb & Sb). exists (b :: bs). split; [|by constructor].
  apply mapM_Some. apply mapM_Some in E. by constructor.
Qed.

(** ** The chain that is given to the storage *)
Section Given.
  Context (sha : list Z -> list Z) (diff : Z -> Z) (W : list wblock) (meds : list Z).
  Hypothesis Hlen : length meds = length W.
  Notation cs := (zip_with (given sha diff) W meds).

  Lemma given_lookup k w : W !! k = Some w -> exists m, meds !! k = Some m /\ cs !! k = Some (given sha diff w m).
  Proof using Hlen.
    intros H. destruct (meds !! k) as [m|] eqn:E.
    - exists m. split; [done|]. rewrite lookup_zip_with, H, E. done.
    - apply lookup_ge_None in E. apply lookup_lt_Some in H. lia.
  Qed.
  Lemma given_inv k c : cs !! k = Some c -> exists w m, W !! k = Some w /\ meds !! k = Some m /\ c = given sha diff w m.
  Proof using.
    rewrite lookup_zip_with. destruct (W !! k) as [w|]; [|done]. destruct (meds !! k) as [m|]; [|done].
    cbn. intros [= <-]. eauto.
  Qed.
  Lemma given_map {A} (f : cblock -> A) (g : wblock -> A) : (forall w m, f (given sha diff w m) = g w) -> map f cs = map g W.
  Proof using Hlen.
    intros H. revert Hlen. generalize meds. clear -H. induction W as [|w W' IH]; intros [|m meds] L; try done.
    cbn [zip_with map]. rewrite H, IH; [done|by injection L].
  Qed.
  Lemma given_blocks : block_hashes cs = block_ids sha W.
  Proof using Hlen. unfold block_hashes, block_ids. by apply given_map. Qed.
  Lemma given_txs : txs_of cs = concat (map (fun w => imap (given_tx sha) w.2) W).
  Proof using Hlen. unfold txs_of. f_equal. by apply given_map. Qed.
  Lemma imap_map {A B C} (f : nat -> A -> B) (g : B -> C) (h : A -> C) l :
    (forall n x, g (f n x) = h x) -> map g (imap f l) = map h l.
  Proof using.
    intros H. apply list_eq. intros i. change (map g ?l) with (g <$> l). change (map h ?l) with (h <$> l).
    rewrite !list_lookup_fmap, list_lookup_imap. destruct (l !! i); cbn; [by rewrite H|done].
  Qed.
  Lemma txs_map {A} (g : ctx -> A) (h : wtrans -> A) : (forall n t, g (given_tx sha n t) = h t) ->
    map g (txs_of cs) = map h (all_txs W).
  Proof using Hlen.
    intros H. rewrite given_txs. unfold all_txs. rewrite !concat_map, !map_map. f_equal. apply map_ext. intros w.
    by apply imap_map.
  Qed.
  Lemma given_txids : tx_hashes cs = txids sha W.
  Proof using Hlen. unfold tx_hashes, txids. by apply txs_map. Qed.
  Lemma given_outs : outs_of (txs_of cs) = map (fun o => mk_cout (wo_value o) (sha (wo_script o))) (concat (map wt_outs (all_txs W))).
  Proof using Hlen.
    unfold outs_of. rewrite (txs_map _ (fun t => map (fun o => mk_cout (wo_value o) (sha (wo_script o))) (wt_outs t))) by done.
    by rewrite concat_map, map_map.
  Qed.
  Lemma given_receivers : addr_hashes cs = receivers sha W.
  Proof using Hlen. unfold addr_hashes, receivers. rewrite given_outs, map_map. done. Qed.
  Lemma given_told chi : shown_chain (job_setup chi) cs = map (told_block sha W) W.
  Proof using Hlen.
    unfold shown_chain. apply given_map. intros w m. unfold shown_block, told_block. cbn [b_hash b_txs given]. f_equal.
    apply list_eq. intros n. rewrite !list_lookup_imap. destruct (w.2 !! n) as [t|]; [|done]. cbn [fmap option_fmap option_map].
    unfold compose. f_equal. unfold shown_tx, told_tx. cbn [t_hash t_outs given_tx]. f_equal; [f_equal|].
    - unfold shown_ins. cbn [u_chi job_setup t_ins given_tx].
      destruct (decide (n = 0%nat)) as [->|Hn].
      + destruct chi; done.
      + rewrite (bool_decide_eq_false_2 (n = 0%nat)) by done.
        destruct chi; rewrite map_map; apply map_ext; intros i; cbn [i_src i_vout source_number]; by rewrite given_txids.
    - by rewrite map_map.
  Qed.
End Given.

Lemma concat_ins_le sha (W : list wblock) :
  (length (concat (map t_ins (concat (map (fun w => imap (given_tx sha) w.2) W)))) <= length (concat (map wt_ins (all_txs W))))%nat.
Proof.
  assert (G : forall l k, (length (concat (map t_ins (imap (fun n => given_tx sha (k + n)) l))) <= length (concat (map wt_ins l)))%nat).
  { induction l as [|t l IH]; intros k; [done|]. cbn [imap map concat]. rewrite !app_length.
    replace (imap ((fun n => given_tx sha (k + n)) ∘ S) l) with (imap (fun n => given_tx sha (S k + n)) l).
    2:{ apply imap_ext. intros i x _. unfold compose. f_equal. lia. }
    specialize (IH (S k)). cbn [t_ins given_tx].
    assert (length (if decide ((k + 0)%nat = 0%nat) then [] else map (fun i => mk_cin (SrcHash (wi_txid i)) (wi_vout i)) (wt_ins t)) <= length (wt_ins t))%nat.
    { destruct (decide _); [cbn [length]; lia|]. by rewrite map_length. }
    lia. }
  unfold all_txs. induction W as [|w W IH]; [done|]. cbn [map concat]. rewrite !map_app, !concat_app, !app_length.
  specialize (G w.2 0%nat). cbn [Nat.add] in G. change (imap (fun n => given_tx sha n) w.2) with (imap (given_tx sha) w.2) in G. lia.
Qed.

Lemma in_last_eleven ts i m : m ∈ Spec_Holder.last_eleven ts i -> m ∈ ts.
Proof.
  unfold Spec_Holder.last_eleven. intros H.
  eapply elem_of_submseteq; [exact H|]. apply sublist_submseteq. etrans; [apply sublist_drop|apply sublist_take].
Qed.

Lemma given_storable sha diff W meds chi : valid_chain sha W -> length meds = length W ->
  (forall n, is_i64 (diff n)) ->
  Forall (fun m => 0 <= m < 2^32) meds ->
  storable (job_setup chi) (zip_with (given sha diff) W meds).
Proof.
  intros V Hlen Hd Hm.
  pose proof (vc_wf _ _ V) as HW. rewrite Forall_forall in HW.
  assert (Hin : forall k w, W !! k = Some w -> w ∈ W) by (intros; by eapply elem_of_list_lookup_2).
  split.
  - rewrite Forall_lookup. intros k c Hc. destruct (given_inv _ _ _ _ _ _ Hc) as (w & m & Hw & _ & ->).
    cbn [b_txs given]. destruct (HW w (Hin _ _ Hw)) as (_ & _ & Hne & _).
    intros E. apply Hne. destruct w.2; [done|]. discriminate E.
  - cbn [u_blk u_trn job_setup]. split; apply (bool_decide_unpack _); vm_compute; exact I.
  - rewrite Forall_lookup. intros k c Hc. destruct (given_inv _ _ _ _ _ _ Hc) as (w & m & Hw & Em & ->).
    destruct (HW w (Hin _ _ Hw)) as ((_ & _ & _ & Ht & _) & _ & _ & Hl). pose proof (block_stripped_le w.1 w.2) as Hs.
    rewrite Forall_forall in Hm. specialize (Hm m ltac:(by eapply elem_of_list_lookup_2)).
    cbn [u_blk job_setup b_ints given]. unfold u32 in Ht.
    assert (P4 : forall v, 0 <= v < 2^32 -> fits 4 v) by (intros v Hv; unfold fits; rewrite decide_False by done; exact Hv).
    repeat (apply Forall_cons_2 || apply Forall_nil_2); cbn [width].
    + eexists. split; [reflexivity|]. apply P4. lia.
    + eexists. split; [reflexivity|]. apply P4. lia.
    + eexists. split; [reflexivity|]. unfold fits. rewrite decide_True by done. apply Hd.
    + eexists. split; [reflexivity|]. apply P4. lia.
    + eexists. split; [reflexivity|]. apply P4. lia.
    + eexists. split; [reflexivity|]. apply P4. lia.
  - rewrite (given_txs sha diff W meds Hlen). rewrite Forall_concat, Forall_map, Forall_forall. intros w Hw.
    rewrite Forall_lookup. intros n c Hc. rewrite list_lookup_imap in Hc. destruct (w.2 !! n) as [t|] eqn:Et; [|done].
    cbn in Hc. injection Hc as <-. destruct (HW w Hw) as (_ & _ & _ & Hl).
    pose proof (trans_le w.1 w.2 t ltac:(by eapply elem_of_list_lookup_2)) as Ht. pose proof (stripped_le t) as Hs.
    cbn [u_trn job_setup t_ints given_tx].
    assert (P4 : forall v, 0 <= v < 2^32 -> fits 4 v) by (intros v Hv; unfold fits; rewrite decide_False by done; exact Hv).
    assert (0 <= size_of t < 2^30) by (unfold size_of; lia).
    assert (0 <= weight_of t < 2^32) by (unfold weight_of, size_of; lia).
    repeat (apply Forall_cons_2 || apply Forall_nil_2); cbn [width].
    + eexists. split; [reflexivity|]. apply P4. lia.
    + eexists. split; [reflexivity|]. apply P4. split; [apply Z.div_pos; lia|apply Z.div_lt_upper_bound; lia].
    + eexists. split; [reflexivity|]. apply P4. lia.
  - pose proof (f_equal length (given_txids sha diff W meds Hlen)) as E. unfold tx_hashes, txids in E. rewrite !map_length in E.
    rewrite E. apply (vc_txs _ _ V).
  - rewrite (given_txs sha diff W meds Hlen). pose proof (concat_ins_le sha W). pose proof (vc_ins _ _ V). lia.
  - rewrite (given_outs sha diff W meds Hlen), map_length. apply (vc_outs _ _ V).
  - rewrite (given_receivers sha diff W meds Hlen). apply (vc_reused _ _ V).
  - intros k c n t i Hc Ht Hi. destruct (given_inv _ _ _ _ _ _ Hc) as (w & m & Hw & _ & ->).
    cbn [b_txs given] in Ht. rewrite list_lookup_imap in Ht. destruct (w.2 !! n) as [x|] eqn:Ex; [|done].
    cbn in Ht. injection Ht as <-.
    assert (n <> 0%nat /\ exists y, y ∈ wt_ins x /\ i = mk_cin (SrcHash (wi_txid y)) (wi_vout y)) as (Hn & y & Hy & ->).
    { unfold shown_ins in Hi. cbn [u_chi job_setup t_ins given_tx] in Hi.
      destruct (decide (n = 0%nat)) as [->|Hn].
      - exfalso. destruct chi; cbn in Hi; by apply elem_of_nil in Hi.
      - rewrite bool_decide_eq_false_2 in Hi by done. split; [done|].
        destruct chi; apply elem_of_list_In, in_map_iff in Hi as (y & <- & Hy%elem_of_list_In); by exists y. }
    cbn [i_src i_vout source_number]. destruct (HW w (Hin _ _ Hw)) as (_ & Hwt & _).
    rewrite Forall_forall in Hwt. destruct (Hwt x ltac:(by eapply elem_of_list_lookup_2)) as (_ & _ & _ & _ & Hwi & _).
    rewrite Forall_forall in Hwi. destruct (Hwi y Hy) as (_ & Hv & _). unfold u32 in Hv.
    split; [done|]. split; [|done]. rewrite (given_txids sha diff W meds Hlen).
    pose proof (vc_spends _ _ V k w n x y Hw Ex Hn Hy) as Hs.
    destruct (first_of_cases (txids sha W) (wi_txid y)) as [[Hno _]|(j & -> & Hj & _)]; [done|].
    apply lookup_lt_Some in Hj. unfold txids in Hj. rewrite map_length in Hj. pose proof (vc_txs _ _ V). lia.
  - rewrite (given_outs sha diff W meds Hlen). rewrite Forall_map. apply (vc_values _ _ V).
Qed.

(** ** The holder presents it *)
Lemma says_held sha bs W : Forall2 (says sha) bs W -> valid_chain sha W ->
  Spec_Holder.genesis_first (map held bs) /\ Spec_Holder.linked (map held bs).
Proof.
  intros F V. split.
  - destruct (vc_first _ _ V) as (w & Hw & E). destruct bs as [|b bs]; [by apply Forall2_nil_inv_l in F; subst|].
    exists (held b). split; [done|]. cbn [held Model_Holder.bk_hash]. destruct W as [|w' W]; [done|]. injection Hw as ->.
    apply Forall2_cons in F as [S _]. by rewrite (sy_hash _ _ _ S).
  - intros k x y Hx Hy. change (map held bs) with (held <$> bs) in Hx, Hy. rewrite list_lookup_fmap in Hx. rewrite list_lookup_fmap in Hy.
    destruct (bs !! k) as [b|] eqn:Eb; [|done]. destruct (bs !! S k) as [c|] eqn:Ec; [|done].
    cbn in Hx, Hy. injection Hx as <-. injection Hy as <-. cbn [held Model_Holder.bk_prev Model_Holder.bk_hash].
    destruct (Forall2_lookup_l _ _ _ _ _ F Eb) as (w & Ew & Sw). destruct (Forall2_lookup_l _ _ _ _ _ F Ec) as (v & Ev & Sv).
    rewrite (sy_prev _ _ _ Sv), (sy_hash _ _ _ Sw). by eapply (vc_linked _ _ V).
Qed.
Lemma says_times sha bs W : Forall2 (says sha) bs W ->
  Model_Holder.bk_time <$> map held bs = map (fun w => wh_time w.1) W.
Proof. induction 1 as [|b w bs W S _ IH]; [done|]. cbn. rewrite IH. by rewrite (sy_time _ _ _ S). Qed.

Lemma blocks_lt (W : list wblock) : Forall (fun w => w.2 <> []) W -> (length W <= length (all_txs W))%nat.
Proof.
  unfold all_txs. induction 1 as [|w W H _ IH]; [done|]. cbn [map concat length]. rewrite app_length.
  destruct w.2; [done|]. cbn [length]. lia.
Qed.

Lemma presented_is sha diff chi indexed bs W : Forall2 (says sha) bs W -> valid_chain sha W ->
  (chi = false -> Forall (fun w => NoDup (map (txid sha) w.2)) W) ->
  exists meds, presented sha diff chi indexed bs = Some (zip_with (given sha diff) W meds) /\
    length meds = length W /\ Forall (fun m => 0 <= m < 2^32) meds /\
    forall k m, meds !! k = Some m ->
      Spec_Holder.has_rank (Spec_Holder.last_eleven (map (fun w => wh_time w.1) W) k) ((11 `min` S k) / 2) m.
Proof.
  intros F V Hn. pose proof (Forall2_length _ _ _ F) as Hl. pose proof (vc_wf _ _ V) as HW.
  assert (Hb : Z.of_nat (length (map held bs)) < 2^32).
  { rewrite map_length, Hl. pose proof (vc_txs _ _ V).
    pose proof (blocks_lt W ltac:(eapply Forall_impl; [exact HW|]; cbn; tauto)). lia. }
  destruct (says_held _ _ _ F V) as [G1 G2]. unfold presented.
  set (fl := if chi then Model_Holder.Chi else Model_Holder.Cri).
  destruct (proj2 (Prop_Holder.C49_visited_iff_linked fl indexed (map held bs) Hb) (conj G1 G2)) as [[[s h] meds] E].
  destruct (Prop_Holder.C47_median_is_the_middle_of_the_last_eleven fl indexed _ s h meds Hb E) as [L R].
  rewrite E. rewrite map_length in L. rewrite (says_times _ _ _ F) in R.
  exists meds. split; [apply view_blocks_of; [done|lia|done]|]. split; [lia|]. split; [|done].
  rewrite Forall_lookup. intros k m Hm. destruct (R k m Hm) as [Hi _]. apply in_last_eleven in Hi.
  apply elem_of_list_In, in_map_iff in Hi as (w & <- & Hw%elem_of_list_In).
  rewrite Forall_forall in HW. destruct (HW w Hw) as ((_ & _ & _ & Ht & _) & _). exact Ht.
Qed.
