(** C102: a chain held in memory can be walked in both directions, everything it hands out leads back to where it came
    from, the built-in chain is sound; but no chain of this kind can be stored, as its outputs have no addresses. *)
From Verif Require Import Base Model_Word Model_MapStore Model_Chain Proof_Chain Prop_Chain Model_Tiny.

(** *** What a sound chain is, independently of the functions above *)
(** everything carries its own position, and the list of transactions is that of the blocks, one after the other *)
Record sound (c : mchain) : Prop := {
  so_blocks : forall i b, mc_blocks c !! i = Some b -> mb_height b = Z.of_nat i;
  so_txs : concat (map mb_txs (mc_blocks c)) = mc_txs c;
  so_heights : forall i t, mc_txs c !! i = Some t -> mt_height t = Z.of_nat i;
  so_ins : forall i t j x, mc_txs c !! i = Some t -> mt_ins t !! j = Some x -> mi_own x = mk_spot (Z.of_nat i) (Z.of_nat j);
  so_outs : forall i t j x, mc_txs c !! i = Some t -> mt_outs t !! j = Some x -> mo_own x = mk_spot (Z.of_nat i) (Z.of_nat j) }.

Lemma at_nat {A} (l : list A) i : at_ l (Z.of_nat i) = l !! i.
Proof. unfold at_. rewrite (proj2 (Z.ltb_ge _ _)) by lia. by rewrite Nat2Z.id. Qed.
Lemma at_eq {A} (l : list A) z i : z = Z.of_nat i -> at_ l z = l !! i.
Proof. intros ->. apply at_nat. Qed.

(** *** Walking *)
Lemma walk_up {A} (l : list A) (visit : Z -> option A) (step : Z -> option Z) :
  (forall i : nat, visit (Z.of_nat i) = l !! i) ->
  (forall i : nat, (i < length l)%nat -> step (Z.of_nat i) = Some (if decide (S i = length l) then -1 else Z.of_nat (S i))) ->
  forall n i, (i + n = length l)%nat -> (0 < n)%nat -> m_walk visit step n (Z.of_nat i) = Some (drop i l).
Proof.
  intros Hv Hs. induction n as [|n IH]; intros i Hi Hn; [lia|]. cbn [m_walk].
  unfold m_is_invalid. rewrite bool_decide_false by lia.
  destruct (lookup_lt_is_Some_2 l i) as [a Ha]; [lia|]. rewrite Hv, Ha. cbn [mbind option_bind].
  rewrite Hs by lia. cbn [mbind option_bind]. rewrite (drop_S l a i Ha).
  case_decide as Hd.
  - destruct n; [|lia]. cbn. rewrite drop_ge by lia. done.
  - rewrite IH by lia. done.
Qed.
Lemma walk_down {A} (l : list A) (visit : Z -> option A) (step : Z -> option Z) :
  (forall i : nat, visit (Z.of_nat i) = l !! i) ->
  (forall i : nat, (i < length l)%nat -> step (Z.of_nat i) = Some (Z.of_nat i - 1)) ->
  forall i, (i < length l)%nat -> m_walk visit step (S i) (Z.of_nat i) = Some (reverse (take (S i) l)).
Proof.
  intros Hv Hs. induction i as [|i IH]; intros Hi.
  - cbn [m_walk]. unfold m_is_invalid at 1. rewrite bool_decide_false by lia.
    destruct (lookup_lt_is_Some_2 l 0) as [a Ha]; [lia|]. rewrite Hv, Ha. cbn [mbind option_bind].
    rewrite Hs by lia. cbn [mbind option_bind]. change (m_is_invalid (Z.of_nat 0 - 1)) with true. cbn.
    rewrite (take_S_r l 0 a Ha). by rewrite take_0.
  - change (m_walk visit step (S (S i)) (Z.of_nat (S i))) with
      (if m_is_invalid (Z.of_nat (S i)) then Some [] else
       a ← visit (Z.of_nat (S i)); h' ← step (Z.of_nat (S i)); l ← m_walk visit step (S i) h'; Some (a :: l)).
    unfold m_is_invalid at 1. rewrite bool_decide_false by lia.
    destruct (lookup_lt_is_Some_2 l (S i)) as [a Ha]; [lia|]. rewrite Hv, Ha. cbn [mbind option_bind].
    rewrite Hs by lia. cbn [mbind option_bind].
    replace (Z.of_nat (S i) - 1) with (Z.of_nat i) by lia. rewrite IH by lia. cbn [mbind option_bind].
    rewrite (take_S_r l (S i) a Ha), reverse_snoc. done.
Qed.

(** Forwards from the first to the last, backwards from the last to the first, every block and every transaction once *)
Theorem C102_walks_see_everything :
  forall c, sound c -> mc_blocks c <> [] ->
    (h ← m_genesis c; m_walk (m_block c) (fun h => Some (m_next c h)) (length (mc_blocks c)) h) = Some (mc_blocks c) /\
    (h ← m_latest c; m_walk (m_block c) (m_parent c) (length (mc_blocks c)) h) = Some (reverse (mc_blocks c)) /\
    (forall b, mc_blocks c !! 0%nat = Some b -> mb_txs b <> [] ->
      (h ← m_genesis_trans c; m_walk (m_trans c) (fun h => Some (m_next_trans c h)) (length (mc_txs c)) h) = Some (mc_txs c)) /\
    m_walk (m_trans c) (fun h => Some (m_prev_trans h)) (length (mc_txs c)) (m_latest_trans c) = Some (reverse (mc_txs c)).
Proof.
  intros c S Hne. set (n := length (mc_blocks c)).
  assert (0 < n)%nat as Hn by (unfold n; destruct (mc_blocks c); [done|cbn; lia]).
  destruct (lookup_lt_is_Some_2 (mc_blocks c) 0 Hn) as [b0 H0].
  destruct (lookup_lt_is_Some_2 (mc_blocks c) (n - 1)) as [bl Hl]; [fold n; lia|].
  assert (m_genesis c = Some (Z.of_nat 0)) as Hg.
  { unfold m_genesis. rewrite (at_eq _ 0 0%nat) by done. rewrite H0. cbn [mbind option_bind]. f_equal. by rewrite (so_blocks c S _ _ H0). }
  split_and!.
  - rewrite Hg. cbn [mbind option_bind]. rewrite (walk_up (mc_blocks c)); [done| | |done|done].
    + intros i. apply at_nat.
    + intros i Hi. unfold m_next. f_equal. destruct (decide (Datatypes.S i = length (mc_blocks c))).
      * rewrite bool_decide_true by lia. done.
      * rewrite bool_decide_false by lia. lia.
  - unfold m_latest. fold n. rewrite (at_eq _ _ (n - 1)%nat) by lia. rewrite Hl. cbn [mbind option_bind].
    rewrite (so_blocks c S _ _ Hl).
    replace n with (Datatypes.S (n - 1)) at 1 by lia.
    rewrite (walk_down (mc_blocks c)); [|intros i; apply at_nat| |fold n; lia].
    + rewrite take_ge by (fold n; lia). done.
    + intros i Hi. unfold m_parent. destruct i as [|i].
      * rewrite (proj2 (Z.leb_gt _ _)) by lia. done.
      * rewrite (proj2 (Z.leb_le _ _)) by lia. rewrite (at_eq _ _ i) by lia.
        destruct (lookup_lt_is_Some_2 (mc_blocks c) i) as [b Hb]; [lia|]. rewrite Hb. cbn [mbind option_bind].
        rewrite (so_blocks c S _ _ Hb). f_equal. lia.
  - intros b Hb Hbt. rewrite H0 in Hb. apply (inj Some) in Hb as ->.
    destruct (mb_txs b) as [|t ts] eqn:Et; [done|].
    assert (mc_txs c !! 0%nat = Some t) as Ht.
    { rewrite <- (so_txs c S). destruct (mc_blocks c) as [|b' bs]; [done|]. cbn in H0. apply (inj Some) in H0 as ->. cbn [map concat]. by rewrite Et. }
    unfold m_genesis_trans. rewrite Hg. cbn [mbind option_bind]. unfold m_block. rewrite at_nat, H0. cbn [mbind option_bind].
    unfold m_nth_trans. rewrite (at_eq _ 0 0%nat) by done. rewrite Et. cbn [lookup list_lookup mbind option_bind].
    rewrite (so_heights c S _ _ Ht).
    assert (0 < length (mc_txs c))%nat by (apply lookup_lt_Some in Ht; lia).
    rewrite (walk_up (mc_txs c)); [done|intros i; apply at_nat| |done|done].
    intros i Hi. unfold m_next_trans. f_equal. destruct (decide (Datatypes.S i = length (mc_txs c))).
    + rewrite bool_decide_true by lia. done.
    + rewrite bool_decide_false by lia. lia.
  - unfold m_latest_trans. destruct (mc_txs c) as [|t ts] eqn:Et; [done|]. rewrite <- Et.
    set (k := length ts).
    assert (length (mc_txs c) = Datatypes.S k) as Hk by (by rewrite Et).
    rewrite Hk. replace (Z.of_nat (Datatypes.S k) - 1) with (Z.of_nat k) by lia.
    rewrite (walk_down (mc_txs c)); [|intros i; apply at_nat| |lia].
    + by rewrite take_ge by lia.
    + intros i Hi. done.
Qed.

(** *** What is handed out leads back *)
Theorem C102_handles_lead_back :
  forall c, sound c ->
    (forall i b, mc_blocks c !! i = Some b -> m_block c (mb_height b) = Some b) /\
    (forall i b j t, mc_blocks c !! i = Some b -> mb_txs b !! j = Some t ->
       exists h, m_nth_trans b (Z.of_nat j) = Some h /\ m_trans c h = Some t) /\
    (forall i t j x, mc_txs c !! i = Some t -> mt_ins t !! j = Some x ->
       exists p, m_nth_txi t (Z.of_nat j) = Some p /\ m_txi c p = Some x) /\
    (forall i t j x, mc_txs c !! i = Some t -> mt_outs t !! j = Some x ->
       exists p, m_nth_txo t (Z.of_nat j) = Some p /\ m_txo c p = Some x) /\
    (forall i b, mc_blocks c !! i = Some b -> (i + 1 < length (mc_blocks c))%nat ->
       m_next c (mb_height b) = Z.of_nat (S i) /\ m_parent c (Z.of_nat (S i)) = Some (mb_height b)) /\
    (forall b, mc_blocks c !! 0%nat = Some b -> m_parent c (mb_height b) = Some (-1)) /\
    (forall b, last (mc_blocks c) = Some b -> m_next c (mb_height b) = -1).
Proof.
  intros c S. split_and!.
  - intros i b Hb. rewrite (so_blocks c S _ _ Hb). unfold m_block. by rewrite at_nat.
  - intros i b j t Hb Ht. exists (mt_height t). unfold m_nth_trans. rewrite at_nat, Ht. split; [done|].
    assert (t ∈ mc_txs c) as Hin.
    { rewrite <- (so_txs c S). apply elem_of_list_In, in_concat. exists (mb_txs b). split.
      - apply in_map, elem_of_list_In. by eapply elem_of_list_lookup_2.
      - apply elem_of_list_In. by eapply elem_of_list_lookup_2. }
    apply elem_of_list_lookup in Hin as [k Hk]. rewrite (so_heights c S _ _ Hk). unfold m_trans. by rewrite at_nat.
  - intros i t j x Ht Hx. exists (mi_own x). unfold m_nth_txi. rewrite at_nat, Hx. split; [done|].
    rewrite (so_ins c S _ _ _ _ Ht Hx). unfold m_txi. cbn [p_trans p_index]. rewrite at_nat, Ht. cbn [mbind option_bind]. by rewrite at_nat.
  - intros i t j x Ht Hx. exists (mo_own x). unfold m_nth_txo. rewrite at_nat, Hx. split; [done|].
    rewrite (so_outs c S _ _ _ _ Ht Hx). unfold m_txo. cbn [p_trans p_index]. rewrite at_nat, Ht. cbn [mbind option_bind]. by rewrite at_nat.
  - intros i b Hb Hi. rewrite (so_blocks c S _ _ Hb). split.
    + unfold m_next. rewrite bool_decide_false by lia. lia.
    + unfold m_parent. rewrite (proj2 (Z.leb_le _ _)) by lia. rewrite (at_eq _ _ i) by lia. rewrite Hb. cbn [mbind option_bind].
      by rewrite (so_blocks c S _ _ Hb).
  - intros b Hb. rewrite (so_blocks c S _ _ Hb). done.
  - intros b Hb. rewrite last_lookup in Hb. rewrite (so_blocks c S _ _ Hb). unfold m_next.
    pose proof (lookup_lt_Some _ _ _ Hb). rewrite bool_decide_true by lia. done.
Qed.

(** *** The built-in chain *)
Definition in_sats (c : mchain) (t : mtx) : option Z :=
  l ← mapM (fun x => o ← m_txo c (mi_source x); Some (mo_sats o)) (mt_ins t); Some (foldr Z.add 0 l).
Lemma tiny_sound : sound the_tiny_chain.
Proof.
  split.
  - intros i b H. do 3 (destruct i as [|i]; [cbn in H; apply (inj Some) in H as <-; reflexivity|]). done.
  - reflexivity.
  - intros i t H. do 6 (destruct i as [|i]; [cbn in H; apply (inj Some) in H as <-; reflexivity|]). done.
  - intros i t j x H Hx. do 6 (destruct i as [|i]; [cbn in H; apply (inj Some) in H as <-;
      do 2 (destruct j as [|j]; [cbn in Hx; first [discriminate Hx|apply (inj Some) in Hx as <-; reflexivity]|]); done|]). done.
  - intros i t j x H Hx. do 6 (destruct i as [|i]; [cbn in H; apply (inj Some) in H as <-;
      do 2 (destruct j as [|j]; [cbn in Hx; first [discriminate Hx|apply (inj Some) in Hx as <-; reflexivity]|]); done|]). done.
Qed.
(** It is sound; every input names an output that is there, no output is named twice; a transaction with inputs gives
    out no more than it takes in; the first transaction of a block has no inputs. *)
Theorem C102_built_in_chain_is_sound :
  let c := the_tiny_chain in
  sound c /\
  (forall t x, t ∈ mc_txs c -> x ∈ mt_ins t -> is_Some (m_txo c (mi_source x))) /\
  NoDup (concat (map (fun t => map mi_source (mt_ins t)) (mc_txs c))) /\
  (forall t, t ∈ mc_txs c -> mt_ins t <> [] ->
     exists z, in_sats c t = Some z /\ foldr Z.add 0 (map mo_sats (mt_outs t)) <= z) /\
  (forall b t, b ∈ mc_blocks c -> mb_txs b !! 0%nat = Some t -> mt_ins t = []).
Proof.
  intros c. split_and!.
  - apply tiny_sound.
  - intros t x Ht Hx. unfold c, the_tiny_chain in Ht. cbn [mc_txs] in Ht. repeat setoid_rewrite elem_of_cons in Ht.
    rewrite elem_of_nil in Ht. destruct_or! Ht; subst t; cbn [mt_ins tx_b0_t0 tx_b1_t0 tx_b1_t1 tx_b2_t0 tx_b2_t1 tx_b2_t2] in Hx;
      repeat setoid_rewrite elem_of_cons in Hx; rewrite elem_of_nil in Hx; destruct_or? Hx; try done; subst x; eexists; reflexivity.
  - cbn. repeat (apply NoDup_cons; split; [repeat setoid_rewrite elem_of_cons; rewrite elem_of_nil; intros Hx; destruct_or? Hx; discriminate Hx || done|]).
    apply NoDup_nil_2.
  - intros t Ht Hi. unfold c, the_tiny_chain in Ht. cbn [mc_txs] in Ht. repeat setoid_rewrite elem_of_cons in Ht.
    rewrite elem_of_nil in Ht. destruct_or! Ht; subst t; try (cbn in Hi; done); eexists; (split; [reflexivity|]); cbn; lia.
  - intros b t Hb Ht. unfold c, the_tiny_chain in Hb. cbn [mc_blocks] in Hb. repeat setoid_rewrite elem_of_cons in Hb.
    rewrite elem_of_nil in Hb. destruct_or! Hb; subst b; cbn in Ht; apply (inj Some) in Ht as <-; done.
Qed.
Example C102_nontrivial : sound the_tiny_chain /\ mc_blocks the_tiny_chain <> [] /\
  (h ← m_genesis the_tiny_chain; m_walk (m_block the_tiny_chain) (fun h => Some (m_next the_tiny_chain h)) 3 h)
    = Some (mc_blocks the_tiny_chain).
Proof. split; [apply tiny_sound|]. split; [done|]. apply (C102_walks_see_everything the_tiny_chain tiny_sound). done. Qed.

(** "an input spends an output of an earlier transaction": not in the built-in chain *)
Theorem C102_inputs_spend_the_past_refuted :
  exists t x, t ∈ mc_txs the_tiny_chain /\ x ∈ mt_ins t /\ mt_height t < p_trans (mi_source x).
Proof. exists tx_b2_t1, (i_spot 4 0 5 0). split_and!; [do 4 right; left|left|cbn; lia]. Qed.

(** "the neighbours of nothing are nothing": before the invalid transaction there is one that is not reported as
    invalid, and after the invalid block comes the first one *)
Theorem C102_neighbours_of_the_invalid_handle_refuted :
  forall c, m_is_invalid (m_prev_trans m_invalid) = false /\
    ((0 < length (mc_blocks c))%nat -> m_next c m_invalid = 0) /\
    (forall h, Z.of_nat (length (mc_blocks c)) <= h -> m_next c h = h + 1 /\ m_block c (m_next c h) = None).
Proof.
  intros c. split_and!.
  - reflexivity.
  - intros H. unfold m_next, m_invalid. rewrite bool_decide_false by lia. lia.
  - intros h H. assert (m_next c h = h + 1) as E by (unfold m_next; rewrite bool_decide_false by lia; done).
    split; [done|]. rewrite E. unfold m_block, at_. destruct (h + 1 <? 0) eqn:F; [done|]. apply lookup_ge_None. lia.
Qed.

(** *** Storing *)
Definition hopeless (p : prog) : Prop := forall s, exec p s = None.
Lemma hopeless_bind_l p q : hopeless p -> hopeless (pbind p q).
Proof. intros H s. rewrite exec_bind. by rewrite H. Qed.
Lemma hopeless_bind_r p q : (forall v, hopeless (q v)) -> hopeless (pbind p q).
Proof. intros H s. rewrite exec_bind. destruct (exec p s) as [[s' v]|]; [|done]. apply H. Qed.
Lemma hopeless_act a k : (forall r, hopeless (k r)) -> hopeless (PAct a k).
Proof. intros H s. cbn [exec]. destruct (do_act a s) as [[s' r]|]; [|done]. apply H. Qed.
Lemma hopeless_seq ps : (exists p, p ∈ ps /\ hopeless p) -> hopeless (pseq ps).
Proof.
  induction ps as [|p ps IH]; intros (x & Hx & H); [by apply elem_of_nil in Hx|]. cbn [pseq].
  apply elem_of_cons in Hx as [->|Hx]; [by apply hopeless_bind_l|]. apply hopeless_bind_r. intros _. apply IH. eauto.
Qed.
Lemma hopeless_txo c tr o : hopeless (m_app_txo c tr o).
Proof. unfold m_app_txo. destruct (m_txo c o); [|done]. by repeat (apply hopeless_act; intros ?). Qed.

(** No chain of this kind with an output can be stored, whatever the stores, the settings and the state: the block with
    the output is refused, in the pass that gathers hashes and in the pass that stores. *)
Theorem C102_blocks_with_outputs_are_refused :
  forall u ix hash_of c h b x t, m_block c h = Some b -> x ∈ mb_txs b -> m_trans c (mt_height x) = Some t -> mt_outs t <> [] ->
    (forall s, exec (m_append u ix hash_of c h) s = None) /\ m_hashes_block hash_of c h = None.
Proof.
  intros u ix hash_of c h b x t Hb Hx Ht Ho. split.
  - change (hopeless (m_append u ix hash_of c h)). unfold m_append. rewrite Hb. case_bool_decide; [done|]. case_bool_decide; [done|].
    apply hopeless_bind_r. intros _. apply hopeless_bind_r. intros first. apply hopeless_seq.
    apply elem_of_list_lookup in Hx as [k Hk]. exists (m_contents u ix c (first + Z.of_nat k) (mt_height x)). split.
    + apply elem_of_list_lookup. exists k. rewrite list_lookup_imap, Hk. done.
    + unfold m_contents. rewrite Ht. apply hopeless_bind_r. intros _. apply hopeless_bind_r. intros _.
      repeat (apply hopeless_act; intros ?). apply hopeless_seq. destruct (mt_outs t) as [|o os]; [done|].
      eexists. split; [left|]. apply hopeless_txo.
  - unfold m_hashes_block. rewrite Hb. cbn [mbind option_bind]. case_bool_decide; [done|].
    assert (forall l, x ∈ l -> mapM (fun x => t ← m_trans c (mt_height x); if bool_decide (mt_outs t = []) then Some (hash_of (mt_height x)) else None) l = None) as Hm.
    { induction l as [|y l IH]; intros Hy; [by apply elem_of_nil in Hy|]. cbn [mapM].
      apply elem_of_cons in Hy as [<-|Hy].
      - rewrite Ht. cbn [mbind option_bind]. rewrite bool_decide_false by done. done.
      - rewrite IH by done. by destruct (m_trans c (mt_height y)) as [t'|]; cbn [mbind option_bind]; [destruct (bool_decide _)|]. }
    by rewrite Hm.
Qed.

(** Neither can any other chain be stored in a chain that was just made: the pass that stores takes the hashes to be
    there already. *)
Theorem C102_new_chain_takes_no_block :
  forall u ix, (forall h, hs_index (ix_blk ix) h = -1) ->
    (forall hash_of c h s, exec (m_append u ix hash_of c h) s = None) /\
    (forall height b s, exec (p_block u ix height b) s = None).
Proof.
  intros u ix H. split.
  - intros hash_of c h s. unfold m_append. destruct (m_block c h); [|done]. rewrite H. by rewrite bool_decide_true.
  - intros height b s. unfold p_block. rewrite H. by rewrite bool_decide_true.
Qed.

(** the hash stores when all hashes of the built-in chain are there, as the test of the repository wants it *)
Definition tiny_hash (z : Z) : hash := [z].
Definition tiny_store (n : Z) : hstore :=
  mk_hs (fun h => match h with [z] => if (0 <=? z) && (z <? n) then z else -1 | _ => -1 end) n (fun z => Some [z]).
Definition tiny_stores : stores := mk_stores (tiny_store 3) (tiny_store 6) (tiny_store 0).
(** chainstorage/appendablechain_test.go:20: size and time; vsize and version *)
Definition tiny_u : setup := mk_setup false false [6; 1]%nat [2; 0]%nat.
(** What a run leaves counts as stored exactly when the run itself succeeds, and is then its result. *)
Theorem C102_stored_or_refused : forall p s s', leaves p s = (s', true) <-> exists v, exec p s = Some (s', v).
Proof.
  induction p as [v| |a k IH]; intros s s'; cbn [leaves exec].
  - split; [intros E; apply pair_equal_spec in E as [-> _]; eauto|intros [v' E]; apply (inj Some) in E; by apply pair_equal_spec in E as [-> _]].
  - split; [intros E; by apply pair_equal_spec in E as [_ E]|by intros [v' E]].
  - destruct (do_act a s) as [[s1 r]|]; [apply IH|]. split; [intros E; by apply pair_equal_spec in E as [_ E]|by intros [v' E]].
Qed.
(** "the built-in chain can be stored" (TestCopyTinyChain): the first block is refused, and leaves its time, its place
    among the transactions and an output with an amount but without an address *)
Theorem C102_built_in_chain_can_be_stored_refuted :
  (forall u ix hash_of s h b, m_block the_tiny_chain h = Some b -> exec (m_append u ix hash_of the_tiny_chain h) s = None) /\
  exists s', leaves (m_append tiny_u tiny_stores tiny_hash the_tiny_chain 0) (c_create tiny_u (-1) (-1)) = (s', false) /\
    let vw := open_read_only tiny_stores s' in
    block_int vw 1 0 = Some 12345 /\ rd vw FirstTrans 0 = Some 0 /\ rd vw FirstTxo 0 = Some 0 /\
    txo_sats vw 0 = Some 50 /\ parent_trans_of_txo vw 0 = Some 0 /\ txo_address vw 0 = None.
Proof.
  split.
  - intros u ix hash_of s h b Hb.
    assert (b ∈ mc_blocks the_tiny_chain) as Hin.
    { unfold m_block, at_ in Hb. destruct (h <? 0); [done|]. by eapply elem_of_list_lookup_2. }
    unfold the_tiny_chain in Hin. cbn [mc_blocks] in Hin. repeat setoid_rewrite elem_of_cons in Hin. rewrite elem_of_nil in Hin.
    destruct_or! Hin; subst b.
    + apply (C102_blocks_with_outputs_are_refused u ix hash_of the_tiny_chain h _ tx_b0_t0 tx_b0_t0 Hb); [left|reflexivity|done].
    + apply (C102_blocks_with_outputs_are_refused u ix hash_of the_tiny_chain h _ tx_b1_t0 tx_b1_t0 Hb); [left|reflexivity|done].
    + apply (C102_blocks_with_outputs_are_refused u ix hash_of the_tiny_chain h _ tx_b2_t0 tx_b2_t0 Hb); [left|reflexivity|done].
  - set (r := leaves (m_append tiny_u tiny_stores tiny_hash the_tiny_chain 0) (c_create tiny_u (-1) (-1))).
    exists r.1. split; [|cbv zeta; split_and!; vm_compute; reflexivity].
    rewrite (surjective_pairing r) at 1. f_equal.
Qed.
(** Without outputs it does work, so that it is the addresses that are missing and nothing else. *)
Definition no_outs : mchain := mk_mchain [mk_mblock 0 [mk_mtx 0 [] []; mk_mtx 1 [i_spot 1 0 0 7] []]] [mk_mtx 0 [] []; mk_mtx 1 [i_spot 1 0 0 7] []].
Example C102_without_outputs_stored :
  exists s', (leaves (m_append tiny_u tiny_stores tiny_hash no_outs 0) (c_create tiny_u (-1) (-1))) = (s', true) /\
    let vw := open_read_only tiny_stores s' in
    block_int vw 6 0 = Some 285 /\ trans_int vw 2 1 = Some 123 /\ txi_source vw 0 = Some (0, 7) /\ parent_block_of_trans vw 1 = Some 0.
Proof.
  set (r := leaves (m_append tiny_u tiny_stores tiny_hash no_outs 0) (c_create tiny_u (-1) (-1))).
  exists r.1. split; [|cbv zeta; split_and!; vm_compute; reflexivity].
  rewrite (surjective_pairing r) at 1. f_equal.
Qed.

Print Assumptions C102_walks_see_everything.
Print Assumptions C102_handles_lead_back.
Print Assumptions C102_built_in_chain_is_sound.
Print Assumptions C102_inputs_spend_the_past_refuted.
Print Assumptions C102_neighbours_of_the_invalid_handle_refuted.
Print Assumptions C102_blocks_with_outputs_are_refused.
Print Assumptions C102_new_chain_takes_no_block.
Print Assumptions C102_built_in_chain_can_be_stored_refuted.
Print Assumptions C102_stored_or_refused.
