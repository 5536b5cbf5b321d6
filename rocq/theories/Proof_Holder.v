From stdpp Require Import sorting.
From Verif Require Import Base Model_Holder Spec_Holder.

(** ** Median *)
Lemma window_step (ts : list Z) (t : Z) :
  let w := drop (length ts - 11) ts ++ [t] in
  (if decide (11 < length w)%nat then drop 1 w else w) = drop (length (ts ++ [t]) - 11) (ts ++ [t]).
Proof.
  cbn zeta. rewrite !app_length, drop_length. cbn [length].
  destruct (decide _) as [H|H].
  - replace (length ts + 1 - 11)%nat with (S (length ts - 11)) by lia.
    rewrite (drop_app_le (_ ts)) by (rewrite drop_length; lia).
    rewrite drop_drop. rewrite drop_app_le by lia. repeat f_equal. lia.
  - replace (length ts - 11)%nat with 0%nat by lia. replace (length ts + 1 - 11)%nat with 0%nat by lia. done.
Qed.

Lemma last_eleven_eq (ts : list Z) (i : nat) : (i < length ts)%nat ->
  last_eleven ts i = drop (length (take (S i) ts) - 11) (take (S i) ts).
Proof. intros H. unfold last_eleven. rewrite take_length. f_equal. lia. Qed.

Lemma filter_length_sorted_lt (l : list Z) r m : StronglySorted Z.le l -> l !! r = Some m ->
  (length (filter (fun x => (x < m)%Z) l) <= r < length (filter (fun x => (x <= m)%Z) l))%nat.
Proof.
  intros S. revert r. induction S as [|a l S IH F]; intros [|r] H; try done.
  - injection H as ->. rewrite filter_cons, decide_False by lia.
    rewrite (filter_cons (fun x => (x <= m)%Z)), decide_True by lia. cbn [length].
    assert (E : filter (fun x => (x < m)%Z) l = []).
    { clear -F. induction F as [|b l Hb F IH]; [done|]. rewrite filter_cons, decide_False by lia. done. }
    rewrite E. cbn. lia.
  - change (l !! r = Some m) in H. specialize (IH r H).
    assert (a <= m) by (eapply Forall_lookup_1 in F; eauto).
    rewrite !filter_cons. rewrite (decide_True (P := (a <= m)%Z)) by done.
    destruct (decide (a < m)); cbn [length]; lia.
Qed.

Lemma median_rank w : w <> [] ->
  has_rank w (length w / 2) (nth (length w / 2) (merge_sort Z.le w) 0).
Proof.
  intros Hne. pose proof (merge_sort_Permutation Z.le w) as P.
  pose proof (StronglySorted_merge_sort Z.le w) as S.
  assert (Hl : (length w / 2 < length (merge_sort Z.le w))%nat).
  { rewrite P. destruct w; [done|]. apply Nat.div_lt; cbn; lia. }
  destruct (lookup_lt_is_Some_2 _ _ Hl) as [m Hm].
  assert (nth (length w / 2) (merge_sort Z.le w) 0 = m) as ->.
  { rewrite nth_lookup, Hm. done. }
  split.
  - rewrite <-P. eapply elem_of_list_lookup_2; eauto.
  - pose proof (filter_length_sorted_lt _ _ _ S Hm) as Q.
    assert (E : forall f `{forall x : Z, Decision (f x)}, length (filter f (merge_sort Z.le w)) = length (filter f w)).
    { intros f Hf. by rewrite P. }
    rewrite !E in Q. done.
Qed.

(** ** Visiting a chain *)
(** The calls on the indexer for the blocks [bs] when [h] blocks with [t] transactions came before *)
Fixpoint trans_events (h t : Z) (ids : list (list Z)) : list tev :=
  match ids with
  | [] => []
  | id :: ids' => EParent t h :: EHash id t :: trans_events h (t + 1) ids'
  end.
Fixpoint events (h t : Z) (bs : list blk) : list tev :=
  match bs with
  | [] => []
  | b :: bs' => EFirst h t :: trans_events h t (bk_txids b) ++ events (h + 1) (t + Z.of_nat (length (bk_txids b))) bs'
  end.

Lemma gather_loop_spec h ids : forall t, gather_loop h t ids = (trans_events h (t + 1) ids, t + Z.of_nat (length ids)).
Proof.
  induction ids as [|id ids IH]; intros t; cbn [gather_loop trans_events length].
  - f_equal. lia.
  - rewrite IH. f_equal. lia.
Qed.

Lemma events_snoc bs b : forall h t,
  events h t (bs ++ [b]) =
  events h t bs ++ EFirst (h + Z.of_nat (length bs)) (t + Z.of_nat (length (concat (bk_txids <$> bs)))) ::
     trans_events (h + Z.of_nat (length bs)) (t + Z.of_nat (length (concat (bk_txids <$> bs)))) (bk_txids b).
Proof.
  induction bs as [|c bs IH]; intros h t; cbn [app events fmap list_fmap concat length].
  - rewrite !app_nil_r, !Z.add_0_r. done.
  - rewrite IH. rewrite app_length. cbn [app]. f_equal. rewrite <-app_assoc. f_equal. f_equal.
    rewrite !Nat2Z.inj_add, !Nat2Z.inj_succ. f_equal; [|].
    + f_equal; lia.
    + f_equal; lia.
Qed.

Record hinv (fl : flavour) (ix : bool) (pre : list blk) (s : holder) (h : bhandle) : Prop := {
  hv_cur : exists b m, last pre = Some b /\ hd_cur s = Some (b, Z.of_nat (length pre) - 1, m) /\
           make_handle fl b (Z.of_nat (length pre) - 1) = Some h;
  hv_win : hd_window s = drop (length pre - 11) (bk_time <$> pre);
  hv_ix : hd_indexed s = ix;
  hv_latest : ix = true -> hd_latest s = Z.of_nat (length (concat (bk_txids <$> pre))) - 1;
  hv_log : hd_log s = if ix then events 0 0 pre else [];
}.

Lemma make_handle_some fl b n : 0 <= n < 2^32 -> exists h, make_handle fl b n = Some h /\ holds_block fl b n h = true.
Proof.
  intros Hn. unfold make_handle. destruct fl.
  - replace (n <? 0) with false by lia. replace (0xFFFFFFFF <? n) with false by lia. cbn [orb].
    destruct (n =? 0xFFFFFFFF) eqn:E.
    + eexists. split; [done|]. cbn. done.
    + eexists. split; [done|]. cbn. lia.
  - eexists. split; [done|]. cbn. by rewrite bool_decide_true.
Qed.

Lemma make_handle_holds fl b n h : make_handle fl b n = Some h -> holds_block fl b n h = true.
Proof.
  unfold make_handle. destruct fl.
  - destruct (_ || _); [done|]. destruct (n =? 0xFFFFFFFF) eqn:E; intros [= <-]; cbn; [done|lia].
  - intros [= <-]. cbn. by rewrite bool_decide_true.
Qed.

Lemma gather_cur s b h : hd_cur (gather s b h) = hd_cur s.
Proof. unfold gather. destruct (hd_indexed s); [|done]. rewrite gather_loop_spec. done. Qed.
Lemma gather_win s b h : hd_window (gather s b h) = hd_window s.
Proof. unfold gather. destruct (hd_indexed s) eqn:E; [|done]. rewrite gather_loop_spec. done. Qed.
Lemma gather_ix s b h : hd_indexed (gather s b h) = hd_indexed s.
Proof. unfold gather. destruct (hd_indexed s) eqn:E; [|done]. rewrite gather_loop_spec. done. Qed.

Lemma median_window (pre : list blk) b :
  fst (median_time (drop (length pre - 11) (bk_time <$> pre)) (bk_time b)) =
  drop (length (pre ++ [b]) - 11) (bk_time <$> (pre ++ [b])).
Proof.
  unfold median_time. cbn [fst]. pose proof (window_step (bk_time <$> pre) (bk_time b)) as W.
  cbn zeta in W. rewrite fmap_length in W. rewrite W.
  rewrite fmap_app. cbn. rewrite !app_length, fmap_length. done.
Qed.

(** What accepting one block does *)
Lemma next_spec fl ix pre s h b : hinv fl ix pre s h -> Z.of_nat (length pre) < 2^32 ->
  (last (bk_hash <$> pre) = Some (bk_prev b) ->
   exists s' h', next_block fl s h (Some b) = HOk s' h' /\ hinv fl ix (pre ++ [b]) s' h' /\
      hd_cur s' = Some (b, Z.of_nat (length pre), snd (median_time (hd_window s) (bk_time b)))) /\
  (last (bk_hash <$> pre) <> Some (bk_prev b) -> next_block fl s h (Some b) = HPanic).
Proof.
  intros [(c & m & Hl & Hc & Hh) Hw Hi Hla Hlog] Hb.
  assert (Hlb : last (bk_hash <$> pre) = Some (bk_hash c)). { rewrite fmap_last, Hl. done. }
  rewrite Hlb. unfold next_block. rewrite Hc. rewrite (make_handle_holds _ _ _ _ Hh).
  replace (Z.of_nat (length pre) - 1 + 1) with (Z.of_nat (length pre)) by lia.
  pose proof (median_window pre b) as MW. rewrite <-Hw in MW.
  destruct (median_time (hd_window s) (bk_time b)) as [w md]. cbn [fst snd] in *. subst w.
  split.
  - intros E. rewrite decide_True by congruence.
    destruct (make_handle_some fl b (Z.of_nat (length pre)) ltac:(lia)) as (h' & Hh' & _). rewrite Hh'.
    eexists _, _. split; [done|]. split; [|by rewrite gather_cur].
    assert (Hlen : Z.of_nat (length (pre ++ [b])) - 1 = Z.of_nat (length pre)) by (rewrite app_length; cbn; lia).
    constructor.
    + exists b, md. rewrite Hlen, gather_cur. split; [by rewrite last_snoc|]. done.
    + rewrite gather_win. done.
    + rewrite gather_ix. done.
    + intros ->. unfold gather. cbn [hd_indexed]. rewrite Hi. rewrite gather_loop_spec. cbn [hd_latest].
      rewrite Hla by done. rewrite fmap_app, concat_app, app_length. cbn. rewrite app_nil_r. lia.
    + unfold gather. cbn [hd_indexed]. rewrite Hi. destruct ix; [|done].
      rewrite gather_loop_spec. cbn [hd_log hd_latest]. rewrite Hlog. rewrite events_snoc.
      rewrite Hla by done. rewrite !Z.add_0_l. repeat f_equal; lia.
  - intros E. rewrite decide_False by congruence. done.
Qed.

Lemma genesis_spec fl ix b :
  (take 4 (bk_hash b) = [0x6f; 0xe2; 0x8c; 0x0a] ->
   exists s h, genesis fl (holder_new ix) (Some b) = HOk s h /\ hinv fl ix [b] s h /\
      hd_cur s = Some (b, 0, snd (median_time [] (bk_time b)))) /\
  (take 4 (bk_hash b) <> [0x6f; 0xe2; 0x8c; 0x0a] -> genesis fl (holder_new ix) (Some b) = HPanic).
Proof.
  unfold genesis, holder_new. cbn [hd_cur hd_window hd_indexed hd_latest hd_log].
  pose proof (median_window [] b) as MW. cbn [length fmap list_fmap] in MW. rewrite drop_nil in MW.
  destruct (median_time [] (bk_time b)) as [w md]. cbn [fst snd] in *. subst w.
  split; intros E; [rewrite decide_True by done|by rewrite decide_False].
  destruct (make_handle_some fl b 0 ltac:(lia)) as (h & Hh & _). rewrite Hh.
  eexists _, _. split; [done|]. split; [|by rewrite gather_cur].
  constructor.
  - exists b, md. rewrite gather_cur. done.
  - rewrite gather_win. done.
  - rewrite gather_ix. done.
  - intros ->. unfold gather. cbn [hd_indexed]. rewrite gather_loop_spec. cbn. rewrite app_nil_r. lia.
  - unfold gather. cbn [hd_indexed]. destruct ix; [|done].
    rewrite gather_loop_spec. cbn. rewrite app_nil_r. done.
Qed.

Lemma visit_rest_spec fl ix bs : forall pre s h, hinv fl ix pre s h -> Z.of_nat (length pre + length bs) < 2^32 ->
  match visit_rest fl s h bs with
  | Some (s', h', meds) => hinv fl ix (pre ++ bs) s' h' /\ length meds = length bs /\
      (forall i b, bs !! i = Some b -> last (bk_hash <$> (pre ++ take i bs)) = Some (bk_prev b)) /\
      (forall i m, meds !! i = Some m ->
         has_rank (last_eleven (bk_time <$> (pre ++ bs)) (length pre + i)) ((11 `min` (length pre + S i)) / 2) m)
  | None => exists i b, bs !! i = Some b /\ last (bk_hash <$> (pre ++ take i bs)) <> Some (bk_prev b)
  end.
Proof.
  induction bs as [|b bs IH]; intros pre s h I Hb; cbn [visit_rest].
  - rewrite app_nil_r. split; [done|]. split; [done|]. split; [done|]. done.
  - destruct (next_spec fl ix pre s h b I ltac:(cbn [length] in Hb; lia)) as [N1 N2].
    destruct (decide (last (bk_hash <$> pre) = Some (bk_prev b))) as [E|E].
    + destruct (N1 E) as (s' & h' & -> & I' & Hc). clear N1 N2.
      specialize (IH (pre ++ [b]) s' h' I'). rewrite app_length in IH. cbn [length] in IH, Hb.
      specialize (IH ltac:(lia)). destruct (visit_rest fl s' h' bs) as [[[s'' h''] meds]|].
      * destruct IH as (J1 & J2 & J3 & J4). rewrite <-!app_assoc in *. cbn [app] in *.
        split; [done|]. split; [cbn [length]; lia|]. split.
        -- intros [|i] c Hc'; [injection Hc' as <-; rewrite take_0, app_nil_r; done|].
           change (take (S i) (b :: bs)) with (b :: take i bs). specialize (J3 i c Hc').
           rewrite <-app_assoc in J3. done.
        -- intros [|i] m Hm.
           ++ injection Hm as <-. rewrite Hc. cbn [from_option snd].
              rewrite Nat.add_0_r.
              pose proof (median_window pre b) as MW. rewrite <-(hv_win _ _ _ _ _ I) in MW.
              unfold median_time in *. cbn [fst snd] in *. rewrite MW.
              assert (Ew : last_eleven (bk_time <$> pre ++ b :: bs) (length pre) = drop (length (pre ++ [b]) - 11) (bk_time <$> pre ++ [b])).
              { unfold last_eleven. rewrite app_length. cbn [length].
                replace (length pre + 1)%nat with (S (length pre)) by lia. f_equal.
                rewrite <-fmap_take. f_equal.
                change (pre ++ b :: bs) with (pre ++ [b] ++ bs). rewrite app_assoc.
                rewrite take_app_alt; [done|]. rewrite app_length; cbn; lia. }
              rewrite Ew. set (w := drop _ _).
              replace (11 `min` (length pre + 1))%nat with (length w).
              2:{ unfold w. rewrite drop_length, fmap_length, app_length. cbn [length]. lia. }
              apply median_rank. intros Hw. assert (length w = 0%nat) as Hz by (by rewrite Hw).
              unfold w in Hz. rewrite drop_length, fmap_length, app_length in Hz. cbn [length] in Hz. lia.
           ++ cbn in Hm. specialize (J4 i m Hm).
              replace (length pre + S i)%nat with (length pre + 1 + i)%nat by lia.
              replace (length pre + S (S i))%nat with (length pre + 1 + S i)%nat by lia. done.
      * destruct IH as (i & c & Hi & Hne). exists (S i), c. split; [done|].
        change (take (S i) (b :: bs)) with (b :: take i bs). rewrite <-app_assoc in Hne. done.
    + rewrite N2 by done. exists 0%nat, b. split; [done|]. rewrite take_0, app_nil_r. done.
Qed.

Lemma visit_inv fl ix bs s h meds : Z.of_nat (length bs) < 2^32 -> visit fl ix bs = Some (s, h, meds) ->
  hinv fl ix bs s h.
Proof.
  intros Hb. unfold visit. destruct bs as [|b bs]; [done|].
  destruct (genesis_spec fl ix b) as [G1 G2].
  destruct (decide (take 4 (bk_hash b) = [0x6f; 0xe2; 0x8c; 0x0a])) as [E|E]; [|by rewrite G2].
  destruct (G1 E) as (s0 & h0 & -> & I & Hc). pose proof (visit_rest_spec fl ix bs [b] s0 h0 I) as V.
  cbn [length] in *. specialize (V ltac:(lia)).
  destruct (visit_rest fl s0 h0 bs) as [[[s' h'] meds']|]; [|done].
  intros [= <- <- <-]. exact (proj1 V).
Qed.

(** Which calls are in the log *)
Lemma elem_of_trans_events ids : forall h t e, e ∈ trans_events h t ids <->
  exists i id, ids !! i = Some id /\ (e = EParent (t + Z.of_nat i) h \/ e = EHash id (t + Z.of_nat i)).
Proof.
  induction ids as [|id ids IH]; intros h t e; cbn [trans_events].
  - rewrite elem_of_nil. split; [done|]. intros (i & id & H & _). by rewrite lookup_nil in H.
  - rewrite !elem_of_cons, IH. split.
    + intros [->|[->|(i & id' & Hi & H)]].
      * exists 0%nat, id. rewrite Z.add_0_r. auto.
      * exists 0%nat, id. rewrite Z.add_0_r. auto.
      * exists (S i), id'. split; [done|]. replace (t + Z.of_nat (S i)) with (t + 1 + Z.of_nat i) by lia. done.
    + intros ([|i] & id' & Hi & H).
      * injection Hi as <-. rewrite Z.add_0_r in H. tauto.
      * right; right. exists i, id'. split; [done|]. replace (t + 1 + Z.of_nat i) with (t + Z.of_nat (S i)) by lia. done.
Qed.

Lemma elem_of_events bs : forall h t e, e ∈ events h t bs <->
  exists j b, bs !! j = Some b /\
    let t' := t + Z.of_nat (trans_before bs j) in
    (e = EFirst (h + Z.of_nat j) t' \/
     exists i id, bk_txids b !! i = Some id /\ (e = EParent (t' + Z.of_nat i) (h + Z.of_nat j) \/ e = EHash id (t' + Z.of_nat i))).
Proof.
  induction bs as [|b bs IH]; intros h t e; cbn [events].
  - rewrite elem_of_nil. split; [done|]. intros (i & id & H & _). by rewrite lookup_nil in H.
  - rewrite elem_of_cons, elem_of_app, IH, elem_of_trans_events.
    assert (TB : forall j, trans_before (b :: bs) (S j) = (length (bk_txids b) + trans_before bs j)%nat).
    { intros j. unfold trans_before. cbn [take fmap list_fmap concat]. rewrite app_length. done. }
    split.
    + intros [->|[H|(j & c & Hj & H)]].
      * exists 0%nat, b. split; [done|]. left. unfold trans_before. cbn. f_equal; lia.
      * exists 0%nat, b. split; [done|]. right. destruct H as (i & id & Hi & H). exists i, id. split; [done|].
        unfold trans_before. cbn. rewrite !Z.add_0_r. done.
      * exists (S j), c. split; [done|]. rewrite TB. cbn zeta in *.
        rewrite Nat2Z.inj_add, Nat2Z.inj_succ, !Z.add_assoc.
        replace (h + Z.succ (Z.of_nat j)) with (h + 1 + Z.of_nat j) by lia. done.
    + intros ([|j] & c & Hj & H).
      * injection Hj as <-. unfold trans_before in H. cbn in H. rewrite !Z.add_0_r in H.
        destruct H as [->|H]; [by left|right; by left].
      * right; right. exists j, c. split; [done|]. rewrite TB in H. cbn zeta in *.
        rewrite Nat2Z.inj_add, Nat2Z.inj_succ, !Z.add_assoc in H.
        replace (h + Z.succ (Z.of_nat j)) with (h + 1 + Z.of_nat j) in H by lia. done.
Qed.

(** ** Stream *)
Lemma bh_val : Z.of_nat batch_headers = 1002.
Proof. unfold batch_headers. rewrite Z2Nat.id; lia. Qed.
Lemma bh_eq : Z.to_nat 1002 = batch_headers.
Proof. reflexivity. Qed.
Global Opaque batch_headers.

Lemma prev_hash_chunk ls k : chunks 80 ls -> (length ls <= batch_headers)%nat -> (k < length ls)%nat ->
  prev_hash_of (read_full (concat ls)) k = take 32 (drop 4 (default [] (ls !! k))).
Proof.
  intros C Hl Hk. unfold prev_hash_of, read_full.
  rewrite <-(chunks_read 80 ls k C).
  rewrite <-drop_drop. rewrite skipn_firstn_comm.
  rewrite drop_app_le by (rewrite (chunks_concat_length 80) by done; lia).
  set (l := drop (k * 80) (concat ls)).
  assert (Hlen : (80 <= length l)%nat).
  { unfold l. rewrite drop_length, (chunks_concat_length 80) by done. lia. }
  set (z := replicate _ 0). rewrite !skipn_firstn_comm. rewrite !take_take.
  rewrite drop_app_le by lia. rewrite take_app_le by (rewrite drop_length; lia).
  f_equal. pose proof bh_val. lia.
Qed.

Lemma stream_length server n : forall fuel req sent, (sent < n)%nat -> (n - sent <= fuel)%nat ->
  length (stream_loop fuel server req n sent) = (n - sent)%nat.
Proof.
  pose proof bh_val. induction fuel as [|fuel IH]; intros req sent Hs Hf; [lia|].
  cbn [stream_loop]. destruct (decide _) as [E|E].
  - rewrite fmap_length, seq_length. lia.
  - rewrite app_length, fmap_length, seq_length. rewrite IH; lia.
Qed.

Lemma stream_spec hash hs server n : header_chain hash hs -> answers hash hs server -> (n < length hs)%nat ->
  forall fuel sent h, hs !! sent = Some h -> (sent < n)%nat -> (n - sent <= fuel)%nat ->
  stream_loop fuel server (hash h) n sent = hash <$> take (n - sent) (drop sent hs).
Proof.
  intros (C & D & L) A Hn. pose proof bh_val as BH.
  induction fuel as [|fuel IH]; intros sent h Hh Hs Hf; [lia|].
  cbn [stream_loop]. rewrite (A _ _ Hh). rewrite bh_eq.
  set (ls := take batch_headers (drop sent hs)).
  assert (Cl : chunks 80 ls) by (unfold ls; apply Forall_take, Forall_drop, C).
  assert (Hl : length ls = (batch_headers `min` (length hs - sent))%nat) by (unfold ls; rewrite take_length, drop_length; done).
  assert (P : forall k g, (k + 1 < batch_headers)%nat -> (sent + k < n)%nat -> hs !! (sent + k)%nat = Some g ->
    prev_hash_of (read_full (concat ls)) (k + 1) = hash g).
  { intros k g Hk Hk2 Hg. rewrite prev_hash_chunk by (done || lia).
    destruct (lookup_lt_is_Some_2 hs (S (sent + k))) as [g' Hg']; [lia|].
    unfold ls. rewrite lookup_take by lia. rewrite lookup_drop.
    replace (sent + (k + 1))%nat with (S (sent + k)) by lia. rewrite Hg'. cbn [default from_option]. unfold id. eapply L; eauto. }
  set (m := ((batch_headers - 2) `min` (n - sent))%nat).
  assert (E1 : (fun k => prev_hash_of (read_full (concat ls)) (k + 1)) <$> seq 0 m = hash <$> take m (drop sent hs)).
  { apply list_eq. intros i. rewrite !list_lookup_fmap.
    destruct (decide (i < m)%nat) as [Hi|Hi].
    - rewrite lookup_seq_lt by done. rewrite lookup_take by done. rewrite lookup_drop.
      destruct (lookup_lt_is_Some_2 hs (sent + i)) as [g Hg]; [lia|]. rewrite Hg. cbn [fmap option_fmap option_map]. cbn [Nat.add].
      f_equal. apply P; [lia|lia|done].
    - rewrite lookup_seq_ge by lia. rewrite lookup_take_ge by lia. done. }
  rewrite E1. destruct (decide _) as [E|E].
  - do 2 f_equal. lia.
  - assert (Em : m = (batch_headers - 2)%nat) by lia.
    destruct (lookup_lt_is_Some_2 hs (sent + m)) as [g Hg]; [lia|].
    assert (Eq : prev_hash_of (read_full (concat ls)) (batch_headers - 1) = hash g).
    { replace (batch_headers - 1)%nat with (m + 1)%nat by lia. apply P; [lia|lia|done]. }
    rewrite Eq. rewrite (IH (sent + m)%nat g Hg ltac:(lia) ltac:(lia)).
    rewrite <-fmap_app. f_equal. rewrite <-drop_drop.
    rewrite take_take_drop. f_equal. lia.
Qed.
