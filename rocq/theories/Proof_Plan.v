(** The adaptive planner: counting, sharing a pass out among the workers, laying out their buffers. *)
From Verif Require Import Base Model_Word Model_Bins Spec_Bins Proof_Bins Proof_BinFiles Prop_Bins Model_Pass Spec_Pass Proof_Pass Proof_Index.

Lemma least_from_lt i least best loads : (best < i + length loads)%nat -> (least_from i least best loads < i + length loads)%nat.
Proof.
  revert i least best. induction loads as [|l loads IH]; intros i least best H; cbn [least_from length] in *; [lia|].
  destruct (Z.ltb_spec l least).
  - pose proof (IH (S i) l i). lia.
  - pose proof (IH (S i) least best). lia.
Qed.
Lemma least_loaded_lt loads : loads <> [] -> (least_loaded loads < length loads)%nat.
Proof.
  intros H. unfold least_loaded. pose proof (least_from_lt 0 (2 ^ 63 - 1) 0 loads) as H1.
  destruct loads; [done|]. cbn [length] in *. lia.
Qed.

(** [pre]: the loads already looked at *)
Lemma least_from_min loads : forall pre least best, (forall l, l ∈ pre -> least <= l) ->
  (pre !! best = Some least \/ (Forall (fun l => l < least) loads /\ loads <> [])) ->
  exists m, (pre ++ loads) !! least_from (length pre) least best loads = Some m /\ forall l, l ∈ pre ++ loads -> m <= l.
Proof.
  induction loads as [|l loads IH]; intros pre least best Hmin Hbest; cbn [least_from].
  - rewrite app_nil_r. destruct Hbest as [Hb|[_ Hn]]; [|done]. by exists least.
  - replace (S (length pre)) with (length (pre ++ [l])) by (rewrite app_length; cbn; lia).
    replace (pre ++ l :: loads) with ((pre ++ [l]) ++ loads) by (by rewrite <- app_assoc).
    destruct (Z.ltb_spec l least) as [Hl|Hl]; apply IH.
    + intros x Hx. apply elem_of_app in Hx as [Hx|Hx]; [pose proof (Hmin x Hx); lia|]. apply elem_of_list_singleton in Hx. lia.
    + left. rewrite lookup_app_r by lia. by rewrite Nat.sub_diag.
    + intros x Hx. apply elem_of_app in Hx as [Hx|Hx]; [by apply Hmin|]. apply elem_of_list_singleton in Hx. lia.
    + destruct Hbest as [Hb|[Hf _]].
      * left. by apply lookup_app_l_Some.
      * apply Forall_cons in Hf as [Hf _]. lia.
Qed.
Lemma least_loaded_min loads : loads <> [] -> Forall (fun l => l < 2 ^ 63 - 1) loads ->
  exists m, loads !! least_loaded loads = Some m /\ forall l, l ∈ loads -> m <= l.
Proof.
  intros Hn Hf. apply (least_from_min loads [] (2 ^ 63 - 1) 0%nat).
  - intros l Hl. by apply elem_of_nil in Hl.
  - right. done.
Qed.

Lemma total_cons w ws : total (w :: ws) = wk_count w + total ws.
Proof. reflexivity. Qed.
Lemma total_nonneg ws : Forall (fun w => 0 <= wk_count w) ws -> 0 <= total ws.
Proof. induction 1 as [|w ws Hw _ IH]; [done|]. rewrite total_cons. lia. Qed.

(** the work given to worker [a] *)
Definition share (a : nat) (al : list (work * nat)) : list work := fst <$> filter (fun x => snd x = a) al.

Lemma allocate_spec ws : forall loads, loads <> [] ->
  let r := allocate loads ws in
  fst <$> fst r = ws /\ Forall (fun x => (snd x < length loads)%nat) (fst r) /\ length (snd r) = length loads /\
  forall a l, loads !! a = Some l -> snd r !! a = Some (l + total (share a (fst r))).
Proof.
  induction ws as [|w ws IH]; intros loads Hn; cbn [allocate fst snd].
  - split; [done|]. split; [constructor|]. split; [done|]. intros a l Ha. rewrite Ha. f_equal. cbn. lia.
  - set (a := least_loaded loads). pose proof (least_loaded_lt loads Hn) as Ha. fold a in Ha.
    destruct (IH (<[a := default 0 (loads !! a) + wk_count w]> loads)) as (H1 & H2 & H3 & H4).
    { intros E. apply (f_equal length) in E. rewrite insert_length in E. destruct loads; [done|]. cbn in E. lia. }
    rewrite insert_length in H2, H3. cbn [fst snd] in *.
    split; [rewrite fmap_cons; by f_equal|]. split; [by constructor|]. split; [done|].
    intros b l Hb. unfold share. rewrite filter_cons. cbn [snd].
    destruct (decide (a = b)) as [<-|Hne].
    + rewrite (H4 a (l + wk_count w)).
      * f_equal. rewrite fmap_cons, total_cons. unfold share. cbn [fst]. lia.
      * rewrite Hb. cbn [default from_option]. unfold id. by apply list_lookup_insert.
    + apply H4. by rewrite list_lookup_insert_ne.
Qed.

Lemma allocate_balanced M ws : forall loads, loads <> [] -> Forall (fun w => 0 <= wk_count w <= M) ws ->
  (forall l, l ∈ loads -> 0 <= l /\ l + total ws < 2 ^ 63 - 1) ->
  (forall l l', l ∈ loads -> l' ∈ loads -> l - l' <= M) ->
  forall l l', l ∈ snd (allocate loads ws) -> l' ∈ snd (allocate loads ws) -> l - l' <= M.
Proof.
  induction ws as [|w ws IH]; intros loads Hn Hws Hsmall Hbal; cbn [allocate snd]; [done|].
  apply Forall_cons in Hws as [Hw Hws].
  assert (0 <= total ws) as Htot by (apply total_nonneg; eapply Forall_impl; [exact Hws|]; cbn; lia).
  rewrite total_cons in Hsmall.
  destruct (least_loaded_min loads Hn) as (m & Hm & Hmin).
  { apply Forall_forall. intros l Hl. pose proof (Hsmall l Hl). lia. }
  set (a := least_loaded loads) in *. rewrite Hm. cbn [default from_option]. unfold id.
  pose proof (elem_of_list_lookup_2 _ _ _ Hm) as Hin. pose proof (lookup_lt_Some _ _ _ Hm) as Hlt.
  assert (forall l, l ∈ <[a := m + wk_count w]> loads -> l = m + wk_count w \/ l ∈ loads) as Hel.
  { intros l Hl. apply elem_of_list_lookup in Hl as [i Hi]. apply list_lookup_insert_Some in Hi as [(_ & E & _)|(_ & Hi)].
    - left. done.
    - right. by eapply elem_of_list_lookup_2. }
  apply IH.
  - intros E. apply (f_equal length) in E. rewrite insert_length in E. cbn in E. lia.
  - done.
  - intros l Hl. destruct (Hel l Hl) as [->|Hl']; [pose proof (Hsmall m Hin); lia|]. pose proof (Hsmall l Hl'). lia.
  - intros l l' Hl Hl'. destruct (Hel l Hl) as [->|H1], (Hel l' Hl') as [->|H2].
    + lia.
    + pose proof (Hmin l' H2). lia.
    + pose proof (Hbal l m H1 Hin). lia.
    + by apply Hbal.
Qed.

(** ** Buffers *)
Lemma share_cons a w b al : share a ((w, b) :: al) = if decide (b = a) then w :: share a al else share a al.
Proof. unfold share. rewrite filter_cons. cbn [snd]. by destruct (decide (b = a)). Qed.

Lemma offsets_fst al : forall ptrs, fst <$> offsets ptrs al = al.
Proof. induction al as [|[w a] al IH]; intros ptrs; cbn [offsets fmap list_fmap fst]; [done|]. f_equal. apply IH. Qed.

(** the position of a bin is what its worker had before plus the bins given to it earlier *)
Lemma offsets_lookup al : forall ptrs i w a o, Forall (fun x => (snd x < length ptrs)%nat) al ->
  offsets ptrs al !! i = Some (w, a, o) -> exists q, ptrs !! a = Some q /\ o = q + total (share a (take i al)).
Proof.
  induction al as [|[v b] al IH]; intros ptrs i w a o Hf Hi; [done|]. cbn [offsets] in Hi. apply Forall_cons in Hf as [Hb Hf]. cbn [snd] in Hb.
  destruct (lookup_lt_is_Some_2 ptrs b Hb) as [q Hq]. rewrite Hq in Hi. cbn [default from_option] in Hi. unfold id in Hi.
  destruct i as [|i].
  - cbn in Hi. injection Hi as <- <- <-. exists q. split; [done|]. cbn. lia.
  - cbn in Hi. apply IH in Hi as (q' & Hq' & ->); [|by rewrite insert_length].
    change (take (S i) ((v, b) :: al)) with ((v, b) :: take i al). rewrite share_cons.
    apply list_lookup_insert_Some in Hq' as [(E1 & E2 & _)|(Hne & Hq')].
    + subst. exists q. split; [done|]. rewrite decide_True by done. rewrite total_cons. lia.
    + exists q'. split; [done|]. rewrite decide_False by done. done.
Qed.

Lemma share_app a l l' : share a (l ++ l') = share a l ++ share a l'.
Proof. unfold share. by rewrite filter_app, fmap_app. Qed.
Lemma total_app l l' : total (l ++ l') = total l + total l'.
Proof. induction l as [|w l IH]; [done|]. rewrite <- app_comm_cons, !total_cons, IH. lia. Qed.

Lemma share_nonneg a al : Forall (fun x => 0 <= wk_count (fst x)) al -> Forall (fun w => 0 <= wk_count w) (share a al).
Proof.
  intros H. unfold share. apply Forall_fmap. rewrite Forall_forall in H |- *. intros x Hx. apply elem_of_list_filter in Hx as [_ Hx].
  by apply H.
Qed.

Lemma share_take_S a al i w : al !! i = Some (w, a) -> total (share a (take (S i) al)) = total (share a (take i al)) + wk_count w.
Proof.
  intros H. rewrite (take_S_r _ _ _ H), share_app, total_app. f_equal. rewrite share_cons, decide_True by done. cbn. lia.
Qed.

Lemma share_take_mono a al i j : Forall (fun x => 0 <= wk_count (fst x)) al -> (i <= j)%nat ->
  total (share a (take i al)) <= total (share a (take j al)).
Proof.
  intros H Hij. assert (take j al = take i al ++ take (j - i) (drop i al)) as ->.
  { rewrite <- (take_drop i (take j al)), take_take, skipn_firstn_comm. do 2 f_equal. lia. }
  rewrite share_app, total_app. assert (0 <= total (share a (take (j - i) (drop i al)))); [|lia].
  apply total_nonneg, share_nonneg. by apply Forall_take, Forall_drop.
Qed.

(** ** Counting *)
Lemma hashes_of_count p k start hs : (forall h, h ∈ hs -> 0 <= bin_num p (abbreviated h)) ->
  length (hashes_of p whole_slot k start hs) = length (filter (fun h => bin_num p (abbreviated h) = Z.of_nat k) hs).
Proof.
  revert start. induction hs as [|h hs IH]; intros start Hr; cbn [hashes_of]; [done|]. rewrite filter_cons.
  pose proof (Hr h ltac:(by left)). unfold whole_slot at 1.
  destruct (decide (Some _ = Some k)) as [E|E], (decide (bin_num p (abbreviated h) = Z.of_nat k)) as [E'|E']; cbn [length].
  - f_equal. apply IH. intros x Hx. apply Hr. by right.
  - exfalso. injection E as E. lia.
  - exfalso. apply E. f_equal. lia.
  - apply IH. intros x Hx. apply Hr. by right.
Qed.
