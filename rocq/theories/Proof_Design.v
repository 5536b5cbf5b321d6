(** The designer's groups cover every slot count (for C31). *)
From Verif Require Import Base Model_Tree Model_Chunk Spec_Chunk.

(** ** Counting *)
Lemma nodes_in_split hist a b d : (a <= b)%nat -> (b <= d)%nat -> nodes_in hist a d = (nodes_in hist a b + nodes_in hist b d)%nat.
Proof.
  intros H1 H2. unfold nodes_in. replace (d - a)%nat with ((b - a) + (d - b))%nat by lia.
  rewrite seq_app, fmap_app, sum_list_with_app || rewrite seq_app, fmap_app. replace (a + (b - a))%nat with b by lia.
  induction (hist <$> seq a (b - a)) as [|x l IH]; cbn; [done|]. lia.
Qed.
Lemma nodes_in_zero hist a b : (forall k, (a <= k < b)%nat -> hist k = 0%nat) -> nodes_in hist a b = 0%nat.
Proof.
  intros H. unfold nodes_in. assert (forall k, k ∈ seq a (b - a) -> hist k = 0%nat) as H' by (intros k Hk; apply elem_of_seq in Hk; apply H; lia).
  clear H. induction (seq a (b - a)) as [|x l IH]; [done|]. cbn. rewrite IH by (intros; apply H'; by right). rewrite H' by (by left). done.
Qed.
Lemma nodes_in_one hist k : nodes_in hist k (S k) = hist k.
Proof. unfold nodes_in. replace (S k - k)%nat with 1%nat by lia. cbn. lia. Qed.
Lemma nodes_in_le hist a b : (a <= b <= 257)%nat -> (nodes_in hist a b <= nodes_in hist 0 257)%nat.
Proof. intros H. rewrite (nodes_in_split hist 0 a 257), (nodes_in_split hist a b 257) by lia. lia. Qed.
Lemma nodes_in_pos hist a b k : (a <= k < b)%nat -> (hist k <= nodes_in hist a b)%nat.
Proof.
  intros H. rewrite (nodes_in_split hist a k b), (nodes_in_split hist k (S k) b), nodes_in_one by lia. lia.
Qed.

(** ** Formats by slot count *)
Definition rank (k : nat) : nat := if Nat.eqb k 0 then 0 else if (k <=? 5)%nat then 1 else if (k <=? 244)%nat then 2 else 3.
Definition fmt_rank (f : fmt) : nat := match f with FLeaf => 0 | FTiny => 1 | FMedium => 2 | FFull => 3 end.
Lemma fmt_rank_inj f g : fmt_rank f = fmt_rank g -> f = g.
Proof. by destruct f, g. Qed.
Lemma rank_mono a b : (a <= b)%nat -> (rank a <= rank b)%nat.
Proof. intros H. unfold rank. repeat case_match; try lia; rewrite ?Nat.eqb_eq, ?Nat.eqb_neq, ?Nat.leb_le, ?Nat.leb_nle in *; lia. Qed.
Definition cap_of (k : nat) : nat := if (245 <=? k)%nat then 256 else k.

Lemma propose_format_spec k : k <> 1%nat -> exists s, propose_format k = Some s /\ fmt_rank (s_fmt s) = rank k /\ s_cap s = cap_of k.
Proof.
  intros H. unfold propose_format, rank, cap_of. destruct (Nat.eqb_spec k 0) as [->|]; [eexists; done|].
  destruct (Nat.eqb_spec k 1); [done|]. destruct (Nat.leb_spec k 5).
  - eexists. split; [done|]. cbn [s_fmt s_cap fmt_rank]. destruct (Nat.leb_spec 245 k); [lia|done].
  - destruct (Nat.leb_spec 245 k); (eexists; split; [done|]); cbn [s_fmt s_cap fmt_rank]; destruct (Nat.leb_spec k 244); try lia; done.
Qed.

Lemma c_max_pos c : 0 < c_max c.
Proof. unfold c_max. destruct (c_back c); lia. Qed.
Lemma wrap_small c z : 0 <= z <= c_max c -> wrap c z = z.
Proof. intros H. unfold wrap. apply Z.mod_small. lia. Qed.
(** no slot count is covered twice *)
Definition cover_once (gs : list group) : Prop := forall k, (length (filter (fun g => covers g k) gs) <= 1)%nat.

  Lemma cover_once_perm gs gs' : gs ≡ₚ gs' -> cover_once gs -> cover_once gs'.
  Proof. intros Hp H k. specialize (H k). by rewrite Hp in H. Qed.

  Lemma slot_group_from_none i gs k acc : (forall g, g ∈ gs -> ~ covers g k) -> slot_group_from i gs k acc = acc.
  Proof.
    revert i acc. induction gs as [|x gs IH]; intros i acc H; [done|]. cbn [slot_group_from]. rewrite IH by (intros; apply H; by right).
    destruct (Nat.leb_spec (g_start x) k), (Nat.ltb_spec k (g_end x)); try done. exfalso. apply (H x); [by left|unfold covers; lia].
  Qed.
  Lemma slot_group_from_some i gs k acc j g : cover_once gs -> gs !! j = Some g -> covers g k -> slot_group_from i gs k acc = (i + j)%nat.
  Proof.
    intros Ho. revert i acc j. induction gs as [|x gs IH]; intros i acc j Hj Hc; [done|]. cbn [slot_group_from]. destruct j as [|j].
    - injection Hj as ->. rewrite slot_group_from_none.
      + unfold covers in Hc. destruct (Nat.leb_spec (g_start g) k), (Nat.ltb_spec k (g_end g)); cbn; lia.
      + intros y Hy Hcy. specialize (Ho k). rewrite filter_cons, decide_True in Ho by done. cbn [length] in Ho.
        assert (y ∈ filter (fun g => covers g k) gs) as Hin by (by apply elem_of_list_filter). destruct (filter _ gs); [by apply elem_of_nil in Hin|cbn in Ho; lia].
    - cbn in Hj. rewrite (fun H => IH H _ _ j); [lia| |done|done]. intros k'. specialize (Ho k'). rewrite filter_cons in Ho. case_decide; cbn [length] in Ho; lia.
  Qed.
  Lemma slot_group_some gs k j g : cover_once gs -> gs !! j = Some g -> covers g k -> slot_group gs k = j.
  Proof. intros. unfold slot_group. by rewrite (slot_group_from_some 0 gs k 0 j g). Qed.


Section Design.
  Context (c : config) (hist : nat -> nat).
  Context (Hone : hist 1%nat = 0%nat).
  Context (Hsize : Z.of_nat (nodes_in hist 0 257 * node_limit c) <= c_max c).
  Context (Hnid : (1 <= c_nid c)%nat) (Hhid : (1 <= c_hid c)%nat).

  Record gok (g : group) : Prop := {
    gk_range : (g_start g < g_end g <= 257)%nat;
    gk_used : (0 < hist (g_start g))%nat;
    gk_last : (0 < hist (g_end g - 1))%nat;
    gk_count : g_count g = nodes_in hist (g_start g) (g_end g);
    gk_lo : fmt_rank (s_fmt (g_spec g)) = rank (g_start g);
    gk_hi : fmt_rank (s_fmt (g_spec g)) = rank (g_end g - 1);
    gk_cap : s_cap (g_spec g) = cap_of (g_end g - 1);
    gk_bytes : g_bytes g = Z.of_nat (g_count g * byte_size c (g_spec g))
  }.
  Fixpoint chain (lo : nat) (gs : list group) : Prop :=
    match gs with
    | [] => forall k, (lo <= k < 257)%nat -> hist k = 0%nat
    | g :: gs' => (lo <= g_start g)%nat /\ (forall k, (lo <= k < g_start g)%nat -> hist k = 0%nat) /\ gok g /\ chain (g_end g) gs'
    end.

  Lemma chain_lower lo lo' gs : (lo' <= lo)%nat -> (forall k, (lo' <= k < lo)%nat -> hist k = 0%nat) -> chain lo gs -> chain lo' gs.
  Proof.
    intros Hle Hz. destruct gs as [|g gs]; cbn [chain].
    - intros H k Hk. destruct (decide (k < lo)%nat); [apply Hz; lia|apply H; lia].
    - intros (H1 & H2 & H3 & H4). split; [lia|]. split; [|done]. intros k Hk. destruct (decide (k < lo)%nat); [apply Hz; lia|apply H2; lia].
  Qed.

  Lemma size_limit_tight s k : fmt_rank (s_fmt s) = rank k -> s_cap s = cap_of k -> (k <= 256)%nat -> (byte_size c s <= node_limit c)%nat.
  Proof.
    intros Hr Hcap Hk. unfold rank in Hr. unfold byte_size, node_limit. rewrite Hcap. unfold cap_of.
    repeat case_match; rewrite ?Nat.eqb_eq, ?Nat.eqb_neq, ?Nat.leb_le, ?Nat.leb_nle in *; destruct (s_fmt s); cbn in Hr; try lia; nia.
  Qed.
  Lemma size_pos s k : fmt_rank (s_fmt s) = rank k -> (1 <= byte_size c s)%nat.
  Proof. intros _. unfold byte_size. destruct (s_fmt s); lia. Qed.
  Lemma sized_ok st en s : (st <= en <= 257)%nat -> (1 <= en)%nat -> fmt_rank (s_fmt s) = rank (en - 1) -> s_cap s = cap_of (en - 1) ->
    sized c st en (nodes_in hist st en) s = Some (mk_group st en (nodes_in hist st en) s (Z.of_nat (nodes_in hist st en * byte_size c s))).
  Proof.
    intros H1 H2 Hr Hcap. unfold sized. pose proof (size_limit_tight s (en - 1) Hr Hcap ltac:(lia)). pose proof (nodes_in_le hist st en H1).
    destruct (Z.ltb_spec (c_max c) (Z.of_nat (nodes_in hist st en * byte_size c s))); [|done]. exfalso.
    assert (nodes_in hist st en * byte_size c s <= nodes_in hist 0 257 * node_limit c)%nat by (by apply Nat.mul_le_mono). lia.
  Qed.

  Lemma propose_chain n lo : (lo + n = 257)%nat -> exists gs, propose_groups c hist (seq lo n) = Some gs /\ chain lo gs.
  Proof.
    revert lo. induction n as [|n IH]; intros lo Hlo; [exists []; split; [done|]; cbn; lia|].
    destruct (IH (S lo) ltac:(lia)) as (gs & Hgs & Hch). cbn [seq propose_groups]. destruct (Nat.eqb_spec (hist lo) 0) as [Ez|Ez].
    - exists gs. split; [done|]. apply (chain_lower (S lo)); [lia| |done]. intros k Hk. assert (k = lo) as -> by lia. done.
    - destruct (propose_format_spec lo) as (s & -> & Hr & Hcap); [intros ->; by rewrite Hone in Ez|]. cbn [mbind option_bind].
      pose proof (sized_ok lo (S lo) s) as Hs. rewrite nodes_in_one in Hs. replace (S lo - 1)%nat with lo in Hs by lia. rewrite Hs by (lia || done). cbn [mbind option_bind]. rewrite Hgs. cbn [mbind option_bind].
      eexists. split; [done|]. cbn [chain g_start g_end]. split; [lia|]. split; [intros; lia|]. split; [|done].
      split; cbn [g_start g_end g_count g_spec g_bytes]; rewrite ?nodes_in_one; replace (S lo - 1)%nat with lo by lia; try done; lia.
  Qed.

  (** merging neighbours *)
  Lemma cap_of_mono a b : (a <= b <= 256)%nat -> (cap_of a <= cap_of b)%nat.
  Proof. intros H. unfold cap_of. repeat case_match; rewrite ?Nat.leb_le, ?Nat.leb_nle in *; lia. Qed.
  Lemma byte_size_mono f a b : (a <= b)%nat -> (byte_size c (mk_spec f a) <= byte_size c (mk_spec f b))%nat.
  Proof. intros H. unfold byte_size. cbn. destruct f; nia. Qed.
  Definition merged (l r : group) : group :=
    let s := mk_spec (s_fmt (g_spec l)) (s_cap (g_spec r)) in
    mk_group (g_start l) (g_end r) (g_count l + g_count r) s (Z.of_nat ((g_count l + g_count r) * byte_size c s)).
  Lemma merge_ok lo l r gs : chain lo (l :: r :: gs) -> s_fmt (g_spec r) = s_fmt (g_spec l) ->
    merge_groups c l r = Some (merged l r) /\ chain lo (merged l r :: gs) /\ g_bytes l + g_bytes r <= g_bytes (merged l r) <= c_max c /\ 0 < g_bytes l + g_bytes r.
  Proof.
    intros (H1 & H2 & Hl & H3 & H4 & Hr & H5) Hf.
    pose proof (gk_range l Hl). pose proof (gk_range r Hr).
    assert (g_count l + g_count r = nodes_in hist (g_start l) (g_end r))%nat as Hcount.
    { rewrite (nodes_in_split hist (g_start l) (g_end l) (g_end r)), (nodes_in_split hist (g_end l) (g_start r) (g_end r)) by lia.
      rewrite (nodes_in_zero hist (g_end l) (g_start r)) by done. rewrite (gk_count l Hl), (gk_count r Hr). lia. }
    set (s := mk_spec (s_fmt (g_spec l)) (s_cap (g_spec r))).
    assert (fmt_rank (s_fmt s) = rank (g_end r - 1)) as Hrk by (cbn; rewrite <- Hf; apply Hr).
    assert (s_cap s = cap_of (g_end r - 1)) as Hcp by (cbn; apply Hr).
    pose proof (sized_ok (g_start l) (g_end r) s ltac:(lia) ltac:(lia) Hrk Hcp) as Hs.
    assert (merge_groups c l r = Some (merged l r)) as Hm.
    { unfold merge_groups. destruct (Nat.ltb_spec (g_start r) (g_end l)); [lia|]. fold s. rewrite Hcount, Hs. unfold merged. fold s. by rewrite Hcount. }
    split; [done|]. split; [|split].
    - cbn [chain]. split; [done|]. split; [done|]. split; [|done].
      split; unfold merged; cbn [g_start g_end g_count g_spec g_bytes]; fold s; try done; try lia; try apply Hl; apply Hr.
    - assert (g_bytes l + g_bytes r <= g_bytes (merged l r)).
      { rewrite (gk_bytes l Hl), (gk_bytes r Hr). unfold merged. cbn [g_bytes]. fold s.
        assert (byte_size c (g_spec l) <= byte_size c s)%nat.
        { unfold s. rewrite (gk_cap r Hr). destruct (g_spec l) as [f cp] eqn:E. cbn [s_fmt]. apply byte_size_mono.
          pose proof (gk_cap l Hl) as Hcl. rewrite E in Hcl. cbn in Hcl. rewrite Hcl. apply cap_of_mono. lia. }
        assert (byte_size c (g_spec r) <= byte_size c s)%nat.
        { unfold s. rewrite <- Hf. destruct (g_spec r). cbn. lia. }
        nia. }
      split; [done|]. unfold merge_groups in Hm. destruct (Nat.ltb_spec (g_start r) (g_end l)); [lia|]. unfold sized in Hm. fold s in Hm.
      destruct (Z.ltb_spec (c_max c) (Z.of_nat ((g_count l + g_count r) * byte_size c s))); [done|]. unfold merged. cbn [g_bytes]. fold s. lia.
    - rewrite (gk_bytes l Hl), (gk_bytes r Hr). pose proof (size_pos _ _ (gk_lo l Hl)). 
      assert (0 < g_count l)%nat by (rewrite (gk_count l Hl); pose proof (nodes_in_pos hist (g_start l) (g_end l) (g_start l) ltac:(lia)); pose proof (gk_used l Hl); lia). nia.
  Qed.

  (** the cheapest merge found is a merge of neighbours *)
  Definition is_merge (gs : list group) (i : nat) (m : group) : Prop :=
    exists l r, gs !! i = Some l /\ gs !! S i = Some r /\ s_fmt (g_spec r) = s_fmt (g_spec l) /\ m = merged l r.
  Fixpoint same_neighbours (gs : list group) : Prop :=
    match gs with l :: ((r :: _) as gs') => s_fmt (g_spec r) = s_fmt (g_spec l) \/ same_neighbours gs' | _ => False end.
  Lemma best_merge_spec all pre gs lo best : all = pre ++ gs -> chain lo gs ->
    (forall i m, snd best = Some (i, m) -> is_merge all i m) -> (snd best = None -> fst best = c_max c) ->
    exists cost r, best_merge c (length pre) gs best = Some (cost, r) /\
      (forall i m, r = Some (i, m) -> is_merge all i m) /\ (same_neighbours gs \/ snd best <> None -> r <> None).
  Proof.
    revert pre lo best. induction gs as [|l gs IH]; intros pre lo best Hall Hch Hb Hb0.
    { destruct best as [x r]. exists x, r. split; [done|]. split; [done|]. intros [[]|]; done. }
    destruct gs as [|r gs].
    { destruct best as [x y]. exists x, y. split; [done|]. split; [done|]. intros [[]|]; done. }
    assert (chain (g_end l) (r :: gs)) as Hch' by apply Hch.
    specialize (IH (pre ++ [l]) (g_end l)). rewrite app_length in IH. cbn [length] in IH. replace (length pre + 1)%nat with (S (length pre)) in IH by lia.
    assert (all = (pre ++ [l]) ++ r :: gs) as Hall' by (by rewrite <- app_assoc).
    change (same_neighbours (l :: r :: gs)) with (s_fmt (g_spec r) = s_fmt (g_spec l) \/ same_neighbours (r :: gs)).
    change (best_merge c (length pre) (l :: r :: gs) best) with
      (if decide (s_fmt (g_spec r) = s_fmt (g_spec l)) then
        m ← merge_groups c l r;
        let cost := wrap c (g_bytes m - wrap c (g_bytes l + g_bytes r)) in
        best_merge c (S (length pre)) (r :: gs) (if cost <? fst best then (cost, Some (length pre, m)) else best)
      else best_merge c (S (length pre)) (r :: gs) best).
    destruct (decide (s_fmt (g_spec r) = s_fmt (g_spec l))) as [Hf|Hf].
    - destruct (merge_ok lo l r gs Hch Hf) as (-> & _ & Hle & Hpos). cbn [mbind option_bind].
      cbv zeta. rewrite (wrap_small c (g_bytes l + g_bytes r)) by lia. rewrite wrap_small by lia.
      set (best' := if _ <? _ then _ else _).
      assert (forall i m, snd best' = Some (i, m) -> is_merge all i m) as Hb'.
      { unfold best'. case_match; [|done]. intros i m [= <- <-]. exists l, r. rewrite Hall. rewrite !lookup_app_r by lia. rewrite Nat.sub_diag.
        replace (S (length pre) - length pre)%nat with 1%nat by lia. done. }
      assert (snd best' <> None) as Hnn.
      { unfold best'. destruct (Z.ltb_spec (g_bytes (merged l r) - (g_bytes l + g_bytes r)) (fst best)) as [|Hge]; [done|].
        intros Hn. rewrite (Hb0 Hn) in Hge. lia. }
      destruct (IH best' Hall' Hch' Hb' ltac:(done)) as (cost & res & E & Hm & Hs). exists cost, res. split; [done|]. split; [done|]. intros _. apply Hs. by right.
    - destruct (IH best Hall' Hch' Hb Hb0) as (cost & res & E & Hm & Hs). exists cost, res. split; [done|]. split; [done|].
      intros [[|]|]; [done|apply Hs; by left|apply Hs; by right].
  Qed.

  Lemma chain_at lo gs i l r : chain lo gs -> gs !! i = Some l -> gs !! S i = Some r -> s_fmt (g_spec r) = s_fmt (g_spec l) ->
    chain lo (take i gs ++ merged l r :: drop (i + 2) gs).
  Proof.
    revert lo i. induction gs as [|g gs IH]; intros lo i Hch Hl Hr Hf; [done|]. destruct i as [|i].
    - injection Hl as ->. destruct gs as [|r' gs]; [done|]. injection Hr as ->. cbn [take app drop plus]. rewrite drop_0. by apply (merge_ok lo l r gs Hch Hf).
    - cbn [take app drop plus]. destruct Hch as (H1 & H2 & H3 & H4). cbn [chain]. split; [done|]. split; [done|]. split; [done|]. by apply IH.
  Qed.

  (** more than four groups: two neighbours share a format *)
  Lemma chain_neighbours lo gs g gs' : gs = g :: gs' -> chain lo gs -> ~ same_neighbours gs -> (length gs + fmt_rank (s_fmt (g_spec g)) <= 4)%nat.
  Proof.
    revert lo g gs'. induction gs as [|x gs IH]; intros lo g gs' E Hch Hn; [done|]. injection E as -> ->.
    destruct gs' as [|r gs'].
    - cbn [length]. destruct (s_fmt (g_spec g)); cbn; lia.
    - destruct Hch as (H1 & H2 & H3 & H4). cbn [same_neighbours] in Hn.
      specialize (IH (g_end g) r gs' eq_refl H4 ltac:(intros ?; apply Hn; by right)).
      assert (s_fmt (g_spec r) <> s_fmt (g_spec g)) as Hne by (intros ?; apply Hn; by left).
      assert (fmt_rank (s_fmt (g_spec g)) < fmt_rank (s_fmt (g_spec r)))%nat.
      { destruct H4 as (H5 & _ & H6 & _). pose proof (rank_mono (g_end g - 1) (g_start r) ltac:(lia)). rewrite <- (gk_hi g H3), <- (gk_lo r H6) in H.
        assert (fmt_rank (s_fmt (g_spec g)) <> fmt_rank (s_fmt (g_spec r))) by (intros E; apply fmt_rank_inj in E; by rewrite E in Hne). lia. }
      cbn [length] in *. lia.
  Qed.
  Lemma same_neighbours_dec gs : same_neighbours gs \/ ~ same_neighbours gs.
  Proof.
    induction gs as [|l gs IH]; [right; intros []|]. destruct gs as [|r gs]; [right; intros []|]. cbn [same_neighbours].
    destruct (decide (s_fmt (g_spec r) = s_fmt (g_spec l))); [by left; left|]. destruct IH; [by left; right|]. right. tauto.
  Qed.
  Lemma refine_chain lo gs : chain lo gs -> (4 < length gs)%nat -> exists gs', refine c gs = Some (Some gs') /\ chain lo gs' /\ S (length gs') = length gs.
  Proof.
    intros Hch Hl. assert (same_neighbours gs) as Hn.
    { destruct (same_neighbours_dec gs) as [|Hn]; [done|]. destruct gs as [|g gs]; [cbn in Hl; lia|]. pose proof (chain_neighbours lo _ g gs eq_refl Hch Hn). lia. }
    destruct (best_merge_spec gs [] gs lo (c_max c, None) eq_refl Hch ltac:(done) ltac:(done)) as (cost & r & E & Hm & Hs).
    unfold refine. cbn [length] in E. rewrite E. cbn [mbind option_bind snd]. destruct r as [[i m]|]; [|by destruct (Hs ltac:(by left))].
    eexists. split; [done|]. destruct (Hm i m eq_refl) as (l & r & H1 & H2 & H3 & ->). split; [by apply chain_at|].
    pose proof (lookup_lt_Some _ _ _ H2). rewrite app_length, take_length. cbn [length]. rewrite drop_length. lia.
  Qed.
  Lemma reduce_chain fuel lo gs : chain lo gs -> (4 <= c_K c)%nat -> (length gs <= fuel)%nat ->
    exists gs', reduce c fuel gs = Some gs' /\ chain lo gs' /\ (length gs' <= c_K c)%nat.
  Proof.
    revert gs. induction fuel as [|f IH]; intros gs Hch HK Hf; cbn [reduce]; destruct (Nat.leb_spec (length gs) (c_K c)).
    - eauto.
    - lia.
    - eauto.
    - destruct (refine_chain lo gs Hch ltac:(lia)) as (gs1 & -> & Hch1 & Hl1). cbn [mbind option_bind]. apply IH; [done|done|lia].
  Qed.

  (** sorting keeps the groups *)
  Lemma ins_group_perm x l : ins_group x l ≡ₚ x :: l.
  Proof. induction l as [|y l IH]; [done|]. cbn. destruct (group_less y x); [|done]. rewrite IH. apply Permutation_swap. Qed.
  Lemma sort_groups_perm l : sort_groups l ≡ₚ l.
  Proof. unfold sort_groups. induction l as [|x l IH]; [done|]. cbn. by rewrite ins_group_perm, IH. Qed.

  Lemma chain_elem lo gs g : chain lo gs -> g ∈ gs -> gok g /\ (lo <= g_start g)%nat.
  Proof.
    revert lo. induction gs as [|x gs IH]; intros lo Hch Hg; [by apply elem_of_nil in Hg|]. destruct Hch as (H1 & H2 & H3 & H4).
    apply elem_of_cons in Hg as [->|Hg]; [done|]. destruct (IH _ H4 Hg) as [H5 H6]. split; [done|]. pose proof (gk_range x H3). lia.
  Qed.
  Lemma chain_cover lo gs k : chain lo gs -> (lo <= k < 257)%nat -> (0 < hist k)%nat -> exists g, g ∈ gs /\ covers g k.
  Proof.
    revert lo. induction gs as [|x gs IH]; intros lo Hch Hk Hp; [cbn in Hch; rewrite Hch in Hp by lia; lia|].
    destruct Hch as (H1 & H2 & H3 & H4). destruct (decide (k < g_start x)%nat); [rewrite H2 in Hp by lia; lia|].
    destruct (decide (k < g_end x)%nat); [exists x; split; [by left|unfold covers; lia]|].
    destruct (IH _ H4 ltac:(lia) Hp) as (g & Hg & Hc). exists g. split; [by right|done].
  Qed.
  Lemma chain_total lo gs : chain lo gs -> (lo <= 257)%nat -> sum_list (g_count <$> gs) = nodes_in hist lo 257.
  Proof.
    revert lo. induction gs as [|x gs IH]; intros lo Hch Hlo; cbn [fmap list_fmap sum_list].
    - symmetry. apply nodes_in_zero. exact Hch.
    - destruct Hch as (H1 & H2 & H3 & H4). pose proof (gk_range x H3). rewrite (IH _ H4) by lia. rewrite (gk_count x H3).
      rewrite (nodes_in_split hist lo (g_start x) 257), (nodes_in_split hist (g_start x) (g_end x) 257) by lia. rewrite (nodes_in_zero hist lo (g_start x)) by done. unfold id. lia.
  Qed.
  Lemma chain_once lo gs k : chain lo gs -> (k < lo)%nat -> filter (fun g => covers g k) gs = [].
  Proof.
    intros Hch Hk. apply filter_nil_not_elem_of_2 || idtac. revert lo Hch Hk. induction gs as [|x gs IH]; intros lo Hch Hk; [done|].
    destruct Hch as (H1 & H2 & H3 & H4). pose proof (gk_range x H3). rewrite filter_cons, decide_False by (unfold covers; lia). apply (IH (g_end x)); [done|lia].
  Qed.
  Lemma chain_cover_once lo gs : chain lo gs -> cover_once gs.
  Proof.
    intros Hch k. revert lo Hch. induction gs as [|x gs IH]; intros lo Hch; [cbn; lia|]. destruct Hch as (H1 & H2 & H3 & H4).
    rewrite filter_cons. case_decide as Hc; [|by apply (IH (g_end x))]. rewrite (chain_once (g_end x)); [done|done|apply Hc].
  Qed.
  Lemma rank_format s k : fmt_rank (s_fmt s) = rank k -> k <> 1%nat -> (k <= 256)%nat -> s_cap s = s_cap s -> (rank k = rank k) ->
    match s_fmt s with FLeaf => k = 0 | FTiny => 2 <= k <= 5 | FMedium => 6 <= k <= 244 | FFull => 245 <= k <= 256 end%nat.
  Proof.
    intros Hr H1 H2 _ _. unfold rank in Hr. destruct (Nat.eqb_spec k 0), (Nat.leb_spec k 5), (Nat.leb_spec k 244); destruct (s_fmt s); cbn in Hr; lia.
  Qed.
  Lemma gok_format g k : gok g -> covers g k -> k <> 1%nat -> format_for (g_spec g) k.
  Proof.
    intros Hg [Hk1 Hk2] H1. pose proof (gk_range g Hg).
    assert (fmt_rank (s_fmt (g_spec g)) = rank k) as Hr.
    { pose proof (rank_mono (g_start g) k ltac:(lia)). pose proof (rank_mono k (g_end g - 1) ltac:(lia)). pose proof (gk_lo g Hg). pose proof (gk_hi g Hg). lia. }
    pose proof (rank_format (g_spec g) k Hr H1 ltac:(lia) eq_refl eq_refl) as Hf. pose proof (gk_cap g Hg) as Hcap. pose proof (gk_hi g Hg) as Hhi. unfold format_for.
    assert (s_fmt (g_spec g) <> FFull -> (k <= s_cap (g_spec g))%nat) as Hle.
    { intros _. rewrite Hcap. unfold cap_of. destruct (Nat.leb_spec 245 (g_end g - 1)); lia. }
    destruct (s_fmt (g_spec g)); try done; split; try done; by apply Hle.
  Qed.
  Lemma gok_cap g : gok g -> (forall k, (0 < hist k)%nat -> k <> 1%nat) -> cap_ok (g_spec g).
  Proof.
    intros Hg H1. pose proof (gk_range g Hg). pose proof (rank_format (g_spec g) _ (gk_hi g Hg) (H1 _ (gk_last g Hg)) ltac:(lia) eq_refl eq_refl) as Hf.
    pose proof (gk_cap g Hg) as Hcap. unfold cap_ok. rewrite Hcap. unfold cap_of. destruct (s_fmt (g_spec g)); try done; destruct (Nat.leb_spec 245 (g_end g - 1)); lia.
  Qed.

  (** ** The design of a level *)
  Record design_ok (gs : list group) : Prop := {
    do_limit : (length gs <= c_K c)%nat;
    do_once : cover_once gs;
    do_cover : forall k, (k < 257)%nat -> (0 < hist k)%nat -> exists i g, gs !! i = Some g /\ covers g k /\ slot_group gs k = i /\ format_for (g_spec g) k;
    do_cap : forall g, g ∈ gs -> cap_ok (g_spec g) /\ (g_end g <= 257)%nat;
    do_count : forall g, g ∈ gs -> g_count g = nodes_in hist (g_start g) (g_end g);
    do_total : sum_list (g_count <$> gs) = nodes_in hist 0 257;
    do_bytes : forall g, g ∈ gs -> g_bytes g = Z.of_nat (g_count g * byte_size c (g_spec g))
  }.
  Lemma sum_list_perm (l l' : list nat) : l ≡ₚ l' -> sum_list l = sum_list l'.
  Proof. induction 1; cbn; lia. Qed.
  Lemma design_level_ok : (5 <= c_K c)%nat -> exists gs, design_level c hist = Some gs /\ design_ok gs.
  Proof.
    intros HK. unfold design_level. destruct (propose_chain 257 0 eq_refl) as (gs0 & E0 & Hch0).
    rewrite E0. cbn [mbind option_bind].
    destruct (reduce_chain (length gs0) 0 gs0 Hch0 ltac:(lia) ltac:(lia)) as (gs1 & -> & Hch1 & Hl1). cbn [mbind option_bind].
    eexists. split; [done|]. pose proof (sort_groups_perm gs1) as Hp.
    assert (cover_once (sort_groups gs1)) as Ho by (eapply cover_once_perm; [symmetry; apply Hp|by eapply chain_cover_once]).
    assert (forall k, (0 < hist k)%nat -> k <> 1%nat) as H1 by (intros k Hk ->; rewrite Hone in Hk; lia).
    split.
    - by rewrite Hp.
    - done.
    - intros k Hk Hpos. destruct (chain_cover 0 gs1 k Hch1 ltac:(lia) Hpos) as (g & Hg & Hc). rewrite <- Hp in Hg.
      apply elem_of_list_lookup in Hg as (i & Hi). exists i, g. split; [done|]. split; [done|]. split; [by eapply slot_group_some|].
      apply gok_format; [|done|by apply H1]. apply (chain_elem 0 gs1); [done|]. rewrite <- Hp. by eapply elem_of_list_lookup_2.
    - intros g Hg. rewrite Hp in Hg. pose proof (proj1 (chain_elem _ _ _ Hch1 Hg)) as Hk. split; [by apply gok_cap|apply Hk].
    - intros g Hg. rewrite Hp in Hg. apply (proj1 (chain_elem _ _ _ Hch1 Hg)).
    - rewrite (sum_list_perm _ (g_count <$> gs1)) by (by rewrite Hp). apply chain_total; [done|lia].
    - intros g Hg. rewrite Hp in Hg. apply (proj1 (chain_elem _ _ _ Hch1 Hg)).
  Qed.
End Design.
