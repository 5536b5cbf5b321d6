(** A baked tree answers like the tree (for C30). *)
From Verif Require Import Base Model_Tree Spec_Tree Proof_Tree Model_Chunk Spec_Chunk Proof_Node Proof_Design Proof_Layout.

Lemma mapM_Forall2 {A B} (f : A -> option B) (P : A -> B -> Prop) (l : list A) :
  (forall x, x ∈ l -> exists y, f x = Some y /\ P x y) -> exists ys, mapM f l = Some ys /\ Forall2 P l ys.
Proof.
  induction l as [|x l IH]; intros H; [by exists []|]. destruct (H x ltac:(by left)) as (y & Hy & Py).
  destruct IH as (ys & Hys & Pys); [intros z Hz; apply H; by right|]. exists (y :: ys). cbn. rewrite Hy. cbn. rewrite Hys. cbn. split; [done|]. by constructor.
Qed.

(** ** Walking a tree *)
Lemma elem_of_concat_map {A B} (f : A -> list B) (l : list A) (y : B) : y ∈ concat (map f l) <-> exists x, x ∈ l /\ y ∈ f x.
Proof.
  induction l as [|x l IH]; cbn.
  - split; [intros H; by apply elem_of_nil in H|intros (x & Hx & _); by apply elem_of_nil in Hx].
  - rewrite elem_of_app, IH. split.
    + intros [H|(z & Hz & H)]; [exists x; split; [by left|done]|exists z; split; [by right|done]].
    + intros (z & Hz & H). apply elem_of_cons in Hz as [->|Hz]; [by left|right; eauto].
Qed.
Lemma elem_of_rev_bytes v : v ∈ rev byte_vals <-> 0 <= v < 256.
Proof. rewrite <- elem_of_list_In, <- in_rev || rewrite elem_of_list_In, <- in_rev, <- elem_of_list_In. rewrite byte_vals_eq, elem_of_seqZ. lia. Qed.

Lemma visit_root k t : is_node t = true -> (k, t) ∈ visit k t.
Proof. destruct t; [done| |]; intros _; left. Qed.
Lemma visit_prefix k t k' t' : (k', t') ∈ visit k t -> (exists p, k' = k ++ p) /\ is_node t' = true.
Proof.
  revert k. induction t as [|re pi h|bi f IH]; intros k H; cbn [visit] in H; [by apply elem_of_nil in H| |].
  - apply elem_of_list_singleton in H as [= -> ->]. split; [exists []; by rewrite app_nil_r|done].
  - apply elem_of_cons in H as [[= -> ->]|H]; [split; [exists []; by rewrite app_nil_r|done]|].
    apply elem_of_concat_map in H as (v & Hv & H). destruct (IH v _ H) as [(p & ->) Hn]. split; [|done]. exists ([v] ++ p). by rewrite app_assoc.
Qed.
Lemma visit_child k t k' bi f v : (k', Slots bi f) ∈ visit k t -> 0 <= v < 256 -> is_node (f v) = true -> (k' ++ [v], f v) ∈ visit k t.
Proof.
  revert k. induction t as [|re pi h|bi' f' IH]; intros k H Hv Hn; cbn [visit] in H |- *; [by apply elem_of_nil in H| |].
  - apply elem_of_list_singleton in H. done.
  - right. apply elem_of_concat_map. apply elem_of_cons in H as [[= -> -> ->]|H].
    + exists v. split; [by apply elem_of_rev_bytes|]. by apply visit_root.
    + apply elem_of_concat_map in H as (w & Hw & H). exists w. split; [done|]. by apply IH.
Qed.
Lemma visit_nodup k t : NoDup (fst <$> visit k t).
Proof.
  revert k. induction t as [|re pi h|bi f IH]; intros k; cbn [visit].
  - constructor.
  - apply NoDup_singleton.
  - cbn [fmap list_fmap fst]. apply NoDup_cons. split.
    + intros H. apply elem_of_list_fmap in H as ([k' t'] & E & H). cbn in E. subst k'. apply elem_of_concat_map in H as (v & _ & H).
      apply visit_prefix in H as [(p & E) _]. apply (f_equal length) in E. rewrite !app_length in E. cbn in E. lia.
    + assert (NoDup (rev byte_vals)) as Hnd by (rewrite byte_vals_eq; apply NoDup_ListNoDup, List.NoDup_rev, NoDup_ListNoDup, NoDup_seqZ).
      revert Hnd. generalize (rev byte_vals) as l. induction l as [|v l IHl]; intros Hnd; [constructor|]. cbn [map concat]. rewrite fmap_app. apply NoDup_cons in Hnd as [Hv Hnd].
      apply NoDup_app. split; [apply IH|]. split; [|by apply IHl]. intros k' H1 H2.
      apply elem_of_list_fmap in H1 as ([k1 t1] & -> & H1). cbn in H2. apply elem_of_list_fmap in H2 as ([k2 t2] & E & H2). cbn in E. subst k2.
      apply elem_of_concat_map in H2 as (w & Hw & H2). apply visit_prefix in H1 as [(p1 & E1) _]. apply visit_prefix in H2 as [(p2 & E2) _].
      rewrite E1 in E2. rewrite <- !app_assoc in E2. apply app_inv_head in E2. injection E2 as -> _. done.
Qed.
Lemma level_child c k v : (1 <= length k)%nat -> level c (k ++ [v]) = S (level c k).
Proof. intros H. unfold level. rewrite app_length. cbn. lia. Qed.

(** ** What a well-made tree looks like *)
Fixpoint wf (R : nat) (P : Z -> Prop) (fl : list bool) (t : tree) : Prop :=
  match t with
  | Empty => True
  | Leaf re pi _ => length re = Nat.min R (set_count fl) /\ P pi
  | Slots bi f => fl !! bi = Some true /\ (2 <= active t)%nat /\ forall v, wf R P (flip bi fl) (f v)
  end.
Lemma visit_wf R P fl k t k' t' : wf R P fl t -> (k', t') ∈ visit k t -> exists fl', length fl' = length fl /\ wf R P fl' t'.
Proof.
  revert k fl. induction t as [|re pi h|bi f IH]; intros k fl Hwf H; cbn [visit] in H; [by apply elem_of_nil in H| |].
  - apply elem_of_list_singleton in H as [= -> ->]. eauto.
  - apply elem_of_cons in H as [[= -> ->]|H]; [eauto|]. apply elem_of_concat_map in H as (v & _ & H). destruct Hwf as (_ & _ & Hwf).
    destruct (IH v _ _ (Hwf v) H) as (fl' & Hl & Hw). exists fl'. by rewrite flip_length in Hl.
Qed.
Lemma active_le t : (active t <= 256)%nat.
Proof.
  destruct t as [| |bi f]; cbn [active]; try lia. etrans; [apply filter_length|]. rewrite byte_vals_eq, seqZ_length. change (Z.to_nat 256) with 256%nat. lia.
Qed.

(** ** Reassurance bytes with padding *)
Lemma reassured_check fl q re pad : length q = length fl -> (pad = [] \/ length re = set_count fl) -> (length re <= set_count fl)%nat ->
  exists b, check fl q re = Some b /\ reassured fl q (re ++ pad) = b.
Proof.
  revert q re. induction fl as [|b fl IH]; intros q re Hq Hp Hle.
  - destruct q; [|done]. destruct re; [|cbn in Hle; lia]. exists true. done.
  - destruct q as [|x q]; [done|]. injection Hq as Hq. destruct b.
    + unfold set_count in *. rewrite filter_cons_True in Hle, Hp by done. cbn [length] in Hle, Hp. destruct re as [|r re].
      * exists true. split; [done|]. destruct Hp as [->|Hp]; [done|]. cbn in Hp. lia.
      * cbn [check reassured app]. destruct (x =? r); [|eauto]. apply IH; [done| |cbn in Hle; lia]. destruct Hp as [|Hp]; [by left|right; cbn in Hp; lia].
    + unfold set_count in *. rewrite filter_cons_False in Hle, Hp by done. destruct re as [|r re].
      * exists true. split; [done|]. cbn [reassured]. destruct (IH q [] Hq Hp Hle) as (b & E & E'). destruct fl, q; cbn in E; injection E as <-; exact E'.
      * cbn [check reassured]. apply (IH q (r :: re) Hq Hp Hle).
Qed.

Lemma omap_ext_in {A B} (f g : A -> option B) (l : list A) : (forall x, x ∈ l -> f x = g x) -> omap f l = omap g l.
Proof.
  induction l as [|x l IH]; intros H; [done|]. cbn [omap list_omap]. rewrite (H x) by left. rewrite IH; [done|]. intros y Hy. apply H. by right.
Qed.

Lemma tree_pis_slots bi f : tree_pis (Slots bi f) = concat (map (fun v => tree_pis (f v)) byte_vals).
Proof. reflexivity. Qed.

Lemma leaves_step c lv lvs id sp b bi ids ls : extract_node c lv id = Some (Some (sp, b)) -> (sp =? Z.of_nat (c_R c + c_hid c)) = false ->
  byte_index c sp b = Some bi -> all_ids c sp b = Some ids -> mapM (leaves_from c lvs) ids = Some ls -> leaves_from c (lv :: lvs) id = Some (concat ls).
Proof. intros E1 E2 E3 E4 E5. cbn [leaves_from]. rewrite E1. cbn [mbind option_bind]. rewrite E2, E3. cbn [mbind option_bind]. rewrite E4. cbn [mbind option_bind]. by rewrite E5. Qed.

(** ** Simulation *)
Section Simulation.
  Context (c : config) (Hc : config_ok c) (lid : Z -> option Z).
  Context (ns : list (key * tree)) (lvs : list (list Z * list Z)) (ID : key -> Z).

  Definition pi_ok (pi : Z) : Prop := exists id, lid pi = Some id /\ 0 < id < pow256 (c_hid c).
  Definition stored (k : key) (t : tree) : Prop := exists lv s b,
    lvs !! level c k = Some lv /\ extract_node c lv (ID k) = Some (Some (spec_word c s, b)) /\ cap_ok s /\
    match t with
    | Empty => False
    | Leaf re pi _ => s_fmt s = FLeaf /\ b = re ++ replicate (c_R c - length re) 0 ++ le_enc (c_hid c) (default 0 (lid pi))
    | Slots bi f => s_fmt s <> FLeaf /\ byte_index c (spec_word c s) b = Some (Z.of_nat bi) /\
        (forall v, 0 <= v < 256 -> next_id c (spec_word c s) b v = Some (if is_node (f v) then ID (k ++ [v]) else 0)) /\
        all_ids c (spec_word c s) b = Some (omap (fun v => if is_node (f v) then Some (ID (k ++ [v])) else None) byte_vals)
    end.
  Context (Hstored : forall k t, (k, t) ∈ ns -> stored k t).
  Context (Hchild : forall k bi f v, (k, Slots bi f) ∈ ns -> 0 <= v < 256 -> is_node (f v) = true -> (k ++ [v], f v) ∈ ns).
  Context (Hid : forall k t, (k, t) ∈ ns -> 1 <= ID k).
  Context (Hkey : forall k t, (k, t) ∈ ns -> (1 <= length k)%nat).

  Definition conv (a : answer) : Z := match a with Found pi => default 0 (lid pi) | _ => 0 end.

  Lemma simulate t k fl q : (k, t) ∈ ns -> wf (c_R c) pi_ok fl t -> length q = length fl -> bytes q ->
    find_in c (drop (level c k) lvs) (ID k) fl q = Some (conv (shallow_lookup t fl q)) /\ shallow_lookup t fl q <> Crash.
  Proof using Hc Hstored Hchild Hid Hkey.
    revert k fl. induction t as [|re pi h|bi f IH]; intros k fl Hin Hwf Hq Hb.
    - by destruct (Hstored _ _ Hin) as (lv & s & b & _ & _ & _ & []).
    - destruct (Hstored _ _ Hin) as (lv & s & b & Hlv & He & Hcap & Hf & ->). destruct Hwf as [Hre (id & Hlid & Hidr)].
      rewrite (drop_S _ _ _ Hlv). cbn [find_in]. rewrite He. cbn [mbind option_bind]. rewrite word_leaf by done. rewrite bool_decide_true by done.
      rewrite Hlid. cbn [default from_option]. unfold Datatypes.id.
      assert (length re <= c_R c)%nat as HreR by lia.
      rewrite (app_assoc re).
      assert (file_read ((re ++ replicate (c_R c - length re) 0) ++ le_enc (c_hid c) id) 0 (c_R c) = Some (re ++ replicate (c_R c - length re) 0)) as ->.
      { apply (file_read_app [] (re ++ replicate (c_R c - length re) 0)); [done|rewrite app_length, replicate_length; lia]. }
      assert (read_id (c_hid c) ((re ++ replicate (c_R c - length re) 0) ++ le_enc (c_hid c) id) (c_R c) = Some id) as Hrd.
      { rewrite <- (app_nil_r (le_enc (c_hid c) id)). apply read_id_app; [rewrite app_length, replicate_length; lia|apply le_enc_length|]. apply le_dec_enc_small. lia. }
      cbn [mbind option_bind]. rewrite Hrd. cbn [mbind option_bind shallow_lookup].
      destruct (reassured_check fl q re (replicate (c_R c - length re) 0) Hq) as (b & -> & ->).
      + destruct (decide (length re = set_count fl)); [by right|]. left. replace (c_R c - length re)%nat with 0%nat by lia. done.
      + lia.
      + destruct b; cbn [conv]; [|done]. rewrite Hlid. done.
    - destruct (Hstored _ _ Hin) as (lv & s & b & Hlv & He & Hcap & Hf & Hbi & Hnx & _). destruct Hwf as (Hfl & _ & Hwf).
      rewrite (drop_S _ _ _ Hlv). cbn [find_in]. rewrite He. cbn [mbind option_bind]. rewrite word_leaf by done. rewrite bool_decide_false by done.
      rewrite Hbi. cbn [mbind option_bind]. rewrite Nat2Z.id. pose proof (lookup_lt_Some _ _ _ Hfl) as Hlt. rewrite <- Hq in Hlt.
      destruct (lookup_lt_is_Some_2 q bi Hlt) as (v & Hv). rewrite Hv. cbn [mbind option_bind].
      assert (0 <= v < 256) as Hvr by (unfold bytes in Hb; rewrite Forall_lookup in Hb; by apply Hb in Hv).
      rewrite (Hnx v Hvr). cbn [mbind option_bind]. rewrite Hfl. cbn [shallow_lookup]. rewrite (list_lookup_total_correct _ _ _ Hv).
      destruct (is_node (f v)) eqn:En.
      + pose proof (Hchild _ _ _ _ Hin Hvr En) as Hin'. pose proof (Hid _ _ Hin'). destruct (Z.eqb_spec (ID (k ++ [v])) 0); [lia|].
        rewrite <- (level_child c k v) by (by eapply Hkey). apply IH; [done|apply Hwf|by rewrite flip_length|done].
      + destruct (f v); [|done|done]. cbn. done.
  Qed.

  (** the leaves below a node, in order *)
  Lemma leaves_slots (g : Z -> option (list Z)) (f : Z -> tree) (i : Z -> Z) l :
    (forall v, v ∈ l -> is_node (f v) = true -> g (i v) = Some ((fun pi => default 0 (lid pi)) <$> tree_pis (f v))) ->
    exists ls, mapM g (omap (fun v => if is_node (f v) then Some (i v) else None) l) = Some ls /\
      concat ls = (fun pi => default 0 (lid pi)) <$> concat (map (fun v => tree_pis (f v)) l).
  Proof using.
    induction l as [|v l IHl]; intros Hr; [by exists []|]. destruct (IHl (fun w Hw => Hr w (elem_of_list_further _ _ _ Hw))) as (ls & El & Ec).
    pose proof (Hr v ltac:(by left)) as Hv. cbn [omap list_omap map concat]. destruct (is_node (f v)) eqn:En.
    - cbn [mapM]. rewrite (Hv eq_refl). cbn [mbind option_bind]. rewrite El. cbn [mbind option_bind]. eexists. split; [done|]. cbn [concat]. by rewrite Ec, fmap_app.
    - exists ls. split; [exact El|]. destruct (f v); [exact Ec|done|done].
  Qed.
  Lemma leaves_simulate t k fl : (k, t) ∈ ns -> wf (c_R c) pi_ok fl t ->
    leaves_from c (drop (level c k) lvs) (ID k) = Some ((fun pi => default 0 (lid pi)) <$> tree_pis t).
  Proof using Hc Hstored Hchild Hid Hkey.
    revert k fl. induction t as [|re pi h|bi f IH]; intros k fl Hin Hwf.
    - by destruct (Hstored _ _ Hin) as (lv & s & b & _ & _ & _ & []).
    - destruct (Hstored _ _ Hin) as (lv & s & b & Hlv & He & Hcap & Hf & ->). destruct Hwf as [Hre (id & Hlid & Hidr)].
      rewrite (drop_S _ _ _ Hlv). cbn [leaves_from]. rewrite He. cbn [mbind option_bind]. rewrite word_leaf by done. rewrite bool_decide_true by done.
      cbn [tree_pis fmap list_fmap]. rewrite Hlid. cbn [default from_option]. unfold Datatypes.id.
      assert (length re <= c_R c)%nat as HreR by lia. rewrite (app_assoc re).
      assert (read_id (c_hid c) ((re ++ replicate (c_R c - length re) 0) ++ le_enc (c_hid c) id) (c_R c) = Some id) as Hrd.
      { rewrite <- (app_nil_r (le_enc (c_hid c) id)). apply read_id_app; [rewrite app_length, replicate_length; lia|apply le_enc_length|]. apply le_dec_enc_small. lia. }
      rewrite Hrd. done.
    - destruct (Hstored _ _ Hin) as (lv & s & b & Hlv & He & Hcap & Hf & Hbi & _ & Hall). destruct Hwf as (Hfl & _ & Hwf).
      rewrite (drop_S _ _ _ Hlv), tree_pis_slots.
      assert (Hx : forall v, v ∈ byte_vals -> is_node (f v) = true -> leaves_from c (drop (S (level c k)) lvs) (ID (k ++ [v])) = Some ((fun pi => default 0 (lid pi)) <$> tree_pis (f v))).
      { intros v Hv En. rewrite byte_vals_eq in Hv. apply elem_of_seqZ in Hv. pose proof (Hchild k bi f v Hin ltac:(lia) En) as Hin'.
        pose proof (IH v _ _ Hin' (Hwf v)) as Hx. by rewrite level_child in Hx by (by eapply Hkey). }
      destruct (leaves_slots _ _ _ _ Hx) as (ls & Els & Ec). rewrite <- Ec.
      eapply leaves_step; [exact He| |exact Hbi|exact Hall|exact Els]. rewrite word_leaf by done. by rewrite bool_decide_false by done.
  Qed.
End Simulation.

(** ** Baking one tree *)
Section Bake.
  Context (c : config) (Hc : config_ok c) (lid : Z -> option Z) (t : tree) (fl : list bool).
  Notation ns := (visit [0] t).
  Context (Hwf : wf (c_R c) (pi_ok c lid) fl t) (Hfl : (length fl <= 64)%nat).
  Context (M : nat) (Hlev : forall l, (length (on_level c l ns) <= M)%nat) (Hsize : Z.of_nat (M * node_limit c) <= c_max c) (Hids : Z.of_nat M < pow256 (c_nid c)).

  Definition nodes (l : nat) : list (key * tree) := on_level c l ns.
  Lemma nodes_elem l n : n ∈ nodes l <-> n ∈ ns /\ level c (fst n) = l.
  Proof. unfold nodes, on_level. rewrite elem_of_list_filter. tauto. Qed.
  Lemma nodes_wf n : n ∈ ns -> exists fl', length fl' = length fl /\ wf (c_R c) (pi_ok c lid) fl' (snd n) /\ is_node (snd n) = true.
  Proof using All. destruct n as [k t']. intros H. destruct (visit_wf _ _ _ _ _ _ _ Hwf H) as (fl' & ? & ?). pose proof (visit_prefix _ _ _ _ H) as [_ ?]. eauto. Qed.
  Lemma nodes_active n : n ∈ ns -> active (snd n) <> 1%nat.
  Proof using All.
    intros H. destruct (nodes_wf n H) as (fl' & _ & Hw & _). destruct (snd n) as [|re pi h|bi f]; cbn [active]; try done. destruct Hw as (_ & Ha & _). cbn [active] in Ha. lia.
  Qed.

  Lemma design_levels : exists ds, design c ns = Some ds /\ length ds = levels_count c ns /\
    forall l gs, ds !! l = Some gs -> design_ok c (histogram (nodes l)) gs.
  Proof using All.
    unfold design. pose proof (ok_K c Hc) as HK. destruct (Nat.ltb_spec (c_K c) 5); [lia|].
    destruct (mapM_Forall2 (fun l => design_level c (histogram (on_level c l ns))) (fun l gs => design_ok c (histogram (nodes l)) gs) (seq 0 (levels_count c ns))) as (ds & E & HF).
    - intros l _. apply design_level_ok.
      + destruct (decide (histogram (on_level c l ns) 1 = 0%nat)) as [|Hne]; [done|]. exfalso. unfold histogram in Hne.
        destruct (filter (fun n : key * tree => active (snd n) = 1%nat) (on_level c l ns)) as [|n r] eqn:Ef; [done|].
        assert (n ∈ filter (fun n : key * tree => active (snd n) = 1%nat) (on_level c l ns)) as Hn by (rewrite Ef; by left).
        apply elem_of_list_filter in Hn as [H1 Hn]. apply nodes_elem in Hn as [Hn _]. by apply (nodes_active n Hn).
      + assert (nodes_in (histogram (on_level c l ns)) 0 257 <= M)%nat.
        { rewrite nodes_in_histogram. etrans; [apply filter_length|]. apply Hlev. }
        assert (nodes_in (histogram (on_level c l ns)) 0 257 * node_limit c <= M * node_limit c)%nat by (by apply Nat.mul_le_mono_r). unfold nodes. lia.
      + pose proof (ok_nid c Hc). lia.
      + pose proof (ok_hid c Hc). lia.
      + lia.
    - exists ds. split; [done|]. pose proof (Forall2_length _ _ _ HF) as Hl. rewrite seq_length in Hl. split; [done|].
      intros l gs Hg. pose proof (lookup_lt_Some _ _ _ Hg) as Hlt. rewrite <- Hl in Hlt.
      apply (Forall2_lookup_lr _ _ _ _ _ _ HF (lookup_seq_lt _ _ _ Hlt) Hg).
  Qed.

  Context (ds : list (list group)) (Hds : forall l gs, ds !! l = Some gs -> design_ok c (histogram (nodes l)) gs) (Hdl : length ds = levels_count c ns).

  Lemma l_act l : forall n, n ∈ nodes l -> (active (snd n) <= 256)%nat.
  Proof. intros. apply active_le. Qed.
  Lemma l_size l : Z.of_nat (length (nodes l) * node_limit c) <= c_max c.
  Proof using All. pose proof (Hlev l). assert (length (nodes l) * node_limit c <= M * node_limit c)%nat by (by apply Nat.mul_le_mono_r). lia. Qed.
  Lemma l_ids l : Z.of_nat (length (nodes l)) < pow256 (c_nid c).
  Proof using All. pose proof (Hlev l). unfold nodes. lia. Qed.
  Lemma l_nodup l : NoDup (fst <$> nodes l).
  Proof.
    pose proof (visit_nodup [0] t) as H. unfold nodes, on_level. revert H. generalize ns. intros N. induction N as [|n N IH]; intros H; [constructor|].
    cbn [fmap list_fmap] in H. apply NoDup_cons in H as [H1 H2]. rewrite filter_cons. case_decide; [|by apply IH]. cbn [fmap list_fmap]. apply NoDup_cons. split; [|by apply IH].
    intros Hin. apply H1. apply elem_of_list_fmap in Hin as (x & Ex & Hx). apply elem_of_list_filter in Hx as [_ Hx]. apply elem_of_list_fmap. eauto.
  Qed.
  Lemma level_lt n : n ∈ ns -> (level c (fst n) < length ds)%nat.
  Proof using All.
    rewrite Hdl. unfold levels_count. generalize ns. intros N. induction N as [|m N IH]; intros H; [by apply elem_of_nil in H|]. cbn [foldr].
    apply elem_of_cons in H as [->|H]; [lia|]. specialize (IH H). lia.
  Qed.

  (** identifiers *)
  Lemma alloc_levels_spec pre ds' : ds = pre ++ ds' -> exists ms sts, alloc_levels c (length pre) ds' (alloc_table 1 <$> ds') ns = Some (ms, sts) /\ length ms = length ds' /\
    forall i gs, ds' !! i = Some gs -> exists r st', ms !! i = Some r /\ alloc_nodes gs (alloc_table 1 gs) (nodes (length pre + i)) = Some (r, st').
  Proof using All.
    revert pre. induction ds' as [|gs ds' IH]; intros pre E; [exists [], []; split; [done|]; split; [done|]; by intros i gs Hi|].
    cbn [fmap list_fmap alloc_levels].
    assert (ds !! length pre = Some gs) as Hg by (rewrite E, lookup_app_r by lia; by rewrite Nat.sub_diag).
    destruct (level_alloc c Hc (nodes (length pre)) gs (Hds _ _ Hg) (l_act _) (l_size _) (l_ids _)) as (r & st' & Ha & _). unfold nodes in Ha. rewrite Ha. cbn [mbind option_bind fst snd].
    specialize (IH (pre ++ [gs])). rewrite app_length in IH. cbn [length] in IH. replace (length pre + 1)%nat with (S (length pre)) in IH by lia.
    destruct IH as (ms & sts & -> & Hl & Hm); [by rewrite <- app_assoc|]. cbn [mbind option_bind fst snd]. eexists _, _. split; [done|]. split; [cbn; by rewrite Hl|].
    intros [|i] gs' Hi.
    - injection Hi as <-. exists r, st'. rewrite Nat.add_0_r. done.
    - cbn in Hi. destruct (Hm i gs' Hi) as (r' & st'' & H1 & H2). exists r', st''. split; [done|]. by replace (length pre + S i)%nat with (S (length pre) + i)%nat by lia.
  Qed.

  Context (ms : list (list (key * Z))).
  Context (Hms : forall i gs, ds !! i = Some gs -> exists r st', ms !! i = Some r /\ alloc_nodes gs (alloc_table 1 gs) (nodes i) = Some (r, st')).
  Definition ID (k : key) : Z := default 0 (id_of (default [] (ms !! level c k)) k).

  Lemma split_elem {A} (l : list A) x : x ∈ l -> exists a b, l = a ++ x :: b.
  Proof. apply elem_of_list_split. Qed.

  Lemma id_spec n : n ∈ ns -> exists gs A B, ds !! level c (fst n) = Some gs /\ nodes (level c (fst n)) = A ++ n :: B /\
    id_of (default [] (ms !! level c (fst n))) (fst n) = Some (ID (fst n)) /\
    ID (fst n) = 1 + before (take (slot gs n) gs) + Z.of_nat (length (of_slot gs (slot gs n) A)) /\ 1 <= ID (fst n) < pow256 (c_nid c).
  Proof using All.
    intros Hn. pose proof (level_lt n Hn) as Hlt. destruct (lookup_lt_is_Some_2 _ _ Hlt) as (gs & Hg). set (l := level c (fst n)) in *.
    assert (n ∈ nodes l) as Hnl by (by apply nodes_elem). destruct (split_elem _ _ Hnl) as (A & B & EN).
    destruct (Hms l gs Hg) as (r & st' & Hr & Ha).
    destruct (level_alloc c Hc (nodes l) gs (Hds _ _ Hg) (l_act _) (l_size _) (l_ids _)) as (r' & st'' & Ha' & Hk & Hspec). rewrite Ha in Ha'. injection Ha' as <- <-.
    pose proof (Hspec A n B EN) as Hrn. assert (NoDup (fst <$> r)) as Hnd by (rewrite Hk; apply l_nodup).
    pose proof (id_of_lookup _ _ _ _ Hnd Hrn) as Hido.
    assert (id_of (default [] (ms !! l)) (fst n) = Some (ID (fst n))) as Hid1.
    { unfold ID. fold l. rewrite Hr. cbn [default from_option]. unfold Datatypes.id. rewrite Hido. done. }
    assert (ID (fst n) = 1 + before (take (slot gs n) gs) + Z.of_nat (length (of_slot gs (slot gs n) A))) as Hid2.
    { rewrite Hr in Hid1. cbn [default from_option] in Hid1. unfold Datatypes.id in Hid1. rewrite Hido in Hid1. by injection Hid1 as <-. }
    exists gs, A, B. split; [done|]. split; [done|]. split; [done|]. split; [done|]. rewrite Hid2. pose proof (before_nonneg (take (slot gs n) gs)).
    split; [lia|]. destruct (level_slot c Hc (nodes l) gs (Hds _ _ Hg) (l_act _) (l_size _) (l_ids _) n Hnl) as (g & Hsg & _).
    pose proof (level_before c Hc (nodes l) gs (Hds _ _ Hg) (l_act _) (l_size _) (l_ids _)) as Hbf.
    pose proof (level_count c Hc (nodes l) gs (Hds _ _ Hg) (l_act _) (l_size _) (l_ids _) (slot gs n) g Hsg) as Hcnt.
    assert (before gs = before (take (slot gs n) gs) + Z.of_nat (g_count g) + before (drop (S (slot gs n)) gs)) as Hsplit.
    { rewrite <- (take_drop_middle _ _ _ Hsg) at 1. unfold before. rewrite fmap_app, sum_list_app. cbn [fmap list_fmap sum_list]. unfold Datatypes.id. lia. }
    pose proof (before_nonneg (drop (S (slot gs n)) gs)). rewrite EN in Hcnt. rewrite of_slot_app, of_slot_cons, decide_True in Hcnt by done. rewrite app_length in Hcnt. cbn [length] in Hcnt.
    pose proof (l_ids l). lia.
  Qed.

  (** the bytes of a node *)
  Definition kids (k : key) (f : Z -> tree) (v : Z) : option Z := if is_node (f v) then Some (ID (k ++ [v])) else None.
  Lemma key_len n : n ∈ ns -> (1 <= length (fst n))%nat.
  Proof. destruct n as [k t']. intros H. apply visit_prefix in H as [(p & ->) _]. cbn. lia. Qed.
  Lemma kids_eq k bi f v : (k, Slots bi f) ∈ ns -> 0 <= v < 256 -> is_node (f v) = true -> id_of (default [] (ms !! S (level c k))) (k ++ [v]) = Some (ID (k ++ [v])) /\ 1 <= ID (k ++ [v]) < pow256 (c_nid c).
  Proof using All.
    intros Hin Hv Hn. pose proof (visit_child _ _ _ _ _ _ Hin Hv Hn) as Hc'. destruct (id_spec _ Hc') as (gs & A & B & _ & _ & Hid & _ & Hr). cbn [fst] in Hid, Hr.
    rewrite level_child in Hid by (apply (key_len _ Hin)). done.
  Qed.
  Definition in_byte (f : Z -> tree) (v : Z) : tree := if decide (0 <= v < 256) then f v else Empty.
  Lemma child_ids_eq k bi f : (k, Slots bi f) ∈ ns -> exists ch, child_ids (default [] (ms !! S (level c k))) k f = Some ch /\ forall v, 0 <= v < 256 -> ch v = kids k f v.
  Proof using All.
    intros Hin. unfold child_ids. set (m := default [] (ms !! S (level c k))).
    assert (forallb (fun v => if is_node (f v) then match id_of m (k ++ [v]) with Some id => negb (id =? 0) | None => false end else true) byte_vals = true) as ->.
    { apply forallb_forall. intros v Hv. apply elem_of_list_In in Hv. rewrite byte_vals_eq in Hv. apply elem_of_seqZ in Hv. destruct (is_node (f v)) eqn:En; [|done].
      destruct (kids_eq k bi f v Hin ltac:(lia) En) as [Hid Hr]. fold m in Hid. rewrite Hid. destruct (Z.eqb_spec (ID (k ++ [v])) 0); [lia|done]. }
    eexists. split; [done|]. intros v Hv. cbn. unfold kids. destruct (is_node (f v)) eqn:En; [|done]. apply (kids_eq k bi f v Hin Hv En).
  Qed.

  Definition content (k : key) (t' : tree) (s : nspec) (b : list Z) : Prop :=
    match t' with
    | Empty => False
    | Leaf re pi _ => s_fmt s = FLeaf /\ b = re ++ replicate (c_R c - length re) 0 ++ le_enc (c_hid c) (default 0 (lid pi))
    | Slots bi f => s_fmt s <> FLeaf /\ byte_index c (spec_word c s) b = Some (Z.of_nat bi) /\
        (forall v, 0 <= v < 256 -> next_id c (spec_word c s) b v = Some (if is_node (f v) then ID (k ++ [v]) else 0)) /\
        all_ids c (spec_word c s) b = Some (omap (fun v => if is_node (f v) then Some (ID (k ++ [v])) else None) byte_vals)
    end.
  Lemma node_encoding n gs g : n ∈ ns -> ds !! level c (fst n) = Some gs -> gs !! slot gs n = Some g ->
    exists b, encode_node c lid (default [] (ms !! S (level c (fst n)))) (g_spec g) n = Some b /\ length b = byte_size c (g_spec g) /\ content (fst n) (snd n) (g_spec g) b.
  Proof using All.
    intros Hn Hgs Hg. destruct (nodes_wf n Hn) as (fl' & Hfl' & Hw & Hnode). pose proof (Hds _ _ Hgs) as Hd.
    assert (n ∈ nodes (level c (fst n))) as Hnl by (by apply nodes_elem).
    destruct (level_slot c Hc _ gs Hd (l_act _) (l_size _) (l_ids _) n Hnl) as (g' & Hg' & _ & Hfor). rewrite Hg in Hg'. injection Hg' as <-.
    assert (cap_ok (g_spec g)) as Hcap by (apply (do_cap _ _ _ Hd); by eapply elem_of_list_lookup_2).
    destruct n as [k [|re pi h|bi f]]; cbn [fst snd] in *; [done| |].
    - destruct Hw as [Hre (id & Hlid & Hidr)]. unfold encode_node. cbn [snd]. unfold format_for in Hfor. cbn [active] in Hfor.
      assert (s_fmt (g_spec g) = FLeaf) as HF by (destruct (s_fmt (g_spec g)); lia || done). rewrite decide_True by done.
      unfold encode_leaf. rewrite Hlid. cbn [mbind option_bind]. rewrite write_id_ok by lia. cbn [mbind option_bind]. eexists. split; [done|].
      split; [|cbn [content]; rewrite Hlid; done]. rewrite !app_length, replicate_length, le_enc_length. unfold byte_size. rewrite HF. lia.
    - destruct Hw as (Hbi & Hact2 & _). unfold encode_node. cbn [fst snd]. destruct (child_ids_eq k bi f Hn) as (ch & -> & Hch). cbn [mbind option_bind].
      assert (forall v id, 0 <= v < 256 -> ch v = Some id -> 0 < id < pow256 (c_nid c)) as Hchr.
      { intros v id Hv E. rewrite Hch in E by done. unfold kids in E. destruct (is_node (f v)) eqn:En; [|done]. injection E as <-.
        pose proof (kids_eq k bi f v Hn Hv En) as [_ Hr]. lia. }
      assert (fits ch (g_spec g)) as Hfits.
      { split; [done|]. unfold format_for in Hfor. split; [destruct (s_fmt (g_spec g)); lia || done|]. intros HnF.
        assert (used ch = active (Slots bi f)) as ->; [|destruct (s_fmt (g_spec g)); lia || done].
        unfold used. cbn [active]. rewrite byte_vals_eq. f_equal. apply filter_ext_in. intros v Hv. apply elem_of_seqZ in Hv. rewrite Hch by lia. unfold kids.
        destruct (is_node (f v)); [split; [done|eauto]|]. split; [intros [? [=]]|done]. }
      exists (node_bytes c ch (Z.of_nat bi) (g_spec g)). split; [by apply encode_slots_eq|]. split; [by apply node_bytes_length|].
      cbn [content]. split; [by apply Hfits|]. split; [by apply node_byte_index|]. split.
      + intros v Hv. rewrite node_next by done. rewrite Hch by done. unfold kids. by destruct (is_node (f v)).
      + rewrite node_all by done. f_equal. apply omap_ext_in. intros v Hv. rewrite byte_vals_eq in Hv. apply elem_of_seqZ in Hv. rewrite Hch by lia. done.
  Qed.

  Definition enc (l : nat) (gs : list group) (n : key * tree) : list Z :=
    match gs !! slot gs n with Some g => default [] (encode_node c lid (default [] (ms !! S l)) (g_spec g) n) | None => [] end.
  Lemma enc_ok l gs : ds !! l = Some gs -> forall n g, n ∈ nodes l -> gs !! slot gs n = Some g ->
    encode_node c lid (default [] (ms !! S l)) (g_spec g) n = Some (enc l gs n) /\ length (enc l gs n) = byte_size c (g_spec g).
  Proof using All.
    intros Hgs n g Hn Hg. apply nodes_elem in Hn as [Hn El]. subst l. destruct (node_encoding n gs g Hn Hgs Hg) as (b & E & Hl & _). unfold enc. rewrite Hg, E. done.
  Qed.
  Definition level_bytes (l : nat) (gs : list group) : list Z := concat (@concat Z <$> bodies (nodes l) gs (enc l gs) 0 (length gs)).
  Lemma encode_levels_spec pre ds' : ds = pre ++ ds' -> exists bs, encode_levels c lid (length pre) ds' ms ns = Some bs /\ length bs = length ds' /\
    forall i gs, ds' !! i = Some gs -> bs !! i = Some (level_bytes (length pre + i) gs).
  Proof using All.
    revert pre. induction ds' as [|gs ds' IH]; intros pre E; [exists []; split; [done|]; split; [done|]; by intros i gs Hi|]. cbn [encode_levels].
    assert (ds !! length pre = Some gs) as Hg by (rewrite E, lookup_app_r by lia; by rewrite Nat.sub_diag).
    pose proof (encode_groups_spec c Hc (nodes (length pre)) gs (Hds _ _ Hg) (l_act _) (l_size _) (l_ids _) (enc (length pre) gs) lid (default [] (ms !! S (length pre))) (enc_ok _ _ Hg) [] gs eq_refl) as He.
    cbn [length] in He. unfold nodes in He. rewrite He. cbn [mbind option_bind].
    specialize (IH (pre ++ [gs])). rewrite app_length in IH. cbn [length] in IH. replace (length pre + 1)%nat with (S (length pre)) in IH by lia.
    destruct IH as (bs & -> & Hl & Hm); [by rewrite <- app_assoc|]. cbn [mbind option_bind]. eexists. split; [done|]. split; [cbn; by rewrite Hl|].
    intros [|i] gs' Hi.
    - injection Hi as <-. rewrite Nat.add_0_r. done.
    - cbn in Hi. etrans; [exact (Hm i gs' Hi)|]. by replace (length pre + S i)%nat with (S (length pre) + i)%nat by lia.
  Qed.

  Lemma level_stored ixs bs : (forall l gs, ds !! l = Some gs -> exists ix, ixs !! l = Some ix /\ index_bytes c gs = Some ix) ->
    (forall l gs, ds !! l = Some gs -> bs !! l = Some (level_bytes l gs)) ->
    forall k t', (k, t') ∈ ns -> stored c lid (zip ixs bs) ID k t'.
  Proof using All.
    intros Hix Hbs k t' Hin. destruct (id_spec _ Hin) as (gs & A & B & Hgs & EN & _ & Hid & _). cbn [fst] in *.
    assert ((k, t') ∈ nodes (level c k)) as Hnl by (by apply nodes_elem).
    destruct (level_slot c Hc _ gs (Hds _ _ Hgs) (l_act _) (l_size _) (l_ids _) _ Hnl) as (g & Hg & _ & _).
    destruct (Hix _ _ Hgs) as (ix & Hix1 & Hix2).
    exists (ix, level_bytes (level c k) gs), (g_spec g), (enc (level c k) gs (k, t')). split.
    { rewrite lookup_zip_with, Hix1. cbn. by rewrite (Hbs _ _ Hgs). }
    split.
    { rewrite Hid. apply (level_extract c Hc (nodes (level c k)) gs (Hds _ _ Hgs) (l_act _) (l_size _) (l_ids _) (enc (level c k) gs) lid (default [] (ms !! S (level c k))) (enc_ok _ _ Hgs) ix A (k, t') B g Hix2 EN Hg). }
    split; [apply (do_cap _ _ _ (Hds _ _ Hgs)); by eapply elem_of_list_lookup_2|].
    destruct (node_encoding _ gs g Hin Hgs Hg) as (b & E & _ & Hcon). cbn [fst snd] in *. unfold enc. rewrite Hg, E. exact Hcon.
  Qed.

  (** the root's identifier *)
  Lemma root_id : is_node t = true -> ID [0] = 1.
  Proof using All.
    intros Hn. assert (([0], t) ∈ ns) as Hin by (by apply visit_root). destruct (id_spec _ Hin) as (gs & A & B & Hgs & EN & _ & Hid & _). cbn [fst] in *.
    assert (nodes (level c [0]) = [([0], t)]) as Enodes.
    { pose proof (visit_nodup [0] t) as Hnd. apply NoDup_fmap_1 in Hnd || idtac.
      assert (forall n, n ∈ nodes (level c [0]) -> n = ([0], t)) as Hall.
      { intros [k t'] Hk. apply nodes_elem in Hk as [Hk Hl]. cbn [fst] in Hl. pose proof (visit_prefix _ _ _ _ Hk) as [(p & ->) _].
        unfold level in Hl. rewrite app_length in Hl. cbn [length] in Hl. assert (p = []) as -> by (destruct p; [done|cbn [length] in Hl; lia]). cbn [app] in *.
        destruct t as [|re pi h|bi f]; [done| |]; cbn [visit] in Hk.
        - apply elem_of_list_singleton in Hk as [= ->]. done.
        - apply elem_of_cons in Hk as [[= ->]|Hk]; [done|]. apply elem_of_concat_map in Hk as (v & _ & Hk). apply visit_prefix in Hk as [(p & E) _]. done. }
      pose proof (l_nodup (level c [0])) as Hnd'. rewrite EN in Hall, Hnd' |- *.
      assert (A = []) as ->.
      { destruct A as [|a A]; [done|]. pose proof (Hall a ltac:(by left)) as ->. cbn [app fmap list_fmap] in Hnd'. apply NoDup_cons in Hnd' as [Hx _]. exfalso. apply Hx.
        apply elem_of_list_fmap. exists ([0], t). split; [done|]. apply elem_of_app. right. by left. }
      assert (B = []) as ->; [|done]. destruct B as [|b B]; [done|]. pose proof (Hall b ltac:(right; by left)) as ->. cbn [app fmap list_fmap] in Hnd'. apply NoDup_cons in Hnd' as [Hx _].
      exfalso. apply Hx. by left. }
    assert (A = []) as ->.
    { rewrite Enodes in EN. destruct A as [|a A]; [done|]. injection EN as _ EN. destruct A; done. }
    assert (([0], t) ∈ nodes (level c [0])) as Hnl by (rewrite Enodes; by left).
    destruct (level_slot c Hc _ gs (Hds _ _ Hgs) (l_act _) (l_size _) (l_ids _) _ Hnl) as (g & Hg & _ & _).
    pose proof (level_count c Hc _ gs (Hds _ _ Hgs) (l_act _) (l_size _) (l_ids _) _ g Hg) as Hcnt. rewrite Enodes, of_slot_cons, decide_True in Hcnt by done. cbn in Hcnt.
    pose proof (level_before c Hc _ gs (Hds _ _ Hgs) (l_act _) (l_size _) (l_ids _)) as Hbf. rewrite Enodes in Hbf. cbn [length] in Hbf.
    assert (before gs = before (take (slot gs ([0], t)) gs) + Z.of_nat (g_count g) + before (drop (S (slot gs ([0], t))) gs)) as Hsplit.
    { rewrite <- (take_drop_middle _ _ _ Hg) at 1. unfold before. rewrite fmap_app, sum_list_app. cbn [fmap list_fmap sum_list]. unfold Datatypes.id. lia. }
    pose proof (before_nonneg (take (slot gs ([0], t)) gs)). pose proof (before_nonneg (drop (S (slot gs ([0], t))) gs)). rewrite Hid. cbn. lia.
  Qed.
End Bake.

Section Baked.
  Context (c : config) (Hc : config_ok c) (lid : Z -> option Z) (t : tree) (fl : list bool).
  Context (Hwf : wf (c_R c) (pi_ok c lid) fl t) (Hfl : (length fl <= 64)%nat).
  Context (M : nat) (Hlev : forall l, (length (on_level c l (visit [0%Z] t)) <= M)%nat) (Hsize : Z.of_nat (M * node_limit c) <= c_max c) (Hids : Z.of_nat M < pow256 (c_nid c)).

  Lemma bake_one : exists f id, bake c lid [t] = Some f /\ (forall k t', (k, t') ∈ visit [0] t -> stored c lid (f_levels f) id k t' /\ 1 <= id k) /\
    length (f_levels f) = levels_count c (visit [0] t) /\ (is_node t = true -> id [0] = 1 /\ f_jump f = [1]).
  Proof using All.
    destruct (design_levels c Hc lid t fl Hwf Hfl M Hlev Hsize Hids) as (ds & Ed & Hdl & Hds).
    assert (forall l gs, ds !! l = Some gs -> 1 + before gs <= c_max c /\ before gs < pow256 (c_nid c)) as Hbnd.
    { intros l gs Hg. split.
      - apply (level_max c Hc (nodes c t l) gs (Hds _ _ Hg) (l_act c t l) (l_size c Hc lid t fl Hwf Hfl M Hlev Hsize Hids ds Hds Hdl l) (l_ids c Hc lid t fl Hwf Hfl M Hlev Hsize Hids ds Hds Hdl l)).
      - rewrite (level_before c Hc (nodes c t l) gs (Hds _ _ Hg) (l_act c t l) (l_size c Hc lid t fl Hwf Hfl M Hlev Hsize Hids ds Hds Hdl l) (l_ids c Hc lid t fl Hwf Hfl M Hlev Hsize Hids ds Hds Hdl l)).
        apply (l_ids c Hc lid t fl Hwf Hfl M Hlev Hsize Hids ds Hds Hdl l). }
    destruct (alloc_levels_spec c Hc lid t fl Hwf Hfl M Hlev Hsize Hids ds Hds Hdl [] ds eq_refl) as (ms & sts & Eal & Hml & Hms). cbn [length plus] in Eal, Hms.
    destruct (encode_levels_spec c Hc lid t fl Hwf Hfl M Hlev Hsize Hids ds Hds Hdl ms Hms [] ds eq_refl) as (bs & Eenc & Hbl & Hbs). cbn [length plus] in Eenc, Hbs.
    set (ixf := fun gs => le_enc 2 (Z.of_nat (length gs)) ++ concat (entry c <$> gs)).
    assert (mapM (index_bytes c) ds = Some (ixf <$> ds)) as Eix.
    { apply mapM_all. intros gs Hg. apply elem_of_list_lookup in Hg as (l & Hg). apply index_bytes_eq. by apply (Hbnd l). }
    assert (mapM (alloc_init c 1) ds = Some (alloc_table 1 <$> ds)) as Eai.
    { apply mapM_all. intros gs Hg. apply elem_of_list_lookup in Hg as (l & Hg). apply alloc_init_eq. by apply (Hbnd l). }
    assert (zip_with app (map (fun _ : list group => @nil Z) ds) bs = bs) as Ezip.
    { clear -Hbl. revert bs Hbl. induction ds as [|g ds IH]; intros [|b bs] Hl; try done. cbn. rewrite IH by (cbn in Hl; lia). done. }
    assert (map (fun b => Z.of_nat (length b)) bs = map (fun gs => foldr Z.add 0 (map g_bytes gs)) ds) as Ecount.
    { apply list_eq. intros l. change (map (fun b => Z.of_nat (length b)) bs) with ((fun b : list Z => Z.of_nat (length b)) <$> bs).
      change (map (fun gs => foldr Z.add 0 (map g_bytes gs)) ds) with ((fun gs => foldr Z.add 0 (map g_bytes gs)) <$> ds). rewrite !list_lookup_fmap.
      destruct (ds !! l) as [gs|] eqn:Hg.
      - rewrite (Hbs l gs Hg). cbn. f_equal.
        apply (level_bytes_count c Hc (nodes c t l) gs (Hds _ _ Hg) (l_act c t l) (l_size c Hc lid t fl Hwf Hfl M Hlev Hsize Hids ds Hds Hdl l) (l_ids c Hc lid t fl Hwf Hfl M Hlev Hsize Hids ds Hds Hdl l) _ lid _
          (enc_ok c Hc lid t fl Hwf Hfl M Hlev Hsize Hids ds Hds Hdl ms Hms l gs Hg)).
      - assert (bs !! l = None) as -> by (apply lookup_ge_None; rewrite Hbl; by apply lookup_ge_None). done. }
    set (root := default 0 (id_of (default [] (ms !! c_pre c)) [0])).
    assert (bake c lid [t] = Some (mk_forest (zip (ixf <$> ds) bs) [root])) as Eb.
    { unfold bake. assert (forest_nodes [t] = visit [0] t) as -> by (unfold forest_nodes; cbn; by rewrite app_nil_r).
      rewrite Ed. cbn [mbind option_bind]. rewrite Eai. cbn [mbind option_bind]. rewrite Eix. cbn [mbind option_bind].
      change (number [t]) with [(0%nat, t)]. cbn [add_trees]. unfold add_tree, tree_nodes. cbn [fst snd fs_alloc fs_bytes fs_roots]. change (Z.of_nat 0) with 0.
      rewrite Eal. cbn [mbind option_bind fst snd]. rewrite Eenc. cbn [mbind option_bind fs_bytes fs_roots app]. rewrite Ezip, Ecount. rewrite bool_decide_true by done. rewrite orb_true_r. done. }
    exists (mk_forest (zip (ixf <$> ds) bs) [root]), (ID c ms). split; [exact Eb|]. cbn [f_levels f_jump]. split; [|split].
    - intros k t' Hin. split.
      + apply (level_stored c Hc lid t fl Hwf Hfl M Hlev Hsize Hids ds Hds Hdl ms Hms (ixf <$> ds) bs); [|done|done].
        intros l gs Hg. exists (ixf gs). rewrite list_lookup_fmap, Hg. split; [done|]. apply index_bytes_eq. by apply (Hbnd l).
      + destruct (id_spec c Hc lid t fl Hwf Hfl M Hlev Hsize Hids ds Hds Hdl ms Hms _ Hin) as (_ & _ & _ & _ & _ & _ & _ & H). cbn in H. lia.
    - rewrite zip_with_length, fmap_length, Hbl, Hdl. lia.
    - intros Hn. pose proof (root_id c Hc lid t fl Hwf Hfl M Hlev Hsize Hids ds Hds Hdl ms Hms Hn) as Hr. split; [done|].
      f_equal. unfold root. unfold ID, level in Hr. cbn [length] in Hr. rewrite Nat.add_0_r in Hr. exact Hr.
  Qed.

  Lemma baked_leaves : is_node t = true -> exists f, bake c lid [t] = Some f /\ f_jump f = [1] /\
    leaves_from c (drop (c_pre c) (f_levels f)) 1 = Some ((fun pi => default 0 (lid pi)) <$> tree_pis t).
  Proof using All.
    intros Hn. destruct bake_one as (f & id & Eb & Hst & _ & Hroot). destruct (Hroot Hn) as [Hr1 Hr2]. exists f. split; [done|]. split; [done|].
    pose proof (leaves_simulate c Hc lid (visit [0] t) (f_levels f) id) as Hsim.
    assert (level c [0] = c_pre c) as El by (unfold level; cbn; lia).
    rewrite <- El, <- Hr1. apply (Hsim) with (fl := fl); try done.
    - intros k t' H. by apply Hst.
    - intros k bi f' v H1 H2 H3. by eapply visit_child.
    - intros k t' H. by apply (Hst k t').
    - intros k t' H. apply visit_prefix in H as [(p & ->) _]. cbn. lia.
    - by apply visit_root.
  Qed.

  Lemma baked_lookup : is_node t = true -> exists f, bake c lid [t] = Some f /\ f_jump f = [1] /\ forall q, length q = length fl -> bytes q ->
    find_in c (drop (c_pre c) (f_levels f)) 1 fl q = Some (conv lid (shallow_lookup t fl q)) /\ shallow_lookup t fl q <> Crash.
  Proof using All.
    intros Hn. destruct bake_one as (f & id & Eb & Hst & _ & Hroot). destruct (Hroot Hn) as [Hr1 Hr2]. exists f. split; [done|]. split; [done|]. intros q Hq Hb.
    pose proof (simulate c Hc lid (visit [0] t) (f_levels f) id) as Hsim.
    assert (level c [0] = c_pre c) as El by (unfold level; cbn; lia).
    rewrite <- El, <- Hr1. apply Hsim; try done.
    - intros k t' H. by apply Hst.
    - intros k bi f' v H1 H2 H3. by eapply visit_child.
    - intros k t' H. by apply (Hst k t').
    - intros k t' H. apply visit_prefix in H as [(p & ->) _]. cbn. lia.
    - by apply visit_root.
  Qed.
End Baked.
