(** Properties C29, C30, C31, C37, C38, C39: serialised trees. *)
From Verif Require Import Base Model_Tree Spec_Tree Proof_Tree Prop_Tree Model_Chunk Spec_Chunk Proof_Node Proof_Design Proof_Layout Proof_Chunk Proof_Prepare.

(** ** C29: node formats *)

(** Whatever children the 256 slots have, in whichever format with room for them: the bytes have the advertised
    size, give the byte index back, and lead each byte value to its child, or to 0 where there is none. *)
Theorem C29_node_formats_answer_like_the_node :
  forall c ch bi s,
    config_ok c -> fits ch s -> (forall v id, 0 <= v < 256 -> ch v = Some id -> 0 < id < pow256 (c_nid c)) -> 0 <= bi < 256 ->
    exists b, encode_slots c s bi ch = Some b /\ length b = byte_size c s /\ byte_index c (spec_word c s) b = Some bi /\
      forall v, 0 <= v < 256 -> next_id c (spec_word c s) b v = Some (default 0 (ch v)).
Proof.
  intros c ch bi s Hc Hf Hch Hbi. exists (node_bytes c ch bi s). split; [by apply encode_slots_eq|]. split; [by apply node_bytes_length|].
  split; [by apply node_byte_index|]. intros v Hv. by apply node_next.
Qed.

(** A leaf gives back its reassurance bytes and the identifier stored in it; no other format has its word. *)
Theorem C29_leaf_reads_back :
  forall c lid re pi id,
    config_ok c -> (length re <= c_R c)%nat -> lid pi = Some id -> 0 <= id < pow256 (c_hid c) ->
    exists b, encode_leaf c lid re pi = Some b /\ length b = byte_size c (mk_spec FLeaf 0) /\
      file_read b 0 (length re) = Some re /\ read_id (c_hid c) b (c_R c) = Some id /\
      (forall s, cap_ok s -> s_fmt s <> FLeaf -> spec_word c s <> spec_word c (mk_spec FLeaf 0)).
Proof.
  intros c lid re pi id Hc Hre Hl Hid. unfold encode_leaf. rewrite Hl. cbn [mbind option_bind].
  rewrite write_id_ok by done. cbn [mbind option_bind]. eexists. split; [done|].
  split; [unfold byte_size; cbn [s_fmt]; rewrite !app_length, replicate_length, le_enc_length; lia|].
  split.
  { unfold file_read. rewrite drop_0. case_decide as E; [|exfalso; apply E; rewrite !app_length; lia].
    by rewrite take_app. }
  split.
  - rewrite app_assoc. replace (c_R c) with (length (re ++ replicate (c_R c - length re) 0)) at 2 by (rewrite app_length, replicate_length; lia).
    rewrite <- (app_nil_r (le_enc (c_hid c) id)). apply read_id_app; [done|apply le_enc_length|rewrite le_dec_enc; by apply Z.mod_small].
  - intros s Hs Hne E. pose proof (word_leaf c Hc s Hs) as Hw. rewrite bool_decide_false in Hw by done. apply Z.eqb_neq in Hw. apply Hw. rewrite E. done.
Qed.

(** ** C31: groups of formats, identifiers *)

(** For every histogram of slot counts (no node has exactly one slot): at most the configured number of groups; every
    slot count that occurs belongs to exactly one group, whose format is the one for that slot count and has room
    for it; no node is lost. *)
Theorem C31_grouping_covers_every_slot_count :
  forall c hist,
    config_ok c -> hist 1%nat = 0%nat -> Z.of_nat (nodes_in hist 0 257 * node_limit c) <= c_max c ->
    exists gs, design_level c hist = Some gs /\ (length gs <= c_K c)%nat /\
      (forall k, (k < 257)%nat -> (0 < hist k)%nat ->
         exists i g, gs !! i = Some g /\ covers g k /\ format_for (g_spec g) k /\ slot_group gs k = i /\
           forall j g', gs !! j = Some g' -> covers g' k -> j = i) /\
      (forall g, g ∈ gs -> g_count g = nodes_in hist (g_start g) (g_end g) /\ g_bytes g = Z.of_nat (g_count g * byte_size c (g_spec g))) /\
      sum_list (g_count <$> gs) = nodes_in hist 0 257.
Proof.
  intros c hist Hc H1 Hsz. pose proof (ok_nid _ Hc). pose proof (ok_hid _ Hc). pose proof (ok_K _ Hc).
  destruct (design_level_ok c hist H1 Hsz ltac:(lia) ltac:(lia) ltac:(lia)) as (gs & E & Hd). exists gs. split; [done|].
  split; [apply Hd|]. split; [|split; [|apply Hd]].
  - intros k Hk Hh. destruct (do_cover _ _ _ Hd k Hk Hh) as (i & g & Hg & Hcov & Hs & Hf). exists i, g. do 4 (split; [done|]).
    intros j g' Hg' Hcov'. rewrite <- Hs. symmetry. apply (slot_group_some gs k j g'); [apply Hd|done|done].
  - intros g Hg. split; [by apply (do_count _ _ _ Hd)|by apply (do_bytes _ _ _ Hd)].
Qed.

Lemma before_take gs i j g : gs !! i = Some g -> (i < j)%nat -> before (take i gs) + Z.of_nat (g_count g) <= before (take j gs).
Proof.
  intros Hg Hij. rewrite <- (take_drop i (take j gs)), take_take, Nat.min_l by lia. unfold before. rewrite fmap_app, sum_list_app.
  assert (take j gs !! i = Some g) as Hg' by (by rewrite lookup_take). rewrite (drop_S _ g) by done. cbn [fmap list_fmap]. rewrite sum_cons. unfold before in *. lia.
Qed.
Lemma of_slot_take gs N i j n s : (i < j)%nat -> N !! i = Some n -> slot gs n = s -> (length (of_slot gs s (take i N)) < length (of_slot gs s (take j N)))%nat.
Proof.
  intros Hij Hn Hs. rewrite <- (take_drop i (take j N)), take_take, Nat.min_l by lia. assert (take j N !! i = Some n) as Hn' by (by rewrite lookup_take).
  rewrite (drop_S _ n) by done. unfold of_slot. rewrite filter_app, app_length, filter_cons_True by done. cbn [length]. lia.
Qed.
Lemma filter_every {A} (P : A -> Prop) `{HD : !forall x, Decision (P x)} (l : list A) : (forall x, x ∈ l -> P x) -> filter P l = l.
Proof. induction l as [|x l IH]; intros H; [done|]. rewrite filter_cons, decide_True by (apply H; by left). f_equal. apply IH. intros y Hy. apply H. by right. Qed.

(** The identifiers of the nodes of a level are exactly 1 .. n, and a node's identifier lies in the range of the
    group of its slot count. *)
Theorem C31_identifiers_are_a_numbering :
  forall c (N : list (key * tree)),
    config_ok c -> (forall n, n ∈ N -> active (snd n) <> 1%nat) -> Z.of_nat (length N * node_limit c) <= c_max c -> Z.of_nat (length N) < pow256 (c_nid c) ->
    exists gs tbl r st, design_level c (histogram N) = Some gs /\ alloc_init c 1 gs = Some tbl /\ alloc_nodes gs tbl N = Some (r, st) /\
      fst <$> r = fst <$> N /\ snd <$> r ≡ₚ seqZ 1 (Z.of_nat (length N)) /\
      forall i n k id, N !! i = Some n -> r !! i = Some (k, id) -> k = fst n /\
        exists j g, gs !! j = Some g /\ covers g (active (snd n)) /\
          let lo := 1 + Z.of_nat (sum_list (g_count <$> take j gs)) in lo <= id < lo + Z.of_nat (g_count g).
Proof.
  intros c N Hc Hone Hsz Hids. pose proof (ok_nid _ Hc). pose proof (ok_hid _ Hc). pose proof (ok_K _ Hc).
  assert (forall n, n ∈ N -> (active (snd n) <= 256)%nat) as Hact by (intros; apply active_le).
  assert (nodes_in (histogram N) 0 257 = length N) as Hn by (rewrite nodes_in_histogram; f_equal; apply filter_every; intros n Hn; pose proof (Hact n Hn); lia).
  destruct (design_level_ok c (histogram N)) as (gs & E & Hd); try lia.
  { unfold histogram. destruct (filter _ N) as [|n l] eqn:Ef; [done|]. exfalso. assert (n ∈ filter (fun n => active (snd n) = 1%nat) N) as Hin by (rewrite Ef; by left).
    apply elem_of_list_filter in Hin as [Ha Hin]. by apply (Hone n). }
  destruct (level_alloc c Hc N gs Hd Hact Hsz Hids) as (r & st & Er & Hf & Hr).
  exists gs, (alloc_table 1 gs), r, st. split; [done|]. split; [apply alloc_init_eq, (level_max c Hc N gs Hd Hact Hsz Hids)|]. split; [done|]. split; [done|].
  assert (length r = length N) as Hlen by (rewrite <- (fmap_length fst r), Hf, fmap_length; done).
  assert (forall i n k id, N !! i = Some n -> r !! i = Some (k, id) -> k = fst n /\ id = 1 + before (take (slot gs n) gs) + Z.of_nat (length (of_slot gs (slot gs n) (take i N)))) as Hval.
  { intros i n k id Hi Hri. pose proof (Hr (take i N) n (drop (S i) N) ltac:(symmetry; by apply take_drop_middle)) as Hx.
    rewrite take_length_le in Hx by (apply lookup_lt_Some in Hi; lia). rewrite Hri in Hx. by injection Hx as -> ->. }
  assert (forall i n, N !! i = Some n -> exists g, gs !! slot gs n = Some g /\ covers g (active (snd n)) /\ (length (of_slot gs (slot gs n) (take i N)) < g_count g)%nat) as Hrange.
  { intros i n Hi. destruct (level_slot c Hc N gs Hd Hact Hsz Hids n ltac:(by eapply elem_of_list_lookup_2)) as (g & Hg & Hcov & _). exists g. do 2 (split; [done|]).
    rewrite <- (level_count c Hc N gs Hd Hact Hsz Hids _ g Hg). rewrite <- (take_drop_middle N i n Hi) at 2. unfold of_slot. rewrite filter_app, app_length, filter_cons_True by done. cbn [length]. lia. }
  split.
  - assert (forall i id, (snd <$> r) !! i = Some id -> exists n, N !! i = Some n /\ id = 1 + before (take (slot gs n) gs) + Z.of_nat (length (of_slot gs (slot gs n) (take i N)))) as Hid.
    { intros i id Hi. rewrite list_lookup_fmap in Hi. destruct (r !! i) as [[k id']|] eqn:Hri; [|done]. injection Hi as ->.
      destruct (lookup_lt_is_Some_2 N i) as [n Hi]; [rewrite <- Hlen; by eapply lookup_lt_Some|]. exists n. split; [done|]. by apply (Hval i n k id). }
    apply submseteq_Permutation_length_eq; [by rewrite seqZ_length, Nat2Z.id, fmap_length|]. apply NoDup_submseteq.
    + apply NoDup_alt. intros i j id Hi Hj. destruct (Hid i id Hi) as (n & Hn1 & En). destruct (Hid j id Hj) as (m & Hm1 & Em).
      destruct (Hrange i n Hn1) as (g & Hg & _ & Hlt). destruct (Hrange j m Hm1) as (g' & Hg' & _ & Hlt').
      pose proof (before_take gs (slot gs n) (slot gs m) g Hg) as B1. pose proof (before_take gs (slot gs m) (slot gs n) g' Hg') as B2.
      destruct (Nat.lt_trichotomy (slot gs n) (slot gs m)) as [Hc'|[Hc'|Hc']]; [lia| |lia]. clear B1 B2. rewrite Hc' in En. assert (length (of_slot gs (slot gs m) (take i N)) = length (of_slot gs (slot gs m) (take j N))) as El by lia.
      destruct (Nat.lt_trichotomy i j) as [Hij|[Hij|Hij]]; [|done|]; exfalso.
      * pose proof (of_slot_take gs N i j n (slot gs m) Hij Hn1 Hc'). lia.
      * pose proof (of_slot_take gs N j i m (slot gs m) Hij Hm1 eq_refl). lia.
    + intros id Hin. apply elem_of_list_lookup in Hin as (i & Hi). destruct (Hid i id Hi) as (n & Hn1 & ->). destruct (Hrange i n Hn1) as (g & Hg & _ & Hlt).
      pose proof (level_before c Hc N gs Hd Hact Hsz Hids) as Hb. pose proof (before_take gs (slot gs n) (length gs) g Hg) as B. rewrite (take_ge gs (length gs)) in B by lia.
      pose proof (lookup_lt_Some _ _ _ Hg). pose proof (before_nonneg (take (slot gs n) gs)). apply elem_of_seqZ. lia.
  - intros i n k id Hi Hri. destruct (Hval i n k id Hi Hri) as [-> ->]. split; [done|]. destruct (Hrange i n Hi) as (g & Hg & Hcov & Hlt).
    exists (slot gs n), g. do 2 (split; [done|]). cbn zeta. unfold before. lia.
Qed.

(** ** C30: serialised trees *)

(** What the construction makes of distinct hashes sharing their prefix *)
Lemma generate_wf ent srt R pre hl input (P : Z -> Prop) :
  entropy_ok ent -> sort_ok srt -> (1 <= hl <= 64)%nat -> (R + pre <= hl)%nat -> hashes_ok hl input -> distinct input ->
  (forall x y j, x ∈ input -> y ∈ input -> (j < pre)%nat -> th_hash x !!! j = th_hash y !!! j) ->
  (forall x, x ∈ input -> P (th_pi x)) ->
  exists t, generate ent srt R pre hl input = Some t /\ wf R P (flags_init hl pre) t /\ (leaves t <= length input)%nat /\ is_node t = negb (bool_decide (input = [])).
Proof.
  intros He Hs Hhl HR Hok Hd Ha HP. rewrite generate_checks by (done || lia). destruct input as [|a [|b input]].
  - exists Empty. split; [done|]. split; [done|]. split; [done|]. by rewrite bool_decide_true.
  - eexists. split; [done|]. split; [|split; [done|by rewrite bool_decide_false]]. split; [|apply HP; by left].
    rewrite take_length. destruct (Hok a ltac:(by left)) as [-> _]. rewrite set_count_init by lia. lia.
  - set (inp := a :: b :: input) in *. assert (2 <= length inp)%nat as Hl by (unfold inp; cbn [length]; lia).
    assert (ready inp (flags_init hl pre)) as Hr by (apply ready_init; [lia|done..]).
    assert (set_count (flags_init hl pre) < S hl)%nat as Hc by (rewrite set_count_init by lia; lia).
    destruct (gen_wf ent He srt Hs R P (S hl) inp (flags_init hl pre) Hr Hl Hc HP) as (H1 & H2 & H3).
    exists (gen ent srt R (S hl) inp (flags_init hl pre)). split; [unfold inp in *; by rewrite gen_ok_true by done|].
    split; [done|]. split; [done|]. rewrite bool_decide_false by done. done.
Qed.

Definition first_index (input : list thash) : Z := match input with [] => 0 | x :: _ => th_pi x end.
(** the hashes with their place counted from 1 *)
Definition numbered (input : list thash) : list thash := (fun x => mk_th (th_hash x) (th_pi x - first_index input + 1)) <$> input.

Lemma numbered_hashes input : th_hash <$> numbered input = th_hash <$> input.
Proof. unfold numbered. rewrite <- list_fmap_compose. by apply list_fmap_ext. Qed.
Lemma numbered_elem input y : y ∈ numbered input <-> exists x, x ∈ input /\ y = mk_th (th_hash x) (th_pi x - first_index input + 1).
Proof. unfold numbered. rewrite elem_of_list_fmap. split; intros (x & H1 & H2); exists x; done. Qed.

(** C30. Serialising distinct hashes presented with indices that fit the identifiers succeeds; afterwards a lookup
    gives the answer of the tree (counted from the first index), never a panic; in particular every presented hash
    has its index. *)
Theorem C30_chunk_answers_like_the_tree :
  forall ent srt c input,
    entropy_ok ent -> sort_ok srt -> config_ok c -> c_back c = false -> c_pre c = 0%nat ->
    hashes_ok (c_hl c) input -> distinct input ->
    (forall x, x ∈ input -> 0 <= th_pi x /\ 0 <= th_pi x - first_index input < pow256 (c_hid c) - 1) ->
    Z.of_nat (length input) < pow256 (c_nid c) -> Z.of_nat (length input * node_limit c) <= 2^32 - 1 ->
    exists k t, prepare ent srt c input = Some k /\ generate ent srt (c_R c) 0 (c_hl c) (numbered input) = Some t /\
      (forall q, length q = c_hl c -> bytes q ->
         chunk_lookup c k q = Some (match shallow_lookup t (flags_init (c_hl c) 0) q with Found i => first_index input + i - 1 | _ => -1 end) /\
         shallow_lookup t (flags_init (c_hl c) 0) q <> Crash) /\
      forall h pi, mk_th h pi ∈ input -> chunk_lookup c k h = Some pi.
Proof.
  intros ent srt c input He Hs Hc Hb Hp Hok Hd Hpi Hids Hsz.
  pose proof (ok_hl _ Hc) as Hhl. pose proof (ok_R _ Hc) as HR. pose proof (ok_hid _ Hc) as Hhid. destruct (ok_narrow _ Hc Hb) as [_ Hh4].
  assert (pow256 (c_hid c) <= 2^32) as Hp4.
  { change (2^32) with (pow256 4). apply pow256_le. lia. }
  assert (c_max c = 2^32 - 1) as Hmax by (unfold c_max; by rewrite Hb).
  assert (hashes_ok (c_hl c) (numbered input)) as Hok'.
  { intros y (x & Hx & ->)%numbered_elem. cbn [th_hash]. by apply (Hok x). }
  assert (distinct (numbered input)) as Hd' by (unfold distinct; by rewrite numbered_hashes).
  assert (local_hashes c (first_index input) input = Some (numbered input)) as Eloc.
  { unfold local_hashes, numbered. apply mapM_all. intros x Hx. pose proof (Hpi x Hx). unfold hash_index_id. rewrite Hmax.
    destruct (Z.eqb_spec (th_pi x) (-1)) as [E|_].
    - lia.
    - destruct (Z.ltb_spec (th_pi x - first_index input + 1) 1); [lia|]. destruct (Z.ltb_spec (2^32 - 1) (th_pi x - first_index input + 1)); [lia|]. done. }
  destruct (generate_wf ent srt (c_R c) 0 (c_hl c) (numbered input) (pi_ok c (chunk_lid c)) He Hs Hhl ltac:(lia) Hok' Hd') as (t & Eg & Hwf & Hlv & Hn).
  { intros; lia. }
  { intros y (x & Hx & ->)%numbered_elem. pose proof (Hpi x Hx). cbn [th_pi]. exists (th_pi x - first_index input + 1). split; [|lia]. unfold chunk_lid. rewrite Hmax.
    destruct (Z.eqb_spec (th_pi x - first_index input + 1) 0); [lia|]. destruct (Z.ltb_spec (2^32-1) (th_pi x - first_index input + 1)); [lia|done]. }
  assert (length (numbered input) = length input) as Hlen by (unfold numbered; by rewrite fmap_length).
  assert (forallb (leaf_ok c) (tree_nodes 0 t) = true) as Hleaf.
  { apply forallb_forall. intros [k' t'] Hin. apply elem_of_list_In in Hin. unfold tree_nodes in Hin. destruct (visit_wf _ _ _ _ _ _ _ Hwf Hin) as (fl' & _ & Hw).
    unfold leaf_ok. cbn [snd]. destruct t' as [|re pi h|]; [done| |done]. destruct Hw as [Hre (id & Hl & Hid)]. unfold chunk_lid in Hl.
    destruct (Z.eqb_spec pi 0); [done|]. destruct (Z.ltb_spec (c_max c) pi); [done|]. apply andb_true_intro. split; [apply andb_true_intro; split; [apply Nat.leb_le; lia|done]|]. apply Z.leb_le. lia. }
  assert (forall l, (length (on_level c l (visit [0%Z] t)) <= length input)%nat) as Hlev.
  { intros l. etrans; [apply (level_leaves c l (c_R c) (pi_ok c (chunk_lid c)) (flags_init (c_hl c) 0) [0] t Hwf); cbn; lia|]. lia. }
  assert (length (flags_init (c_hl c) 0) = c_hl c) as Hfl by (apply flags_init_length; lia).
  assert (length (flags_init (c_hl c) 0) <= 64)%nat as Hfl' by lia.
  assert (exists f, bake c (chunk_lid c) [t] = Some f /\ forall q, length q = c_hl c -> bytes q ->
      chunk_find c f q = Some (conv (chunk_lid c) (shallow_lookup t (flags_init (c_hl c) 0) q)) /\ shallow_lookup t (flags_init (c_hl c) 0) q <> Crash) as (f & Eb & Hf).
  { destruct input as [|x input'].
    - assert (t = Empty) as ->. { destruct t; [done|by rewrite bool_decide_true in Hn by done..]. }
      destruct (bake_one c Hc (chunk_lid c) Empty (flags_init (c_hl c) 0) Hwf Hfl' 0 ltac:(intros; cbn; lia)) as (f & id & Eb & _ & Hlf & _); [lia|cbn; pose proof (pow256_pos (c_nid c)); lia|].
      exists f. split; [done|]. intros q Hq Hbq. cbn in Hlf. unfold chunk_find. destruct (f_levels f); [|done]. done.
    - rewrite bool_decide_false in Hn by done.
      destruct (baked_lookup c Hc (chunk_lid c) t (flags_init (c_hl c) 0) Hwf Hfl' _ Hlev ltac:(rewrite Hmax; exact Hsz) Hids Hn) as (f & Eb & Hj & Hf). exists f. split; [done|].
      intros q Hq Hbq. destruct (Hf q ltac:(lia) Hbq) as [H1 H2]. split; [|done]. rewrite Hp, drop_0 in H1. unfold chunk_find. destruct (f_levels f) as [|lv lvs]; [by cbn in H1|exact H1]. }
  exists (mk_chunk (first_index input) f), t. split.
  { unfold prepare. fold (first_index input). rewrite Eloc. cbn [mbind option_bind]. rewrite Eg. cbn [mbind option_bind]. rewrite Hleaf, Eb. done. }
  split; [done|].
  assert (forall q, length q = c_hl c -> bytes q ->
         chunk_lookup c (mk_chunk (first_index input) f) q = Some (match shallow_lookup t (flags_init (c_hl c) 0) q with Found i => first_index input + i - 1 | _ => -1 end) /\
         shallow_lookup t (flags_init (c_hl c) 0) q <> Crash) as Hlook.
  { intros q Hq Hbq. destruct (Hf q Hq Hbq) as [H1 H2]. split; [|done]. unfold chunk_lookup. cbn [k_first k_forest]. rewrite H1. cbn [fmap option_fmap option_map]. f_equal.
    pose proof (C28_answer_agrees_on_examined_bytes ent srt (c_R c) (c_hl c) (numbered input) t q He Hs Hok' Hd' Hq Eg) as Hsound.
    destruct (shallow_lookup t (flags_init (c_hl c) 0) q) as [|i|]; [done| |done]. destruct Hsound as (h & more & Hin & _).
    apply numbered_elem in Hin as (x & Hx & [= -> ->]). pose proof (Hpi x Hx). unfold conv, chunk_lid. rewrite Hmax.
    destruct (Z.eqb_spec (th_pi x - first_index input + 1) 0); [lia|]. destruct (Z.ltb_spec (2^32-1) (th_pi x - first_index input + 1)); [lia|]. cbn [default from_option]. unfold Datatypes.id, global_index.
    destruct (Z.eqb_spec (th_pi x - first_index input + 1) 0); lia. }
  split; [exact Hlook|]. intros h pi Hin. destruct (Hok _ Hin) as [H1 H2]. cbn [th_hash] in *. destruct (Hlook h H1 H2) as [-> _]. f_equal.
  destruct (C27_every_presented_hash_found ent srt (c_R c) (c_hl c) (numbered input) He Hs Hhl HR Hok' Hd') as (t' & Eg' & Hfound). rewrite Eg in Eg'. injection Eg' as <-.
  rewrite (Hfound h (pi - first_index input + 1)); [lia|]. apply numbered_elem. by exists (mk_th h pi).
Qed.

(** ** C37: the jump table *)

(** Up to one prefix byte the tree consulted for a hash is the one written for its prefix.  Missing: longer prefixes,
    where it is false (below). *)
Theorem C37_short_prefix_same_place_partial :
  forall pre h, (pre <= 1)%nat -> (pre <= length h)%nat -> jump_read pre 1 h = jump_written pre h.
Proof.
  intros [|[|pre]] [|b h] H1 H2; cbn [length] in H2; try lia; try done.
  unfold jump_written. cbn [jump_read take foldl]. change (firstn 0 h) with (@nil Z). cbn [foldl]. lia.
Qed.
(** With two prefix bytes the places agree only when the two bytes do. *)
Theorem C37_two_byte_prefix_places :
  forall a b h, is_byte a -> is_byte b -> jump_read 2 1 (a :: b :: h) = jump_written 2 (a :: b :: h) <-> a = b.
Proof. intros a b h Ha Hb. unfold is_byte in *. unfold jump_written. cbn [jump_read take foldl]. change (firstn 0 h) with (@nil Z). cbn [foldl]. lia. Qed.
(** The third tier has a two byte prefix (cakeconfig.go:46): its trees are looked for in the wrong place. *)
Theorem C37_same_place_refuted :
  exists h, length h = 32%nat /\ bytes h /\ jump_read 2 1 h <> jump_written 2 h.
Proof.
  exists (0 :: 1 :: replicate 30 0). split; [done|]. split; [|vm_compute; congruence].
  unfold bytes, is_byte. rewrite !Forall_cons. split; [lia|]. split; [lia|]. apply Forall_replicate. lia.
Qed.

(** ** C38, C39: forests *)

Lemma tier_lid_ok off pi : 0 <= off < pi -> tier_lid off pi = Some (pi - off).
Proof.
  intros H. unfold tier_lid. destruct (Z.eqb_spec pi 0); [lia|]. destruct (Z.eqb_spec (pi - 1) (-1)); [lia|].
  destruct (Z.ltb_spec (pi - 1) off); [lia|]. f_equal. lia.
Qed.

Lemma wf_mono R (P Q : Z -> Prop) fl t : (forall pi, P pi -> Q pi) -> wf R P fl t -> wf R Q fl t.
Proof.
  intros HPQ. revert fl. induction t as [|re pi h|bi f IH]; intros fl H; [done| |].
  - destruct H as [H1 H2]. split; [done|]. by apply HPQ.
  - destruct H as (H1 & H2 & H3). split; [done|]. split; [done|]. intros v. apply IH, H3.
Qed.
Lemma shallow_found R P fl t q : wf R P fl t -> forall pi, shallow_lookup t fl q = Found pi -> P pi.
Proof.
  revert fl. induction t as [|re pi h|bi f IH]; intros fl H pi' E; [done| |].
  - cbn [shallow_lookup] in E. destruct (check fl q re) as [[|]|]; [|done|done]. injection E as <-. apply H.
  - destruct H as (H1 & H2 & H3). cbn [shallow_lookup] in E. by apply (IH (q !!! bi) _ (H3 _)).
Qed.

(** A forest of one tree: node identifiers locate the nodes, the lookup answers like the tree, and (with at least two
    hashes) every hash is found with its index.  Missing: forests of several trees, where it is false (below). *)
Theorem C38_one_tree_answers_like_the_tree_partial :
  forall ent srt c off input,
    entropy_ok ent -> sort_ok srt -> config_ok c -> c_back c = true -> (c_R c + c_pre c <= c_hl c)%nat ->
    hashes_ok (c_hl c) input -> distinct input -> input <> [] ->
    (forall x y j, x ∈ input -> y ∈ input -> (j < c_pre c)%nat -> th_hash x !!! j = th_hash y !!! j) ->
    (forall x, x ∈ input -> 0 <= off < th_pi x /\ th_pi x - off < pow256 (c_hid c)) ->
    Z.of_nat (length input) < pow256 (c_nid c) -> Z.of_nat (length input * node_limit c) <= 2^64 - 1 ->
    exists t f, generate ent srt (c_R c) (c_pre c) (c_hl c) input = Some t /\ bake c (tier_lid off) [t] = Some f /\
      (forall q, length q = c_hl c -> bytes q ->
         forest_find c f 0 q = Some (match shallow_lookup t (flags_init (c_hl c) (c_pre c)) q with Found pi => pi - off | _ => 0 end)) /\
      ((2 <= length input)%nat -> forall h pi, mk_th h pi ∈ input -> forest_find c f 0 h = Some (pi - off)).
Proof.
  intros ent srt c off input He Hs Hc Hb HR Hok Hd Hne Ha Hpi Hids Hsz. pose proof (ok_hl _ Hc) as Hhl.
  assert (c_max c = 2^64 - 1) as Hmax by (unfold c_max; by rewrite Hb).
  destruct (generate_wf ent srt (c_R c) (c_pre c) (c_hl c) input (fun pi => 0 <= off < pi /\ pi - off < pow256 (c_hid c)) He Hs Hhl HR Hok Hd Ha Hpi) as (t & Eg & Hwf0 & Hlv & Hn).
  assert (wf (c_R c) (pi_ok c (tier_lid off)) (flags_init (c_hl c) (c_pre c)) t) as Hwf.
  { eapply wf_mono; [|exact Hwf0]. intros pi [H1 H2]. cbn in H1. exists (pi - off). split; [by apply tier_lid_ok|lia]. }
  rewrite bool_decide_false in Hn by done.
  assert (length (flags_init (c_hl c) (c_pre c)) = c_hl c) as Hfl by (apply flags_init_length; lia).
  destruct (baked_lookup c Hc (tier_lid off) t (flags_init (c_hl c) (c_pre c)) Hwf ltac:(lia) (length input)) as (f & Eb & Hj & Hf); [|by rewrite Hmax|done|done|].
  { intros l. etrans; [apply (level_leaves c l _ _ _ [0%Z] t Hwf); cbn; lia|]. lia. }
  exists t, f. split; [done|]. split; [done|].
  assert (forall q, length q = c_hl c -> bytes q ->
         forest_find c f 0 q = Some (match shallow_lookup t (flags_init (c_hl c) (c_pre c)) q with Found pi => pi - off | _ => 0 end)) as Hlook.
  { intros q Hq Hbq. destruct (Hf q ltac:(lia) Hbq) as [H1 H2]. unfold forest_find. rewrite Hj. cbn [lookup list_lookup mbind option_bind]. change (1 =? 0) with false. cbn iota.
    rewrite H1. f_equal. pose proof (shallow_found _ _ _ _ q Hwf0) as Hfd. destruct (shallow_lookup t (flags_init (c_hl c) (c_pre c)) q) as [|pi|]; [done| |done].
    destruct (Hfd pi eq_refl) as [H3 H4]. unfold conv. by rewrite tier_lid_ok. }
  split; [exact Hlook|]. intros Hl h pi Hin. destruct (Hok _ Hin) as [H1 H2]. cbn [th_hash] in *. rewrite Hlook by done. f_equal.
  rewrite generate_checks in Eg by (done || lia). destruct input as [|a [|b input]]; [done|cbn [length] in Hl; lia|]. set (inp := a :: b :: input) in *.
  assert (ready inp (flags_init (c_hl c) (c_pre c))) as Hr by (apply ready_init; [lia|done..]).
  assert (set_count (flags_init (c_hl c) (c_pre c)) < S (c_hl c))%nat as Hcnt by (rewrite set_count_init by lia; lia).
  assert (t = gen ent srt (c_R c) (S (c_hl c)) inp (flags_init (c_hl c) (c_pre c))) as ->.
  { unfold inp in *. rewrite gen_ok_true in Eg by done. by injection Eg. }
  pose proof (gen_lookup ent He srt Hs (c_R c) (S (c_hl c)) inp (flags_init (c_hl c) (c_pre c)) (mk_th h pi) Hr Hl Hcnt Hin) as Hfd. cbn [th_hash th_pi] in Hfd. by rewrite Hfd.
Qed.

(** *** Two trees *)

(** The trees of three hashes starting 0 and of two hashes starting 1 (second byte 1, 2, 3), one hash index each *)
Definition two_bytes (a b : Z) : list Z := a :: b :: replicate 30 0.
Definition lf (a b pi : Z) : tree := Leaf (replicate 2 0) pi (two_bytes a b).
Definition ex_t0 : tree := Slots 1 (fun v => if v =? 1 then lf 0 1 1 else if v =? 2 then lf 0 2 2 else if v =? 3 then lf 0 3 3 else Empty).
Definition ex_t1 : tree := Slots 1 (fun v => if v =? 1 then lf 1 1 4 else if v =? 2 then lf 1 2 5 else Empty).
(** the configuration of the second tier, two reassurance bytes (cakeconfig.go:42-45) *)
Definition ex_tier1 : config := mk_config true 2 10 3 3 32 1.
Definition ex_forest : list tree := [ex_t0; ex_t1] ++ replicate 254 Empty.

Lemma ex_tier1_ok : config_ok ex_tier1.
Proof. split; cbn; lia || done. Qed.

Lemma ex_forest_wf : Forall (wf 2 (pi_ok ex_tier1 (tier_lid 0)) (flags_init 32 1)) ex_forest.
Proof.
  assert (forall pi, 0 < pi < 10 -> pi_ok ex_tier1 (tier_lid 0) pi) as Hpi.
  { intros pi H. exists pi. split; [rewrite tier_lid_ok by lia; f_equal; lia|]. change (pow256 (c_hid ex_tier1)) with 16777216. lia. }
  assert (forall a b pi, 0 < pi < 10 -> wf 2 (pi_ok ex_tier1 (tier_lid 0)) (flip 1 (flags_init 32 1)) (lf a b pi)) as Hlf.
  { intros a b pi H. split; [vm_compute; reflexivity|by apply Hpi]. }
  unfold ex_forest. cbn [app]. rewrite !Forall_cons. split; [|split; [|by apply Forall_replicate]].
  - split; [vm_compute; reflexivity|]. split; [apply Nat.leb_le; vm_compute; reflexivity|]. intros v.
    destruct (v =? 1); [apply Hlf; lia|]. destruct (v =? 2); [apply Hlf; lia|]. destruct (v =? 3); [apply Hlf; lia|done].
  - split; [vm_compute; reflexivity|]. split; [apply Nat.leb_le; vm_compute; reflexivity|]. intros v.
    destruct (v =? 1); [apply Hlf; lia|]. destruct (v =? 2); [apply Hlf; lia|done].
Qed.

(** the construction makes these trees *)
Fixpoint tree_eqb (t u : tree) : bool :=
  match t, u with
  | Empty, Empty => true
  | Leaf re pi h, Leaf re' pi' h' => bool_decide (re = re') && (pi =? pi') && bool_decide (h = h')
  | Slots bi f, Slots bi' f' => Nat.eqb bi bi' && forallb (fun v => tree_eqb (f v) (f' v)) byte_vals
  | _, _ => false
  end.
Example C38_example_trees :
  match generate ex_ent ex_srt 2 1 32 [mk_th (two_bytes 0 1) 1; mk_th (two_bytes 0 2) 2; mk_th (two_bytes 0 3) 3] with Some t => tree_eqb t ex_t0 | None => false end = true /\
  match generate ex_ent ex_srt 2 1 32 [mk_th (two_bytes 1 1) 4; mk_th (two_bytes 1 2) 5] with Some t => tree_eqb t ex_t1 | None => false end = true.
Proof. split; vm_compute; reflexivity. Qed.

(** C38. The identifiers number the nodes of all trees group by group, the bytes are laid out tree by tree: with two
    trees a stored hash is not found, although its own tree has it. *)
Theorem C38_several_trees_refuted :
  exists c lid ts f i t q pi,
    config_ok c /\ c_back c = true /\ Forall (wf (c_R c) (pi_ok c lid) (flags_init (c_hl c) (c_pre c))) ts /\ length ts = 256%nat /\
    bake c lid ts = Some f /\ ts !! i = Some t /\ length q = c_hl c /\ bytes q /\ jump_read (c_pre c) 1 q = Z.of_nat i /\
    shallow_lookup t (flags_init (c_hl c) (c_pre c)) q = Found pi /\ lid pi = Some 1 /\ forest_find c f i q = Some 0.
Proof.
  exists ex_tier1, (tier_lid 0), ex_forest. eexists. exists 0%nat, ex_t0, (two_bytes 0 1), 1.
  split; [apply ex_tier1_ok|]. split; [done|]. split; [apply ex_forest_wf|]. split; [vm_compute; reflexivity|]. split; [vm_compute; reflexivity|].
  split; [done|]. split; [done|]. split; [unfold bytes, is_byte, two_bytes; rewrite !Forall_cons; split; [lia|]; split; [lia|]; apply Forall_replicate; lia|].
  split; [done|]. split; [vm_compute; reflexivity|]. split; [vm_compute; reflexivity|]. vm_compute. reflexivity.
Qed.

(** *** A lone hash *)

Lemma check_prefix pre : forall n h re, length h = (pre + n)%nat -> (length re <= n)%nat ->
  check (replicate pre false ++ replicate n true) h re = Some (bool_decide (re = take (length re) (drop pre h))).
Proof.
  induction pre as [|pre IH]; intros n h re Hh Hre.
  - cbn [replicate app]. rewrite drop_0. revert n h Hh Hre. induction re as [|r re IH]; intros n h Hh Hre.
    + destruct (replicate n true); by rewrite bool_decide_true.
    + cbn [length] in Hre. destruct n as [|n]; [lia|]. destruct h as [|x h]; [cbn in Hh; lia|]. cbn [replicate check length take]. destruct (Z.eqb_spec x r) as [->|Hne].
      * rewrite (IH n h) by (cbn [length] in Hh; lia). f_equal. apply bool_decide_ext. split; [by intros <-|by intros [= ?]].
      * rewrite bool_decide_false; [done|]. intros [= ? ?]. congruence.
  - destruct h as [|x h]; [cbn in Hh; lia|]. cbn [replicate app drop]. destruct re as [|r re].
    + by rewrite bool_decide_true.
    + cbn [check]. apply IH; [cbn [length] in Hh; lia|done].
Qed.

(** C39. A hash alone in its tree is found exactly when its first bytes equal those after the prefix: the leaf keeps
    the former, the lookup compares the latter. *)
Theorem C39_lone_hash_found_exactly_when :
  forall ent srt c off h pi,
    config_ok c -> c_back c = true -> (c_R c + c_pre c <= c_hl c)%nat ->
    length h = c_hl c -> bytes h -> 0 <= off < pi -> pi - off < pow256 (c_hid c) ->
    exists t f, generate ent srt (c_R c) (c_pre c) (c_hl c) [mk_th h pi] = Some t /\ bake c (tier_lid off) [t] = Some f /\
      forest_find c f 0 h = Some (if decide (take (c_R c) h = take (c_R c) (drop (c_pre c) h)) then pi - off else 0).
Proof.
  intros ent srt c off h pi Hc Hb HR Hl Hbh Hpi Hlt. pose proof (ok_hl _ Hc) as Hhl. pose proof (ok_nid _ Hc) as Hnid. pose proof (ok_hid _ Hc) as Hhid.
  assert (c_max c = 2^64 - 1) as Hmax by (unfold c_max; by rewrite Hb).
  set (t := Leaf (take (c_R c) h) pi h).
  assert (wf (c_R c) (pi_ok c (tier_lid off)) (flags_init (c_hl c) (c_pre c)) t) as Hwf.
  { split; [rewrite take_length, set_count_init by lia; lia|]. exists (pi - off). split; [by apply tier_lid_ok|lia]. }
  assert (length (flags_init (c_hl c) (c_pre c)) = c_hl c) as Hfl by (apply flags_init_length; lia).
  destruct (baked_lookup c Hc (tier_lid off) t (flags_init (c_hl c) (c_pre c)) Hwf ltac:(lia) 1) as (f & Eb & Hj & Hf).
  { intros l. unfold on_level. etrans; [apply filter_length|]. done. }
  { rewrite Hmax. unfold node_limit. pose proof (ok_R _ Hc). lia. }
  { apply Z.lt_le_trans with (pow256 1); [done|]. apply pow256_le. lia. }
  { done. }
  exists t, f. split; [rewrite generate_checks; [done|lia|lia|lia|]; intros x Hx; apply elem_of_list_singleton in Hx as ->; done|]. split; [done|].
  destruct (Hf h ltac:(lia) Hbh) as [H1 _]. unfold forest_find. rewrite Hj. cbn [lookup list_lookup mbind option_bind]. change (1 =? 0) with false. cbn iota. rewrite H1. f_equal.
  unfold t. cbn [shallow_lookup]. unfold flags_init. rewrite check_prefix by (rewrite ?take_length; lia). rewrite take_length, Nat.min_l by lia.
  case_bool_decide as E; [rewrite decide_True by done|by rewrite decide_False]. unfold conv. by rewrite tier_lid_ok.
Qed.
(** In a tier without a prefix a lone hash is found.  Missing: the tiers with a prefix, where it is false (below). *)
Theorem C39_lone_hash_without_prefix_partial :
  forall ent srt c off h pi,
    config_ok c -> c_back c = true -> c_pre c = 0%nat ->
    length h = c_hl c -> bytes h -> 0 <= off < pi -> pi - off < pow256 (c_hid c) ->
    exists t f, generate ent srt (c_R c) (c_pre c) (c_hl c) [mk_th h pi] = Some t /\ bake c (tier_lid off) [t] = Some f /\
      forest_find c f 0 h = Some (pi - off).
Proof.
  intros ent srt c off h pi Hc Hb Hp Hl Hbh Hpi Hlt. pose proof (ok_R _ Hc).
  destruct (C39_lone_hash_found_exactly_when ent srt c off h pi Hc Hb ltac:(lia) Hl Hbh Hpi Hlt) as (t & f & H1 & H2 & H3). exists t, f. split; [done|]. split; [done|].
  rewrite H3, Hp, drop_0. by rewrite decide_True.
Qed.
Theorem C39_lone_hash_refuted :
  exists c h pi, config_ok c /\ c_back c = true /\ length h = c_hl c /\ bytes h /\ 0 < pi < pow256 (c_hid c) /\
    forall ent srt, exists t f, generate ent srt (c_R c) (c_pre c) (c_hl c) [mk_th h pi] = Some t /\ bake c (tier_lid 0) [t] = Some f /\
      forest_find c f 0 h = Some 0.
Proof.
  exists ex_tier1, (two_bytes 0 1), 1. assert (bytes (two_bytes 0 1)) as Hb.
  { unfold bytes, is_byte, two_bytes; rewrite !Forall_cons; split; [lia|]; split; [lia|]; apply Forall_replicate; lia. }
  split; [apply ex_tier1_ok|]. split; [done|]. split; [done|]. split; [done|]. split; [vm_compute; done|]. intros ent srt.
  destruct (C39_lone_hash_found_exactly_when ent srt ex_tier1 0 (two_bytes 0 1) 1 ex_tier1_ok eq_refl ltac:(cbn; lia) eq_refl Hb ltac:(lia) ltac:(vm_compute; done)) as (t & f & H1 & H2 & H3).
  exists t, f. split; [exact H1|]. split; [exact H2|]. etrans; [exact H3|]. rewrite decide_False; [done|]. vm_compute. discriminate.
Qed.

(** ** The hypotheses can be met *)

Definition ex_children (v : Z) : option Z := if v =? 7 then Some 300 else if v =? 200 then Some 2 else None.
Definition ex_chunk : config := mk_config false 1 10 2 2 3 0.
Lemma ex_chunk_ok : config_ok ex_chunk.
Proof. split; cbn; lia. Qed.
Example C29_example :
  config_ok ex_chunk /\ fits ex_children (mk_spec FTiny 3) /\ fits ex_children (mk_spec FMedium 6) /\ fits ex_children (mk_spec FFull 256) /\
  (forall v id, 0 <= v < 256 -> ex_children v = Some id -> 0 < id < pow256 (c_nid ex_chunk)) /\
  (exists b, encode_slots ex_chunk (mk_spec FTiny 3) 4 ex_children = Some b /\ b = [4; 7; 44; 1; 200; 2; 0; 0; 0; 0]).
Proof.
  split; [apply ex_chunk_ok|]. assert (used ex_children = 2%nat) as Hu by (vm_compute; reflexivity).
  split; [split; [cbn; lia|split; [done|rewrite Hu; cbn; lia]]|]. split; [split; [cbn; lia|split; [done|rewrite Hu; cbn; lia]]|].
  split; [split; [done|split; [done|done]]|]. split; [|eexists; split; vm_compute; reflexivity].
  intros v id _ H. change (pow256 (c_nid ex_chunk)) with 65536. unfold ex_children in H. destruct (v =? 7); [injection H as <-; lia|]. destruct (v =? 200); [injection H as <-; lia|done].
Qed.
Example C30_example :
  exists k, prepare ex_ent ex_srt ex_chunk ex_tree_input = Some k /\ chunk_lookup ex_chunk k [1; 2; 4] = Some 11 /\ chunk_lookup ex_chunk k [9; 5; 0] = Some 13.
Proof.
  destruct (C30_chunk_answers_like_the_tree ex_ent ex_srt ex_chunk ex_tree_input) as (k & t & H1 & H2 & H3 & H4).
  - apply ex_ent_ok.
  - apply ex_srt_ok.
  - apply ex_chunk_ok.
  - done.
  - done.
  - apply ex_tree_input_ok.
  - apply ex_tree_input_ok.
  - intros x Hx. change (pow256 (c_hid ex_chunk)) with 65536. unfold ex_tree_input in *.
    repeat (apply elem_of_cons in Hx as [->|Hx]; [cbn; lia|]). by apply elem_of_nil in Hx.
  - done.
  - vm_compute. done.
  - exists k. split; [done|]. split; apply H4; unfold ex_tree_input; rewrite !elem_of_cons; tauto.
Qed.
(** leaves, nodes of 2, 3, 7, 8, 100 and 250 slots; a limit of five groups forces merges *)
Definition ex_hist (k : nat) : nat := if decide (k ∈ [0; 2; 3; 7; 8; 100; 250]%nat) then 3%nat else 0%nat.
Example C31_example :
  config_ok (mk_config true 1 5 2 2 3 0) /\ ex_hist 1 = 0%nat /\ Z.of_nat (nodes_in ex_hist 0 257 * node_limit (mk_config true 1 5 2 2 3 0)) <= c_max (mk_config true 1 5 2 2 3 0) /\
  exists gs, design_level (mk_config true 1 5 2 2 3 0) ex_hist = Some gs /\
    (fun g => (g_start g, g_end g, g_count g)) <$> gs = [(7, 9, 6); (0, 1, 3); (100, 101, 3); (250, 251, 3); (2, 4, 6)]%nat.
Proof. split; [split; cbn; try lia; done|]. split; [done|]. split; [vm_compute; done|]. eexists. split; vm_compute; reflexivity. Qed.

Print Assumptions C29_node_formats_answer_like_the_node.
Print Assumptions C29_leaf_reads_back.
Print Assumptions C30_chunk_answers_like_the_tree.
Print Assumptions C31_grouping_covers_every_slot_count.
Print Assumptions C31_identifiers_are_a_numbering.
Print Assumptions C37_short_prefix_same_place_partial.
Print Assumptions C37_two_byte_prefix_places.
Print Assumptions C37_same_place_refuted.
Print Assumptions C38_one_tree_answers_like_the_tree_partial.
Print Assumptions C38_several_trees_refuted.
Print Assumptions C39_lone_hash_found_exactly_when.
Print Assumptions C39_lone_hash_without_prefix_partial.
Print Assumptions C39_lone_hash_refuted.
