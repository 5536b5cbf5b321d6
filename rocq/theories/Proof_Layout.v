(** Identifiers locate the bytes of their nodes within a level (for C30, C31, C38). *)
From Verif Require Import Base Model_Tree Model_Chunk Spec_Chunk Proof_Node Proof_Design.

(** ** Reading a level *)
Definition before (gs : list group) : Z := Z.of_nat (sum_list (g_count <$> gs)).
Definition entry (c : config) (g : group) : list Z := le_enc (c_nid c) (Z.of_nat (g_count g)) ++ le_enc 4 (spec_word c (g_spec g)).
Definition body_ok (c : config) (g : group) (b : list (list Z)) : Prop := length b = g_count g /\ chunks (byte_size c (g_spec g)) b.

Lemma sum_list_app (l l' : list nat) : sum_list (l ++ l') = (sum_list l + sum_list l')%nat.
Proof. induction l as [|x l IH]; [done|]. cbn [app sum_list]. rewrite IH. lia. Qed.
Lemma before_cons g gs : before (g :: gs) = Z.of_nat (g_count g) + before gs.
Proof. unfold before. cbn [fmap list_fmap sum_list]. unfold id. lia. Qed.
Lemma before_nonneg gs : 0 <= before gs.
Proof. unfold before. lia. Qed.
Lemma concat_length_sum {A} (l : list (list A)) : length (concat l) = sum_list (length <$> l).
Proof. induction l as [|x l IH]; [done|]. cbn [concat fmap list_fmap sum_list]. rewrite app_length, IH. done. Qed.

Section Extract.
  Context (c : config) (Hc : config_ok c).
  Lemma body_length g b : body_ok c g b -> length (concat b) = (g_count g * byte_size c (g_spec g))%nat.
  Proof. intros [H1 H2]. rewrite (chunks_concat_length _ _ H2). lia. Qed.

  Lemma extract_from_spec gs bs : Forall2 (body_ok c) gs bs -> (forall g, g ∈ gs -> cap_ok (g_spec g)) ->
    forall pre preb cur id i j g b body,
    1 <= cur -> cur + before gs <= c_max c -> before gs < pow256 (c_nid c) -> Z.of_nat (length preb + length (concat (@concat Z <$> bs))) <= c_max c ->
    gs !! i = Some g -> bs !! i = Some b -> b !! j = Some body -> id = cur + before (take i gs) + Z.of_nat j ->
    extract_from c (pre ++ concat (entry c <$> gs)) (preb ++ concat (@concat Z <$> bs)) (length gs) (length pre) cur (Z.of_nat (length preb)) id
      = Some (Some (spec_word c (g_spec g), body)).
  Proof using Hc.
    induction 1 as [|g0 b0 gs bs Hb Hbs IH]; intros Hcap pre preb cur id i j g b body Hcur Hmax Hid Hlen Hg Hbi Hbody ->; [done|].
    assert (cap_ok (g_spec g0)) as Hcap0 by (apply Hcap; by left).
    pose proof (before_nonneg gs) as Hnn. rewrite before_cons in Hmax, Hid.
    cbn [fmap list_fmap concat length extract_from].
    assert (read_id (c_nid c) (pre ++ entry c g0 ++ concat (entry c <$> gs)) (length pre) = Some (Z.of_nat (g_count g0))) as ->.
    { unfold entry at 1. rewrite <- app_assoc. apply read_id_app; [done|apply le_enc_length|]. apply le_dec_enc_small. lia. }
    assert (read_id 4 (pre ++ entry c g0 ++ concat (entry c <$> gs)) (length pre + c_nid c) = Some (spec_word c (g_spec g0))) as ->.
    { unfold entry at 1. rewrite <- app_assoc, app_assoc. apply read_id_app; [by rewrite app_length, le_enc_length|apply le_enc_length|].
      apply le_dec_enc_small. by apply spec_word_range. }
    cbn [mbind option_bind]. rewrite spec_word_size by done.
    pose proof (body_length _ _ Hb) as Hbl. cbn [concat fmap list_fmap] in Hlen. rewrite app_length in Hlen.
    pose proof (size_small c Hc _ Hcap0) as [Hsz _].
    assert (0 <= c_max c) by (unfold c_max; destruct (c_back c); lia).
    rewrite (wrap_small c (cur + Z.of_nat (g_count g0))) by lia.
    destruct i as [|i].
    - injection Hg as <-. injection Hbi as <-. cbn [take]. change (before []) with 0. rewrite Z.add_0_r.
      pose proof (lookup_lt_Some _ _ _ Hbody) as Hj. destruct Hb as [Hb1 Hb2].
      destruct (Z.ltb_spec (cur + Z.of_nat j) (cur + Z.of_nat (g_count g0))); [|lia].
      replace (cur + Z.of_nat j - cur) with (Z.of_nat j) by lia.
      rewrite (wrap_small c (Z.of_nat j)) by lia. rewrite <- Nat2Z.inj_mul. rewrite (wrap_small c (Z.of_nat (j * _))) by nia.
      rewrite <- Nat2Z.inj_add. rewrite wrap_small by nia. rewrite !Nat2Z.id.
      assert (file_read (preb ++ concat b0 ++ concat (@concat Z <$> bs)) (length preb + j * byte_size c (g_spec g0)) (byte_size c (g_spec g0)) = Some body) as ->; [|done].
      unfold file_read. rewrite decide_True by (rewrite !app_length, Hbl; nia). f_equal.
      rewrite <- drop_drop, drop_app. rewrite drop_app_le by (rewrite Hbl; nia). rewrite take_app_le by (rewrite drop_length, Hbl; nia).
      rewrite (chunks_read _ _ _ Hb2), Hbody. done.
    - cbn [take]. rewrite before_cons. cbn in Hg, Hbi. pose proof (before_nonneg (take i gs)).
      destruct (Z.ltb_spec (cur + (Z.of_nat (g_count g0) + before (take i gs)) + Z.of_nat j) (cur + Z.of_nat (g_count g0))); [lia|].
      rewrite <- Nat2Z.inj_mul. rewrite (wrap_small c (Z.of_nat (g_count g0 * _))) by (rewrite <- Hbl; lia).
      rewrite <- Nat2Z.inj_add. rewrite <- Hbl, wrap_small by lia. rewrite <- app_length.
      rewrite !(app_assoc pre), !(app_assoc preb).
      replace (length pre + c_nid c + 4)%nat with (length (pre ++ entry c g0)) by (unfold entry; rewrite !app_length, !le_enc_length; lia).
      apply (IH ltac:(intros; apply Hcap; by right) (pre ++ entry c g0) (preb ++ concat b0) _ _ i j g b body); try done; try lia.
      rewrite app_length. lia.
  Qed.

  Lemma index_bytes_eq gs : before gs < pow256 (c_nid c) ->
    index_bytes c gs = Some (le_enc 2 (Z.of_nat (length gs)) ++ concat (entry c <$> gs)).
  Proof.
    intros H. unfold index_bytes. rewrite (mapM_all _ (entry c)); [done|]. intros g Hg. unfold index_entry.
    assert (Z.of_nat (g_count g) <= before gs).
    { clear H. induction gs as [|x gs IH]; [by apply elem_of_nil in Hg|]. rewrite before_cons. pose proof (before_nonneg gs). apply elem_of_cons in Hg as [->|Hg]; [lia|].
      specialize (IH Hg). lia. }
    rewrite write_id_ok by lia. done.
  Qed.

  Lemma extract_node_spec gs bs ix i j g b body : index_bytes c gs = Some ix -> Forall2 (body_ok c) gs bs -> (forall g, g ∈ gs -> cap_ok (g_spec g)) ->
    (length gs <= 255)%nat -> 1 + before gs <= c_max c -> before gs < pow256 (c_nid c) -> Z.of_nat (length (concat (@concat Z <$> bs))) <= c_max c ->
    gs !! i = Some g -> bs !! i = Some b -> b !! j = Some body ->
    extract_node c (ix, concat (@concat Z <$> bs)) (1 + before (take i gs) + Z.of_nat j) = Some (Some (spec_word c (g_spec g), body)).
  Proof using Hc.
    intros Hix Hbs Hcap Hl Hmax Hid Hlen Hg Hb Hbody. rewrite index_bytes_eq in Hix by done. apply (inj Some) in Hix as <-. unfold extract_node. cbn [fst snd].
    assert (read_id 2 (le_enc 2 (Z.of_nat (length gs)) ++ concat (entry c <$> gs)) 0 = Some (Z.of_nat (length gs))) as ->.
    { apply (read_id_app 2 [] _ _ 0); [done|apply le_enc_length|]. apply le_dec_enc_small. change (pow256 2) with 65536. lia. }
    cbn [mbind option_bind]. rewrite Nat2Z.id.
    apply (extract_from_spec gs bs Hbs Hcap (le_enc 2 (Z.of_nat (length gs))) [] 1 _ i j g b body); try done; lia.
  Qed.
End Extract.

(** ** Allocating identifiers *)
Fixpoint alloc_table (next : Z) (gs : list group) : list (Z * Z) :=
  match gs with [] => [] | g :: gs' => (next, Z.of_nat (g_count g)) :: alloc_table (next + Z.of_nat (g_count g)) gs' end.
Lemma alloc_init_eq c gs next : next + before gs <= c_max c -> alloc_init c next gs = Some (alloc_table next gs).
Proof.
  revert next. induction gs as [|g gs IH]; intros next H; [done|]. rewrite before_cons in H. pose proof (before_nonneg gs). cbn [alloc_init alloc_table].
  destruct (Z.ltb_spec (c_max c) (next + Z.of_nat (g_count g))); [lia|]. rewrite IH by lia. done.
Qed.
Lemma alloc_table_lookup next gs i g : gs !! i = Some g -> alloc_table next gs !! i = Some (next + before (take i gs), Z.of_nat (g_count g)).
Proof.
  revert next i. induction gs as [|x gs IH]; intros next i H; [done|]. destruct i as [|i].
  - injection H as ->. cbn. change (before []) with 0. by rewrite Z.add_0_r.
  - cbn [take]. rewrite before_cons. cbn in H |- *. rewrite (IH _ i H). do 2 f_equal. lia.
Qed.
Lemma alloc_table_length next gs : length (alloc_table next gs) = length gs.
Proof. revert next. induction gs as [|x gs IH]; intros next; [done|]. cbn. by rewrite IH. Qed.

Section Alloc.
  Context (gs : list group).
  Definition slot (n : key * tree) : nat := slot_group gs (active (snd n)).
  Definition of_slot (i : nat) (N : list (key * tree)) : list (key * tree) := filter (fun n => slot n = i) N.

  Lemma of_slot_cons i n N : of_slot i (n :: N) = if decide (slot n = i) then n :: of_slot i N else of_slot i N.
  Proof. unfold of_slot. by rewrite filter_cons. Qed.
  Lemma of_slot_app i A B : of_slot i (A ++ B) = of_slot i A ++ of_slot i B.
  Proof. unfold of_slot. by rewrite filter_app. Qed.

  Lemma alloc_nodes_spec N st : (forall n, n ∈ N -> exists nx av, st !! slot n = Some (nx, av)) ->
    (forall i nx av, st !! i = Some (nx, av) -> Z.of_nat (length (of_slot i N)) <= av) ->
    exists r st', alloc_nodes gs st N = Some (r, st') /\ (fst <$> r) = (fst <$> N) /\
      (forall A n B nx av, N = A ++ n :: B -> st !! slot n = Some (nx, av) -> r !! length A = Some (fst n, nx + Z.of_nat (length (of_slot (slot n) A)))) /\
      (forall i nx av, st !! i = Some (nx, av) -> st' !! i = Some (nx + Z.of_nat (length (of_slot i N)), av - Z.of_nat (length (of_slot i N)))).
  Proof.
    revert st. induction N as [|n N IH]; intros st Hin Hav.
    { exists [], st. split; [done|]. split; [done|]. split; [intros [] ? ? ? ? ?; done|]. intros i nx av H. cbn. by rewrite Z.add_0_r, Z.sub_0_r. }
    destruct (Hin n ltac:(by left)) as (nx & av & Hn). cbn [alloc_nodes]. fold (slot n). rewrite Hn.
    pose proof (Hav _ _ _ Hn) as Hle. rewrite of_slot_cons, decide_True in Hle by done. cbn [length] in Hle.
    destruct (Z.eqb_spec av 0); [lia|].
    pose proof (lookup_lt_Some _ _ _ Hn) as Hlt.
    destruct (IH (<[slot n:=(nx + 1, av - 1)]> st)) as (r & st' & -> & Hf & Hr & Hst).
    - intros m Hm. destruct (decide (slot m = slot n)) as [->|Hne].
      + rewrite list_lookup_insert by done. eauto.
      + rewrite list_lookup_insert_ne by done. apply Hin. by right.
    - intros i nx' av' Hi. destruct (decide (slot n = i)) as [<-|Hne].
      + rewrite list_lookup_insert in Hi by done. injection Hi as <- <-. lia.
      + rewrite list_lookup_insert_ne in Hi by done. pose proof (Hav _ _ _ Hi) as H. rewrite of_slot_cons, decide_False in H by done. done.
    - cbn [mbind option_bind fst snd]. eexists _, st'. split; [done|]. split; [cbn; by rewrite Hf|]. split.
      + intros [|a A] m B nx' av' E Hm.
        * injection E as <- <-. rewrite Hn in Hm. injection Hm as <- <-. cbn. by rewrite Z.add_0_r.
        * injection E as <- ->. cbn [length lookup list_lookup]. rewrite of_slot_cons. case_decide as Hs.
          -- rewrite <- Hs in *. rewrite Hn in Hm. injection Hm as <- <-.
             pose proof (Hr A m B (nx + 1) (av - 1) eq_refl) as H. rewrite <- Hs in H. etrans; [apply H; by rewrite list_lookup_insert|]. cbn [length]. do 2 f_equal. lia.
          -- apply (Hr A m B nx' av' eq_refl). by rewrite list_lookup_insert_ne.
      + intros i nx' av' Hi. rewrite of_slot_cons. case_decide as Hs.
        * rewrite <- Hs in *. rewrite Hn in Hi. injection Hi as <- <-. etrans; [apply (Hst _ (nx + 1) (av - 1)); by rewrite list_lookup_insert|]. cbn [length]. do 2 f_equal; lia.
        * apply Hst. by rewrite list_lookup_insert_ne.
  Qed.

  Lemma of_slot_lookup A n B : of_slot (slot n) (A ++ n :: B) !! length (of_slot (slot n) A) = Some n.
  Proof.
    rewrite of_slot_app, of_slot_cons, decide_True by done. rewrite lookup_app_r by done. by rewrite Nat.sub_diag.
  Qed.
End Alloc.

Lemma id_of_lookup (m : list (key * Z)) j k id : NoDup (fst <$> m) -> m !! j = Some (k, id) -> id_of m k = Some id.
Proof.
  revert j. induction m as [|[k' id'] m IH]; intros j Hnd Hj; [done|]. cbn [id_of]. cbn [fmap list_fmap fst] in Hnd. apply NoDup_cons in Hnd as [Hk Hnd].
  destruct j as [|j]; [injection Hj as -> ->; by rewrite decide_True|]. cbn in Hj. rewrite decide_False; [by apply (IH j)|].
  intros ->. apply Hk. apply elem_of_list_fmap. exists (k, id). split; [done|]. by eapply elem_of_list_lookup_2.
Qed.

(** ** One level *)
Lemma histogram_cons n N k : histogram (n :: N) k = ((if decide (active (snd n) = k) then 1 else 0) + histogram N k)%nat.
Proof. unfold histogram. rewrite filter_cons. by case_decide. Qed.
Lemma nodes_in_add h1 h2 a b : nodes_in (fun k => (h1 k + h2 k)%nat) a b = (nodes_in h1 a b + nodes_in h2 a b)%nat.
Proof. unfold nodes_in. induction (seq a (b - a)) as [|x l IH]; [done|]. cbn [fmap list_fmap sum_list]. unfold id in *. lia. Qed.
Lemma nodes_in_ext h1 h2 a b : (forall k, h1 k = h2 k) -> nodes_in h1 a b = nodes_in h2 a b.
Proof. intros H. unfold nodes_in. f_equal. apply list_fmap_ext. intros _ k _. apply H. Qed.
Lemma nodes_in_point x a b : nodes_in (fun k => if decide (x = k) then 1%nat else 0%nat) a b = if decide (a <= x < b)%nat then 1%nat else 0%nat.
Proof.
  case_decide as H.
  - rewrite (nodes_in_split _ a x b), (nodes_in_split _ x (S x) b), nodes_in_one by lia. rewrite decide_True by done.
    rewrite !nodes_in_zero; [done| |]; intros k Hk; rewrite decide_False by lia; done.
  - apply nodes_in_zero. intros k Hk. rewrite decide_False by lia. done.
Qed.
Lemma nodes_in_histogram N a b : nodes_in (histogram N) a b = length (filter (fun n : key * tree => (a <= active (snd n) < b)%nat) N).
Proof.
  induction N as [|n N IH]; [by apply nodes_in_zero|]. rewrite (nodes_in_ext _ (fun k => ((if decide (active (snd n) = k) then 1 else 0) + histogram N k)%nat)) by (apply histogram_cons).
  rewrite nodes_in_add, nodes_in_point, IH. rewrite filter_cons. by case_decide.
Qed.
Lemma histogram_elem N n : n ∈ N -> (0 < histogram N (active (snd n)))%nat.
Proof.
  intros H. unfold histogram. assert (n ∈ filter (fun m : key * tree => active (snd m) = active (snd n)) N) as H' by (by apply elem_of_list_filter).
  destruct (filter _ N); [by apply elem_of_nil in H'|]. cbn. lia.
Qed.

  Lemma filter_ext_in {A} (P Q : A -> Prop) `{HP : !forall x, Decision (P x)} `{HQ : !forall x, Decision (Q x)} (l : list A) :
    (forall x, x ∈ l -> P x <-> Q x) -> filter P l = filter Q l.
  Proof.
    induction l as [|x l IH]; intros H; [done|]. rewrite !filter_cons, IH by (intros; apply H; by right). pose proof (H x ltac:(by left)).
    do 2 case_decide; tauto.
  Qed.
  Lemma limit_pos c : (1 <= node_limit c)%nat.
  Proof. unfold node_limit. lia. Qed.
  Lemma size_limit c s : config_ok c -> cap_ok s -> (byte_size c s <= node_limit c)%nat.
  Proof. intros [Hn _ _ _ _ _ _] H. unfold cap_ok, byte_size, node_limit in *. destruct (s_fmt s); nia. Qed.
  Lemma total_bytes c gs' bs : config_ok c -> Forall2 (body_ok c) gs' bs -> (forall g, g ∈ gs' -> cap_ok (g_spec g)) ->
    (length (concat (@concat Z <$> bs)) <= sum_list (g_count <$> gs') * node_limit c)%nat.
  Proof.
    intros Hc.    induction 1 as [|g b gs' bs Hb Hbs IH]; intros Hcap; [cbn; lia|]. cbn [fmap list_fmap concat sum_list]. rewrite app_length, (body_length c g b Hb).
    specialize (IH ltac:(intros; apply Hcap; by right)). pose proof (size_limit c (g_spec g) Hc ltac:(apply Hcap; by left)). unfold id in *. nia.
  Qed.
Section Level.
  Context (c : config) (Hc : config_ok c) (N : list (key * tree)) (gs : list group).
  Context (Hd : design_ok c (histogram N) gs).
  Context (Hact : forall n, n ∈ N -> (active (snd n) <= 256)%nat).
  Context (Hsize : Z.of_nat (length N * node_limit c) <= c_max c) (Hids : Z.of_nat (length N) < pow256 (c_nid c)).

  Lemma level_slot n : n ∈ N -> exists g, gs !! slot gs n = Some g /\ covers g (active (snd n)) /\ format_for (g_spec g) (active (snd n)).
  Proof using All.
    intros Hn. destruct (do_cover _ _ _ Hd (active (snd n))) as (i & g & H1 & H2 & H3 & H4).
    - pose proof (Hact n Hn). lia.
    - by apply histogram_elem.
    - exists g. unfold slot. by rewrite H3.
  Qed.
  Lemma level_slot_iff n i g : n ∈ N -> gs !! i = Some g -> covers g (active (snd n)) <-> slot gs n = i.
  Proof using All.
    intros Hn Hi. split.
    - intros Hcov. unfold slot. eapply slot_group_some; [apply Hd|done|done].
    - intros <-. destruct (level_slot n Hn) as (g' & Hg' & H & _). by rewrite Hi in Hg'; injection Hg' as <-.
  Qed.
  Lemma level_count i g : gs !! i = Some g -> length (of_slot gs i N) = g_count g.
  Proof using All.
    intros Hi. rewrite (do_count _ _ _ Hd) by (by eapply elem_of_list_lookup_2). rewrite nodes_in_histogram. unfold of_slot.
    f_equal. apply filter_ext_in. intros n Hn. rewrite <- (level_slot_iff n i g Hn Hi). done.
  Qed.
  Lemma level_total : nodes_in (histogram N) 0 257 = length N.
  Proof using All.
    rewrite nodes_in_histogram. f_equal. clear -Hact. induction N as [|n N' IH]; [done|]. rewrite filter_cons, decide_True.
    - f_equal. apply IH. intros m Hm. apply Hact. by right.
    - pose proof (Hact n ltac:(by left)). lia.
  Qed.
  Lemma level_before : before gs = Z.of_nat (length N).
  Proof using All. unfold before. rewrite (do_total _ _ _ Hd). by rewrite level_total. Qed.
  Lemma level_max : 1 + before gs <= c_max c.
  Proof using All.
    rewrite level_before. unfold node_limit in Hsize. assert (2 <= c_max c) by (unfold c_max; destruct (c_back c); lia). nia.
  Qed.

  Lemma level_alloc : exists r st', alloc_nodes gs (alloc_table 1 gs) N = Some (r, st') /\ (fst <$> r) = (fst <$> N) /\
    (forall A n B, N = A ++ n :: B -> r !! length A = Some (fst n, 1 + before (take (slot gs n) gs) + Z.of_nat (length (of_slot gs (slot gs n) A)))).
  Proof using All.
    destruct (alloc_nodes_spec gs N (alloc_table 1 gs)) as (r & st' & E & Hf & Hr & _).
    - intros n Hn. destruct (level_slot n Hn) as (g & Hg & _). eexists _, _. by apply alloc_table_lookup.
    - intros i nx av Hi. pose proof (lookup_lt_Some _ _ _ Hi) as Hlt. rewrite alloc_table_length in Hlt. apply lookup_lt_is_Some in Hlt as (g & Hg).
      rewrite (alloc_table_lookup 1 gs i g Hg) in Hi. injection Hi as <- <-. rewrite (level_count i g Hg). lia.
    - exists r, st'. split; [done|]. split; [done|]. intros A n B EN. destruct (level_slot n) as (g & Hg & _); [rewrite EN; apply elem_of_app; right; by left|].
      apply (Hr A n B _ (Z.of_nat (g_count g)) EN). by apply alloc_table_lookup.
  Qed.

  (** the bytes of the level *)
  Context (enc : key * tree -> list Z) (lid : Z -> option Z) (m : list (key * Z)).
  Context (Henc : forall n g, n ∈ N -> gs !! slot gs n = Some g -> encode_node c lid m (g_spec g) n = Some (enc n) /\ length (enc n) = byte_size c (g_spec g)).
  Definition bodies (i k : nat) : list (list (list Z)) := (fun i => enc <$> of_slot gs i N) <$> seq i k.
  Lemma encode_groups_spec pre gs' : gs = pre ++ gs' -> encode_groups c lid m gs (length pre) gs' N = Some (concat (@concat Z <$> bodies (length pre) (length gs'))).
  Proof using All.
    revert pre. induction gs' as [|g gs' IH]; intros pre E; [done|]. cbn [encode_groups length].
    change (filter (fun n : key * tree => slot_group gs (active (snd n)) = length pre) N) with (of_slot gs (length pre) N).
    rewrite (mapM_all _ enc).
    - cbn [mbind option_bind]. specialize (IH (pre ++ [g])). rewrite app_length in IH. cbn [length] in IH. replace (length pre + 1)%nat with (S (length pre)) in IH by lia.
      rewrite IH by (by rewrite <- app_assoc). done.
    - intros n Hn. apply elem_of_list_filter in Hn as [Hs Hn]. apply Henc; [done|]. rewrite Hs, E, lookup_app_r by lia. by rewrite Nat.sub_diag.
  Qed.
  Lemma bodies_ok : Forall2 (body_ok c) gs (bodies 0 (length gs)).
  Proof using All.
    apply Forall2_same_length_lookup_2; [unfold bodies; by rewrite fmap_length, seq_length|].
    intros i g b Hg Hb. unfold bodies in Hb. rewrite list_lookup_fmap in Hb. pose proof (lookup_lt_Some _ _ _ Hg). rewrite lookup_seq_lt in Hb by done.
    injection Hb as <-. split; [rewrite fmap_length; by apply level_count|]. apply Forall_fmap, Forall_forall. intros n Hn. apply elem_of_list_filter in Hn as [Hs Hn].
    cbn. apply Henc; [done|]. by rewrite Hs.
  Qed.
  Lemma level_caps : forall g, g ∈ gs -> cap_ok (g_spec g).
  Proof using All. intros g Hg. by apply (do_cap _ _ _ Hd). Qed.
  Lemma level_bytes_max : Z.of_nat (length (concat (@concat Z <$> bodies 0 (length gs)))) <= c_max c.
  Proof using All.
    pose proof (total_bytes c _ _ Hc bodies_ok level_caps) as H. rewrite (do_total _ _ _ Hd), level_total in H. lia.
  Qed.
  Lemma level_extract ix A n B g : index_bytes c gs = Some ix -> N = A ++ n :: B -> gs !! slot gs n = Some g ->
    extract_node c (ix, concat (@concat Z <$> bodies 0 (length gs))) (1 + before (take (slot gs n) gs) + Z.of_nat (length (of_slot gs (slot gs n) A)))
      = Some (Some (spec_word c (g_spec g), enc n)).
  Proof using All.
    intros Hix EN Hg. pose proof (do_limit _ _ _ Hd). destruct Hc as [_ _ _ _ _ HK _].
    apply (extract_node_spec c Hc gs (bodies 0 (length gs)) ix (slot gs n) _ g (enc <$> of_slot gs (slot gs n) N)); try done.
    - apply bodies_ok.
    - apply level_caps.
    - lia.
    - apply level_max.
    - rewrite level_before. done.
    - apply level_bytes_max.
    - unfold bodies. rewrite list_lookup_fmap, lookup_seq_lt by (by eapply lookup_lt_Some). done.
    - rewrite list_lookup_fmap. assert (of_slot gs (slot gs n) N !! length (of_slot gs (slot gs n) A) = Some n) as ->; [|done].
      rewrite EN. apply of_slot_lookup.
  Qed.
  (** the byte count written in advance is right *)
  Lemma level_bytes_count : Z.of_nat (length (concat (@concat Z <$> bodies 0 (length gs)))) = foldr Z.add 0 (map g_bytes gs).
  Proof using All.
    pose proof bodies_ok as Hb. assert (forall g, g ∈ gs -> g_bytes g = Z.of_nat (g_count g * byte_size c (g_spec g))) as Hg by apply Hd.
    revert Hb Hg. generalize (bodies 0 (length gs)). clear. intros bs Hb. induction Hb as [|g b gs' bs Hb Hbs IH]; intros Hg; [done|].
    cbn [fmap list_fmap concat map foldr]. rewrite app_length, Nat2Z.inj_add, IH by (intros; apply Hg; by right). rewrite (body_length c g b Hb).
    by rewrite (Hg g) by (by left).
  Qed.
End Level.
