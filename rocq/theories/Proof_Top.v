(** Lemmas about baking the top tier. *)
From Verif Require Import Base Model_Tree Spec_Tree Proof_Tree Prop_Tree Model_Chunk Spec_Chunk Proof_Node Proof_Design Proof_Layout Proof_Chunk Proof_Prepare Prop_Chunk Model_Top.

Lemma top_cap_val : Z.of_nat top_cap = 65535.
Proof. unfold top_cap. apply Z2Nat.id. lia. Qed.
Global Opaque top_cap.

(** ** Depth *)
Section Depth.
  Context (ent : list thash -> nat -> Z) (Hent : entropy_ok ent) (srt : nat -> list thash -> list thash) (Hsrt : sort_ok srt) (R : nat).

  (** the hashes differ only in their first [m] bytes *)
  Definition same_from (m : nat) (l : list thash) : Prop := forall x y j, x ∈ l -> y ∈ l -> (m <= j)%nat -> th_hash x !!! j = th_hash y !!! j.

  Lemma take_flip m bi fl : (bi < m)%nat -> take m (flip bi fl) = flip bi (take m fl).
  Proof using.
    intros H. unfold flip. rewrite lookup_take by done. destruct (fl !! bi) eqn:E; [|done]. by rewrite take_insert_lt by done.
  Qed.

  Lemma gen_depth m fuel : forall l fl k k' t', hashes_ok (length fl) l -> l <> [] -> same_from m l ->
    (k', t') ∈ visit k (gen ent srt R fuel l fl) -> (length k' <= length k + set_count (take m fl))%nat.
  Proof using Hent Hsrt.
    induction fuel as [|fuel IH]; intros l fl k k' t' Hok Hl Hs Hv.
    { cbn [gen visit] in Hv. by apply elem_of_nil in Hv. }
    destruct (choose ent l fl) as [bi|] eqn:E.
    2: { cbn [gen] in Hv. rewrite E in Hv. cbn [visit] in Hv. by apply elem_of_nil in Hv. }
    rewrite (gen_step ent srt R fuel l fl bi E) in Hv. destruct (choose_some ent Hent l fl bi Hl E) as (Hbi & x & y & Hx & Hy & Hne).
    assert (Hm : (bi < m)%nat). { destruct (decide (bi < m)%nat); [done|]. exfalso. apply Hne, Hs; [done|done|lia]. }
    pose proof (lookup_lt_Some _ _ _ Hbi) as Hlt.
    assert (Hc : S (set_count (take m (flip bi fl))) = set_count (take m fl)).
    { rewrite take_flip by done. apply flip_count. by rewrite lookup_take. }
    cbn [visit] in Hv. apply elem_of_cons in Hv as [Hv|Hv].
    { injection Hv as -> _. lia. }
    apply elem_of_concat_map in Hv as (v & Hvb & Hv). apply elem_of_rev_bytes in Hvb. rewrite (proj2 (range_test v) Hvb) in Hv.
    pose proof (fun z => group_elem srt Hsrt bi v l _ z Hok Hlt (proj1 Hvb)) as Hg.
    destruct (Proof_Tree.group srt bi v l) as [|a [|b g]] eqn:Eg.
    - cbn [visit] in Hv. by apply elem_of_nil in Hv.
    - cbn [visit] in Hv. apply elem_of_list_singleton in Hv. injection Hv as -> _. rewrite app_length. cbn [length]. lia.
    - apply IH in Hv; [rewrite app_length in Hv; cbn [length] in Hv; lia| |done|].
      + rewrite flip_length. intros z Hz. apply Hok. by apply Hg.
      + intros z w j Hz Hw Hj. apply Hs; [by apply Hg|by apply Hg|done].
  Qed.

  Lemma set_count_le l : (set_count l <= length l)%nat.
  Proof using. unfold set_count. apply filter_length. Qed.

  Lemma levels_count_le c ns b : (forall n, n ∈ ns -> (S (level c (fst n)) <= b)%nat) -> (levels_count c ns <= b)%nat.
  Proof using.
    intros H. induction ns as [|n ns IH]; [cbn; lia|]. cbn [levels_count foldr]. apply Nat.max_lub; [apply H; left|]. apply IH. intros n' Hn. apply H. by right.
  Qed.

  Lemma generate_depth c m hl input t : c_pre c = 0%nat -> hashes_ok hl input -> same_from m input -> generate ent srt R 0 hl input = Some t ->
    (levels_count c (visit [0%Z] t) <= S m)%nat.
  Proof using Hent Hsrt.
    intros Hp Hok Hs. unfold generate. destruct (_ && _); [|done]. destruct input as [|a [|b input]].
    - intros [= <-]. cbn. lia.
    - intros [= <-]. apply levels_count_le. intros n Hn. cbn [visit] in Hn. apply elem_of_list_singleton in Hn as ->. unfold level. cbn [fst length]. lia.
    - cbv zeta. destruct (gen_ok _ _ _ _ _); [|done]. intros E. apply (inj Some) in E as <-. apply levels_count_le. intros [k' t'] Hn.
      eapply (gen_depth m) in Hn; [| |done|done].
      2: { rewrite flags_init_length by lia. exact Hok. }
      unfold level. cbn [fst]. rewrite Hp. cbn [length] in Hn. pose proof (set_count_le (take m (flags_init hl 0))) as H. rewrite take_length in H. lia.
  Qed.

  (** ** Hashes that differ only in bytes the tree does not look at *)

  Lemma reassure_0 fl h : reassure 0 fl h = [].
  Proof using. revert h. induction fl as [|[] fl IH]; intros [|x h]; try done. cbn [reassure]. apply IH. Qed.

  Lemma check_agree fl : forall n h q p, length h = length fl -> length q = length fl -> (forall j, (j < p)%nat -> q !! j = h !! j) ->
    (n <= set_count (take p fl))%nat -> check fl q (reassure n fl h) = Some true.
  Proof using.
    induction fl as [|b fl IH]; intros n h q p Hh Hq Ha Hn.
    - destruct h; [|done]. done.
    - destruct h as [|x h]; [done|]. destruct q as [|y q]; [done|]. cbn [length] in Hh, Hq.
      destruct p as [|p].
      + cbn in Hn. assert (n = 0%nat) as -> by lia. by rewrite reassure_0.
      + pose proof (Ha 0%nat ltac:(lia)) as H0. cbn in H0. injection H0 as ->.
        assert (Ha' : forall j, (j < p)%nat -> q !! j = h !! j) by (intros j Hj; apply (Ha (S j)); lia).
        cbn [take] in Hn. unfold set_count in Hn. destruct b.
        * rewrite filter_cons_True in Hn by done. cbn [length] in Hn. cbn [reassure]. destruct n as [|n]; [done|]. cbn [check]. rewrite Z.eqb_refl.
          apply (IH n h q p); [lia|lia|done|]. unfold set_count. lia.
        * rewrite filter_cons_False in Hn by done. cbn [reassure]. pose proof (IH n h q p ltac:(lia) ltac:(lia) Ha' Hn) as H.
          destruct (reassure n fl h); [done|]. cbn [check]. exact H.
  Qed.

  Lemma set_count_app a b : set_count (a ++ b) = (set_count a + set_count b)%nat.
  Proof using. unfold set_count. by rewrite filter_app, app_length. Qed.
  Lemma set_count_all l : Forall (fun b => b = true) l -> set_count l = length l.
  Proof using. induction 1 as [|b l -> Hl IH]; [done|]. unfold set_count in *. rewrite filter_cons_True by done. cbn [length]. lia. Qed.
  Lemma set_count_tail m p fl : (m <= p <= length fl)%nat -> (forall j, (m <= j < length fl)%nat -> fl !! j = Some true) -> (p - m <= set_count (take p fl))%nat.
  Proof using.
    intros Hp H. rewrite <- (take_drop m (take p fl)), set_count_app. rewrite (set_count_all (drop m (take p fl))).
    - rewrite drop_length, take_length. lia.
    - apply Forall_lookup. intros j b Hj. rewrite lookup_drop in Hj. pose proof (lookup_lt_Some _ _ _ Hj) as Hlt. rewrite take_length in Hlt.
      rewrite lookup_take in Hj by lia. rewrite H in Hj by lia. by injection Hj.
  Qed.

  Lemma gen_agree m p fuel : forall l fl x q, ready l fl -> (2 <= length l)%nat -> (set_count fl < fuel)%nat -> x ∈ l -> length q = length fl ->
    (forall j, (j < p)%nat -> q !! j = th_hash x !! j) -> same_from m l -> (m + R <= p <= length fl)%nat -> (forall j, (m <= j < length fl)%nat -> fl !! j = Some true) ->
    shallow_lookup (gen ent srt R fuel l fl) fl q = Found (th_pi x).
  Proof using Hent Hsrt.
    induction fuel as [|fuel IH]; intros l fl x q Hr Hl Hf Hx Hq Ha Hs Hp Hfl; [lia|].
    destruct (ready_choice ent Hent l fl Hr Hl) as [bi E]. rewrite (gen_step ent srt R fuel l fl bi E). cbn [shallow_lookup].
    destruct (choose_some ent Hent l fl bi) as (Hbi & y & z & Hy & Hz & Hne); [intros ->; cbn [length] in Hl; lia|done|]. pose proof (lookup_lt_Some _ _ _ Hbi) as Hlt.
    assert (Hm : (bi < m)%nat). { destruct (decide (bi < m)%nat); [done|]. exfalso. apply Hne, Hs; [done|done|lia]. }
    pose proof (byte_of x l _ bi (rd_ok _ _ Hr) Hlt Hx) as Hv.
    assert (Eq : q !!! bi = th_hash x !!! bi). { rewrite !list_lookup_total_alt, Ha by lia. done. }
    rewrite Eq, (proj2 (range_test _) Hv). set (v := th_hash x !!! bi) in *.
    pose proof (ready_group srt Hsrt l fl bi v Hr Hbi ltac:(lia)) as Hg. pose proof (flip_count bi fl Hbi) as Hc.
    assert (Hxg : x ∈ Proof_Tree.group srt bi v l) by (apply (group_elem srt Hsrt bi v l _ x (rd_ok _ _ Hr) Hlt); [lia|done]).
    assert (Hsub : forall w, w ∈ Proof_Tree.group srt bi v l -> w ∈ l) by (intros w Hw; by apply (group_elem srt Hsrt bi v l _ w (rd_ok _ _ Hr) Hlt) in Hw as [Hw _]; [|lia]).
    assert (Hfl' : forall j, (m <= j < length (flip bi fl))%nat -> flip bi fl !! j = Some true).
    { intros j Hj. rewrite flip_length in Hj. rewrite flip_other by lia. apply Hfl. lia. }
    destruct (Proof_Tree.group srt bi v l) as [|a [|b g]] eqn:Eg.
    - by apply elem_of_nil in Hxg.
    - apply elem_of_list_singleton in Hxg as ->. cbn [shallow_lookup].
      rewrite (check_agree _ _ _ _ p); [done| | |done|].
      + rewrite flip_length. by apply (rd_ok _ _ Hr).
      + by rewrite flip_length.
      + etrans; [|apply (set_count_tail m p); [rewrite flip_length; lia|done]]. lia.
    - apply IH; [done|cbn [length]; lia|lia|done|by rewrite flip_length|done| |rewrite flip_length; lia|done].
      intros w w' j Hw Hw' Hj. apply Hs; [by apply Hsub|by apply Hsub|done].
  Qed.

  Lemma generate_agree m p hl input t x q : hashes_ok hl input -> distinct input -> (2 <= length input)%nat -> x ∈ input -> length q = hl ->
    (forall j, (j < p)%nat -> q !! j = th_hash x !! j) -> same_from m input -> (m + R <= p <= hl)%nat ->
    generate ent srt R 0 hl input = Some t -> shallow_lookup t (flags_init hl 0) q = Found (th_pi x).
  Proof using Hent Hsrt.
    intros Hok Hd Hl Hx Hq Ha Hs Hp. unfold generate. destruct (_ && _); [|done]. destruct input as [|a [|b input]]; [cbn in Hl; lia|cbn in Hl; lia|].
    cbv zeta. destruct (gen_ok _ _ _ _ _); [|done]. intros E. apply (inj Some) in E as <-. apply (gen_agree m p); try done.
    - apply ready_init; [lia|done|done|]. intros. lia.
    - rewrite set_count_init by lia. lia.
    - rewrite flags_init_length by lia. done.
    - rewrite flags_init_length by lia. done.
    - intros j Hj. rewrite flags_init_length in Hj by lia. rewrite flags_init_lookup by lia. done.
  Qed.
End Depth.

(** ** Baking *)

Definition hash32 (h : list Z) : Prop := length h = 32%nat /\ bytes h.

Lemma tier0_ok R : (R <= 32)%nat -> config_ok (tier0 R).
Proof. intros H. split; cbn; lia || done. Qed.

Lemma bake_levels c lid ts f : bake c lid ts = Some f -> (length (f_levels f) <= levels_count c (forest_nodes ts))%nat.
Proof.
  unfold bake. destruct (design c (forest_nodes ts)) as [ds|] eqn:Ed; [|done]. cbn [mbind option_bind].
  destruct (mapM (alloc_init c 1) ds) as [al|]; [|done]. cbn [mbind option_bind].
  destruct (mapM (index_bytes c) ds) as [ix|] eqn:Ei; [|done]. cbn [mbind option_bind].
  destruct (add_trees _ _ _ _ _) as [s|]; [|done]. cbn [mbind option_bind]. destruct (_ || _); [|done].
  intros E. apply (inj Some) in E as <-. cbn [f_levels]. rewrite zip_with_length.
  apply mapM_length in Ei. unfold design in Ed. destruct (_ <? _)%nat; [done|]. apply mapM_length in Ed. rewrite seq_length in Ed. lia.
Qed.

Section Bake.
  Context (ent : list thash -> nat -> Z) (Hent : entropy_ok ent) (srt : nat -> list thash -> list thash) (Hsrt : sort_ok srt) (R : nat) (HR : (R <= 32)%nat).

  Lemma top_input_hashes off sh : th_hash <$> top_input off sh = sh.
  Proof using.
    unfold top_input. apply list_eq. intros i. rewrite list_lookup_fmap, list_lookup_imap. by destruct (sh !! i).
  Qed.
  Lemma top_input_elem off sh x : x ∈ top_input off sh <-> exists i h, sh !! i = Some h /\ x = mk_th h (off + Z.of_nat i + 1).
  Proof using.
    unfold top_input. rewrite elem_of_lookup_imap. split; intros (i & h & H1 & H2); eauto.
  Qed.
  Lemma top_input_ok off sh : Forall hash32 sh -> hashes_ok 32 (top_input off sh).
  Proof using.
    intros H x Hx. apply top_input_elem in Hx as (i & h & Hi & ->). cbn [th_hash]. rewrite Forall_lookup in H. by apply (H i h).
  Qed.
  Lemma top_input_distinct off sh : distinct (top_input off sh) <-> NoDup sh.
  Proof using. unfold distinct. by rewrite top_input_hashes. Qed.

  Lemma bake_top_repeat off sh : Forall hash32 sh -> ~ NoDup sh -> bake_top ent srt R off sh = None.
  Proof using Hent Hsrt HR.
    intros H Hn. unfold bake_top. rewrite (C27_repeated_hash_refused ent srt R 0 32 (top_input off sh) Hent Hsrt ltac:(lia)); [done|by apply top_input_ok|].
    by rewrite top_input_distinct.
  Qed.

  Lemma node_limit_tier0 : Z.of_nat (node_limit (tier0 R)) <= 1000.
  Proof using HR. unfold node_limit. cbn. lia. Qed.

  Lemma bake_top_all off sh : Forall hash32 sh -> NoDup sh -> sh <> [] -> 0 <= off -> Z.of_nat (length sh) < 65536 ->
    exists t f, generate ent srt R 0 32 (top_input off sh) = Some t /\ bake (tier0 R) (tier_lid off) [t] = Some f /\
      (forall q, hash32 q -> forest_find (tier0 R) f 0 q = Some (match shallow_lookup t (flags_init 32 0) q with Found pi => pi - off | _ => 0 end)).
  Proof using Hent Hsrt HR.
    intros H Hd Hne Hoff Hlen.
    destruct (C38_one_tree_answers_like_the_tree_partial ent srt (tier0 R) off (top_input off sh)) as (t & f & Eg & Eb & Hq & _); try done.
    - by apply tier0_ok.
    - cbn. lia.
    - by apply top_input_ok.
    - by apply top_input_distinct.
    - intros E. apply (f_equal (fmap th_hash)) in E. rewrite top_input_hashes in E. done.
    - intros x y j _ _ Hj. cbn in Hj. lia.
    - intros x Hx. apply top_input_elem in Hx as (i & h & Hi & ->). cbn [th_pi]. apply lookup_lt_Some in Hi. change (pow256 (c_hid (tier0 R))) with 65536. lia.
    - change (pow256 (c_nid (tier0 R))) with 65536. unfold top_input. rewrite imap_length. done.
    - unfold top_input. rewrite imap_length. pose proof node_limit_tier0. rewrite Nat2Z.inj_mul. nia.
    - exists t, f. split; [done|]. split; [done|]. intros q [H1 H2]. by apply Hq.
  Qed.

  Lemma bake_top_some off sh f : Forall hash32 sh -> sh <> [] -> 0 <= off -> Z.of_nat (length sh) < 65536 -> bake_top ent srt R off sh = Some f ->
    NoDup sh /\ exists t, generate ent srt R 0 32 (top_input off sh) = Some t /\
      (forall q, hash32 q -> forest_find (tier0 R) f 0 q = Some (match shallow_lookup t (flags_init 32 0) q with Found pi => pi - off | _ => 0 end)).
  Proof using Hent Hsrt HR.
    intros H Hne Hoff Hlen E. destruct (decide (NoDup sh)) as [Hd|Hd].
    - split; [done|]. destruct (bake_top_all off sh H Hd Hne Hoff Hlen) as (t & f' & Eg & Eb & Hq). exists t. split; [done|].
      unfold bake_top in E. rewrite Eg in E. cbn [mbind option_bind] in E. rewrite Eb in E. cbn [mbind option_bind] in E.
      destruct (_ <? _)%nat; [done|]. by apply (inj Some) in E as <-.
    - rewrite bake_top_repeat in E by done. done.
  Qed.

  (** every hash of the batch is found *)
  Lemma bake_top_find off sh f i h : Forall hash32 sh -> 0 <= off -> Z.of_nat (length sh) < 65536 -> bake_top ent srt R off sh = Some f ->
    sh !! i = Some h -> forest_find (tier0 R) f 0 h = Some (Z.of_nat i + 1).
  Proof using Hent Hsrt HR.
    intros H Hoff Hlen E Hi. assert (Hne : sh <> []) by (by intros ->).
    destruct (bake_top_some off sh f H Hne Hoff Hlen E) as (Hd & t & Eg & Hq).
    assert (Hh : hash32 h) by (rewrite Forall_lookup in H; by apply (H i)).
    rewrite (Hq h Hh). destruct (C27_every_presented_hash_found ent srt R 32 (top_input off sh) Hent Hsrt ltac:(lia) HR (top_input_ok off sh H)) as (t' & Eg' & Hf).
    { by apply top_input_distinct. }
    rewrite Eg in Eg'. apply (inj Some) in Eg' as <-. rewrite (Hf h (off + Z.of_nat i + 1)); [f_equal; lia|]. apply top_input_elem. eauto.
  Qed.

  (** with full reassurance nothing else is *)
  Lemma bake_top_absent off sh f q : R = 32%nat -> Forall hash32 sh -> sh <> [] -> 0 <= off -> Z.of_nat (length sh) < 65536 -> bake_top ent srt R off sh = Some f ->
    hash32 q -> q ∉ sh -> forest_find (tier0 R) f 0 q = Some 0.
  Proof using Hent Hsrt HR.
    intros E32 H Hne Hoff Hlen E Hh Hn. destruct (bake_top_some off sh f H Hne Hoff Hlen E) as (Hd & t & Eg & Hq). rewrite (Hq q Hh). rewrite E32 in Eg.
    destruct (C28_full_reassurance_is_exact ent srt 32 (top_input off sh) t q Hent Hsrt (top_input_ok off sh H)) as [_ Hx].
    { by apply top_input_distinct. }
    { apply Hh. }
    { done. }
    rewrite top_input_hashes in Hx. rewrite (proj2 Hx Hn). done.
  Qed.

  (** a batch whose hashes differ in their first nine bytes only can be baked *)
  Lemma bake_top_works m off sh : (m <= 9)%nat -> Forall hash32 sh -> NoDup sh -> sh <> [] -> 0 <= off -> Z.of_nat (length sh) < 65536 ->
    same_from m (top_input off sh) -> exists f, bake_top ent srt R off sh = Some f.
  Proof using Hent Hsrt HR.
    intros Hm H Hd Hne Hoff Hlen Hs. destruct (bake_top_all off sh H Hd Hne Hoff Hlen) as (t & f & Eg & Eb & _). exists f.
    unfold bake_top. rewrite Eg. cbn [mbind option_bind]. rewrite Eb. cbn [mbind option_bind].
    destruct (Nat.ltb_spec 10 (length (f_levels f))) as [Hl|Hl]; [|done]. apply bake_levels in Eb.
    assert (En : forest_nodes [t] = visit [0%Z] t) by (unfold forest_nodes; cbn; by rewrite app_nil_r). rewrite En in Eb.
    pose proof (generate_depth ent Hent srt Hsrt R (tier0 R) m 32 (top_input off sh) t eq_refl (top_input_ok off sh H) Hs Eg) as Hg. lia.
  Qed.

  (** ... and then a hash that differs from one of the batch only behind the bytes looked at is taken for it *)
  Lemma bake_top_mistake m off sh f i h q : (m + R <= 31)%nat -> Forall hash32 sh -> (2 <= length sh)%nat -> 0 <= off -> Z.of_nat (length sh) < 65536 ->
    same_from m (top_input off sh) -> bake_top ent srt R off sh = Some f -> sh !! i = Some h -> hash32 q -> take 31 q = take 31 h ->
    forest_find (tier0 R) f 0 q = Some (Z.of_nat i + 1).
  Proof using Hent Hsrt HR.
    intros Hm H Hl Hoff Hlen Hs E Hi Hh Ha. assert (Hne : sh <> []) by (by intros ->).
    destruct (bake_top_some off sh f H Hne Hoff Hlen E) as (Hd & t & Eg & Hq). rewrite (Hq q Hh).
    rewrite (generate_agree ent Hent srt Hsrt R m 31 32 (top_input off sh) t (mk_th h (off + Z.of_nat i + 1)) q).
    - cbn [th_pi]. f_equal. lia.
    - by apply top_input_ok.
    - by apply top_input_distinct.
    - unfold top_input. by rewrite imap_length.
    - apply top_input_elem. eauto.
    - apply Hh.
    - intros j Hj. cbn [th_hash]. rewrite <- (lookup_take q 31 j), <- (lookup_take h 31 j) by done. by rewrite Ha.
    - done.
    - lia.
    - done.
  Qed.
End Bake.
