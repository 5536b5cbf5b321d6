(** Lemmas about collecting the hashes of a tier. *)
From Verif Require Import Base Model_Tree Spec_Tree Proof_Tree Prop_Tree Model_Chunk Spec_Chunk Proof_Node Proof_Design Proof_Layout Proof_Chunk Proof_Prepare Prop_Chunk Model_Top Proof_Top Model_Bake.

(** ** The leaves of a generated tree *)

Lemma filter_split {A} (f : A -> Z) x (l : list A) (vs : list Z) : NoDup vs -> f x ∈ vs ->
  concat (map (fun v => filter (fun y => f y = v) (x :: l)) vs) ≡ₚ x :: concat (map (fun v => filter (fun y => f y = v) l) vs).
Proof.
  induction vs as [|v vs IH]; intros Hd Hx; [by apply elem_of_nil in Hx|]. apply NoDup_cons in Hd as [Hn Hd]. cbn [map concat].
  destruct (decide (f x = v)) as [E|Hne].
  - rewrite filter_cons_True by done. cbn [app]. f_equiv. f_equiv.
    assert (Hsame : forall ws, f x ∉ ws -> concat (map (fun v => filter (fun y => f y = v) (x :: l)) ws) = concat (map (fun v => filter (fun y => f y = v) l) ws)).
    { clear. induction ws as [|w ws IH]; intros Hn; [done|]. apply not_elem_of_cons in Hn as [H1 H2]. cbn [map concat]. rewrite filter_cons_False by done. by rewrite IH. }
    rewrite Hsame; [done|]. by rewrite E.
  - apply elem_of_cons in Hx as [Hx|Hx]; [done|]. rewrite filter_cons_False by done. rewrite IH by done. by rewrite Permutation_middle.
Qed.
Lemma filter_partition {A} (f : A -> Z) (l : list A) (vs : list Z) : NoDup vs -> (forall x, x ∈ l -> f x ∈ vs) ->
  concat (map (fun v => filter (fun y => f y = v) l) vs) ≡ₚ l.
Proof.
  intros Hd. induction l as [|x l IH]; intros H.
  - clear. induction vs as [|v vs IH]; [done|]. exact IH.
  - rewrite filter_split; [|done|apply H; by left]. f_equiv. apply IH. intros y Hy. apply H. by right.
Qed.
Lemma byte_vals_nodup : NoDup byte_vals.
Proof. rewrite byte_vals_eq. apply NoDup_seqZ. Qed.
Lemma byte_vals_in v : v ∈ byte_vals <-> 0 <= v < 256.
Proof. rewrite byte_vals_eq, elem_of_seqZ. lia. Qed.

Lemma fmap_ext_in {A B} (f g : A -> B) (l : list A) : (forall x, x ∈ l -> f x = g x) -> f <$> l = g <$> l.
Proof. induction l as [|x l IH]; intros H; [done|]. rewrite !fmap_cons, (H x) by left. f_equal. apply IH. intros y Hy. apply H. by right. Qed.

Section Gen.
  Context (ent : list thash -> nat -> Z) (Hent : entropy_ok ent) (srt : nat -> list thash -> list thash) (Hsrt : sort_ok srt) (R : nat).

  Lemma concat_perm {A} (f g : Z -> list A) (l : list Z) : (forall v, v ∈ l -> f v ≡ₚ g v) -> concat (map f l) ≡ₚ concat (map g l).
  Proof using. induction l as [|v l IH]; intros H; [done|]. cbn [map concat]. f_equiv; [apply H; by left|]. apply IH. intros w Hw. apply H. by right. Qed.
  Lemma concat_fmap {A B} (h : A -> B) (f : Z -> list A) (l : list Z) : concat (map (fun v => h <$> f v) l) = h <$> concat (map f l).
  Proof using. induction l as [|v l IH]; [done|]. cbn [map concat]. by rewrite fmap_app, IH. Qed.

  Lemma gen_pis fuel l fl : ready l fl -> (2 <= length l)%nat -> (set_count fl < fuel)%nat -> tree_pis (gen ent srt R fuel l fl) ≡ₚ th_pi <$> l.
  Proof using Hent Hsrt.
    revert l fl. induction fuel as [|fuel IH]; intros l fl Hr Hl Hf; [lia|].
    destruct (ready_choice ent Hent l fl Hr Hl) as [bi E]. rewrite (gen_step ent srt R fuel l fl bi E), tree_pis_slots.
    destruct (choose_some ent Hent l fl bi) as [Hbi _]; [intros ->; cbn [length] in Hl; lia|done|]. pose proof (lookup_lt_Some _ _ _ Hbi) as Hlt.
    rewrite (concat_perm _ (fun v => th_pi <$> filter (fun x => th_hash x !!! bi = v) l)).
    - rewrite concat_fmap. f_equiv. apply filter_partition; [apply byte_vals_nodup|]. intros x Hx. apply byte_vals_in.
      by apply (byte_of x l _ bi (rd_ok _ _ Hr) Hlt).
    - intros v Hv%byte_vals_in. rewrite (proj2 (range_test _) Hv).
      pose proof (ready_group srt Hsrt l fl bi v Hr Hbi ltac:(lia)) as Hg. pose proof (flip_count bi fl Hbi) as Hc.
      rewrite <- (group_spec srt Hsrt bi v l _ (rd_ok _ _ Hr) Hlt ltac:(lia)).
      destruct (Proof_Tree.group srt bi v l) as [|a [|b g]] eqn:Eg; [done|done|]. apply IH; [done|cbn [length]; lia|lia].
  Qed.

  Lemma generate_pis pre hl input t : (1 <= hl <= 64)%nat -> (R + pre <= hl)%nat -> hashes_ok hl input -> distinct input ->
    (forall x y j, x ∈ input -> y ∈ input -> (j < pre)%nat -> th_hash x !!! j = th_hash y !!! j) ->
    generate ent srt R pre hl input = Some t -> tree_pis t ≡ₚ th_pi <$> input.
  Proof using Hent Hsrt.
    intros Hhl HR Hok Hd Ha Eg. rewrite generate_checks in Eg by (done || lia). destruct input as [|a [|b input]].
    - by apply (inj Some) in Eg as <-.
    - by apply (inj Some) in Eg as <-.
    - set (inp := a :: b :: input) in *. assert (ready inp (flags_init hl pre)) as Hr by (apply ready_init; [lia|done..]).
      assert (set_count (flags_init hl pre) < S hl)%nat as Hcnt by (rewrite set_count_init by lia; lia).
      rewrite (gen_ok_true ent Hent srt Hsrt) in Eg; [|done|unfold inp; cbn [length]; lia|done]. apply (inj Some) in Eg as <-. apply gen_pis; [done|unfold inp; cbn [length]; lia|done].
  Qed.
End Gen.

(** ** A forest of the first tier *)
Section Forest.
  Context (ent : list thash -> nat -> Z) (Hent : entropy_ok ent) (srt : nat -> list thash -> list thash) (Hsrt : sort_ok srt) (R : nat) (HR : (R <= 32)%nat).

  Lemma bake_top_leaves off sh f : Forall hash32 sh -> sh <> [] -> 0 <= off -> Z.of_nat (length sh) < 65536 -> bake_top ent srt R off sh = Some f ->
    f_jump f = [1] /\ exists pis, pis ≡ₚ th_pi <$> top_input off sh /\ leaves_from (tier0 R) (f_levels f) 1 = Some ((fun pi => default 0 (tier_lid off pi)) <$> pis).
  Proof using All.
    intros H Hne Hoff Hlen E. destruct (bake_top_some ent Hent srt Hsrt R HR off sh f H Hne Hoff Hlen E) as (Hnd & _).
    pose proof (tier0_ok R HR) as Hc. set (input := top_input off sh) in *.
    assert (Hok : hashes_ok 32 input) by (by apply top_input_ok). assert (Hd : distinct input) by (by apply top_input_distinct).
    assert (Hine : input <> []). { intros E0. apply (f_equal (fmap th_hash)) in E0. unfold input in E0. rewrite top_input_hashes in E0. done. }
    assert (Hil : length input = length sh) by (unfold input, top_input; by rewrite imap_length).
    assert (Hpi : forall x, x ∈ input -> 0 <= off < th_pi x /\ th_pi x - off < pow256 2).
    { intros x Hx. apply top_input_elem in Hx as (i & h & Hi & ->). cbn [th_pi]. apply lookup_lt_Some in Hi. change (pow256 2) with 65536. lia. }
    assert (Ha : forall x y j, x ∈ input -> y ∈ input -> (j < 0)%nat -> th_hash x !!! j = th_hash y !!! j) by (intros; lia).
    destruct (generate_wf ent srt R 0 32 input (fun pi => 0 <= off < pi /\ pi - off < pow256 2) Hent Hsrt ltac:(lia) ltac:(lia) Hok Hd Ha Hpi) as (t & Eg & Hwf0 & Hlv & Hn).
    assert (wf R (pi_ok (tier0 R) (tier_lid off)) (flags_init 32 0) t) as Hwf.
    { eapply wf_mono; [|exact Hwf0]. intros pi [H1 H2]. exists (pi - off). split; [by apply tier_lid_ok|]. change (c_hid (tier0 R)) with 2%nat. lia. }
    rewrite bool_decide_false in Hn by done.
    assert (length (flags_init 32 0) = 32%nat) as Hfl by (apply flags_init_length; lia).
    destruct (baked_leaves (tier0 R) Hc (tier_lid off) t (flags_init 32 0) Hwf ltac:(lia) (length input)) as (f' & Eb & Hj & Hf).
    { intros l. etrans; [apply (level_leaves (tier0 R) l _ _ _ [0%Z] t Hwf); cbn; lia|]. lia. }
    { change (c_max (tier0 R)) with (2^64 - 1). rewrite Hil. pose proof (node_limit_tier0 R HR). rewrite Nat2Z.inj_mul. nia. }
    { rewrite Hil. change (pow256 (c_nid (tier0 R))) with 65536. done. }
    { done. }
    unfold bake_top in E. fold input in E. rewrite Eg in E. cbn [mbind option_bind] in E. rewrite Eb in E. cbn [mbind option_bind] in E.
    destruct (_ <? _)%nat; [done|]. apply (inj Some) in E as <-. split; [done|]. exists (tree_pis t). split; [|exact Hf].
    apply (generate_pis ent Hent srt Hsrt R 0 32 input t); [lia|lia|done|done|done|done].
  Qed.

  Lemma gather_batch base hashes off sh f : Forall hash32 sh -> sh <> [] -> 0 <= off -> base <= off -> Z.of_nat (length sh) < 65536 ->
    (forall i h, sh !! i = Some h -> hashes !! (Z.to_nat (off - base) + i)%nat = Some h) -> bake_top ent srt R off sh = Some f ->
    exists l, gather_forest (tier0 R) base hashes 0 (off, f) = Some l /\ l ≡ₚ top_input off sh.
  Proof using All.
    intros H Hne Hoff Hb Hlen Hh E. destruct (bake_top_leaves off sh f H Hne Hoff Hlen E) as (Hj & pis & Hp & Hf).
    unfold gather_forest. cbn [fst snd]. rewrite Hj. cbn [lookup list_lookup mbind option_bind]. change (1 =? 0) with false. cbn iota.
    change (drop (c_pre (tier0 R)) (f_levels f)) with (f_levels f). rewrite Hf. cbn [mbind option_bind].
    set (F := fun pi => mk_th (sh !!! Z.to_nat (pi - off - 1)) pi).
    assert (Hpair : forall pi, pi ∈ th_pi <$> top_input off sh -> leaf_pair base off hashes (default 0 (tier_lid off pi)) = Some (F pi)).
    { intros pi Hpi. apply elem_of_list_fmap in Hpi as (x & -> & Hx). apply top_input_elem in Hx as (i & h & Hi & ->). cbn [th_pi].
      rewrite tier_lid_ok by lia. cbn [default from_option]. unfold Datatypes.id, leaf_pair. cbv zeta.
      destruct (Z.eqb_spec (off + Z.of_nat i + 1 - off) 0); [lia|]. destruct (Z.ltb_spec (off + Z.of_nat i + 1 - off - 1 + off - base) 0); [lia|].
      replace (Z.to_nat (off + Z.of_nat i + 1 - off - 1 + off - base)) with (Z.to_nat (off - base) + i)%nat by lia. rewrite (Hh i h Hi). cbn [mbind option_bind].
      unfold F. replace (Z.to_nat (off + Z.of_nat i + 1 - off - 1)) with i by lia. rewrite (list_lookup_total_correct _ _ _ Hi). f_equal. f_equal. lia. }
    exists (F <$> pis). split.
    - apply mapM_Some_2. rewrite Forall2_fmap. apply Forall_Forall2_diag, Forall_forall. intros pi Hpi. apply Hpair. by rewrite <- Hp.
    - rewrite Hp, <- list_fmap_compose. rewrite <- (list_fmap_id (top_input off sh)) at 2. apply Permutation_refl', fmap_ext_in.
      intros x Hx. apply top_input_elem in Hx as (i & h & Hi & ->). unfold F. cbn [compose th_pi].
      replace (Z.to_nat (off + Z.of_nat i + 1 - off - 1)) with i by lia. by rewrite (list_lookup_total_correct _ _ _ Hi).
  Qed.
End Forest.
