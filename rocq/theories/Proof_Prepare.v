(** The trees the construction makes are well made and not too large (for C30). *)
From Verif Require Import Base Model_Tree Spec_Tree Proof_Tree Model_Chunk Spec_Chunk Proof_Node Proof_Design Proof_Layout Proof_Chunk.

(** ** Counting leaves *)
Fixpoint leaves (t : tree) : nat :=
  match t with Empty => 0 | Leaf _ _ _ => 1 | Slots _ f => sum_list (map (fun v => leaves (f v)) byte_vals) end.

Lemma sum_cons x l : sum_list (x :: l) = (x + sum_list l)%nat.
Proof. done. Qed.
Lemma sum_list_elem {A} (f : A -> nat) (l : list A) x : x ∈ l -> (f x <= sum_list (map f l))%nat.
Proof. induction l as [|y l IH]; intros H; [by apply elem_of_nil in H|]. cbn [map]. rewrite sum_cons. apply elem_of_cons in H as [->|H]; [lia|]. specialize (IH H). lia. Qed.
Lemma sum_list_mono {A} (f g : A -> nat) (l : list A) : (forall x, x ∈ l -> (f x <= g x)%nat) -> (sum_list (map f l) <= sum_list (map g l))%nat.
Proof. induction l as [|y l IH]; intros H; [done|]. cbn [map]. rewrite !sum_cons. pose proof (H y ltac:(by left)). specialize (IH ltac:(intros; apply H; by right)). lia. Qed.
Lemma sum_list_zero {A} (f : A -> nat) (l : list A) : (forall x, x ∈ l -> f x = 0%nat) -> sum_list (map f l) = 0%nat.
Proof. induction l as [|y l IH]; intros H; [done|]. cbn [map]. rewrite sum_cons, IH by (intros; apply H; by right). rewrite H by (by left). done. Qed.
Lemma sum_list_rev {A} (f : A -> nat) (l : list A) : sum_list (map f (rev l)) = sum_list (map f l).
Proof. induction l as [|y l IH]; [done|]. cbn [rev map]. rewrite map_app, sum_list_app, IH. cbn [map]. rewrite !sum_cons. cbn. lia. Qed.

Lemma leaves_pos R P fl t : wf R P fl t -> is_node t = true -> (1 <= leaves t)%nat.
Proof.
  revert fl. induction t as [|re pi h|bi f IH]; intros fl Hwf Hn; [done|cbn; lia|]. destruct Hwf as (_ & Ha & Hwf). cbn [active] in Ha.
  destruct (filter (fun v => is_node (f v) = true) byte_vals) as [|v r] eqn:E; [cbn in Ha; lia|].
  assert (v ∈ filter (fun v => is_node (f v) = true) byte_vals) as Hv by (rewrite E; by left). apply elem_of_list_filter in Hv as [Hv1 Hv2].
  cbn [leaves]. pose proof (sum_list_elem (fun v => leaves (f v)) byte_vals v Hv2). pose proof (IH v _ (Hwf v) Hv1). lia.
Qed.
Lemma on_level_concat c l (ls : list (list (key * tree))) : length (on_level c l (concat ls)) = sum_list (map (fun N => length (on_level c l N)) ls).
Proof. induction ls as [|N ls IH]; [done|]. cbn [concat map]. rewrite sum_cons. unfold on_level in *. rewrite filter_app, app_length, IH. done. Qed.
Lemma on_level_deep c l k t : (1 <= length k)%nat -> (l < level c k)%nat -> on_level c l (visit k t) = [].
Proof.
  intros Hk Hl. destruct (on_level c l (visit k t)) as [|n r] eqn:E; [done|]. exfalso.
  assert (n ∈ on_level c l (visit k t)) as Hn by (rewrite E; by left). apply elem_of_list_filter in Hn as [H1 Hn]. destruct n as [k' t']. apply visit_prefix in Hn as [(p & ->) _].
  cbn in H1. unfold level in *. rewrite app_length in H1. lia.
Qed.
Lemma level_leaves c l R P fl k t : wf R P fl t -> (1 <= length k)%nat -> (length (on_level c l (visit k t)) <= leaves t)%nat.
Proof.
  revert fl k. induction t as [|re pi h|bi f IH]; intros fl k Hwf Hk.
  - done.
  - cbn [visit leaves]. unfold on_level. etrans; [apply filter_length|]. done.
  - pose proof (leaves_pos R P fl _ Hwf eq_refl) as Hpos. destruct Hwf as (_ & _ & Hwf). cbn [visit leaves] in *. unfold on_level. rewrite filter_cons.
    change (@filter _ _ _ (fun n : key * tree => level c (fst n) = l) _) with (on_level c l). rewrite <- sum_list_rev in *.
    case_decide as Hl; cbn [length]; rewrite on_level_concat, map_map.
    + cbn [fst] in Hl. rewrite sum_list_zero; [lia|]. intros v _. rewrite on_level_deep; [done|rewrite app_length; cbn; lia|rewrite level_child by done; lia].
    + apply sum_list_mono. intros v _. apply (IH v (flip bi fl)); [apply Hwf|rewrite app_length; cbn; lia].
Qed.

Lemma sum_filter {A} (g : A -> Z) (l : list A) (vs : list Z) : NoDup vs -> (sum_list (map (fun v => length (filter (fun x => g x = v) l)) vs) <= length l)%nat.
Proof.
  intros Hnd. induction l as [|x l IH].
  - rewrite sum_list_zero; [done|]. intros; done.
  - assert (sum_list (map (fun v => length (filter (fun y => g y = v) (x :: l))) vs) <= sum_list (map (fun v => length (filter (fun y => g y = v) l)) vs) + 1)%nat as H; [|cbn [length]; lia].
    clear IH. assert (sum_list (map (fun v => length (filter (fun y => g y = v) (x :: l))) vs) =
      sum_list (map (fun v => length (filter (fun y => g y = v) l)) vs) + length (filter (fun v => g x = v) vs))%nat as ->.
    { clear Hnd. induction vs as [|v vs IH]; [done|]. cbn [map]. rewrite !sum_cons, IH. rewrite !filter_cons. case_decide; cbn [length]; lia. }
    assert (length (filter (fun v => g x = v) vs) <= 1)%nat; [|lia]. induction Hnd as [|v vs Hv Hnd IH]; [cbn; lia|]. rewrite filter_cons. case_decide as E; [|done].
    assert (filter (fun v => g x = v) vs = []) as ->; [|cbn; lia]. destruct (filter _ vs) as [|w r] eqn:Ef; [done|]. exfalso.
    assert (w ∈ filter (fun v => g x = v) vs) as Hw by (rewrite Ef; by left). apply elem_of_list_filter in Hw as [Hw1 Hw2]. apply Hv. by rewrite <- E, Hw1.
Qed.

Lemma reassure_length R fl h : length h = length fl -> length (reassure R fl h) = Nat.min R (set_count fl).
Proof.
  revert R h. induction fl as [|b fl IH]; intros R h Hl; [destruct h; [cbn; lia|done]|]. destruct h as [|x h]; [done|]. injection Hl as Hl. unfold set_count. destruct b.
  - rewrite filter_cons_True by done. cbn [reassure length]. destruct R as [|R]; [done|]. cbn [length]. rewrite IH by done. unfold set_count. lia.
  - rewrite filter_cons_False by done. cbn [reassure]. by apply IH.
Qed.

Section Gen.
  Context (ent : list thash -> nat -> Z) (Hent : entropy_ok ent) (srt : nat -> list thash -> list thash) (Hsrt : sort_ok srt) (R : nat) (P : Z -> Prop).

  Lemma gen_wf fuel l fl : ready l fl -> (2 <= length l)%nat -> (set_count fl < fuel)%nat -> (forall x, x ∈ l -> P (th_pi x)) ->
    wf R P fl (gen ent srt R fuel l fl) /\ is_node (gen ent srt R fuel l fl) = true /\ (leaves (gen ent srt R fuel l fl) <= length l)%nat.
  Proof using Hent Hsrt.
    revert l fl. induction fuel as [|fuel IH]; intros l fl Hr Hl Hf HP; [lia|].
    destruct (ready_choice ent Hent l fl Hr Hl) as [bi E]. rewrite (gen_step ent srt R fuel l fl bi E).
    destruct (choose_some ent Hent l fl bi) as [Hbi (x & y & Hx & Hy & Hxy)]; [intros ->; cbn [length] in Hl; lia|done|]. pose proof (lookup_lt_Some _ _ _ Hbi) as Hlt.
    pose proof (flip_count bi fl Hbi) as Hc.
    set (f := fun v : Z => _).
    assert (forall v, 0 <= v < 256 -> wf R P (flip bi fl) (f v) /\ (is_node (f v) = true <-> Proof_Tree.group srt bi v l <> []) /\ (leaves (f v) <= length (Proof_Tree.group srt bi v l))%nat) as Hslot.
    { intros v Hv. unfold f. rewrite (proj2 (range_test v) Hv). pose proof (ready_group srt Hsrt l fl bi v Hr Hbi ltac:(lia)) as Hg.
      assert (forall z, z ∈ Proof_Tree.group srt bi v l -> P (th_pi z)) as HPg by (intros z Hz; apply (group_elem srt Hsrt bi v l _ z (rd_ok _ _ Hr) Hlt) in Hz as [Hz _]; [by apply HP|lia]).
      destruct (Proof_Tree.group srt bi v l) as [|a [|b g]] eqn:Eg.
      - done.
      - split; [|done]. split; [|apply HPg; by left]. apply reassure_length. apply (rd_ok _ _ Hg). by left.
      - destruct (IH (a :: b :: g) (flip bi fl) Hg ltac:(cbn [length]; lia) ltac:(lia) HPg) as (H1 & H2 & H3). done. }
    assert (forall v, ~ (0 <= v < 256) -> f v = Empty) as Hout.
    { intros v Hv. unfold f. destruct ((0 <=? v) && (v <? 256)) eqn:Er; [by apply range_test in Er|done]. }
    assert (forall z, z ∈ l -> is_node (f (th_hash z !!! bi)) = true) as Hin.
    { intros z Hz. pose proof (byte_of z l _ bi (rd_ok _ _ Hr) Hlt Hz) as Hv. apply Hslot; [done|]. intros Eg.
      assert (z ∈ Proof_Tree.group srt bi (th_hash z !!! bi) l) as Hzg by (apply (group_elem srt Hsrt bi _ l _ z (rd_ok _ _ Hr) Hlt); [lia|done]). rewrite Eg in Hzg. by apply elem_of_nil in Hzg. }
    split; [|split; [done|]].
    - split; [done|]. split.
      + cbn [active]. assert (forall z, z ∈ l -> th_hash z !!! bi ∈ filter (fun v => is_node (f v) = true) byte_vals) as Hel.
        { intros z Hz. apply elem_of_list_filter. split; [by apply Hin|]. apply byte_vals_elem. apply (byte_of z l _ bi (rd_ok _ _ Hr) Hlt Hz). }
        pose proof (Hel x Hx) as H1. pose proof (Hel y Hy) as H2. destruct (filter (fun v => is_node (f v) = true) byte_vals) as [|a [|b r]]; cbn [length]; [by apply elem_of_nil in H1| |lia].
        apply elem_of_list_singleton in H1, H2. congruence.
      + intros v. destruct (decide (0 <= v < 256)) as [Hv|Hv]; [by apply Hslot|]. by rewrite Hout.
    - cbn [leaves]. etrans; [|apply (sum_filter (fun z => th_hash z !!! bi) l byte_vals); rewrite byte_vals_eq; apply NoDup_seqZ].
      apply sum_list_mono. intros v Hv%byte_vals_elem. etrans; [apply Hslot; done|]. rewrite (group_spec srt Hsrt bi v l _ (rd_ok _ _ Hr) Hlt) by lia. done.
  Qed.
End Gen.
