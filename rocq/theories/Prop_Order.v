(** More of C31: the order in which a level keeps its node formats. *)
From Coq Require Import Sorting.Sorted.
From Verif Require Import Base Model_Tree Model_Chunk.

(** the byte length of tiny nodes is odd, so they are to come last; among the others, and among the tiny ones, the
    format with more nodes comes first *)
Definition may_precede (a b : group) : Prop :=
  (s_fmt (g_spec a) = FTiny -> s_fmt (g_spec b) = FTiny) /\
  ((s_fmt (g_spec a) = FTiny <-> s_fmt (g_spec b) = FTiny) -> (g_count b <= g_count a)%nat).

Lemma tiny_iff g : is_tiny g = true <-> s_fmt (g_spec g) = FTiny.
Proof. unfold is_tiny. apply bool_decide_eq_true. Qed.

Lemma may_precede_alt a b : may_precede a b <-> group_less b a = false.
Proof.
  unfold may_precede, group_less. rewrite <- !tiny_iff.
  destruct (is_tiny a), (is_tiny b); cbn [Bool.eqb]; rewrite ?Nat.ltb_ge; intuition (done || lia).
Qed.
Lemma may_precede_less a b : group_less a b = true -> may_precede a b.
Proof.
  unfold may_precede, group_less. rewrite <- !tiny_iff.
  destruct (is_tiny a), (is_tiny b); cbn [Bool.eqb]; rewrite ?Nat.ltb_lt; intuition (done || lia).
Qed.
Lemma may_precede_trans a b d : may_precede a b -> may_precede b d -> may_precede a d.
Proof.
  unfold may_precede. rewrite <- !tiny_iff. destruct (is_tiny a), (is_tiny b), (is_tiny d); intuition (done || lia).
Qed.

Lemma ins_group_in x l y : y ∈ ins_group x l -> y = x \/ y ∈ l.
Proof.
  induction l as [|z l IH]; cbn [ins_group]; [intros H%elem_of_list_singleton; auto|].
  destruct (group_less z x); intros [->|H]%elem_of_cons; auto.
  - right. left.
  - destruct (IH H); [auto|right; by right].
Qed.

Lemma ins_group_sorted x l : StronglySorted may_precede l -> StronglySorted may_precede (ins_group x l).
Proof.
  induction 1 as [|y l Hl IH Hy]; cbn [ins_group]; [repeat constructor|].
  destruct (group_less y x) eqn:E.
  - constructor; [done|]. apply Forall_forall. intros z [->|Hz]%ins_group_in; [by apply may_precede_less|].
    rewrite Forall_forall in Hy. by apply Hy.
  - constructor; [by constructor|]. apply may_precede_alt in E. constructor; [done|].
    eapply Forall_impl; [exact Hy|]. intros z Hz. by eapply may_precede_trans.
Qed.

Lemma sort_groups_sorted l : StronglySorted may_precede (sort_groups l).
Proof. induction l as [|x l IH]; [constructor|]. cbn [sort_groups foldr]. apply ins_group_sorted, IH. Qed.

Lemma sorted_lookup l : StronglySorted may_precede l ->
  forall i j a b, (i < j)%nat -> l !! i = Some a -> l !! j = Some b -> may_precede a b.
Proof.
  induction 1 as [|y l Hl IH Hy]; intros i j a b Hij Ha Hb; [done|]. destruct j as [|j]; [lia|]. cbn in Hb. destruct i as [|i].
  - injection Ha as <-. rewrite Forall_forall in Hy. apply Hy. by eapply elem_of_list_lookup_2.
  - apply (IH i j); [lia|done|done].
Qed.

Lemma design_level_sorted c hist :
  match design_level c hist with Some gs => StronglySorted may_precede gs | None => True end.
Proof.
  unfold design_level. generalize (propose_groups c hist (seq 0 257)). intros [g0|]; cbn [mbind option_bind]; [|exact I].
  generalize (reduce c (length g0) g0). intros [g1|]; cbn [mbind option_bind]; [|exact I]. apply sort_groups_sorted.
Qed.

(** C31. Whatever nodes a level has: in the order its formats are kept in, and so in the order of the node numbers given
    out, no format comes after a tiny one unless it is tiny too, and of two that are both tiny or both not the one with
    more nodes comes first. *)
Theorem C31_order_of_formats :
  forall c hist gs i j a b, design_level c hist = Some gs -> (i < j)%nat -> gs !! i = Some a -> gs !! j = Some b ->
    (s_fmt (g_spec a) = FTiny -> s_fmt (g_spec b) = FTiny) /\
    ((s_fmt (g_spec a) = FTiny <-> s_fmt (g_spec b) = FTiny) -> (g_count b <= g_count a)%nat).
Proof.
  intros c hist gs i j a b E. pose proof (design_level_sorted c hist) as H. rewrite E in H. by apply sorted_lookup.
Qed.

(** Leaves (7), nodes with two slots (30, tiny), with three (2, tiny) and with ten (4). *)
Example C31_example_2 :
  (map (fun g => (s_fmt (g_spec g), g_count g)) <$>
    design_level (mk_config true 2 10 2 2 32 0) (fun k => match k with 0 => 7 | 2 => 30 | 3 => 2 | 10 => 4 | _ => 0 end)%nat)
  = Some [(FLeaf, 7); (FMedium, 4); (FTiny, 30); (FTiny, 2)]%nat.
Proof. vm_compute. reflexivity. Qed.

Print Assumptions C31_order_of_formats.
