(** Property C98: the measurements taken before a tier is designed count every node once. *)
From Coq Require Import Sorting.Sorted.
From stdpp Require Import sorting.
From Verif Require Import Base Model_Tree Spec_Tree Proof_Tree Prop_Tree Model_Chunk Spec_Chunk Proof_Node Proof_Design Proof_Layout Proof_Chunk Proof_Prepare.
From Verif Require Import Model_Bake Proof_Bake Model_Metrics.

(** ** What the numbers should mean *)

(** nodes of [t] that are [d] steps from its root and have [k] slots in use *)
Fixpoint count (d k : nat) (t : tree) : nat :=
  match d, t with
  | _, Empty => 0
  | O, _ => if decide (active t = k) then 1 else 0
  | S d', Slots _ f => sum_list (map (fun v => count d' k (f v)) byte_vals)
  | S _, Leaf _ _ _ => 0
  end.
Definition count_at (s l : Z) (k : nat) (t : tree) : nat := if s <=? l then count (Z.to_nat (l - s)) k t else 0%nat.

(** all leaves, all nodes of a level, all branches leaving a level *)
Definition all_leaves (m : metrics) : Z := foldr Z.add 0 (map (fun l => m l 0%nat) (seqZ 0 65)).
Definition level_nodes (m : metrics) (l : Z) : Z := foldr Z.add 0 (map (fun k => m l k) (seq 0 257)).
Definition level_branches (m : metrics) (l : Z) : Z := foldr Z.add 0 (map (fun k => Z.of_nat k * m l k) (seq 0 257)).

Definition total (groups : list (list thash)) : nat := length (concat groups).
Definition nonempty (groups : list (list thash)) : nat := length (filter (fun g => g <> []) groups).

(** a group of hashes that can be in one tree: right length, no repeats, one prefix *)
Definition group_ok (pre hl : nat) (g : list thash) : Prop :=
  hashes_ok hl g /\ distinct g /\ forall x y j, x ∈ g -> y ∈ g -> (j < pre)%nat -> th_hash x !!! j = th_hash y !!! j.

(** ** Measuring one tree *)
Fixpoint depth_le (t : tree) (n : nat) : Prop :=
  match t with
  | Slots _ f => match n with O => False | S n' => forall v, depth_le (f v) n' end
  | _ => True
  end.
Lemma wf_depth R P fl t : wf R P fl t -> depth_le t (set_count fl).
Proof.
  revert fl. induction t as [|re pi h|bi f IH]; intros fl H; [done|done|]. destruct H as (Hb & _ & H). cbn [depth_le].
  rewrite <- (flip_count bi fl Hb). intros v. apply IH, H.
Qed.

Lemma count_deep t n d k : depth_le t n -> (n < d)%nat -> count d k t = 0%nat.
Proof.
  revert n d. induction t as [|re pi h|bi f IH]; intros n d H Hd; destruct d as [|d]; try done; try lia.
  cbn [depth_le] in H. destruct n as [|n]; [done|]. cbn [count]. apply sum_list_zero. intros v _. apply (IH v n d); [apply H|lia].
Qed.

Lemma count_at_empty s l k : count_at s l k Empty = 0%nat.
Proof. unfold count_at. destruct (s <=? l); [|done]. by destruct (Z.to_nat (l - s)). Qed.
Lemma count_at_leaf s l k re pi h : count_at s l k (Leaf re pi h) = if (l =? s) && Nat.eqb k 0 then 1%nat else 0%nat.
Proof.
  unfold count_at. destruct (Z.leb_spec s l).
  - destruct (Z.eqb_spec l s) as [->|Hn].
    + rewrite Z.sub_diag. cbn. destruct k; done.
    + destruct (Z.to_nat (l - s)) eqn:E; [lia|]. done.
  - destruct (Z.eqb_spec l s); [lia|done].
Qed.
Lemma count_at_slots s l k bi f : count_at s l k (Slots bi f) =
  ((if (l =? s)%Z && Nat.eqb k (active (Slots bi f)) then 1 else 0) + sum_list (map (fun v => count_at (s + 1) l k (f v)) byte_vals))%nat.
Proof.
  unfold count_at. destruct (Z.leb_spec s l).
  - destruct (Z.eqb_spec l s) as [->|Hn].
    + rewrite Z.sub_diag. change (Z.to_nat 0) with 0%nat. cbn [count andb].
      rewrite sum_list_zero by (intros v _; destruct (Z.leb_spec (s + 1) s); [lia|done]).
      destruct (Nat.eqb_spec k (active (Slots bi f))) as [->|Hne]; [by rewrite decide_True|]. rewrite decide_False by congruence. done.
    + cbn [andb]. replace (Z.to_nat (l - s)) with (S (Z.to_nat (l - (s + 1)))) by lia. cbn [count].
      destruct (Z.leb_spec (s + 1) l); [done|lia].
  - destruct (Z.eqb_spec l s); [lia|]. cbn [andb]. rewrite sum_list_zero; [done|]. intros v _. destruct (Z.leb_spec (s + 1) l); [lia|done].
Qed.

Definition in_range (cap : Z) (m : metrics) : Prop := forall l k, 0 <= m l k < cap.
(** [m'] is [m] with [n] more counted *)
Definition more (cap : Z) (n : Z -> nat -> nat) (m m' : metrics) : Prop := forall l k, m' l k = (m l k + Z.of_nat (n l k)) mod cap.

Lemma more_range cap n m m' : 0 < cap -> more cap n m m' -> in_range cap m'.
Proof. intros Hc H l k. rewrite H. by apply Z.mod_pos_bound. Qed.
Lemma more_more cap n1 n2 m m1 m2 : more cap n1 m m1 -> more cap n2 m1 m2 -> more cap (fun l k => n1 l k + n2 l k)%nat m m2.
Proof. intros H1 H2 l k. rewrite H2, H1, Zplus_mod_idemp_l. f_equal. lia. Qed.

Lemma bump_more cap l k m : 0 < cap -> in_range cap m -> l <= 64 ->
  exists m', bump cap l k m = Some m' /\ more cap (fun l' k' => if (l' =? l) && Nat.eqb k' k then 1%nat else 0%nat) m m'.
Proof.
  intros Hc Hm Hl. unfold bump. rewrite (proj2 (Z.ltb_lt l 65)) by lia. eexists. split; [done|]. intros l' k'. cbn beta.
  destruct (Z.eqb_spec l' l) as [->|]; [|cbn [andb]; rewrite Z.add_0_r, Z.mod_small; [done|apply Hm]].
  destruct (Nat.eqb_spec k' k) as [->|]; [done|]. cbn [andb]. rewrite Z.add_0_r, Z.mod_small; [done|apply Hm].
Qed.

Lemma measure_counts cap base t : forall n lvl m, 0 < cap -> depth_le t n -> 0 <= lvl -> 0 <= base -> lvl + base + Z.of_nat n <= 64 -> in_range cap m ->
  exists m', measure cap base t lvl m = Some m' /\ more cap (fun l k => count_at (lvl + base) l k t) m m'.
Proof.
  induction t as [|re pi h|bi f IH]; intros n lvl m Hc Hd H1 H2 H3 Hm.
  - exists m. split; [done|]. intros l k. rewrite count_at_empty, Z.add_0_r, Z.mod_small; [done|apply Hm].
  - cbn [measure]. unfold byte_add. rewrite Z.mod_small by lia. destruct (bump_more cap (lvl + base) 0 m Hc Hm ltac:(lia)) as (m' & E & H).
    cbn [active]. exists m'. split; [done|]. intros l k. rewrite H, count_at_leaf. done.
  - cbn [measure]. unfold byte_add. rewrite !Z.mod_small by lia.
    destruct (bump_more cap (lvl + base) (active (Slots bi f)) m Hc Hm ltac:(lia)) as (m1 & E & H). rewrite E. cbn [mbind option_bind].
    cbn [depth_le] in Hd. destruct n as [|n]; [done|].
    assert (forall vs m, in_range cap m -> exists m', foldl (fun acc v => m'' ← acc; measure cap base (f v) (lvl + 1) m'') (Some m) vs = Some m' /\
      more cap (fun l k => sum_list (map (fun v => count_at (lvl + base + 1) l k (f v)) vs)) m m') as Hfold.
    { clear -IH Hc Hd H1 H2 H3. induction vs as [|v vs IHv]; intros m Hm.
      - exists m. split; [done|]. intros l k. cbn [map]. change (sum_list []) with 0%nat. rewrite Z.add_0_r, Z.mod_small; [done|apply Hm].
      - cbn [foldl mbind option_bind]. destruct (IH v n (lvl + 1) m Hc (Hd v)) as (m1 & E1 & M1); [lia|lia|lia|done|]. rewrite E1.
        destruct (IHv m1 (more_range _ _ _ _ Hc M1)) as (m2 & E2 & M2). exists m2. split; [done|].
        intros l k. cbn [map]. rewrite sum_cons. pose proof (more_more _ _ _ _ _ _ M1 M2 l k) as HH. cbn beta in HH.
        replace (lvl + base + 1) with (lvl + 1 + base) by lia. replace (lvl + base + 1) with (lvl + 1 + base) in HH by lia. done. }
    destruct (Hfold byte_vals m1 (more_range _ _ _ _ Hc H)) as (m2 & E2 & M2). exists m2. split; [done|].
    intros l k. rewrite (more_more _ _ _ _ _ _ H M2 l k), count_at_slots. done.
Qed.

(** ** Sums *)
Lemma sum_ext {A} (f g : A -> nat) (l : list A) : (forall x, x ∈ l -> f x = g x) -> sum_list (map f l) = sum_list (map g l).
Proof. induction l as [|y l IH]; intros H; [done|]. cbn [map]. rewrite !sum_cons, IH, (H y); [done|by left|intros; apply H; by right]. Qed.
Lemma sum_add {A} (f g : A -> nat) (l : list A) : sum_list (map (fun x => f x + g x)%nat l) = (sum_list (map f l) + sum_list (map g l))%nat.
Proof. induction l as [|y l IH]; [done|]. cbn [map]. rewrite !sum_cons, IH. lia. Qed.
Lemma sum_scale {A} (c : nat) (f : A -> nat) (l : list A) : sum_list (map (fun x => c * f x)%nat l) = (c * sum_list (map f l))%nat.
Proof. induction l as [|y l IH]; [cbn; lia|]. cbn [map]. rewrite !sum_cons, IH. lia. Qed.
Lemma sum_swap {A B} (f : A -> B -> nat) (l : list A) (r : list B) :
  sum_list (map (fun x => sum_list (map (f x) r)) l) = sum_list (map (fun y => sum_list (map (fun x => f x y) l)) r).
Proof.
  induction l as [|x l IH]; cbn [map].
  - symmetry. by apply sum_list_zero.
  - rewrite sum_cons, IH, <- sum_add. apply sum_ext. intros y _. by rewrite sum_cons.
Qed.
Lemma sum_single {A} `{EqDecision A} (c : A -> nat) (a : A) (l : list A) : NoDup l -> a ∈ l -> (forall x, x ∈ l -> x <> a -> c x = 0%nat) -> sum_list (map c l) = c a.
Proof.
  induction 1 as [|x l Hx Hnd IH]; intros Ha H0; [by apply elem_of_nil in Ha|]. cbn [map]. rewrite sum_cons. apply elem_of_cons in Ha as [->|Ha].
  - rewrite sum_list_zero; [lia|]. intros y Hy. apply H0; [by right|]. intros ->. done.
  - rewrite (H0 x) by ((by left) || (intros ->; done)). apply IH; [done|]. intros y Hy. apply H0. by right.
Qed.
Lemma sum_Z {A} (f : A -> nat) (l : list A) : foldr Z.add 0 (map (fun x => Z.of_nat (f x)) l) = Z.of_nat (sum_list (map f l)).
Proof. induction l as [|x l IH]; [done|]. cbn [map foldr]. rewrite sum_cons, IH. lia. Qed.
Lemma sum_active f : sum_list (map (fun v => if is_node (f v) then 1%nat else 0%nat) byte_vals) = active (Slots 0 f).
Proof.
  cbn [active]. induction byte_vals as [|v l IH]; [done|]. cbn [map]. rewrite sum_cons, IH, filter_cons. destruct (is_node (f v)) eqn:E.
  - by rewrite decide_True.
  - rewrite decide_False by done. done.
Qed.

(** ** Facts about the counts of one tree *)
Fixpoint bushy (t : tree) : Prop := match t with Slots _ f => (2 <= active t)%nat /\ forall v, bushy (f v) | _ => True end.
Lemma wf_bushy R P fl t : wf R P fl t -> bushy t.
Proof. revert fl. induction t as [|re pi h|bi f IH]; intros fl H; [done|done|]. destruct H as (_ & Ha & H). split; [done|]. intros v. apply (IH v _ (H v)). Qed.
Lemma bushy_leaves t : bushy t -> is_node t = true -> (1 <= leaves t)%nat.
Proof.
  induction t as [|re pi h|bi f IH]; intros H Hn; [done|done|]. destruct H as [Ha H]. cbn [active] in Ha.
  destruct (filter (fun v => is_node (f v) = true) byte_vals) as [|v r] eqn:E; [cbn in Ha; lia|].
  assert (v ∈ filter (fun v => is_node (f v) = true) byte_vals) as Hv by (rewrite E; by left). apply elem_of_list_filter in Hv as [Hv1 Hv2].
  cbn [leaves]. pose proof (sum_list_elem (fun v => leaves (f v)) byte_vals v Hv2). pose proof (IH v (H v) Hv1). lia.
Qed.
Lemma leaves_pis t : leaves t = length (tree_pis t).
Proof.
  induction t as [|re pi h|bi f IH]; [done|done|]. rewrite tree_pis_slots. cbn [leaves]. induction byte_vals as [|v l IHl]; [done|].
  cbn [map concat]. rewrite sum_cons, app_length, IHl, IH. done.
Qed.

Lemma count_one t d : bushy t -> count d 1 t = 0%nat.
Proof.
  revert d. induction t as [|re pi h|bi f IH]; intros d H; destruct d as [|d]; try done.
  - destruct H as [Ha _]. cbn [count]. rewrite decide_False; [done|]. lia.
  - cbn [count]. apply sum_list_zero. intros v _. apply IH, H.
Qed.
Lemma count_le t d k : bushy t -> (count d k t <= leaves t)%nat.
Proof.
  revert d. induction t as [|re pi h|bi f IH]; intros d H; destruct d as [|d]; try (cbn; lia).
  - cbn [count leaves]. case_decide; lia.
  - pose proof (bushy_leaves _ H eq_refl) as Hp. cbn [count]. case_decide; lia.
  - cbn [count leaves]. apply sum_list_mono. intros v _. apply IH, H.
Qed.
Lemma count_leaves t n s : bushy t -> depth_le t n -> 0 <= s -> s + Z.of_nat n <= 64 -> sum_list (map (fun l => count_at s l 0 t) (seqZ 0 65)) = leaves t.
Proof.
  revert n s. induction t as [|re pi h|bi f IH]; intros n s Hb Hd H0 H1.
  - apply sum_list_zero. intros l _. apply count_at_empty.
  - rewrite (sum_single _ s).
    + rewrite count_at_leaf, Z.eqb_refl. done.
    + apply NoDup_seqZ.
    + apply elem_of_seqZ. lia.
    + intros l _ Hl. rewrite count_at_leaf. destruct (Z.eqb_spec l s); [lia|done].
  - cbn [depth_le] in Hd. destruct n as [|n]; [done|]. destruct Hb as [Ha Hb].
    rewrite (sum_ext _ (fun l => sum_list (map (fun v => count_at (s + 1) l 0 (f v)) byte_vals))).
    + rewrite sum_swap. cbn [leaves]. apply sum_ext. intros v _. apply (IH v n); [apply Hb|apply Hd|lia|lia].
    + intros l _. rewrite count_at_slots. destruct (Nat.eqb_spec 0 (active (Slots bi f))); [lia|]. rewrite andb_false_r. done.
Qed.
Lemma active_seq t : active t ∈ seq 0 257.
Proof. apply elem_of_seq. pose proof (active_le t). lia. Qed.

Lemma count_branches t s l :
  sum_list (map (fun k => count_at s (l + 1) k t) (seq 0 257)) =
  (sum_list (map (fun k => k * count_at s l k t) (seq 0 257)) + if (l + 1 =? s)%Z && is_node t then 1 else 0)%nat.
Proof.
  revert s. induction t as [|re pi h|bi f IH]; intros s.
  - rewrite !sum_list_zero; [by rewrite andb_false_r| |]; intros k _; rewrite count_at_empty; lia.
  - rewrite (sum_list_zero (fun k => k * count_at s l k (Leaf re pi h))%nat).
    2:{ intros k _. rewrite count_at_leaf. destruct k; [lia|]. cbn [Nat.eqb]. rewrite andb_false_r. lia. }
    rewrite (sum_single _ 0%nat).
    + rewrite count_at_leaf. cbn [Nat.eqb is_node]. done.
    + apply NoDup_seq.
    + apply elem_of_seq. lia.
    + intros k _ Hk. rewrite count_at_leaf. destruct k; [done|]. cbn [Nat.eqb]. by rewrite andb_false_r.
  - set (t := Slots bi f).
    rewrite (sum_ext _ (fun k => (if (l + 1 =? s)%Z && Nat.eqb k (active t) then 1 else 0) + sum_list (map (fun v => count_at (s + 1) (l + 1) k (f v)) byte_vals))%nat).
    2:{ intros k _. unfold t. by rewrite count_at_slots. }
    rewrite sum_add, sum_swap.
    rewrite (sum_ext (fun v => sum_list (map (fun k => count_at (s + 1) (l + 1) k (f v)) (seq 0 257)))
      (fun v => sum_list (map (fun k => k * count_at (s + 1) l k (f v))%nat (seq 0 257)) + (if (l =? s)%Z then 1 else 0) * (if is_node (f v) then 1 else 0))%nat).
    2:{ intros v _. rewrite IH. f_equal. replace (l + 1 =? s + 1) with (l =? s) by (destruct (Z.eqb_spec l s), (Z.eqb_spec (l + 1) (s + 1)); lia).
        destruct (l =? s), (is_node (f v)); done. }
    rewrite sum_add, sum_scale, sum_active.
    rewrite (sum_ext (fun k => k * count_at s l k t)%nat (fun k => k * (if (l =? s)%Z && Nat.eqb k (active t) then 1 else 0) + sum_list (map (fun v => k * count_at (s + 1) l k (f v)) byte_vals))%nat).
    2:{ intros k _. unfold t. rewrite count_at_slots, Nat.mul_add_distr_l, sum_scale. done. }
    rewrite sum_add, sum_swap.
    rewrite (sum_single (fun k => if (l + 1 =? s) && Nat.eqb k (active t) then 1%nat else 0%nat) (active t)) by
      (apply NoDup_seq || apply active_seq || (intros k _ Hk; apply Nat.eqb_neq in Hk; rewrite Hk; by rewrite andb_false_r)).
    rewrite (sum_single (fun k => k * (if (l =? s)%Z && Nat.eqb k (active t) then 1 else 0))%nat (active t)) by
      (apply NoDup_seq || apply active_seq || (intros k _ Hk; apply Nat.eqb_neq in Hk; rewrite Hk; rewrite andb_false_r; lia)).
    change (is_node t) with true. rewrite Nat.eqb_refl, !andb_true_r. change (active (Slots 0 f)) with (active t).
    destruct (l =? s), (l + 1 =? s); lia.
Qed.

(** ** Recording groups *)
Section Record.
  Context (ent : list thash -> nat -> Z) (Hent : entropy_ok ent) (srt : nat -> list thash -> list thash) (Hsrt : sort_ok srt) (R pre hl : nat) (cap base : Z).
  Context (Hpre : (pre <= hl)%nat) (Hhl : (1 <= hl <= 64)%nat) (HR : (R <= hl)%nat) (Hcap : 0 < cap) (Hbase : 0 <= base) (Hroom : Z.of_nat hl + base <= 64).

  Lemma one_group g : group_ok pre hl g -> exists t,
    generate ent srt R pre hl g = Some t /\ depth_le t (hl - pre) /\ bushy t /\ leaves t = length g /\ is_node t = bool_decide (g <> []).
  Proof using Hent Hsrt Hpre Hhl HR.
    intros (Hok & Hd & Ha). rewrite generate_checks by (done || lia). destruct g as [|a [|b g]].
    - by exists Empty.
    - by eexists.
    - set (inp := a :: b :: g) in *. assert (2 <= length inp)%nat as Hl by (unfold inp; cbn [length]; lia).
      assert (ready inp (flags_init hl pre)) as Hr by (by apply ready_init).
      assert (set_count (flags_init hl pre) < S hl)%nat as Hc by (rewrite set_count_init by lia; lia).
      exists (gen ent srt R (S hl) inp (flags_init hl pre)). split; [unfold inp in *; by rewrite gen_ok_true by done|].
      destruct (gen_wf ent Hent srt Hsrt R (fun _ => True) (S hl) inp (flags_init hl pre) Hr Hl Hc ltac:(done)) as (Hwf & Hn & _).
      split; [|split; [by eapply wf_bushy|split]].
      + pose proof (wf_depth _ _ _ _ Hwf) as H. by rewrite set_count_init in H by lia.
      + rewrite leaves_pis, (gen_pis ent Hent srt Hsrt R (S hl) inp _ Hr Hl Hc), fmap_length. done.
      + rewrite Hn. symmetry. by apply bool_decide_eq_true.
  Qed.

  Lemma one_record g m : group_ok pre hl g -> in_range cap m -> exists t m',
    generate ent srt R pre hl g = Some t /\ depth_le t (hl - pre) /\ bushy t /\ leaves t = length g /\ is_node t = bool_decide (g <> []) /\
    record ent srt R pre hl cap base g m = Some m' /\ more cap (fun l k => count_at (Z.of_nat pre + base) l k t) m m'.
  Proof using Hent Hsrt Hpre Hhl HR Hcap Hbase Hroom.
    intros Hg Hm. destruct (one_group g Hg) as (t & Et & H1 & H2 & H3 & H4). exists t.
    destruct (measure_counts cap base t (hl - pre) (Z.of_nat pre) m Hcap H1 ltac:(lia) Hbase ltac:(lia) Hm) as (m' & Em & M).
    exists m'. do 5 (split; [done|]). split; [|done]. unfold record. destruct g as [|a g].
    - assert (t = Empty) as -> by (by destruct t). done.
    - rewrite Et. done.
  Qed.

  Lemma all_records groups m : Forall (group_ok pre hl) groups -> in_range cap m -> exists ts m',
    mapM (generate ent srt R pre hl) groups = Some ts /\ Forall2 (fun g t => depth_le t (hl - pre) /\ bushy t /\ leaves t = length g /\ is_node t = bool_decide (g <> [])) groups ts /\
    record_all ent srt R pre hl cap base groups m = Some m' /\ more cap (fun l k => sum_list (map (count_at (Z.of_nat pre + base) l k) ts)) m m'.
  Proof using Hent Hsrt Hpre Hhl HR Hcap Hbase Hroom.
    intros Hg. revert m. induction Hg as [|g gs Hg Hgs IH]; intros m Hm.
    - exists [], m. split; [done|]. split; [constructor|]. split; [done|]. intros l k. cbn [map]. change (sum_list []) with 0%nat. rewrite Z.add_0_r, Z.mod_small; [done|apply Hm].
    - destruct (one_record g m Hg Hm) as (t & m1 & Et & H1 & H2 & H3 & H4 & E1 & M1).
      destruct (IH m1 (more_range _ _ _ _ Hcap M1)) as (ts & m2 & Ets & HF & E2 & M2). exists (t :: ts), m2.
      split; [cbn; rewrite Et; cbn; rewrite Ets; done|]. split; [by constructor|]. split.
      + cbn [record_all]. rewrite E1. cbn [mbind option_bind]. done.
      + intros l k. rewrite (more_more _ _ _ _ _ _ M1 M2 l k). cbn [map]. by rewrite sum_cons.
  Qed.
End Record.

Lemma no_metrics_range cap : 0 < cap -> in_range cap no_metrics.
Proof. intros H l k. unfold no_metrics. lia. Qed.

(** C98. After any sequence of recordings every number is the number of nodes it stands for: nodes on that level with
    that many slots in use, in the trees of all the groups.  Nothing stops the measurement, and no counter wraps, as
    long as the levels fit (hash length plus base level at most 64) and there are fewer hashes than a counter holds. *)
Theorem C98_every_node_counted_once :
  forall ent srt R pre hl cap base groups,
    entropy_ok ent -> sort_ok srt -> (pre <= hl)%nat -> (1 <= hl)%nat -> (R <= hl)%nat -> 0 <= base -> Z.of_nat hl + base <= 64 ->
    Forall (group_ok pre hl) groups -> Z.of_nat (total groups) < cap ->
    exists ts m,
      mapM (generate ent srt R pre hl) groups = Some ts /\
      record_all ent srt R pre hl cap base groups no_metrics = Some m /\
      forall l k, m l k = Z.of_nat (sum_list (map (count_at (Z.of_nat pre + base) l k) ts)).
Proof.
  intros ent srt R pre hl cap base groups He Hs Hp Hh HR Hb Hroom Hg Hc.
  destruct (all_records ent He srt Hs R pre hl cap base Hp ltac:(lia) HR ltac:(lia) Hb Hroom groups no_metrics Hg (no_metrics_range cap ltac:(lia)))
    as (ts & m & Ets & HF & Em & M). exists ts, m. split; [done|]. split; [done|]. intros l k. rewrite M. unfold no_metrics. rewrite Z.add_0_l. apply Z.mod_small.
  split; [lia|]. apply Z.le_lt_trans with (Z.of_nat (total groups)); [|done]. apply inj_le.
  unfold total. clear -HF. induction HF as [|g t gs ts (_ & Hb & Hl & _) HF IH]; [done|]. cbn [map concat]. rewrite sum_cons, app_length.
  assert (count_at (Z.of_nat pre + base) l k t <= length g)%nat; [|lia]. unfold count_at. destruct (_ <=? l); [|lia]. rewrite <- Hl. by apply count_le.
Qed.

(** C98. The numbers fit together: as many leaves as hashes were presented; no node has exactly one slot in use; every
    level has as many nodes as branches lead to it from the level above, and the roots of the groups that were not
    empty are on the level given. *)
Theorem C98_numbers_fit_together :
  forall ent srt R pre hl cap base groups,
    entropy_ok ent -> sort_ok srt -> (pre <= hl)%nat -> (1 <= hl)%nat -> (R <= hl)%nat -> 0 <= base -> Z.of_nat hl + base <= 64 ->
    Forall (group_ok pre hl) groups -> Z.of_nat (total groups) < cap ->
    exists m,
      record_all ent srt R pre hl cap base groups no_metrics = Some m /\
      all_leaves m = Z.of_nat (total groups) /\
      (forall l, m l 1%nat = 0) /\
      (forall l, level_nodes m (l + 1) = level_branches m l + (if l + 1 =? Z.of_nat pre + base then Z.of_nat (nonempty groups) else 0)) /\
      (forall l k, l < Z.of_nat pre + base \/ Z.of_nat hl + base < l -> m l k = 0).
Proof.
  intros ent srt R pre hl cap base groups He Hs Hp Hh HR Hb Hroom Hg Hc.
  destruct (C98_every_node_counted_once ent srt R pre hl cap base groups He Hs Hp Hh HR Hb Hroom Hg Hc) as (ts & m & Ets & Em & Hm).
  assert (Forall2 (fun g t => depth_le t (hl - pre) /\ bushy t /\ leaves t = length g /\ is_node t = bool_decide (g <> [])) groups ts) as HF.
  { destruct (all_records ent He srt Hs R pre hl cap base Hp ltac:(lia) HR ltac:(lia) Hb Hroom groups no_metrics Hg (no_metrics_range cap ltac:(lia)))
      as (ts' & m' & Ets' & HF & _). rewrite Ets in Ets'. apply (inj Some) in Ets' as ->. done. }
  exists m. split; [done|]. set (s := Z.of_nat pre + base) in *. clear Em Ets.
  split; [|split; [|split]].
  - unfold all_leaves. rewrite (map_ext _ (fun l => Z.of_nat (sum_list (map (count_at s l 0) ts)))) by (intros; apply Hm).
    rewrite sum_Z. f_equal. rewrite sum_swap. unfold total. clear Hm Hc Hg.
    induction HF as [|g t gs ts (H1 & H2 & H3 & _) HF IH]; [done|]. cbn [map concat]. rewrite sum_cons, app_length, IH.
    rewrite (count_leaves t (hl - pre) s H2 H1) by (unfold s; lia). lia.
  - intros l. rewrite Hm. change 0 with (Z.of_nat 0). f_equal. apply sum_list_zero. intros t Ht. apply elem_of_list_lookup in Ht as [i Hi].
    destruct (Forall2_lookup_r _ _ _ _ _ HF Hi) as (g & _ & (_ & Hbu & _)). unfold count_at. destruct (s <=? l); [by apply count_one|done].
  - intros l. unfold level_nodes, level_branches.
    rewrite (map_ext _ (fun k => Z.of_nat (sum_list (map (count_at s (l + 1) k) ts)))) by (intros; apply Hm).
    rewrite (map_ext (fun k => Z.of_nat k * m l k) (fun k => Z.of_nat (k * sum_list (map (count_at s l k) ts)))) by (intros; rewrite Hm; lia).
    rewrite !sum_Z, (sum_swap (fun k t => count_at s (l + 1) k t)).
    rewrite (sum_ext (fun k => k * sum_list (map (count_at s l k) ts))%nat (fun k => sum_list (map (fun t => k * count_at s l k t)%nat ts))) by (intros; by rewrite sum_scale).
    rewrite (sum_swap (fun k t => k * count_at s l k t)%nat). rewrite (sum_ext (fun t => sum_list (map (fun k => count_at s (l + 1) k t) (seq 0 257)))
      (fun t => sum_list (map (fun k => k * count_at s l k t)%nat (seq 0 257)) + (if (l + 1 =? s)%Z then 1 else 0) * (if is_node t then 1 else 0))%nat).
    2:{ intros t _. rewrite count_branches. f_equal. destruct (l + 1 =? s), (is_node t); done. }
    rewrite sum_add, sum_scale.
    assert (sum_list (map (fun t => if is_node t then 1 else 0)%nat ts) = nonempty groups) as ->.
    { unfold nonempty. clear -HF. induction HF as [|g t gs ts (_ & _ & _ & Hn) HF IH]; [done|]. cbn [map]. rewrite sum_cons, IH, filter_cons, Hn.
      destruct g; [rewrite decide_False by (intros H; by apply H)|rewrite decide_True by done]; done. }
    destruct (l + 1 =? s); lia.
  - intros l k Hl. rewrite Hm. change 0 with (Z.of_nat 0). f_equal. apply sum_list_zero. intros t Ht. apply elem_of_list_lookup in Ht as [i Hi].
    destruct (Forall2_lookup_r _ _ _ _ _ HF Hi) as (g & _ & (Hde & _)). unfold count_at. destruct (Z.leb_spec s l); [|done].
    apply (count_deep t (hl - pre)); [done|]. unfold s in *. lia.
Qed.

(** C98. Beyond 65 levels the measurement stops the program: it never counts a node on a wrong level. *)
Theorem C98_too_deep_stops :
  forall ent srt R pre hl cap base g m,
    entropy_ok ent -> sort_ok srt -> (pre <= hl)%nat -> (1 <= hl <= 64)%nat -> (R <= hl)%nat -> group_ok pre hl g -> g <> [] ->
    64 < Z.of_nat pre + base -> base < 256 - Z.of_nat pre ->
    record ent srt R pre hl cap base g m = None.
Proof.
  intros ent srt R pre hl cap base g m He Hs Hp Hh HR Hg Hne H1 H2.
  destruct (one_group ent He srt Hs R pre hl Hp Hh HR g Hg) as (t & Et & _ & _ & _ & Hn).
  unfold record. destruct g as [|a g]; [done|]. rewrite Et. cbn [mbind option_bind]. rewrite bool_decide_eq_true_2 in Hn by done.
  assert (forall k, bump cap (byte_add (Z.of_nat pre) base) k m = None) as Hb.
  { intros k. unfold bump, byte_add. rewrite Z.mod_small by lia. destruct (Z.ltb_spec (Z.of_nat pre + base) 65); [lia|done]. }
  destruct t as [| |bi f]; [done| |]; cbn [measure]; rewrite Hb; done.
Qed.

(** ** The hypotheses can be met *)
Definition ex_groups : list (list thash) := [ex_tree_input; []; [mk_th [4; 4; 4] 14]].
Lemma ex_groups_ok : Forall (group_ok 0 3) ex_groups.
Proof.
  assert (forall (g : list thash), hashes_ok 3 g -> distinct g -> group_ok 0 3 g) as H by (intros g H1 H2; split; [done|]; split; [done|]; intros; lia).
  unfold ex_groups. constructor; [apply H; apply ex_tree_input_ok|]. constructor; [|constructor; [|constructor]]; apply H.
  - intros x Hx. by apply elem_of_nil in Hx.
  - constructor.
  - intros x Hx. apply elem_of_list_singleton in Hx as ->. split; [done|]. unfold bytes, is_byte. cbn [th_hash]. repeat (constructor; [lia|]). constructor.
  - apply NoDup_singleton.
Qed.
(** four hashes in one group, none in the next, one in the last, measured for the layers from level 2 on *)
Example C98_example : exists m,
  record_all ex_ent ex_srt 1 0 3 (2 ^ 32) 2 ex_groups no_metrics = Some m /\
  map (fun l => map (m l) [0; 1; 2; 3; 4]%nat) [1; 2; 3; 4; 5] = [[0; 0; 0; 0; 0]; [1; 0; 0; 1; 0]; [2; 0; 1; 0; 0]; [2; 0; 0; 0; 0]; [0; 0; 0; 0; 0]] /\
  all_leaves m = 5.
Proof. eexists. split; [vm_compute; reflexivity|]. split; vm_compute; reflexivity. Qed.

Print Assumptions C98_every_node_counted_once.
Print Assumptions C98_numbers_fit_together.
Print Assumptions C98_too_deep_stops.
