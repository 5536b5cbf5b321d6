(** Properties C41, C70, C71: the 16-bit tree written into nodes of fixed sizes. *)
From Verif Require Import Base Model_Tree Spec_Tree Proof_Tree Prop_Tree Model_Pool Spec_Pool Proof_Pool Prop_Pool Model_Fixed Proof_Fixed Proof_Full.

(** [writable cp t rs] says that [rs] is one of the possible results of describing the nodes of [t] and sorting the
    descriptions by their specs; the sort is not stable, so any such order is allowed. *)

(** The list of specs, as sorted, is the list the code appends. *)
Theorem C41_configuration_is_the_codes : config_a ≡ₚ config_code /\ cp_sorted config_a.
Proof. split; [exact config_a_code|exact config_a_sorted]. Qed.

(** C41. With two hashes or more (or a single one whose first byte is not zero), and at least one number to spare, the
    written form gives every query the answer of the tree: number and duplicate mark. What is missing of the full
    statement is refuted below. *)
Theorem C41_same_answers_partial :
  forall ent srt first input t rs c q,
    entropy_ok ent -> sort_ok srt -> hashes_ok 32 input -> numbered first input -> pool_generate ent srt input = Some t ->
    (2 <= length input)%nat \/ (exists x, input = [x] /\ th_hash x !!! 0%nat <> 0) ->
    Z.of_nat (length (t_nodes t)) + Z.of_nat (length input) < 65536 ->
    writable config_a t rs -> serialize config_a rs t = Some c -> length q = 32%nat -> bytes q ->
    exists pi b bits, container_lookup config_a c q = Some (pi, b, bits) /\ pool_lookup t q = Some (pi, b).
Proof.
  intros ent srt first input t rs c q He Hs Hok Hnum E Hl Hroom Hw Hser Hq Hb.
  assert (Hne : input <> []) by (destruct Hl as [Hl|(x & -> & _)]; [intros ->; cbn [length] in Hl; lia|done]).
  destruct (generated ent srt first input t Hne Hnum E) as (_ & _ & G3 & _ & G5). pose proof (rep_lookup ent srt first _ _ _ _ _ _ _ G5) as Hn0.
  rewrite (serialize_ok config_a t rs config_a_sorted Hw) in Hser by (intros En; rewrite En in Hn0; cbn [length] in Hn0; lia). apply (inj Some) in Hser. subst c.
  apply (full_lookup ent srt config_a first input t rs q He Hs config_a_sorted config_a_tiny Hok Hnum E Hl); [lia|exact Hw|exact Hq|exact Hb].
Qed.

(** C41. Together with C40: distinct hashes are found in the written form under their own numbers. *)
Theorem C41_distinct_hashes_found_partial :
  forall ent srt first input t rs c x,
    entropy_ok ent -> sort_ok srt -> hashes_ok 32 input -> numbered first input -> distinct input -> pool_generate ent srt input = Some t ->
    (2 <= length input)%nat -> Z.of_nat (length (t_nodes t)) + Z.of_nat (length input) < 65536 ->
    writable config_a t rs -> serialize config_a rs t = Some c -> x ∈ input ->
    exists bits, container_lookup config_a c (th_hash x) = Some (th_pi x, false, bits).
Proof.
  intros ent srt first input t rs c x He Hs Hok Hnum Hd E Hl Hroom Hw Hser Hx. destruct (Hok x Hx) as [H1 H2].
  destruct (C41_same_answers_partial ent srt first input t rs c (th_hash x) He Hs Hok Hnum E (or_introl Hl) Hroom Hw Hser H1 H2) as (pi & b & bits & E1 & E2).
  rewrite (C40_distinct_hashes_found ent srt first input t x He Hs Hok Hnum Hd E Hx) in E2. apply (inj Some) in E2. injection E2 as <- <-. by exists bits.
Qed.

(** C41. Distinct hashes, or fewer than 34 of any kind, can always be described and written. *)
Theorem C41_writing_succeeds :
  forall ent srt first input t,
    entropy_ok ent -> sort_ok srt -> hashes_ok 32 input -> numbered first input -> distinct input \/ (length input < 34)%nat ->
    pool_generate ent srt input = Some t -> input <> [] ->
    exists rs0, reconfs config_a t = Some rs0 /\ forall rs, rs ≡ₚ rs0 -> sorted_rs rs -> exists c, serialize config_a rs t = Some c.
Proof.
  intros ent srt first input t He Hs Hok Hnum Hd E Hne. pose proof (generated_levels ent srt first input t He Hs Hok Hnum Hd E) as Hlv.
  destruct (reconfs_some config_a t config_a_complete Hlv) as [rs0 E0]. exists rs0. split; [exact E0|]. intros rs Hp Hsrt.
  destruct (generated ent srt first input t Hne Hnum E) as (_ & _ & _ & _ & G5). pose proof (rep_lookup ent srt first _ _ _ _ _ _ _ G5) as Hn0.
  eexists. apply serialize_ok; [exact config_a_sorted|split; [exact Hsrt|exists rs0; split; [exact E0|exact Hp]]|]. intros En. rewrite En in Hn0. cbn [length] in Hn0. lia.
Qed.

(** C41 is false of the code for a single hash with first byte zero: the padding of its node is read as "no entry for
    byte value 0", so the hash is not found. *)
Definition lone_zero : list thash := [mk_th zeros32 5].
Lemma lone_zero_ok : hashes_ok 32 lone_zero /\ numbered 5 lone_zero.
Proof.
  split.
  - intros x Hx. apply elem_of_list_singleton in Hx as ->. split; [reflexivity|]. apply Forall_replicate. unfold is_byte. lia.
  - intros [|i] x H; [|discriminate H]. apply (inj Some) in H as <-. reflexivity.
Qed.
Theorem C41_lone_hash_lost_refuted :
  forall ent srt, entropy_ok ent -> sort_ok srt ->
    exists t rs c, pool_generate ent srt lone_zero = Some t /\ pool_lookup t zeros32 = Some (5, false) /\
      writable config_a t rs /\ serialize config_a rs t = Some c /\ container_lookup config_a c zeros32 = Some (-1, false, 1).
Proof.
  intros ent srt He Hs. assert (Ec : choose ent lone_zero (flags_init 32 0) = None).
  { destruct (choose ent lone_zero (flags_init 32 0)) as [bi|] eqn:E; [|reflexivity]. exfalso.
    destruct (choose_some ent He lone_zero (flags_init 32 0) bi ltac:(discriminate) E) as (_ & x & y & Hx & Hy & Hxy). apply elem_of_list_singleton in Hx, Hy. subst x y. by apply Hxy. }
  set (t := mk_pool 5 1 [mk_pnode 0 0 (put blank 0 1)]). set (rs := [mk_reconf 0 (mk_pnode 0 0 (put blank 0 1)) (mk_spec 0 Tiny 2)]).
  assert (E : pool_generate ent srt lone_zero = Some t).
  { unfold pool_generate. change lone_zero with [mk_th zeros32 5] at 1. cbn [length]. change (65536 <=? Z.of_nat 1) with false. cbn [th_pi]. remember 32%nat as f eqn:Ef in |- * at 1. cbn [grow]. rewrite Ec. reflexivity. }
  assert (Hw : writable config_a t rs).
  { split; [|exists rs; split; [vm_compute; reflexivity|reflexivity]]. intros i j a b Hij Ha Hb. apply lookup_lt_Some in Hb. cbn [length rs] in Hb. lia. }
  exists t, rs. eexists. split; [exact E|]. split; [vm_compute; reflexivity|]. split; [exact Hw|]. split.
  - apply serialize_ok; [exact config_a_sorted|exact Hw|discriminate].
  - vm_compute. reflexivity.
Qed.

(** C41 is false of the code for the 34 hashes of [trap34]: the tree is built but it has a node at level 32, for which
    there is no spec, and describing its nodes crashes. *)
Theorem C41_deep_tree_crashes_refuted :
  forall ent srt, entropy_ok ent -> sort_ok srt -> exists t, pool_generate ent srt trap34 = Some t /\ reconfs config_a t = None.
Proof.
  intros ent srt He Hs. destruct (C40_small_batches_fit ent srt trap34 He Hs trap34_ok) as [t E]; [rewrite trap34_length; lia|]. exists t. split; [exact E|].
  destruct (generated ent srt 100 trap34 t) as (G1 & G2 & G3 & G4 & G5); [discriminate|exact trap34_numbered|exact E|].
  destruct (trap_level ent He srt Hs 100 (Z.of_nat (length trap34)) 32 (t_nodes t) 0 0 trap34 (flags_init 32 0) zeros32 G5 (alike_init _ trap34_ok) init_length init_count eq_refl trap34_traps) as (nd & N1 & N2 & N3).
  exact (too_deep t nd N1 N2 N3).
Qed.

(** C41 is false of the code for a tree that is exactly full: 65279 distinct hashes need 257 nodes, whichever byte the
    root looks at, and the tree answers for all of them. Written out, nodes are numbered from 1 instead of 0, so the link
    to the last node, 65536 - 257 = 65279, reads as the last presentation: all the hashes below it, at least two, are
    answered with number 65278, whatever the order the sort leaves the nodes in. *)
Theorem C41_full_tree_answers_wrongly_refuted :
  exists input, hashes_ok 32 input /\ numbered 0 input /\ distinct input /\
    forall ent srt, entropy_ok ent -> sort_ok srt ->
      exists t, pool_generate ent srt input = Some t /\ (forall x, x ∈ input -> pool_lookup t (th_hash x) = Some (th_pi x, false)) /\
        (exists rs0, reconfs config_a t = Some rs0) /\
        forall rs, writable config_a t rs ->
          exists c x bits, serialize config_a rs t = Some c /\ x ∈ input /\ th_pi x <> 65278 /\ container_lookup config_a c (th_hash x) = Some (65278, false, bits).
Proof.
  exists full_input. split; [exact full_ok|]. split; [exact full_numbered|]. split; [exact full_distinct|]. intros ent srt He Hs.
  destruct (full_generate ent He srt Hs) as (t & bi0 & look & E & _). exists t. split; [exact E|]. split; [|split].
  - intros x Hx. exact (C40_distinct_hashes_found ent srt 0 full_input t x He Hs full_ok full_numbered full_distinct E Hx).
  - apply (reconfs_some config_a t config_a_complete). exact (generated_levels ent srt 0 full_input t He Hs full_ok full_numbered (or_introl full_distinct) E).
  - intros rs Hw. destruct (full_lost ent He srt Hs t rs E Hw) as (c & v & Hser & Hv & bi & Hbi & Hq). exists c.
    destruct (full_two bi v Hbi Hv) as (x & y & Hx & Hy & Hxy & Ex & Ey).
    assert (Hlost : forall z, z ∈ full_input -> th_hash z !!! bi = Z.of_nat v -> exists bits, container_lookup config_a c (th_hash z) = Some (65278, false, bits)).
    { intros z Hz Ez. destruct (full_ok z Hz) as [Hl _]. apply Hq; [exact Hl|]. rewrite <- Ez. apply list_lookup_lookup_total_lt. lia. }
    destruct (decide (th_pi x = 65278)) as [Hpx|Hpx].
    + destruct (Hlost y Hy Ey) as [bits Hb]. exists y, bits. split; [exact Hser|]. split; [exact Hy|]. split; [|exact Hb]. intros Hpy. apply Hxy.
      apply elem_of_list_lookup in Hx as (i & Hi), Hy as (j & Hj). rewrite (full_numbered i x Hi) in Hpx. rewrite (full_numbered j y Hj) in Hpy. assert (i = j) as -> by lia. rewrite Hi in Hj. by apply (inj Some) in Hj.
    + destruct (Hlost x Hx Ex) as [bits Hb]. exists x, bits. split; [exact Hser|]. split; [exact Hx|]. split; [exact Hpx|exact Hb].
Qed.

(** C41 is false of the code for no hashes at all: the empty tree is built, but there is no root node to number and
    writing crashes. *)
Theorem C41_empty_tree_crashes_refuted :
  forall ent srt, exists t, pool_generate ent srt [] = Some t /\ pool_lookup t zeros32 = Some (-1, false) /\
    forall rs, writable config_a t rs -> serialize config_a rs t = None.
Proof.
  intros ent srt. eexists. split; [reflexivity|]. split; [reflexivity|]. intros rs [_ (rs0 & E & Hp)]. assert (E0 : reconfs config_a (mk_pool 0 0 []) = Some []) by reflexivity.
  rewrite E0 in E. apply (inj Some) in E. subst rs0. symmetry in Hp. apply Permutation_nil in Hp as ->. reflexivity.
Qed.

(** C70. With only the bytes of the first [L] levels loaded a lookup gives the answer of the whole tree, or else says that
    not enough is loaded (-2), and that only when the tree has a node at level [L] or deeper. *)
Theorem C70_truncated_answers_right_or_unloaded :
  forall ent srt first input t rs c q L,
    entropy_ok ent -> sort_ok srt -> hashes_ok 32 input -> numbered first input -> pool_generate ent srt input = Some t ->
    (2 <= length input)%nat \/ (exists x, input = [x] /\ th_hash x !!! 0%nat <> 0) ->
    Z.of_nat (length (t_nodes t)) + Z.of_nat (length input) < 65536 ->
    writable config_a t rs -> serialize config_a rs t = Some c -> (L <= 32)%nat -> length q = 32%nat -> bytes q ->
    exists pi b bits, container_lookup config_a (first_levels config_a rs L c) q = Some (pi, b, bits) /\
      (pool_lookup t q = Some (pi, b) \/ (pi, b) = (-2, false) /\ exists nd, nd ∈ t_nodes t /\ (L <= n_level nd)%nat).
Proof.
  intros ent srt first input t rs c q L He Hs Hok Hnum E Hl Hroom Hw Hser HL Hq Hb.
  assert (Hne : input <> []) by (destruct Hl as [Hl|(x & -> & _)]; [intros ->; cbn [length] in Hl; lia|done]).
  destruct (generated ent srt first input t Hne Hnum E) as (_ & _ & G3 & _ & _).
  apply (first_levels_lookup ent srt first input t rs q c L He Hs Hok Hnum E Hl); [lia|exact Hw|exact Hser|exact HL|exact Hq|exact Hb].
Qed.

(** C71. The bits returned with an answer cover every byte of the hash it depends on: any other hash that agrees in those
    bytes is answered alike. Of any container, whatever bytes it holds. *)
Theorem C71_answer_depends_on_reported_bytes :
  forall cp c q q' pi b bits,
    bytes (c_bytes c) -> length q = 32%nat -> length q' = 32%nat ->
    container_lookup cp c q = Some (pi, b, bits) ->
    (forall j, (j < 32)%nat -> Z.testbit bits (Z.of_nat j) = true -> q' !! j = q !! j) ->
    container_lookup cp c q' = Some (pi, b, bits).
Proof.
  intros cp c q q' pi b bits Hb Hq Hq' E H. unfold container_lookup in *. destruct (c_count c =? 0); [exact E|].
  refine (proj2 (descend_bits cp c 33 _ (c_root c) 0 q pi b bits ltac:(lia) E) q' _ _).
  - intros o z Hz. unfold bytes in Hb. rewrite Forall_forall in Hb. apply (Hb z). by apply elem_of_list_lookup_2 with o.
  - by rewrite Hq.
  - by rewrite Hq.
Qed.

(** *** Examples *)
Definition sorted_rs_b (rs : list reconf) : bool :=
  forallb (fun i => forallb (fun j => match rs !! i, rs !! j with Some a, Some b => (j <=? i)%nat || negb (less (r_spec b) (r_spec a)) | _, _ => true end) (seq 0 (length rs))) (seq 0 (length rs)).
Lemma sorted_rs_b_ok rs : sorted_rs_b rs = true -> sorted_rs rs.
Proof.
  intros H i j a b Hij Ha Hb. unfold sorted_rs_b in H. rewrite forallb_forall in H. pose proof (lookup_lt_Some _ _ _ Ha). pose proof (lookup_lt_Some _ _ _ Hb).
  specialize (H i ltac:(apply in_seq; lia)). rewrite forallb_forall in H. specialize (H j ltac:(apply in_seq; lia)). cbv beta in H. rewrite Ha, Hb, (proj2 (Nat.leb_gt _ _)) in H by lia. by apply negb_true_iff in H.
Qed.
(** the duplicate's node sorts before the other node of its level *)
Definition ex_order (rs : list reconf) : list reconf := match rs with [a; b; c] => [a; c; b] | _ => rs end.
Lemma ex_order_perm rs : ex_order rs ≡ₚ rs.
Proof. destruct rs as [|a [|b [|c [|d rs]]]]; try reflexivity. cbn [ex_order]. apply perm_skip, perm_swap. Qed.
Definition ex_check : bool :=
  match pool_generate ex_ent ex_srt ex_pool_input with
  | None => false
  | Some t =>
      match reconfs config_a t with
      | None => false
      | Some rs0 =>
          let rs := ex_order rs0 in
          match serialize config_a rs t with
          | None => false
          | Some c =>
              sorted_rs_b rs && Nat.eqb (length (t_nodes t)) 3 &&
              bool_decide (container_lookup config_a c (ex_pad 4 2) = Some (52, false, 3)) && bool_decide (container_lookup config_a c (ex_pad 1 3) = Some (51, true, 2)) &&
              bool_decide (container_lookup config_a c (ex_pad 1 4) = Some (-1, false, 2)) &&
              bool_decide (container_lookup config_a (first_levels config_a rs 1 c) (ex_pad 9 9) = Some (54, false, 2)) &&
              bool_decide (container_lookup config_a (first_levels config_a rs 1 c) (ex_pad 1 3) = Some (-2, false, 2))
          end
      end
  end.
Lemma ex_check_ok : ex_check = true.
Proof. vm_compute. reflexivity. Qed.
(** C41, C70, C71: five hashes, one of them twice, in three nodes on two levels; the first level alone answers for the
    hashes that need no other *)
Example C41_example :
  entropy_ok ex_ent /\ sort_ok ex_srt /\ hashes_ok 32 ex_pool_input /\ numbered 50 ex_pool_input /\
  exists t rs c, pool_generate ex_ent ex_srt ex_pool_input = Some t /\ writable config_a t rs /\ serialize config_a rs t = Some c /\
    (2 <= length ex_pool_input)%nat /\ Z.of_nat (length (t_nodes t)) + Z.of_nat (length ex_pool_input) < 65536 /\
    container_lookup config_a c (ex_pad 4 2) = Some (52, false, 3) /\ container_lookup config_a c (ex_pad 1 3) = Some (51, true, 2) /\ container_lookup config_a c (ex_pad 1 4) = Some (-1, false, 2) /\
    container_lookup config_a (first_levels config_a rs 1 c) (ex_pad 9 9) = Some (54, false, 2) /\ container_lookup config_a (first_levels config_a rs 1 c) (ex_pad 1 3) = Some (-2, false, 2).
Proof.
  split; [apply ex_ent_ok|]. split; [apply ex_srt_ok|]. split; [apply ex_pool_ok|]. split; [apply ex_pool_ok|].
  pose proof ex_check_ok as H. unfold ex_check in H. destruct (pool_generate ex_ent ex_srt ex_pool_input) as [t|]; [|discriminate H]. destruct (reconfs config_a t) as [rs0|] eqn:Er; [|discriminate H]. cbv zeta in H.
  pose proof (ex_order_perm rs0) as Hp. set (rs := ex_order rs0) in *. destruct (serialize config_a rs t) as [c|] eqn:Ec; [|discriminate H].
  apply andb_true_iff in H as [H H7]. apply andb_true_iff in H as [H H6]. apply andb_true_iff in H as [H H5]. apply andb_true_iff in H as [H H4]. apply andb_true_iff in H as [H H3]. apply andb_true_iff in H as [H1 H2].
  apply Nat.eqb_eq in H2. apply bool_decide_eq_true in H3, H4, H5, H6, H7. exists t, rs, c. split; [reflexivity|]. split; [split; [by apply sorted_rs_b_ok|exists rs0; split; [exact Er|exact Hp]]|].
  split; [exact Ec|]. split; [cbn [length ex_pool_input]; lia|]. split; [rewrite H2; cbn [length ex_pool_input]; lia|]. exact (conj H3 (conj H4 (conj H5 (conj H6 H7)))).
Qed.
(** C71: two hashes that differ only in bytes the answer did not need *)
Example C71_example :
  ex_pad 9 9 <> ex_pad 77 9 /\ forall j, (j < 32)%nat -> Z.testbit 2 (Z.of_nat j) = true -> ex_pad 77 9 !! j = ex_pad 9 9 !! j.
Proof. split; [discriminate|]. intros [|[|j]] _ H; [discriminate H|reflexivity|]. exfalso. change 2 with (2 ^ 1) in H. rewrite Z.pow2_bits_false in H by lia. discriminate H. Qed.

Print Assumptions C41_configuration_is_the_codes.
Print Assumptions C41_same_answers_partial.
Print Assumptions C41_distinct_hashes_found_partial.
Print Assumptions C41_writing_succeeds.
Print Assumptions C41_lone_hash_lost_refuted.
Print Assumptions C41_deep_tree_crashes_refuted.
Print Assumptions C41_full_tree_answers_wrongly_refuted.
Print Assumptions C41_empty_tree_crashes_refuted.
Print Assumptions C70_truncated_answers_right_or_unloaded.
Print Assumptions C71_answer_depends_on_reported_bytes.
