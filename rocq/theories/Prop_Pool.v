(** Property C40: the 16-bit tree answers for the hashes presented to it. *)
From Verif Require Import Base Model_Tree Spec_Tree Proof_Tree Prop_Tree Model_Pool Spec_Pool Proof_Pool.

(** C40. When no hash is repeated every presented hash is found under its own number, and it is not called a duplicate. *)
Theorem C40_distinct_hashes_found :
  forall ent srt first input t x,
    entropy_ok ent -> sort_ok srt -> hashes_ok 32 input -> numbered first input -> distinct input ->
    pool_generate ent srt input = Some t -> x ∈ input ->
    pool_lookup t (th_hash x) = Some (th_pi x, false).
Proof.
  intros ent srt first input t x He Hs H1 H2 Hd E Hx.
  assert (Hone : copies input (th_hash x) = 1%nat).
  { unfold copies. clear -Hd Hx. induction input as [|y input IH]; [by apply elem_of_nil in Hx|]. unfold distinct in Hd. cbn [fmap list_fmap] in Hd. apply NoDup_cons in Hd as [Hy Hd].
    apply elem_of_cons in Hx as [->|Hx].
    - rewrite filter_cons_True by done. cbn [length]. rewrite filter_none; [done|]. intros z Hz Ez. apply Hy. rewrite <- Ez. by apply elem_of_list_fmap_1.
    - rewrite filter_cons_False; [by apply IH|]. intros Ey. apply Hy. rewrite Ey. by apply elem_of_list_fmap_1. }
  destruct (pool_found ent He srt Hs first input t x H1 H2 E Hx) as [(pi & b & E1 & [(y & Hy & Ey & <-) _] & Hb)|(_ & H & _)]; [|lia].
  rewrite E1. assert (y = x) as -> by (by apply (distinct_two input)). destruct b; [|done]. pose proof (proj1 Hb eq_refl). lia.
Qed.

(** C40. With fewer than 34 hashes repeats are handled too: the lowest number is reported, and the duplicate mark is
    right. *)
Theorem C40_few_hashes_lowest_number :
  forall ent srt first input t x,
    entropy_ok ent -> sort_ok srt -> hashes_ok 32 input -> numbered first input -> (length input < 34)%nat ->
    pool_generate ent srt input = Some t -> x ∈ input ->
    exists pi b, pool_lookup t (th_hash x) = Some (pi, b) /\ earliest input (th_hash x) pi /\ (b = true <-> (2 <= copies input (th_hash x))%nat).
Proof.
  intros ent srt first input t x He Hs H1 H2 Hl E Hx. destruct (pool_found ent He srt Hs first input t x H1 H2 E Hx) as [H|(_ & _ & H)]; [exact H|lia].
Qed.

(** C40, any number of hashes: a hash presented once is found under its own number; for a repeated hash the answer is
    the lowest number, or else "duplicate, but number unknown" (-1), which needs 34 hashes or more.
    What is missing of the full statement is refuted below. *)
Theorem C40_lowest_number_or_unknown_partial :
  forall ent srt first input t x,
    entropy_ok ent -> sort_ok srt -> hashes_ok 32 input -> numbered first input ->
    pool_generate ent srt input = Some t -> x ∈ input ->
    (exists pi b, pool_lookup t (th_hash x) = Some (pi, b) /\ earliest input (th_hash x) pi /\ (b = true <-> (2 <= copies input (th_hash x))%nat)) \/
    pool_lookup t (th_hash x) = Some (-1, true) /\ (2 <= copies input (th_hash x))%nat /\ (34 <= length input)%nat.
Proof. intros ent srt first input t x He Hs H1 H2 E Hx. exact (pool_found ent He srt Hs first input t x H1 H2 E Hx). Qed.

(** C40. Looking up never crashes, whatever the hash; a number it reports was presented. *)
Theorem C40_lookup_never_crashes :
  forall ent srt first input t q,
    entropy_ok ent -> sort_ok srt -> hashes_ok 32 input -> numbered first input ->
    pool_generate ent srt input = Some t -> length q = 32%nat -> bytes q ->
    exists pi b, pool_lookup t q = Some (pi, b) /\ (pi = -1 \/ first <= pi < first + Z.of_nat (length input)).
Proof.
  intros ent srt first input t q He Hs H1 H2 E Hq Hb. destruct (pool_total ent He srt Hs first input t q H1 H2 E Hq Hb) as (pi & b & E1 & [->|(x & Hx & <-)]).
  - exists (-1), b. split; [done|by left].
  - exists (th_pi x), b. split; [done|right]. pose proof (numbered_fits first input H2 x Hx). lia.
Qed.

(** C40. "Not found, not a duplicate" is the truth. *)
Theorem C40_not_found_means_never_presented :
  forall ent srt first input t q,
    entropy_ok ent -> sort_ok srt -> hashes_ok 32 input -> numbered first input -> 0 <= first ->
    pool_generate ent srt input = Some t -> pool_lookup t q = Some (-1, false) -> forall x, x ∈ input -> th_hash x <> q.
Proof.
  intros ent srt first input t q He Hs H1 H2 Hf E Hq x Hx <-.
  destruct (pool_found ent He srt Hs first input t x H1 H2 E Hx) as [(pi & b & E1 & [(y & Hy & _ & Ey) _] & _)|(E1 & _)].
  - rewrite Hq in E1. injection E1 as <- <-. pose proof (numbered_fits first input H2 y Hy). lia.
  - by rewrite Hq in E1.
Qed.

(** C40. Up to 3855 hashes always fit, repeats or not. *)
Theorem C40_small_batches_fit :
  forall ent srt input,
    entropy_ok ent -> sort_ok srt -> hashes_ok 32 input -> Z.of_nat (length input) <= 3855 ->
    exists t, pool_generate ent srt input = Some t.
Proof. intros ent srt input He Hs H1 H2. apply (pool_fits ent He srt Hs); [done|lia]. Qed.

(** *** The repeated hash that is not found *)
Definition zeros32 : list Z := replicate 32 0.
Definition near (j : nat) : list Z := <[j := 1]> zeros32.
Definition trap34 : list thash := mk_th zeros32 100 :: mk_th zeros32 101 :: ((fun j => mk_th (near j) (102 + Z.of_nat j)) <$> seq 0 32).

Lemma trap34_length : length trap34 = 34%nat.
Proof. reflexivity. Qed.
Lemma near_length j : length (near j) = 32%nat.
Proof. unfold near. by rewrite insert_length. Qed.
Lemma near_same j : (j < 32)%nat -> near j !!! j = 1.
Proof. intros H. unfold near. apply list_lookup_total_insert. exact H. Qed.
Lemma near_other j k : k <> j -> near j !!! k = zeros32 !!! k.
Proof. intros H. unfold near. by apply list_lookup_total_insert_ne. Qed.
Lemma zeros32_at j : (j < 32)%nat -> zeros32 !!! j = 0.
Proof. intros H. unfold zeros32. apply list_lookup_total_correct. by apply lookup_replicate. Qed.
Lemma trap34_in j : (j < 32)%nat -> mk_th (near j) (102 + Z.of_nat j) ∈ trap34.
Proof. intros H. unfold trap34. right. right. apply (elem_of_list_fmap_1 (fun j => mk_th (near j) (102 + Z.of_nat j))). apply elem_of_seq. lia. Qed.
Lemma trap34_ok : hashes_ok 32 trap34.
Proof.
  assert (Hz : bytes zeros32) by (apply Forall_replicate; unfold is_byte; lia). intros x Hx. unfold trap34 in Hx. apply elem_of_cons in Hx as [->|Hx]; [split; [done|exact Hz]|].
  apply elem_of_cons in Hx as [->|Hx]; [split; [done|exact Hz]|]. apply elem_of_list_fmap in Hx as (j & -> & _). cbn [th_hash]. split; [apply near_length|].
  unfold near. apply Forall_insert; [exact Hz|unfold is_byte; lia].
Qed.
Lemma trap34_numbered : numbered 100 trap34.
Proof.
  intros [|[|i]] x H; unfold trap34 in H; cbn [lookup list_lookup] in H.
  - by apply (inj Some) in H as <-.
  - by apply (inj Some) in H as <-.
  - apply list_lookup_fmap_Some in H as (j & Hj & ->). apply lookup_seq in Hj as [-> _]. cbn [th_pi]. lia.
Qed.
Lemma trap34_traps : trap trap34 (flags_init 32 0) zeros32.
Proof.
  split.
  - unfold copies, trap34. rewrite !filter_cons_True by done. cbn [length]. lia.
  - intros j Hj. pose proof (lookup_lt_Some _ _ _ Hj) as Hlt. rewrite init_length in Hlt. exists (mk_th (near j) (102 + Z.of_nat j)). cbn [th_hash]. split_and!.
    + by apply trap34_in.
    + rewrite near_same, zeros32_at by done. done.
    + intros k Hk. by apply near_other.
Qed.

(** C40 is false of the code: with 34 hashes — one presented twice, and 32 others each differing from it in one byte —
    the tree is built, whichever bytes the entropies choose, but looking up the repeated hash answers -1: after
    thirty-two bytes the search gives up one node before the one that holds the number. *)
Theorem C40_repeated_hash_not_found_refuted :
  exists input first h,
    hashes_ok 32 input /\ numbered first input /\ length input = 34%nat /\ earliest input h first /\ copies input h = 2%nat /\
    forall ent srt, entropy_ok ent -> sort_ok srt ->
      exists t, pool_generate ent srt input = Some t /\ pool_lookup t h = Some (-1, true).
Proof.
  exists trap34, 100, zeros32. split; [exact trap34_ok|]. split; [exact trap34_numbered|]. split; [exact trap34_length|]. split; [|split].
  - split; [exists (mk_th zeros32 100); split; [left|done]|]. intros x Hx _. pose proof (numbered_fits 100 trap34 trap34_numbered x Hx). lia.
  - vm_compute. reflexivity.
  - intros ent srt He Hs. destruct (pool_fits ent He srt Hs trap34 trap34_ok) as [t E]; [rewrite trap34_length; lia|]. exists t. split; [exact E|].
    destruct (generated ent srt 100 trap34 t) as (G1 & G2 & G3 & G4 & G5); [done|exact trap34_numbered|exact E|]. rewrite lookup_walk by lia. rewrite G2, G3.
    exact (walk_trap ent He srt Hs 100 (Z.of_nat (length trap34)) 32 (t_nodes t) 0 0 trap34 (flags_init 32 0) zeros32 G1 G5 (alike_init _ trap34_ok) init_length init_count trap34_traps).
Qed.

(** *** Examples *)
Definition ex_pad (a b : Z) : list Z := a :: b :: replicate 30 7.
Definition ex_pool_input : list thash := [mk_th (ex_pad 1 2) 50; mk_th (ex_pad 1 3) 51; mk_th (ex_pad 4 2) 52; mk_th (ex_pad 1 3) 53; mk_th (ex_pad 9 9) 54].
Lemma ex_pad_ok a b : 0 <= a < 256 -> 0 <= b < 256 -> length (ex_pad a b) = 32%nat /\ bytes (ex_pad a b).
Proof. intros Ha Hb. split; [reflexivity|]. unfold ex_pad. apply Forall_cons. split; [exact Ha|]. apply Forall_cons. split; [exact Hb|]. apply Forall_replicate. unfold is_byte. lia. Qed.
Lemma ex_pool_ok : hashes_ok 32 ex_pool_input /\ numbered 50 ex_pool_input.
Proof.
  split.
  - intros x Hx. unfold ex_pool_input in Hx. repeat (apply elem_of_cons in Hx as [->|Hx]; [apply ex_pad_ok; lia|]). by apply elem_of_nil in Hx.
  - intros i x H. unfold ex_pool_input in H. do 5 (destruct i as [|i]; [apply (inj Some) in H as <-; reflexivity|]). destruct i; discriminate H.
Qed.
Example C40_example :
  entropy_ok ex_ent /\ sort_ok ex_srt /\ hashes_ok 32 ex_pool_input /\ numbered 50 ex_pool_input /\
  exists t, pool_generate ex_ent ex_srt ex_pool_input = Some t /\ length (t_nodes t) = 3%nat /\
    pool_lookup t (ex_pad 4 2) = Some (52, false) /\ pool_lookup t (ex_pad 1 3) = Some (51, true) /\ pool_lookup t (ex_pad 1 4) = Some (-1, false).
Proof.
  split; [apply ex_ent_ok|]. split; [apply ex_srt_ok|]. split; [apply ex_pool_ok|]. split; [apply ex_pool_ok|].
  destruct (pool_fits ex_ent ex_ent_ok ex_srt ex_srt_ok ex_pool_input (proj1 ex_pool_ok)) as [t E]; [cbn [length ex_pool_input]; lia|].
  exists t. split; [exact E|].
  assert (H : match pool_generate ex_ent ex_srt ex_pool_input with
    | Some t => Nat.eqb (length (t_nodes t)) 3 && bool_decide (pool_lookup t (ex_pad 4 2) = Some (52, false)) && bool_decide (pool_lookup t (ex_pad 1 3) = Some (51, true)) &&
        bool_decide (pool_lookup t (ex_pad 1 4) = Some (-1, false))
    | None => false end = true) by (vm_compute; reflexivity).
  rewrite E in H. apply andb_true_iff in H as [H H4]. apply andb_true_iff in H as [H H3]. apply andb_true_iff in H as [H1 H2]. apply Nat.eqb_eq in H1. apply bool_decide_eq_true in H2, H3, H4. exact (conj H1 (conj H2 (conj H3 H4))).
Qed.
Lemma ex_distinct : distinct [mk_th (ex_pad 1 2) 50; mk_th (ex_pad 1 3) 51].
Proof. apply (bool_decide_unpack _). vm_compute. exact I. Qed.

Print Assumptions C40_distinct_hashes_found.
Print Assumptions C40_few_hashes_lowest_number.
Print Assumptions C40_lowest_number_or_unknown_partial.
Print Assumptions C40_lookup_never_crashes.
Print Assumptions C40_not_found_means_never_presented.
Print Assumptions C40_small_batches_fit.
Print Assumptions C40_repeated_hash_not_found_refuted.
