(** Properties of the stores of indexed hashes. *)
From Verif Require Import Base Model_Word Model_HashStore Spec_HashStore Proof_HashStore.

(** A family of hashes for the examples: byte 0 is [a], byte 8 is [b]. *)
Definition ex_hash (a b : Z) : list Z := a :: replicate 7 0 ++ b :: replicate 23 0.

(** ** C13: the linear store *)
Fixpoint bhs_run (s : hash_file) (hs : list (list Z)) : hash_file * list nat :=
  match hs with
  | [] => (s, [])
  | h :: hs' =>
      let '(s1, i) := bhs_append s h in let '(s2, is) := bhs_run s1 hs' in (s2, i :: is)
  end.

Lemma bhs_run_rep hs : forall l s, bhs_rep l s -> Forall is_hash hs ->
  bhs_rep (l ++ hs) (bhs_run s hs).1 /\ (bhs_run s hs).2 = seq (length l) (length hs).
Proof.
  induction hs as [|h hs IH]; intros l s Hr Hall; cbn [bhs_run length seq].
  - rewrite app_nil_r. done.
  - apply Forall_cons in Hall as [[Hh _] Hall]. destruct (bhs_append_rep l s h Hh Hr) as [Hr' Hi].
    destruct (bhs_append s h) as [s1 i]. cbn [fst snd] in *.
    destruct (IH _ _ Hr' Hall) as [H1 H2]. destruct (bhs_run s1 hs) as [s2 is]. cbn [fst snd] in *.
    rewrite <- app_assoc in H1. subst. split; [done|]. rewrite app_length. cbn [length]. do 2 f_equal. lia.
Qed.

Theorem C13_linear_store_is_an_index_of_first_occurrences old new h :
  Forall is_hash old -> Forall is_hash new ->
  let s := (bhs_run (bhs_open (concat old)) new).1 in
  (bhs_run (bhs_open (concat old)) new).2 = seq (length old) (length new) /\
  first_occurrence (old ++ new) h (bhs_index_of s h) /\
  (forall i, bhs_get s i = (old ++ new) !! i) /\
  bhs_count s = length (old ++ new) /\
  hf_data s = concat (old ++ new).
Proof.
  intros Ho Hn s.
  assert (bhs_rep old (bhs_open (concat old))) as Hr.
  { apply bhs_open_rep. eapply Forall_impl; [apply Ho|]. intros x [? _]. done. }
  destruct (bhs_run_rep new old _ Hr Hn) as [H1 H2]. fold s in H1.
  split; [done|]. split.
  { unfold bhs_index_of. apply (bhs_scan_spec _ _ h H1).
    - destruct H1 as [-> _]. cbn. done.
    - intros j Hj. lia. }
  split; [intros i; apply bhs_get_rep, H1|]. destruct H1 as [-> _]. done.
Qed.
Example C13_example :
  bhs_index_of (bhs_run (bhs_open []) [ex_hash 1 0; ex_hash 2 0; ex_hash 1 0]).1 (ex_hash 1 0) = RFound 0 /\
  bhs_index_of (bhs_run (bhs_open []) [ex_hash 1 0; ex_hash 2 0; ex_hash 1 0]).1 (ex_hash 3 0) = RAbsent.
Proof. vm_compute. done. Qed.

(** ** C14: the chained store *)
Theorem C14_chained_store_answers_like_the_list nb nbits cpc ops :
  hs_params nb nbits cpc ->
  Forall is_hash (appended ops) ->
  Z.of_nat (length (appended ops)) <= 2 ^ (8 * Z.of_nat nb - 1) - 1 ->
  let s := (hs_run nb nbits cpc (hs_create nb nbits) ops).1 in
  (hs_run nb nbits cpc (hs_create nb nbits) ops).2 = RFound <$> seq 0 (length (appended ops)) /\
  (forall h, is_hash h -> first_occurrence (appended ops) h (hs_index_of nb nbits cpc s h)) /\
  (forall i, hs_get s i = appended ops !! i) /\
  hs_count s = length (appended ops).
Proof.
  intros Hp Hall Hcap s. rewrite <- (msb_pow nb nbits cpc Hp) in Hcap.
  destruct (run_inv nb nbits cpc Hp ops [] _ (create_inv nb nbits cpc Hp) Hall) as [H1 H2].
  { cbn [length Nat.add]. lia. }
  cbn [app length] in *. fold s in H2. split; [done|].
  split.
  { intros h Hh. apply (index_of_inv nb nbits cpc Hp); [done|done|lia]. }
  destruct H2 as (L & K & ch & Hr & _). split.
  - intros i. apply bhs_get_rep, Hr.
  - unfold hs_count, bhs_count. destruct Hr as [-> _]. done.
Qed.
Lemma ex_hash_is a b : is_byte a -> is_byte b -> is_hash (ex_hash a b).
Proof.
  intros Ha Hb. split; [done|]. unfold ex_hash, bytes.
  constructor; [done|]. apply Forall_app. split; [apply Forall_replicate; done|].
  constructor; [done|]. apply Forall_replicate. done.
Qed.

Ltac ex_hashes := repeat (apply Forall_cons_2; [apply ex_hash_is; unfold is_byte; lia|]); apply Forall_nil_2.

(** Six hashes of one partial key in chunks of two, reopening in between: a chain of three chunks. *)
Definition ex_ops : list (option (list Z)) :=
  [Some (ex_hash 1 0); Some (ex_hash 1 1); Some (ex_hash 2 0); Some (ex_hash 1 2); None;
   Some (ex_hash 1 3); Some (ex_hash 1 1); Some (ex_hash 1 4)].
Example C14_example :
  hs_params 3 2 2 /\ Forall is_hash (appended ex_ops) /\
  length (hs_coll (hs_run 3 2 2 (hs_create 3 2) ex_ops).1) = 27%nat /\
  hs_index_of 3 2 2 (hs_run 3 2 2 (hs_create 3 2) ex_ops).1 (ex_hash 1 4) = RFound 6 /\
  hs_index_of 3 2 2 (hs_run 3 2 2 (hs_create 3 2) ex_ops).1 (ex_hash 1 1) = RFound 1 /\
  hs_index_of 3 2 2 (hs_run 3 2 2 (hs_create 3 2) ex_ops).1 (ex_hash 1 9) = RAbsent.
Proof.
  split; [unfold hs_params; lia|]. split.
  { ex_hashes. }
  vm_compute. done.
Qed.

(** ** C15: parameters and capacity *)
(** Full statement: for every parameters the creator accepts, every hash whose append was reported a
    success is found by a later lookup.  False, in four ways. *)
Definition every_success_is_found : Prop :=
  forall nb nbits cpc hs i h, hs_accepts nb = true -> Forall is_hash hs ->
    hs !! i = Some h ->
    (hs_run nb nbits cpc (hs_create nb nbits) (Some <$> hs)).2 !! i = Some (RFound i) ->
    exists j, hs !! j = Some h /\
    hs_index_of nb nbits cpc (hs_run nb nbits cpc (hs_create nb nbits) (Some <$> hs)).1 h = RFound j.

Definition lost (nb nbits cpc : nat) (hs : list (list Z)) (i : nat) (r : fres) : Prop :=
  hs_accepts nb = true /\ Forall is_hash hs /\
  exists h, hs !! i = Some h /\
  (hs_run nb nbits cpc (hs_create nb nbits) (Some <$> hs)).2 !! i = Some (RFound i) /\
  hs_index_of nb nbits cpc (hs_run nb nbits cpc (hs_create nb nbits) (Some <$> hs)).1 h = r.

Definition ex_many : list (list Z) := map (fun i => ex_hash (Z.of_nat i) 0) (seq 0 128).
Lemma ex_many_hashes : Forall is_hash ex_many.
Proof.
  apply Forall_fmap, Forall_forall. intros i Hi. apply elem_of_seq in Hi.
  apply ex_hash_is; unfold is_byte; lia.
Qed.

(** (a) the last index the store accepts: its entry has the "this is a chain" bit set, so the hash
    is reported absent, although its append was reported a success *)
Theorem C15_last_accepted_index_is_found_refuted : lost 1 8 2 ex_many 127 RAbsent.
Proof.
  split; [done|]. split; [apply ex_many_hashes|]. eexists. split; [reflexivity|].
  vm_compute. done.
Qed.

Theorem C15_every_success_is_found_refuted : ~ every_success_is_found.
Proof.
  intros H. destruct C15_last_accepted_index_is_found_refuted as (Ha & Hh & h & Hi & Hr & E).
  destruct (H 1%nat 8%nat 2%nat ex_many 127%nat h Ha Hh Hi Hr) as (j & _ & E'). congruence.
Qed.

(** (b) one collision per chunk: the colliding entry lands in the link slot *)
Theorem C15_one_collision_per_chunk_refuted : lost 4 2 1 [ex_hash 1 0; ex_hash 1 1] 1 RErr.
Proof.
  split; [done|]. split; [ex_hashes|].
  eexists. split; [reflexivity|]. vm_compute. done.
Qed.

(** (c) eight-byte entries: no append is ever accepted, yet every hash is stored *)
Theorem C15_eight_byte_entries_refuted nbits cpc hs : Forall is_hash hs ->
  let '(s, rs) := hs_run 8 nbits cpc (hs_create 8 nbits) (Some <$> hs) in
  Forall (fun r => r = RErr) rs /\ hs_count s = length hs.
Proof.
  assert (forall s l, bhs_rep l (hs_hashes s) -> Forall is_hash hs ->
    let '(s', rs) := hs_run 8 nbits cpc s (Some <$> hs) in
    Forall (fun r => r = RErr) rs /\ hs_count s' = length (l ++ hs)) as H.
  { induction hs as [|h hs IH]; intros s l Hr Hall.
    - cbn. split; [constructor|]. destruct Hr as [E _]. unfold hs_count, bhs_count. rewrite E, app_nil_r. done.
    - apply Forall_cons in Hall as [[Hh _] Hall]. cbn [fmap list_fmap hs_run].
      destruct (bhs_append_rep l _ h Hh Hr) as [Hr' Hi].
      assert (hs_append 8 nbits cpc s h =
        (mk_hs (bhs_append (hs_hashes s) h).1 (hs_lkp s) (hs_coll s), RErr)) as ->.
      { unfold hs_append. destruct (bhs_append (hs_hashes s) h) as [hf v]. cbn [fst].
        destruct (decide (8 = 0)%nat); [done|].
        assert (hs_msb 8 = - 2^63) as -> by (vm_compute; done).
        destruct (Z.leb_spec (- 2^63) (Z.of_nat v)); [done|lia]. }
      specialize (IH (mk_hs (bhs_append (hs_hashes s) h).1 (hs_lkp s) (hs_coll s)) (l ++ [h]) Hr' Hall).
      change (list_fmap _ _ Some hs) with (Some <$> hs).
      destruct (hs_run 8 nbits cpc _ (Some <$> hs)) as [s' rs]. destruct IH as [H1 H2]. split.
      + constructor; done.
      + rewrite H2, <- app_assoc. done. }
  intros Hall. specialize (H (hs_create 8 nbits) [] (bhs_open_rep [] ltac:(constructor)) Hall). exact H.
Qed.

(** (d) chunks of more than 32 bytes: extending a chain by a second chunk panics *)
Theorem C15_large_chunks_panic_refuted :
  hs_accepts 4 = true /\
  (hs_run 4 2 8 (hs_create 4 2) (Some <$> map (ex_hash 1) (Z.of_nat <$> seq 0 9))).2 !! 8%nat = Some RPanic.
Proof. vm_compute. done. Qed.

(** What the creator checks is the size of an entry and nothing else: all sizes up to 32 bytes, of
    which the store can use those below 8, and no others.  None it could use is refused. *)
Theorem C15_accepted_parameters : forall nb nbits cpc,
  (hs_accepts nb = true <-> (nb <= 32)%nat) /\ (hs_params nb nbits cpc -> hs_accepts nb = true).
Proof.
  intros nb nbits cpc. unfold hs_accepts, zerobuf. rewrite bool_decide_eq_true. split; [done|].
  unfold hs_params. lia.
Qed.

(** What does hold: inside the parameter range above and strictly below the last accepted index every
    hash is found.  Missing for the full statement: exactly the four cases above. *)
Theorem C15_found_below_the_last_index_partial nb nbits cpc hs i h :
  hs_params nb nbits cpc -> Forall is_hash hs ->
  Z.of_nat (length hs) <= 2 ^ (8 * Z.of_nat nb - 1) - 1 ->
  hs !! i = Some h ->
  exists j, (j <= i)%nat /\ hs !! j = Some h /\
  hs_index_of nb nbits cpc (hs_run nb nbits cpc (hs_create nb nbits) (Some <$> hs)).1 h = RFound j.
Proof.
  intros Hp Hall Hcap Hi.
  assert (appended (Some <$> hs) = hs) as Ea.
  { clear. induction hs as [|h hs IH]; [done|]. cbn. f_equal. exact IH. }
  destruct (C14_chained_store_answers_like_the_list nb nbits cpc (Some <$> hs) Hp) as (_ & H & _);
    rewrite ?Ea; try done.
  assert (is_hash h) as Hh by exact (Forall_lookup_1 _ _ _ _ Hall Hi).
  specialize (H h Hh). rewrite Ea in H.
  destruct (hs_index_of _ _ _ _ h) as [j| | | |]; try done.
  - destruct H as [H1 H2]. exists j. split; [|done].
    destruct (decide (j <= i)%nat) as [|Hgt]; [done|]. exfalso. apply (H2 i); [lia|done].
  - exfalso. apply H. apply elem_of_list_lookup_2 in Hi. done.
Qed.
Example C15_example : hs_params 2 8 2 /\ Forall is_hash ex_many /\ Z.of_nat (length ex_many) <= 2 ^ (8 * 2 - 1) - 1.
Proof. split; [unfold hs_params; lia|]. split; [apply ex_many_hashes|]. vm_compute. discriminate. Qed.

(** ** C16: the in-memory index *)
(** On a store that was empty when opened. *)
Theorem C16_lookup_returns_an_index_of_the_hash hs h :
  Forall is_hash hs ->
  let s := (mi_run (mi_open []) hs).1 in
  (mi_run (mi_open []) hs).2 = seq 0 (length hs) /\
  last_occurrence hs h (mi_index_of s h) /\
  (forall i, mi_get s i = hs !! i) /\
  mi_get_count s = length hs.
Proof.
  intros Hall s.
  destruct (mi_run_inv hs [] (mi_open [])) as (H1 & H2 & H3 & H4).
  - apply (bhs_open_rep []). constructor.
  - done.
  - eapply Forall_impl; [apply Hall|]. intros x [? _]. done.
  - intros g. cbn. apply not_elem_of_nil.
  - cbn [app length] in *. fold s in H2, H3, H4. split_and!; try done.
    intros i. apply bhs_get_rep, H2.
Qed.
Example C16_example :
  mi_index_of (mi_run (mi_open []) [ex_hash 1 0; ex_hash 2 0; ex_hash 1 0]).1 (ex_hash 1 0) = RFound 2.
Proof. vm_compute. done. Qed.

(** ** C56: the in-memory index opened on existing hashes.
    On a store that already held hashes the lookup of a hash just appended returns the index of
    another hash, and hashes of earlier sessions are reported absent. *)
Theorem C56_lookup_in_a_reopened_store_refuted :
  exists old h, Forall is_hash old /\ is_hash h /\
  let '(s, i) := mi_append (mi_open (concat old)) h in
  i = 1%nat /\ mi_get s 1 = Some h /\ mi_index_of s h = RFound 0 /\ mi_get s 0 <> Some h /\
  (forall g, g ∈ old -> mi_index_of s g = RAbsent) /\ mi_get_count s <> length (old ++ [h]).
Proof.
  exists [ex_hash 1 0], (ex_hash 2 0).
  split; [ex_hashes|].
  split; [apply ex_hash_is; unfold is_byte; lia|].
  vm_compute. split_and!; try done. intros g Hg.
  apply elem_of_list_singleton in Hg as ->. done.
Qed.

Print Assumptions C13_linear_store_is_an_index_of_first_occurrences.
Print Assumptions C14_chained_store_answers_like_the_list.
Print Assumptions C15_last_accepted_index_is_found_refuted.
Print Assumptions C15_every_success_is_found_refuted.
Print Assumptions C15_one_collision_per_chunk_refuted.
Print Assumptions C15_eight_byte_entries_refuted.
Print Assumptions C15_large_chunks_panic_refuted.
Print Assumptions C15_found_below_the_last_index_partial.
Print Assumptions C16_lookup_returns_an_index_of_the_hash.
Print Assumptions C56_lookup_in_a_reopened_store_refuted.
Print Assumptions C15_accepted_parameters.
