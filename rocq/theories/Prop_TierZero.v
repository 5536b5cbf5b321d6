(** C81, C82: tier zero of the first cake. *)
From Verif Require Import Base Model_Word Spec_Word Proof_Word Model_HashStore Spec_HashStore Proof_HashStore Model_TierZero.

(** ** What the store should answer, in terms of the hashes appended so far *)
(** [r] (an index or -1) tells where [h] last occurs in [l]. *)
Definition last_at (l : list (list Z)) (h : list Z) (r : Z) : Prop :=
  r = -1 /\ h ∉ l \/
  exists i, r = Z.of_nat i /\ l !! i = Some h /\ forall j, (i < j)%nat -> l !! j <> Some h.
(** ... and where it first occurs *)
Definition first_at (l : list (list Z)) (h : list Z) (r : Z) : Prop :=
  r = -1 /\ h ∉ l \/
  exists i, r = Z.of_nat i /\ l !! i = Some h /\ forall j, (j < i)%nat -> l !! j <> Some h.
(** The hashes appended by a history, and the indices they should get *)
Fixpoint tz_appended (ops : list tzop) : list (list Z) :=
  match ops with [] => [] | TzAppend h :: ops' => h :: tz_appended ops' | TzReopen :: ops' => tz_appended ops' end.
Definition answers_like (t : tier_zero) (l : list (list Z)) : Prop :=
  tz_count t = Z.of_nat (length l) /\
  (forall i, 0 <= i -> tz_get t i = match l !! Z.to_nat i with Some h => TzOk h | None => TzErr end) /\
  (forall h, last_at l h (tz_index_of t h)).

(** ** Proofs *)
Definition tz_rep (l : list (list Z)) (t : tier_zero) : Prop :=
  tz_slice t = l /\ bhs_rep l (tz_file t) /\
  (forall h i, tz_map t !! h = Some i -> exists n, i = Z.of_nat n /\ l !! n = Some h /\ forall j, (n < j)%nat -> l !! j <> Some h) /\
  (forall h, tz_map t !! h = None -> h ∉ l).

Lemma map_snoc (m : gmap (list Z) Z) l h :
  (forall h i, m !! h = Some i -> exists n, i = Z.of_nat n /\ l !! n = Some h /\ forall j, (n < j)%nat -> l !! j <> Some h) ->
  (forall h, m !! h = None -> h ∉ l) ->
  let m' := <[h := Z.of_nat (length l)]> m in
  (forall g i, m' !! g = Some i -> exists n, i = Z.of_nat n /\ (l ++ [h]) !! n = Some g /\
     forall j, (n < j)%nat -> (l ++ [h]) !! j <> Some g) /\
  (forall g, m' !! g = None -> g ∉ l ++ [h]).
Proof.
  intros H1 H2 m'. split.
  - intros g i. destruct (decide (g = h)) as [->|Hne].
    + unfold m'. rewrite lookup_insert. intros [= <-]. exists (length l). split; [done|]. split.
      * rewrite lookup_app_r by lia. rewrite Nat.sub_diag. done.
      * intros j Hj. rewrite lookup_ge_None_2; [done|]. rewrite app_length. cbn [length]. lia.
    + unfold m'. rewrite lookup_insert_ne by done. intros E. destruct (H1 g i E) as (n & -> & En & Hn).
      exists n. split; [done|]. split; [apply lookup_app_l_Some; done|].
      intros j Hj Ej. apply lookup_app_Some in Ej as [Ej|[Hl Ej]]; [apply (Hn j); done|].
      destruct (j - length l)%nat as [|k]; [injection Ej as <-; done|done].
  - intros g. destruct (decide (g = h)) as [->|Hne]; unfold m'; [rewrite lookup_insert; done|].
    rewrite lookup_insert_ne by done. intros E Hin. apply elem_of_app in Hin as [Hin|Hin].
    + by apply (H2 g).
    + apply elem_of_list_singleton in Hin. done.
Qed.

Lemma tz_load_rep l f : bhs_rep l f -> forall n i m s, (i + n = length l)%nat -> s = take i l ->
  (forall h k, m !! h = Some k -> exists n, k = Z.of_nat n /\ s !! n = Some h /\ forall j, (n < j)%nat -> s !! j <> Some h) ->
  (forall h, m !! h = None -> h ∉ s) ->
  exists m', tz_load f i n m s = Some (m', l) /\ tz_rep l (mk_tz m' l f).
Proof.
  intros Hr n. induction n as [|n IH]; intros i m s Hi Hs H1 H2; cbn [tz_load].
  - assert (s = l) as -> by (rewrite Hs; apply take_ge; lia). exists m. split; [done|]. split; [done|]. done.
  - destruct (lookup_lt_is_Some_2 l i) as [h E]; [lia|].
    pose proof (bhs_get_rep l f i Hr) as Hg. unfold bhs_get in Hg. rewrite Hg, E. cbn [mbind option_bind].
    assert (L : length s = i) by (rewrite Hs, take_length; lia).
    destruct (map_snoc m s h H1 H2) as [G1 G2]. rewrite L in G1, G2.
    apply IH; [lia| |exact G1|exact G2]. rewrite Hs. symmetry. by apply take_S_r.
Qed.

Lemma tz_open_rep l : Forall (fun h => length h = 32%nat) l -> exists t, tz_open (concat l) = Some t /\ tz_rep l t.
Proof.
  intros Hl. unfold tz_open. pose proof (bhs_open_rep l Hl) as Hr. unfold bhs_open in Hr.
  assert (length (concat l) / 32 = length l)%nat as E.
  { rewrite (chunks_concat_length 32) by done. by rewrite Nat.div_mul by lia. }
  rewrite E in *.
  destruct (tz_load_rep l _ Hr (length l) 0 ∅ []) as (m & -> & R).
  - lia.
  - done.
  - intros h k Hk. by rewrite lookup_empty in Hk.
  - intros h _ Hin. by apply elem_of_nil in Hin.
  - exists (mk_tz m l (hf_new (concat l) (length l))). split; [done|exact R].
Qed.

Lemma tz_append_rep l t h : length h = 32%nat -> tz_rep l t ->
  exists t', tz_append t h = (t', TzOk (Z.of_nat (length l))) /\ tz_rep (l ++ [h]) t'.
Proof.
  intros Hh (E1 & [E2 Hl] & E3 & E4). unfold tz_append. rewrite E2. cbn [hf_count hf_data].
  rewrite decide_True by (rewrite (chunks_concat_length 32) by done; lia).
  eexists. split; [reflexivity|]. destruct (map_snoc (tz_map t) l h E3 E4) as [G1 G2].
  unfold tz_count. rewrite E1. split; [done|]. split; [split|].
  - cbn [tz_file]. f_equal; [rewrite concat_app; cbn [concat]; by rewrite app_nil_r|rewrite app_length; cbn [length]; lia].
  - apply Forall_app. split; [done|]. by constructor.
  - cbn [tz_map]. done.
Qed.

Lemma tz_rep_answers l t : tz_rep l t -> answers_like t l.
Proof.
  intros (E1 & _ & E3 & E4). split; [unfold tz_count; by rewrite E1|]. split.
  - intros i Hi. unfold tz_get. rewrite E1. destruct (Z.ltb_spec i (Z.of_nat (length l))).
    + destruct (Z.ltb_spec i 0); [lia|]. destruct (lookup_lt_is_Some_2 l (Z.to_nat i)) as [h ->]; [lia|]. done.
    + rewrite lookup_ge_None_2 by lia. done.
  - intros h. unfold tz_index_of. destruct (tz_map t !! h) as [i|] eqn:E; cbn [default from_option]; unfold id.
    + right. by apply E3.
    + left. split; [done|]. by apply E4.
Qed.

Lemma tz_run_rep ops : forall l t, Forall (fun h => length h = 32%nat) (tz_appended ops) -> tz_rep l t ->
  exists t', tz_run t ops = Some (t', map (fun i => TzOk (Z.of_nat i)) (seq (length l) (length (tz_appended ops)))) /\
    tz_rep (l ++ tz_appended ops) t'.
Proof.
  induction ops as [|[h|] ops IH]; intros l t Hl Hr; cbn [tz_run tz_appended] in *.
  - exists t. rewrite app_nil_r. done.
  - apply Forall_cons in Hl as [Hh Hl]. destruct (tz_append_rep l t h Hh Hr) as (t1 & -> & R1).
    destruct (IH _ t1 Hl R1) as (t2 & -> & R2). cbn [mbind option_bind]. exists t2.
    rewrite <- app_assoc in R2. cbn [app] in R2. split; [|done].
    cbn [length seq map]. rewrite app_length. cbn [length]. by rewrite Nat.add_1_r.
  - assert (O : exists t1, tz_reopen t = Some t1 /\ tz_rep l t1).
    { destruct Hr as (_ & [E Hf] & _). unfold tz_reopen. rewrite E. apply tz_open_rep. done. }
    destruct O as (t1 & -> & R1). cbn [mbind option_bind]. by apply IH.
Qed.

(** ** C81 *)
(** From a whole file of hashes, any history of appends and reopenings succeeds; the appends give consecutive
    indices; afterwards the store answers like the list of hashes, a lookup giving the last index of a hash. *)
Theorem C81_answers_like_a_list_partial l ops :
  Forall (fun h => length h = 32%nat) l -> Forall (fun h => length h = 32%nat) (tz_appended ops) ->
  exists t0 t, tz_open (concat l) = Some t0 /\
    tz_run t0 ops = Some (t, map (fun i => TzOk (Z.of_nat i)) (seq (length l) (length (tz_appended ops)))) /\
    answers_like t (l ++ tz_appended ops).
Proof.
  intros Hl Ho. destruct (tz_open_rep l Hl) as (t0 & E0 & R0).
  destruct (tz_run_rep ops l t0 Ho R0) as (t & E & R). exists t0, t. split; [done|]. split; [done|]. by apply tz_rep_answers.
Qed.
(** So distinct hashes are found at the index they were given. *)
Theorem C81_distinct_hashes_partial l ops h i : NoDup (l ++ tz_appended ops) -> (l ++ tz_appended ops) !! i = Some h ->
  Forall (fun h => length h = 32%nat) l -> Forall (fun h => length h = 32%nat) (tz_appended ops) ->
  exists t0 t rs, tz_open (concat l) = Some t0 /\ tz_run t0 ops = Some (t, rs) /\ tz_index_of t h = Z.of_nat i.
Proof.
  intros Hn Hi Hl Ho. destruct (C81_answers_like_a_list_partial l ops Hl Ho) as (t0 & t & E0 & E & _ & _ & A).
  eexists t0, t, _. split; [done|]. split; [exact E|]. destruct (A h) as [[_ N]|(k & -> & Ek & _)].
  - destruct N. by apply elem_of_list_lookup_2 with i.
  - f_equal. exact (NoDup_lookup _ k i h Hn Ek Hi).
Qed.
(** A hash presented twice is not found at its first index. *)
Theorem C81_first_index_refuted : exists h t rs t0, length h = 32%nat /\ tz_open [] = Some t0 /\
  tz_run t0 [TzAppend h; TzAppend h] = Some (t, rs) /\ ~ first_at [h; h] h (tz_index_of t h).
Proof.
  pose (h := replicate 32 7). destruct (C81_answers_like_a_list_partial [] [TzAppend h; TzAppend h]) as (t0 & t & E0 & E & _ & _ & A).
  - constructor.
  - repeat constructor.
  - eexists h, t, _, t0. split; [done|]. split; [exact E0|]. split; [exact E|]. intros F.
    destruct (A h) as [[_ N]|(k & Ek & Lk & Hk)]; [destruct N; by left|].
    destruct F as [[_ N]|(j & Ej & Lj & Hj)]; [destruct N; by left|].
    rewrite Ek in Ej. apply Nat2Z.inj in Ej as <-.
    destruct k as [|k]; [apply (Hk 1%nat); [lia|done]|]. apply (Hj 0%nat); [lia|done].
Qed.
(** A negative index panics instead of being refused, whatever is stored. *)
Theorem C81_negative_index_panics t i : i < 0 -> tz_get t i = TzPanic.
Proof. intros H. unfold tz_get. destruct (Z.ltb_spec i (Z.of_nat (length (tz_slice t)))); [|lia]. by destruct (Z.ltb_spec i 0); [|lia]. Qed.

(** ** C82: an append that reports an error *)
(** ... never happens to a store opened on a whole number of hashes (C81), but happens to every other one, for good: *)
Theorem C82_torn_file_never_appends data t hs : tz_open data = Some t -> (length data mod 32 <> 0)%nat ->
  exists t', tz_run t (map TzAppend hs) = Some (t', map (fun _ => TzErr) hs) /\ hf_data (tz_file t') = data.
Proof.
  intros E Hm.
  assert (F : tz_file t = mk_hf data (length data / 32)).
  { unfold tz_open in E. destruct (tz_load _ _ _ _ _) as [[m s]|]; [|done]. cbn [mbind option_bind] in E.
    apply (inj Some) in E. subst t. done. }
  clear E. revert t F. induction hs as [|h hs IH]; intros t F; cbn [map tz_run]; [exists t; by rewrite F|].
  unfold tz_append. rewrite F. cbn [hf_count hf_data].
  rewrite decide_False.
  2:{ intros X. apply Hm. rewrite <- X. rewrite Nat.mod_mul; lia. }
  destruct (IH (mk_tz (<[h:=tz_count t]> (tz_map t)) (tz_slice t ++ [h]) (mk_hf data (length data / 32)))) as (t' & -> & D); [done|].
  cbn [mbind option_bind]. exists t'. done.
Qed.
(** ... and although it reports an error, the hash is counted and found until the store is closed, then it is gone. *)
Theorem C82_failed_append_changes_answers_refuted : exists data t h, tz_open data = Some t /\ length h = 32%nat /\
  exists t', tz_append t h = (t', TzErr) /\ tz_count t' <> tz_count t /\ tz_index_of t' h <> tz_index_of t h /\
  exists t2, tz_reopen t' = Some t2 /\ tz_count t2 = tz_count t /\ tz_index_of t2 h = tz_index_of t h.
Proof.
  exists [5], (mk_tz ∅ [] (mk_hf [5] 0)), (replicate 32 7). split; [reflexivity|]. split; [reflexivity|].
  eexists. split; [reflexivity|]. split; [done|]. split; [vm_compute; done|].
  eexists. split; [reflexivity|]. split; reflexivity.
Qed.

Example C81_example :
  let h1 := replicate 32 1 in let h2 := replicate 32 2 in
  (fun r : tier_zero * list (tzres Z) => (tz_index_of r.1 h1, tz_index_of r.1 h2, tz_count r.1, tz_get r.1 3, r.2)) <$>
    (t ← tz_open h1; tz_run t [TzAppend h2; TzReopen; TzAppend h1])
  = Some (2, 1, 3, TzErr, [TzOk 1; TzOk 2]).
Proof. vm_compute. reflexivity. Qed.
Example C82_example : exists t, tz_open [5; 6] = Some t /\ (length [5; 6] mod 32 <> 0)%nat.
Proof. eexists. split; [reflexivity|]. cbn. lia. Qed.

Print Assumptions C81_answers_like_a_list_partial.
Print Assumptions C81_distinct_hashes_partial.
Print Assumptions C81_first_index_refuted.
Print Assumptions C81_negative_index_panics.
Print Assumptions C82_torn_file_never_appends.
Print Assumptions C82_failed_append_changes_answers_refuted.
