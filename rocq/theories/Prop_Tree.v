(** Properties C27, C28, C66: the trees answer for the hashes they were built from. *)
From Coq Require Import Sorting.Sorted.
From stdpp Require Import sorting.
From Verif Require Import Base Model_Tree Spec_Tree Proof_Tree.

Lemma reassure_all n h R : length h = n -> reassure R (replicate n true) h = take R h.
Proof.
  revert n R. induction h as [|x h IH]; intros [|n] R H; cbn [length] in H; try lia.
  - by destruct R.
  - cbn [replicate reassure]. destruct R as [|R]; [done|]. cbn [take]. f_equal. apply IH. lia.
Qed.

Lemma generate_checks ent srt R pre hl input : (pre <= hl)%nat -> (1 <= hl <= 64)%nat -> (R <= hl)%nat -> hashes_ok hl input ->
  generate ent srt R pre hl input = match input with
      | [] => Some Empty
      | [x] => Some (Leaf (take R (th_hash x)) (th_pi x) (th_hash x))
      | _ => if gen_ok ent srt (S hl) input (flags_init hl pre) then Some (gen ent srt R (S hl) input (flags_init hl pre)) else None
      end.
Proof.
  intros H1 H2 H3 H4. unfold generate. rewrite (proj2 (Nat.leb_le pre hl)), (proj2 (Nat.leb_le 1 hl)), (proj2 (Nat.leb_le hl 64)), (proj2 (Nat.leb_le R hl)) by lia.
  cbn [andb]. rewrite (proj2 (forallb_forall _ input)); [done|]. intros x Hx. apply Nat.eqb_eq, H4. by apply elem_of_list_In.
Qed.

Lemma ready_init hl pre input : (pre <= hl)%nat -> hashes_ok hl input -> distinct input ->
  (forall x y j, x ∈ input -> y ∈ input -> (j < pre)%nat -> th_hash x !!! j = th_hash y !!! j) -> ready input (flags_init hl pre).
Proof.
  intros Hp Hok Hd Ha. split; [by rewrite flags_init_length|done|].
  intros x y j Hx Hy Hj. pose proof (lookup_lt_Some _ _ _ Hj) as Hlt. rewrite flags_init_length in Hlt by done.
  rewrite flags_init_lookup in Hj by done. injection Hj as Hj. apply Nat.leb_gt in Hj. by apply Ha.
Qed.

(** C27. Building from distinct hashes succeeds and every hash is found with the index it was presented with,
    whichever splitting byte has the greatest entropy. *)
Theorem C27_every_presented_hash_found :
  forall ent srt R hl input,
    entropy_ok ent -> sort_ok srt -> (1 <= hl <= 64)%nat -> (R <= hl)%nat -> hashes_ok hl input -> distinct input ->
    exists t, generate ent srt R 0 hl input = Some t /\
      forall h pi, mk_th h pi ∈ input -> shallow_lookup t (flags_init hl 0) h = Found pi.
Proof.
  intros ent srt R hl input He Hs Hhl HR Hok Hd. rewrite generate_checks by (done || lia).
  destruct input as [|a [|b input]].
  - exists Empty. split; [done|]. intros h pi Hin. by apply elem_of_nil in Hin.
  - eexists. split; [done|]. intros h pi Hin. apply elem_of_list_singleton in Hin as <-. cbn [shallow_lookup th_hash th_pi].
    destruct (Hok (mk_th h pi) ltac:(by left)) as [El _]. cbn [th_hash] in El.
    replace (take R h) with (reassure R (flags_init hl 0) h).
    + rewrite check_own; [done|]. rewrite flags_init_length by lia. done.
    + unfold flags_init. cbn [replicate app]. rewrite Nat.sub_0_r. by apply reassure_all.
  - set (inp := a :: b :: input) in *. assert (2 <= length inp)%nat as Hl by (unfold inp; cbn [length]; lia).
    assert (ready inp (flags_init hl 0)) as Hr by (apply ready_init; [lia|done|done|intros; lia]).
    assert (set_count (flags_init hl 0) < S hl)%nat as Hc by (rewrite set_count_init by lia; lia).
    exists (gen ent srt R (S hl) inp (flags_init hl 0)). split.
    + unfold inp in *. by rewrite gen_ok_true by done.
    + intros h pi Hin. by apply (gen_lookup ent He srt Hs R (S hl) inp (flags_init hl 0) (mk_th h pi)).
Qed.

(** C27. A hash presented twice stops the construction: it cannot silently lose an index. *)
Theorem C27_repeated_hash_refused :
  forall ent srt R pre hl input,
    entropy_ok ent -> sort_ok srt -> (pre <= hl)%nat -> hashes_ok hl input -> ~ distinct input ->
    generate ent srt R pre hl input = None.
Proof.
  intros ent srt R pre hl input He Hs Hp Hok Hd. unfold generate. destruct (_ && _); [|done].
  destruct input as [|a [|b input]].
  - exfalso. apply Hd. constructor.
  - exfalso. apply Hd. unfold distinct. cbn. apply NoDup_singleton.
  - rewrite gen_ok_false; [done|done|done| |done]. by rewrite flags_init_length.
Qed.

(** C28. A lookup never panics, and an index it returns is that of a presented hash that agrees with the query on
    every byte looked at: those on the path plus [R] more (or all there are). *)
Theorem C28_answer_agrees_on_examined_bytes :
  forall ent srt R hl input t q,
    entropy_ok ent -> sort_ok srt -> hashes_ok hl input -> distinct input -> length q = hl ->
    generate ent srt R 0 hl input = Some t ->
    match shallow_lookup t (flags_init hl 0) q with
    | Crash => False
    | NotFound => True
    | Found pi => exists h more, let P := path_bytes t q ++ more in
        mk_th h pi ∈ input /\ NoDup P /\ Forall (fun i => (i < hl)%nat) P /\ length P = (hl `min` (length (path_bytes t q) + R))%nat /\ agree P h q
    end.
Proof.
  intros ent srt R hl input t q He Hs Hok Hd Hq Hg.
  assert (1 <= hl <= 64 /\ R <= hl)%nat as [Hhl HR].
  { unfold generate in Hg. destruct (_ && _) eqn:E; [|done]. rewrite !andb_true_iff, !Nat.leb_le in E. lia. }
  rewrite generate_checks in Hg by (done || lia).
  destruct input as [|a [|b input]].
  - injection Hg as <-. done.
  - injection Hg as <-. cbn [shallow_lookup path_bytes].
    destruct (Hok a ltac:(by left)) as [El _].
    replace (take R (th_hash a)) with (reassure R (flags_init hl 0) (th_hash a)).
    2: { unfold flags_init. cbn [replicate app]. rewrite Nat.sub_0_r. by apply reassure_all. }
    pose proof (check_passed R (flags_init hl 0) (th_hash a) q) as Hc. rewrite flags_init_length in Hc by lia. specialize (Hc El Hq).
    destruct (check _ _ _) as [[|]|]; [|done|done]. destruct Hc as (P & P1 & P2 & P3).
    exists (th_hash a), P. cbn [app length]. split; [destruct a; by left|]. split; [done|].
    split; [apply Forall_forall; intros i Hi; destruct (P3 i Hi) as [Hf _]; apply lookup_lt_Some in Hf; by rewrite flags_init_length in Hf by lia|].
    split; [rewrite P2, set_count_init by lia; lia|].
    intros i Hi. by apply P3.
  - set (inp := a :: b :: input) in *. assert (2 <= length inp)%nat as Hl by (unfold inp; cbn [length]; lia).
    assert (ready inp (flags_init hl 0)) as Hr by (apply ready_init; [lia|done|done|intros; lia]).
    assert (set_count (flags_init hl 0) < S hl)%nat as Hc by (rewrite set_count_init by lia; lia).
    assert (t = gen ent srt R (S hl) inp (flags_init hl 0)) as ->.
    { unfold inp in *. rewrite gen_ok_true in Hg by done. by injection Hg. }
    pose proof (gen_sound ent He srt Hs R (S hl) inp (flags_init hl 0) q Hr Hl Hc) as H. rewrite flags_init_length in H by lia. specialize (H Hq).
    destruct (shallow_lookup _ _ q) as [|pi|]; [done| |done].
    destruct H as (x & P & Hx & Epi & P1 & P2 & (P' & EP & LP) & P3).
    exists (th_hash x), P'. cbn zeta. rewrite <- EP. split; [destruct x; cbn in *; by subst|]. split; [done|].
    split; [apply Forall_forall; intros i Hi; pose proof (P2 i Hi) as Hf; apply lookup_lt_Some in Hf; by rewrite flags_init_length in Hf by lia|].
    split; [|done].
    rewrite EP, app_length, LP, set_count_init by lia.
    assert (length (path_bytes (gen ent srt R (S hl) inp (flags_init hl 0)) q) <= hl)%nat; [|lia].
    set (pb := path_bytes _ q) in *. assert (NoDup pb) as Hn by (rewrite EP in P1; by apply NoDup_app in P1 as [? _]).
    assert (pb ⊆+ seq 0 hl) as Hsub.
    { apply NoDup_submseteq; [done|]. intros i Hi. apply elem_of_seq. pose proof (P2 i ltac:(rewrite EP; apply elem_of_app; by left)) as Hf.
      apply lookup_lt_Some in Hf. rewrite flags_init_length in Hf by lia. lia. }
    apply submseteq_length in Hsub. by rewrite seq_length in Hsub.
Qed.

(** C28. With as many reassurance bytes as the hash has bytes, the answers are exact. *)
Theorem C28_full_reassurance_is_exact :
  forall ent srt hl input t q,
    entropy_ok ent -> sort_ok srt -> hashes_ok hl input -> distinct input -> length q = hl ->
    generate ent srt hl 0 hl input = Some t ->
    (forall pi, shallow_lookup t (flags_init hl 0) q = Found pi <-> mk_th q pi ∈ input) /\
    (shallow_lookup t (flags_init hl 0) q = NotFound <-> q ∉ (th_hash <$> input)).
Proof.
  intros ent srt hl input t q He Hs Hok Hd Hq Hg.
  assert (1 <= hl <= 64)%nat as Hhl.
  { unfold generate in Hg. destruct (_ && _) eqn:E; [|done]. rewrite !andb_true_iff, !Nat.leb_le in E. lia. }
  destruct (C27_every_presented_hash_found ent srt hl hl input He Hs Hhl ltac:(lia) Hok Hd) as (t' & Hg' & Hfound).
  rewrite Hg in Hg'. injection Hg' as <-.
  pose proof (C28_answer_agrees_on_examined_bytes ent srt hl hl input t q He Hs Hok Hd Hq Hg) as Hsound.
  assert (forall pi, shallow_lookup t (flags_init hl 0) q = Found pi -> mk_th q pi ∈ input) as H1.
  { intros pi E. rewrite E in Hsound. destruct Hsound as (h & more & Hin & Hn & Hlt & Hlen & Ha). cbn zeta in *.
    assert (length (path_bytes t q ++ more) = hl) as HL by lia.
    assert (h = q) as ->; [|done]. destruct (Hok _ Hin) as [El _]. cbn in El.
    apply list_eq_same_length with hl; [done|done|]. intros i a b Hi Ea Eb.
    assert (i ∈ path_bytes t q ++ more) as Hin'; [|pose proof (Ha i Hin'); congruence].
    (* hl distinct positions below hl are all of them *)
    assert (path_bytes t q ++ more ⊆+ seq 0 hl) as Hsub.
    { apply NoDup_submseteq; [done|]. intros j Hj. apply elem_of_seq. rewrite Forall_forall in Hlt. pose proof (Hlt j Hj). cbn in *. lia. }
    apply submseteq_Permutation_length_eq in Hsub; [|rewrite seq_length; lia]. rewrite Hsub. apply elem_of_seq. lia. }
  split.
  - intros pi. split; [apply H1|apply Hfound].
  - split.
    + intros E Hin. apply elem_of_list_fmap in Hin as (x & -> & Hx). destruct x as [h pi]. cbn [th_hash] in E. rewrite (Hfound h pi Hx) in E. done.
    + intros Hni. destruct (shallow_lookup t (flags_init hl 0) q) as [|pi|] eqn:E; [done| |done].
      exfalso. apply Hni. apply elem_of_list_fmap. exists (mk_th q pi). split; [done|]. by apply H1.
Qed.

(** C66. The tree a bake builds in memory (whole hashes in the leaves, a shared prefix never branched on) answers
    exactly, and never panics, for every query. *)
Theorem C66_single_tree_exact :
  forall ent srt R pre hl input,
    entropy_ok ent -> sort_ok srt -> (pre <= hl)%nat -> (1 <= hl <= 64)%nat -> (R <= hl)%nat -> hashes_ok hl input -> distinct input ->
    (forall x y j, x ∈ input -> y ∈ input -> (j < pre)%nat -> th_hash x !!! j = th_hash y !!! j) ->
    exists t, generate ent srt R pre hl input = Some t /\
      forall q, length q = hl -> bytes q ->
        match single_lookup pre t (flags_init hl pre) q with
        | Crash => False
        | NotFound => q ∉ (th_hash <$> input)
        | Found pi => mk_th q pi ∈ input
        end.
Proof.
  intros ent srt R pre hl input He Hs Hp Hhl HR Hok Hd Ha. rewrite generate_checks by (done || lia).
  destruct input as [|a [|b input]].
  - exists Empty. split; [done|]. intros q _ _. cbn. intros H. by apply elem_of_nil in H.
  - eexists. split; [done|]. intros q Hq Hb. cbn [single_lookup]. case_decide as E.
    + subst q. destruct a. by left.
    + cbn. intros H. apply elem_of_list_singleton in H. congruence.
  - set (inp := a :: b :: input) in *. assert (2 <= length inp)%nat as Hl by (unfold inp; cbn [length]; lia).
    assert (ready inp (flags_init hl pre)) as Hr by (by apply ready_init).
    assert (set_count (flags_init hl pre) < S hl)%nat as Hc by (rewrite set_count_init by lia; lia).
    exists (gen ent srt R (S hl) inp (flags_init hl pre)). split.
    + unfold inp in *. by rewrite gen_ok_true by done.
    + intros q Hq Hb.
      pose proof (gen_single ent He srt Hs R pre (S hl) inp (flags_init hl pre) q Hr Hl Hc) as H. rewrite flags_init_length in H by lia.
      specialize (H Hq Hb). destruct (single_lookup _ _ _ q) as [|pi|].
      * intros Hin. apply elem_of_list_fmap in Hin as (x & -> & Hx). refine (H _ x Hx eq_refl).
        intros j Hj. pose proof (lookup_lt_Some _ _ _ Hj) as Hlt. rewrite flags_init_length in Hlt by done. rewrite flags_init_lookup in Hj by done.
        injection Hj as Hj. by apply Nat.leb_le in Hj.
      * apply H. intros j Hj. pose proof (lookup_lt_Some _ _ _ Hj) as Hlt. rewrite flags_init_length in Hlt by done. rewrite flags_init_lookup in Hj by done.
        injection Hj as Hj. by apply Nat.leb_le in Hj.
      * apply H. intros j Hj. pose proof (lookup_lt_Some _ _ _ Hj) as Hlt. rewrite flags_init_length in Hlt by done. rewrite flags_init_lookup in Hj by done.
        injection Hj as Hj. by apply Nat.leb_le in Hj.
Qed.

(** ** The hypotheses can be met *)

(** An entropy: the number of pairs the byte tells apart. *)
Definition ex_ent (l : list thash) (i : nat) : Z :=
  Z.of_nat (length (filter (fun p : thash * thash => th_hash (fst p) !!! i <> th_hash (snd p) !!! i) (list_prod l l))).
Lemma ex_ent_ok : entropy_ok ex_ent.
Proof.
  intros l i _. unfold ex_ent. set (f := filter _ _). split; [lia|]. split.
  - intros H. destruct f as [|[x y] f'] eqn:E; [cbn in H; lia|].
    assert ((x, y) ∈ f) as Hin by (rewrite E; by left). unfold f in Hin. apply elem_of_list_filter in Hin as [Hne Hin].
    apply elem_of_list_In, in_prod_iff in Hin as [H1 H2]. exists x, y. rewrite !elem_of_list_In. done.
  - intros (x & y & Hx & Hy & Hne). assert ((x, y) ∈ f) as Hin.
    { apply elem_of_list_filter. split; [done|]. apply elem_of_list_In, in_prod_iff. by rewrite <- !elem_of_list_In. }
    destruct f; [by apply elem_of_nil in Hin|]. cbn [length]. lia.
Qed.

Definition byte_le (i : nat) (x y : thash) : Prop := th_hash x !!! i <= th_hash y !!! i.
Global Instance byte_le_dec i x y : Decision (byte_le i x y).
Proof. unfold byte_le. apply _. Defined.
Definition ex_srt (i : nat) (l : list thash) : list thash := merge_sort (byte_le i) l.
Lemma ex_srt_ok : sort_ok ex_srt.
Proof.
  intros i l. split; [apply merge_sort_Permutation|]. unfold ex_srt.
  assert (Transitive (byte_le i)) by (intros x y z; unfold byte_le; lia). assert (Total (byte_le i)) by (intros x y; unfold byte_le; lia).
  pose proof (StronglySorted_merge_sort (byte_le i) l) as H1. revert H1. generalize (merge_sort (byte_le i) l). intros s H1.
  induction H1 as [|z s Hs IH Hf]; intros a b x y Ha Hb Hab; [done|]. destruct a as [|a], b as [|b]; cbn in Ha, Hb; try lia.
  - injection Ha as ->. injection Hb as ->. lia.
  - injection Ha as ->. rewrite Forall_forall in Hf. by apply Hf, elem_of_list_lookup_2 with b.
  - apply (IH a b); [done|done|lia].
Qed.

(** four hashes of three bytes; two share the first two bytes *)
Definition ex_tree_input : list thash := [mk_th [1; 2; 3] 10; mk_th [1; 2; 4] 11; mk_th [7; 2; 3] 12; mk_th [9; 5; 0] 13].
Lemma ex_tree_input_ok : hashes_ok 3 ex_tree_input /\ distinct ex_tree_input.
Proof.
  split.
  - intros x Hx. unfold ex_tree_input in Hx.
    repeat (apply elem_of_cons in Hx as [->|Hx]; [split; [reflexivity|unfold bytes, is_byte; cbn [th_hash]; repeat (constructor; [lia|]); constructor]|]). by apply elem_of_nil in Hx.
  - apply NoDup_ListNoDup. cbn. repeat constructor; cbn [In]; intuition discriminate.
Qed.
Example C27_example :
  entropy_ok ex_ent /\ sort_ok ex_srt /\ hashes_ok 3 ex_tree_input /\ distinct ex_tree_input /\
  exists t, generate ex_ent ex_srt 1 0 3 ex_tree_input = Some t /\
    shallow_lookup t (flags_init 3 0) [1; 2; 4] = Found 11 /\ shallow_lookup t (flags_init 3 0) [1; 2; 5] = NotFound /\
    path_bytes t [1; 2; 4] = [0; 2]%nat.
Proof.
  split; [apply ex_ent_ok|]. split; [apply ex_srt_ok|]. split; [apply ex_tree_input_ok|]. split; [apply ex_tree_input_ok|].
  eexists. split; [vm_compute; reflexivity|]. split; [vm_compute; reflexivity|]. split; vm_compute; reflexivity.
Qed.
(** An answer for a hash that was never presented (the caller has to check, shallowtree.go:120-129). *)
Example C28_example : exists t, generate ex_ent ex_srt 1 0 3 ex_tree_input = Some t /\ shallow_lookup t (flags_init 3 0) [7; 2; 200] = Found 12.
Proof. eexists. split; [vm_compute; reflexivity|]. vm_compute. reflexivity. Qed.
Example C66_example : exists t, generate ex_ent ex_srt 2 1 3 [mk_th [5; 2; 3] 10; mk_th [5; 2; 4] 11] = Some t /\
  single_lookup 1 t (flags_init 3 1) [5; 2; 4] = Found 11 /\ single_lookup 1 t (flags_init 3 1) [6; 2; 4] = NotFound.
Proof. eexists. split; [vm_compute; reflexivity|]. split; vm_compute; reflexivity. Qed.

Print Assumptions C27_every_presented_hash_found.
Print Assumptions C27_repeated_hash_refused.
Print Assumptions C28_answer_agrees_on_examined_bytes.
Print Assumptions C28_full_reassurance_is_exact.
Print Assumptions C66_single_tree_exact.
