(** C32, C67: the files serialised trees are kept in give them back. *)
From Verif Require Import Base Model_Levels Proof_Levels.

(** A chunk that can be written: a first index that is an int64, at least one level and at most 65, sizes that are uint64. *)
Definition writable (n : nat) (k : lchunk) : Prop :=
  0 <= lc_first k < 2^63 /\ (0 < length (lc_levels k) <= n)%nat /\
  forall ix nd, (ix, nd) ∈ lc_levels k -> Z.of_nat (length ix) < 2^64 /\ Z.of_nat (length nd) < 2^64.

Lemma writable_sized n ks : Forall (writable n) ks -> Forall sized ks.
Proof.
  intros H. apply (Forall_impl _ _ _ H). intros k (H1 & H2 & H3). split; [done|]. apply Forall_forall. intros [ix nd] Hin. by apply H3.
Qed.
Lemma writable_depth n ks : Forall (writable n) ks -> ks <> [] -> (0 < depth ks <= n)%nat.
Proof.
  intros H Hne. split.
  - destruct ks as [|k ks]; [done|]. apply Forall_cons in H as [(_ & H & _) _].
    pose proof (depth_in (k :: ks) k ltac:(set_solver)). lia.
  - clear Hne. induction H as [|k ks (_ & H & _) _ IH]; [unfold depth; cbn; lia|].
    change (k :: ks) with ([k] ++ ks). rewrite depth_app, depth_one. lia.
Qed.

(** ** C32: weddingcake's chunk files.

    What is read back, exactly: as many chunks as were appended, of which the first is the one appended LAST and all the
    others are empty (no levels, first index 0). *)
Theorem C32_reopened_chunks_exact : forall k ks, Forall (writable 65) (k :: ks) ->
  chunk_files_read (chunk_files_write (k :: ks)) = ROk (default k (last ks) :: replicate (length ks) (mk_lc 0 [])).
Proof.
  intros k ks H. unfold chunk_files_read, chunk_files_write.
  pose proof (writable_depth 65 (k :: ks) H ltac:(done)) as Hd.
  rewrite (reopen_ok 0 1 hex_name hex_name false (k :: ks)); [| |done| | | | |].
  - cbn [collect app Nat.add]. change (<[0%nat:=k]> [empty_chunk]) with [k]. rewrite collect_zero. done.
  - apply hex_inj.
  - by eapply writable_sized.
  - done.
  - done.
  - intros H1 l Hl E. apply hex_inj in E; lia.
  - intros j _. lia.
Qed.

(** a store of one chunk gives it back *)
Theorem C32_one_chunk_reads_back_partial : forall k, writable 65 k ->
  chunk_files_read (chunk_files_write [k]) = ROk [k].
Proof. intros k H. rewrite C32_reopened_chunks_exact by (by constructor). done. Qed.

Theorem C32_no_chunk_reads_back : chunk_files_read (chunk_files_write []) = ROk [].
Proof. vm_compute. reflexivity. Qed.

Definition chunk_a : lchunk := mk_lc 0 [([1; 2], [3; 4; 5]); ([6; 7], [])].
Definition chunk_b : lchunk := mk_lc 2 [([8; 9], [10])].
Definition chunk_c : lchunk := mk_lc 300 [([1; 1], [10; 11]); ([2; 2], [12]); ([3; 3], [13; 14; 15])].

(** two chunks: the first one is gone *)
Theorem C32_every_chunk_reads_back_refuted : exists ks, Forall (writable 65) ks /\
  chunk_files_read (chunk_files_write ks) <> ROk ks /\
  exists ks', chunk_files_read (chunk_files_write ks) = ROk ks' /\ length ks' = length ks /\ chunk_a ∈ ks /\ chunk_a ∉ ks'.
Proof.
  exists [chunk_a; chunk_b].
  assert (W : Forall (writable 65) [chunk_a; chunk_b]).
  { rewrite !Forall_cons. split_and!; [..|done]; (split; [|split]); cbn; try lia; intros ix nd Hin;
      rewrite ?elem_of_cons in Hin; destruct_or? Hin; try set_solver; simplify_eq/=; lia. }
  assert (E : chunk_files_read (chunk_files_write [chunk_a; chunk_b]) = ROk [chunk_b; mk_lc 0 []]) by (vm_compute; reflexivity).
  split_and!; [done|rewrite E; discriminate|]. exists [chunk_b; mk_lc 0 []].
  split_and!; [exact E|done|set_solver|]. rewrite !elem_of_cons. intros [H|[H|H]]; [discriminate H|discriminate H|set_solver].
Qed.

Example C32_one_chunk_nontrivial : writable 65 chunk_c /\ chunk_files_read (chunk_files_write [chunk_c]) = ROk [chunk_c].
Proof.
  assert (W : writable 65 chunk_c).
  { (split; [|split]); cbn; try lia. intros ix nd Hin. rewrite ?elem_of_cons in Hin.
    destruct_or? Hin; try set_solver; simplify_eq/=; lia. }
  split; [exact W|]. by apply C32_one_chunk_reads_back_partial.
Qed.

(** ** C67: the forests of a cake's tier *)

(** forests of at most ten levels, no more of them than the tier may hold, come back as they were written *)
Theorem C67_forests_read_back_partial : forall mx ks, ks <> [] -> (length ks <= mx)%nat -> Forall (writable 10) ks ->
  tier_files_read mx (tier_files_write ks) = ROk ks.
Proof.
  intros mx ks Hne Hmx H. unfold tier_files_read, tier_files_write.
  pose proof (writable_depth 10 ks H Hne) as Hd.
  rewrite (reopen_ok 1 mx dec_name hex_name true ks); [| |done| | | | |].
  - f_equal. apply (collect_one ks []).
  - apply dec_inj.
  - by eapply writable_sized.
  - lia.
  - intros l Hl. unfold hex_name, dec_name. rewrite !Z.div_small, !Z.mod_small by lia. done.
  - intros _ l Hl E. unfold dec_name, hex_name in E. injection E as E1 E2. rewrite Z.mod_small in E2 by lia.
    destruct (decide (depth ks < 10)%nat) as [Hx|Hx].
    + rewrite Z.mod_small in E2 by lia. lia.
    + assert (depth ks = 10%nat) as E3 by lia. rewrite E3 in E2. change (Z.of_nat 10 mod 16) with 10 in E2. lia.
  - intros j Hj. lia.
Qed.

(** a forest of eleven levels cannot be reopened: its eleventh file is written as Level10Nodes.bin and looked for as
    Level0ANodes.bin *)
Theorem C67_deep_forest_refused : forall mx k, (0 < mx)%nat -> writable 65 k -> (10 < length (lc_levels k))%nat ->
  tier_files_read mx (tier_files_write [k]) = RPanic.
Proof.
  intros mx k Hmx H Hl. unfold tier_files_read, tier_files_write, reopen. rewrite append_chunks_info.
  pose proof H as (Hf & Hlv & Hsz).
  set (fs := lf_level (append_chunks dec_name lf_empty [k])).
  assert (Em : mmap_levels hex_name true fs 0 65 = map (level_data [k]) (seq 0 10)).
  { apply mmap_levels_all; [lia| | |lia].
    - intros i Hi. cbn [Nat.add]. replace (hex_name i) with (dec_name i).
      + unfold fs. rewrite append_chunks_level; [|apply dec_inj|rewrite depth_one; lia|lia]. rewrite decide_True by (rewrite depth_one; lia). done.
      + unfold hex_name, dec_name. rewrite !Z.div_small, !Z.mod_small by lia. done.
    - intros _. apply append_chunks_other. intros i Hi E. unfold dec_name, hex_name in E. injection E as E1 E2.
      change (Z.of_nat (0 + 10) mod 16) with 10 in E2. pose proof (Z.mod_pos_bound (Z.of_nat i) 10). lia. }
  rewrite Em. cbv zeta. cbn [map concat]. rewrite app_nil_r.
  assert (El : length (info_entry k) = (9 + 16 * length (lc_levels k))%nat) by apply info_entry_length.
  destruct (info_entry k) as [|b0 bs] eqn:Ec; [cbn [length] in El; lia|]. rewrite <- Ec in *. clear Ec.
  cbn [read_chunks]. rewrite El.
  replace (mx <=? 0)%nat with false by (symmetry; apply Nat.leb_gt; lia).
  rewrite (proj2 (Nat.ltb_lt 0 (9 + 16 * length (lc_levels k)))) by lia.
  rewrite (proj2 (Nat.ltb_ge (9 + 16 * length (lc_levels k) - 0) 8)) by lia.
  rewrite (proj2 (Nat.ltb_ge (9 + 16 * length (lc_levels k) - (0 + 8)) 1)) by lia.
  rewrite (slice_mid_eq _ [] (le_enc 8 (lc_first k)) (Z.of_nat (length (lc_levels k)) mod 256 :: concat (map info_sizes (lc_levels k))))
    by (rewrite ?le_enc_length; done).
  assert (En : info_entry k !! (0 + 8)%nat = Some (Z.of_nat (length (lc_levels k)) mod 256)).
  { unfold info_entry. rewrite lookup_app_r by (rewrite le_enc_length; lia). rewrite le_enc_length. done. }
  rewrite En, Z.mod_small, Nat2Z.id by lia. rewrite map_length, seq_length.
  rewrite (proj2 (Nat.ltb_lt 10 (length (lc_levels k)))) by lia. done.
Qed.

Definition forest_c : lchunk := mk_lc 65535 ((fun i => ([i; i], [i; 1; 2])) <$> [0; 1; 2; 3; 4; 5; 6; 7; 8; 9; 10]).

Lemma forest_c_writable : writable 65 forest_c.
Proof.
  (split; [|split]); [cbn; lia|cbn; lia|]. intros ix nd Hin. apply elem_of_list_fmap in Hin as (i & [= -> ->] & _). cbn [length]. lia.
Qed.

Theorem C67_every_forest_reads_back_refuted : exists k mx, (0 < mx)%nat /\ writable 65 k /\
  tier_files_read mx (tier_files_write [k]) = RPanic.
Proof.
  exists forest_c, 5%nat. split_and!; [lia|apply forest_c_writable|].
  apply C67_deep_forest_refused; [lia|apply forest_c_writable|cbn; lia].
Qed.

(** An information file of no bytes means that there is nothing, says the reader (tierbelow.go:436-444).  A tier's reader
    never opens such a folder: it counts the level files it did not find as found, and panics, whatever there is. *)
Theorem C67_empty_information_file_refuted : forall mx fs, tier_files_read mx (mk_lf [] fs) = RPanic.
Proof.
  intros mx fs. unfold tier_files_read, reopen. cbn [lf_info lf_level].
  change 65%nat with (S 64). cbn [mmap_levels]. destruct (fs !! hex_name 0); done.
Qed.
(** The reader of chunks does open it, and refuses it exactly if there is a file for the first level. *)
Theorem C32_empty_information_file : forall fs,
  chunk_files_read (mk_lf [] fs) = match fs !! hex_name 0 with None => ROk [] | Some _ => RPanic end.
Proof.
  intros fs. unfold chunk_files_read, reopen. cbn [lf_info lf_level].
  change 65%nat with (S 64). cbn [mmap_levels]. destruct (fs !! hex_name 0); done.
Qed.

Example C67_three_forests_nontrivial : tier_files_read 5 (tier_files_write [chunk_a; chunk_b; chunk_c]) = ROk [chunk_a; chunk_b; chunk_c].
Proof. vm_compute. reflexivity. Qed.

Print Assumptions C32_reopened_chunks_exact.
Print Assumptions C32_every_chunk_reads_back_refuted.
Print Assumptions C67_forests_read_back_partial.
Print Assumptions C67_every_forest_reads_back_refuted.
Print Assumptions C67_empty_information_file_refuted.
Print Assumptions C32_empty_information_file.
