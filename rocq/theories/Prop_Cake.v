(** C34, C35, C36, C68, C69: what a cake remembers. *)
From Verif Require Import Base Model_Tree Spec_Tree Prop_Tree Model_Chunk Model_Top Proof_Top Model_Cake Spec_Cake Proof_Cake.

(** ** C34: the hash at an index *)

(** C34. A hash is never the wrong one: whatever was baked into which tier, and however often the cake was reopened,
    if an index is answered with a hash then that hash was appended there. *)
Theorem C34_answers_are_right_partial :
  forall F cap quota bakeF ops (k : cake (F:=F)) i h,
    (1 <= cap)%nat -> careful [] ops -> run cap quota bakeF (create quota) ops = Ok k -> get_at k i = Ok h ->
    0 <= i /\ appended ∅ ops !! Z.to_nat i = Some h.
Proof.
  intros F cap quota bakeF ops k i h Hc C E Eg.
  pose proof (inv_run cap quota bakeF ops [] _ k (inv_create cap quota Hc) E) as I. cbn [app] in I. change (k_vars (create quota)) with (∅ : gmap nat (list Z)) in I.
  destruct (top_run cap quota bakeF ops [] _ k (top_create quota) C E) as (used & T & _).
  unfold get_at in Eg. rewrite (get_top_spec cap quota _ k i I) in Eg. destruct (Z.leb_spec (k_first k) i) as [H1|H1].
  - destruct (Z.ltb_spec i (Z.of_nat (length (appended ∅ ops)))) as [H2|H2].
    + cbn [andb] in Eg. destruct (Z.eqb_spec (k_first k) 0) as [H3|H3]; [|done]. rewrite T in Eg. destruct (k_file k !! Z.to_nat i) as [h'|] eqn:Ef; [|done]. injection Eg as ->.
      split; [lia|]. rewrite (i_all _ _ _ _ I). pose proof (i_first _ _ _ _ I) as Hf. assert (older 0 (k_disk k) = []) as ->; [apply nil_length_inv; lia|done].
    + cbn [andb] in Eg. eapply get_chain_true; [apply (i_chain _ _ _ _ I)|exact Eg].
  - cbn [andb] in Eg. eapply get_chain_true; [apply (i_chain _ _ _ _ I)|exact Eg].
Qed.

(** C34. Before the first bake every index is answered. *)
Theorem C34_before_first_bake_partial :
  forall F cap quota bakeF ops (k : cake (F:=F)) i h,
    careful [] ops -> run cap quota bakeF (create quota) ops = Ok k -> (length (appended ∅ ops) < cap)%nat ->
    appended ∅ ops !! i = Some h -> get_at k (Z.of_nat i) = Ok h.
Proof.
  intros F cap quota bakeF ops k i h C E Hlen Hi.
  pose proof (inv_run cap quota bakeF ops [] _ k (inv_create cap quota ltac:(lia)) E) as I. cbn [app] in I. change (k_vars (create quota)) with (∅ : gmap nat (list Z)) in I.
  destruct (top_run cap quota bakeF ops [] _ k (top_create quota) C E) as (used & T & _).
  pose proof (aligned_run cap quota bakeF ops [] _ k (inv_create cap quota ltac:(lia)) (aligned_create cap quota) E) as A.
  pose proof (first_is cap quota _ k I A) as Hf. rewrite Nat.div_small in Hf by done. cbn in Hf.
  unfold get_at. rewrite (get_top_spec cap quota _ k _ I), Hf. pose proof (lookup_lt_Some _ _ _ Hi) as Hlt.
  rewrite (proj2 (Z.leb_le _ _)) by lia. rewrite (proj2 (Z.ltb_lt _ _)) by lia. cbn [andb Z.eqb]. rewrite T, Nat2Z.id.
  pose proof (i_all _ _ _ _ I) as Ea. pose proof (i_first _ _ _ _ I) as Hf'. assert (older 0 (k_disk k) = []) as Eo; [apply nil_length_inv; lia|].
  rewrite Eo in Ea. cbn [app] in Ea. rewrite <- Ea, Hi. done.
Qed.

(** C34. Every baked index is answered right after reopening, for any number of bakes and whatever the caller did. *)
Theorem C34_baked_after_reopening_partial :
  forall F cap quota bakeF ops (k : cake (F:=F)) i h,
    (1 <= cap)%nat -> run cap quota bakeF (create quota) (ops ++ [Reopen]) = Ok k ->
    appended ∅ ops !! i = Some h -> (i < length (appended ∅ ops) / cap * cap)%nat -> get_at k (Z.of_nat i) = Ok h.
Proof.
  intros F cap quota bakeF ops k' i h Hc E Hi Hlt. rewrite run_app in E. destruct (run cap quota bakeF (create quota) ops) as [k| |] eqn:E'; [|done|done].
  cbn [run step] in E. injection E as <-.
  pose proof (inv_run cap quota bakeF ops [] _ k (inv_create cap quota Hc) E') as I. cbn [app] in I. change (k_vars (create quota)) with (∅ : gmap nat (list Z)) in I.
  pose proof (aligned_run cap quota bakeF ops [] _ k (inv_create cap quota Hc) (aligned_create cap quota) E') as A.
  pose proof (first_is cap quota _ k I A) as Hf. pose proof (i_first _ _ _ _ I) as Hf'.
  unfold get_at. rewrite (get_top_spec cap quota _ _ _ (inv_reopen cap quota _ k I)). cbn [reopen k_first]. rewrite Hf.
  destruct (Z.leb_spec (Z.of_nat (length (appended ∅ ops) / cap * cap)) (Z.of_nat i)) as [H|H]; [lia|]. cbn [andb k_chain].
  destruct (get_open_disk (k_disk k) (i_tiers _ _ _ _ I) (length (k_disk k)) 0 (Z.of_nat i)) as (h' & G1 & G2); [lia|lia|].
  rewrite drop_0 in G1. etrans; [exact G1|]. f_equal. rewrite Nat2Z.id in G2. rewrite (i_all _ _ _ _ I) in Hi.
  rewrite lookup_app_l in Hi by (apply lookup_lt_Some in G2; done). congruence.
Qed.

(** C34. ... and at any time while the first tier has room. *)
Theorem C34_first_tier_partial :
  forall F cap quota bakeF q0 ops (k : cake (F:=F)) i h,
    quota !! 0%nat = Some q0 -> careful [] ops -> run cap quota bakeF (create quota) ops = Ok k -> (length (appended ∅ ops) < q0 * cap)%nat ->
    appended ∅ ops !! i = Some h -> (i < length (appended ∅ ops) / cap * cap)%nat -> get_at k (Z.of_nat i) = Ok h.
Proof.
  intros F cap quota bakeF q0 ops k i h Hq C E Hlen Hi Hlt. assert (Hc : (1 <= cap)%nat) by lia.
  pose proof (inv_run cap quota bakeF ops [] _ k (inv_create cap quota Hc) E) as I. cbn [app] in I. change (k_vars (create quota)) with (∅ : gmap nat (list Z)) in I.
  pose proof (aligned_run cap quota bakeF ops [] _ k (inv_create cap quota Hc) (aligned_create cap quota) E) as A.
  assert (I0 : inv0 cap bakeF (appended ∅ ops) k).
  { apply (inv0_run cap quota bakeF q0 ops Hq [] [] (create quota) k); [by apply inv_create|by apply top_create|done| |done|done]. apply inv0_create. by intros ->. }
  pose proof (first_is cap quota _ k I A) as Hf. pose proof (i_first _ _ _ _ I) as Hf'.
  pose proof I0 as (fs & hs & E0 & H1 & H2 & H3). pose proof (inv0_older k fs hs E0 H1) as Eo.
  unfold get_at. rewrite (get_top_spec cap quota _ k _ I), Hf. destruct (Z.leb_spec (Z.of_nat (length (appended ∅ ops) / cap * cap)) (Z.of_nat i)) as [H|H]; [lia|]. cbn [andb].
  destruct (i_head _ _ _ _ I _ E0) as (o & ch & Ech & _ & Ho & Hfile). cbn [fst snd] in Ho, Hfile. rewrite Ech. cbn [get_chain]. unfold get_obj. rewrite Ho.
  assert (Hl : (i < length hs)%nat) by (rewrite Eo in Hf'; lia).
  destruct fs as [|[f0 f] fs]; [cbn [length] in H2; lia|]. rewrite Hfile by done.
  destruct (H3 0%nat _ eq_refl) as [Ef0 _]. cbn [fst] in Ef0. rewrite Ef0, Nat.mul_0_l. cbn [Z.of_nat].
  rewrite (proj2 (Z.leb_le _ _)) by lia. rewrite (proj2 (Z.ltb_lt _ _)) by lia. cbn [andb]. rewrite Z.sub_0_r, Nat2Z.id.
  rewrite (i_all _ _ _ _ I), Eo in Hi. rewrite lookup_app_l in Hi by done. rewrite Hi. done.
Qed.

(** C34. After the first bake no index of a hash still in the top tier can be asked for: it crashes (the offset of the
    tier is subtracted with the wrong sign). *)
Theorem C34_unbaked_after_bake_crashes :
  forall F cap quota bakeF ops (k : cake (F:=F)) i,
    (1 <= cap)%nat -> run cap quota bakeF (create quota) ops = Ok k -> (cap <= length (appended ∅ ops))%nat ->
    (length (appended ∅ ops) / cap * cap <= i < length (appended ∅ ops))%nat -> get_at k (Z.of_nat i) = Panic.
Proof.
  intros F cap quota bakeF ops k i Hc E Hlen Hi.
  pose proof (inv_run cap quota bakeF ops [] _ k (inv_create cap quota Hc) E) as I. cbn [app] in I. change (k_vars (create quota)) with (∅ : gmap nat (list Z)) in I.
  pose proof (aligned_run cap quota bakeF ops [] _ k (inv_create cap quota Hc) (aligned_create cap quota) E) as A.
  pose proof (first_is cap quota _ k I A) as Hf. unfold get_at. rewrite (get_top_spec cap quota _ k _ I), Hf.
  rewrite (proj2 (Z.leb_le _ _)) by lia. rewrite (proj2 (Z.ltb_lt _ _)) by lia. cbn [andb].
  assert (1 <= length (appended ∅ ops) / cap)%nat by (apply Nat.div_le_lower_bound; lia).
  destruct (Z.eqb_spec (Z.of_nat (length (appended ∅ ops) / cap * cap)) 0) as [H0|H0]; [|done]. nia.
Qed.

(** ** Hashes to try it with *)

(** numbered in the first two bytes, a mark in the last one *)
Definition ex_hash (c : Z) (i : nat) : list Z := [Z.of_nat (i mod 256); Z.of_nat (i / 256)] ++ replicate 29 0 ++ [c].
Definition ex_hashes (n : nat) : list (list Z) := (fun i => ex_hash (Z.of_nat (i / top_cap)) (i mod top_cap)) <$> seq 0 n.

Lemma top_cap_pos : (1 <= top_cap)%nat.
Proof. pose proof top_cap_val. lia. Qed.
Lemma ex_hash_ok c i : 0 <= c < 256 -> Z.of_nat i < 65536 -> hash32 (ex_hash c i).
Proof.
  intros Hc Hi. split; [unfold ex_hash; rewrite !app_length, replicate_length; done|]. unfold ex_hash, bytes, is_byte. rewrite !Forall_app, !Forall_cons.
  pose proof (Nat.mod_upper_bound i 256 ltac:(lia)). assert (Z.of_nat (i / 256) < 256).
  { rewrite Nat2Z.inj_div. apply Z.div_lt_upper_bound; lia. }
  split_and!; try lia; try apply Forall_nil_2. apply Forall_replicate. lia.
Qed.
Lemma ex_hash_inj c c' i i' : ex_hash c i = ex_hash c' i' -> c = c' /\ i = i'.
Proof.
  intros E. set (a := Z.of_nat (i mod 256)). set (b := Z.of_nat (i / 256)). set (a' := Z.of_nat (i' mod 256)). set (b' := Z.of_nat (i' / 256)).
  change (ex_hash c i) with ([a; b] ++ replicate 29 0 ++ [c]) in E. change (ex_hash c' i') with ([a'; b'] ++ replicate 29 0 ++ [c']) in E.
  assert (H : forall x y z x' y' z' : Z, [x; y] ++ replicate 29 0 ++ [z] = [x'; y'] ++ replicate 29 0 ++ [z'] -> x = x' /\ y = y' /\ z = z').
  { clear. intros x y z x' y' z' E. cbn in E. by injection E. }
  apply H in E as (E1 & E2 & E3). split; [done|]. unfold a, b, a', b' in *. rewrite (Nat.div_mod_eq i 256), (Nat.div_mod_eq i' 256). lia.
Qed.
Lemma ex_hashes_length n : length (ex_hashes n) = n.
Proof. unfold ex_hashes. by rewrite fmap_length, seq_length. Qed.
Lemma ex_hashes_lookup n i : (i < n)%nat -> ex_hashes n !! i = Some (ex_hash (Z.of_nat (i / top_cap)) (i mod top_cap)).
Proof. intros H. unfold ex_hashes. rewrite list_lookup_fmap, lookup_seq_lt by done. done. Qed.
Lemma ex_hashes_ok n : (n <= 256 * top_cap)%nat -> Forall hash32 (ex_hashes n).
Proof.
  intros H. apply Forall_lookup. intros i h Hi. pose proof (lookup_lt_Some _ _ _ Hi) as Hlt. rewrite ex_hashes_length in Hlt. rewrite ex_hashes_lookup in Hi by done.
  apply (inj Some) in Hi as <-. pose proof top_cap_val. pose proof top_cap_pos. pose proof (Nat.mod_upper_bound i top_cap ltac:(lia)).
  assert (i / top_cap < 256)%nat by (apply Nat.div_lt_upper_bound; lia). apply ex_hash_ok; lia.
Qed.
Lemma ex_hashes_nodup n : NoDup (ex_hashes n).
Proof.
  apply NoDup_alt. intros i j h Hi Hj. pose proof (lookup_lt_Some _ _ _ Hi) as H1. pose proof (lookup_lt_Some _ _ _ Hj) as H2. rewrite ex_hashes_length in H1, H2.
  rewrite ex_hashes_lookup in Hi, Hj by done. apply (inj Some) in Hi, Hj. rewrite <- Hj in Hi. apply ex_hash_inj in Hi as [E1 E2]. apply Nat2Z.inj in E1.
  pose proof top_cap_pos. rewrite (Nat.div_mod_eq i top_cap), (Nat.div_mod_eq j top_cap), E1, E2. done.
Qed.
Lemma ex_hashes_not n c i : (n <= c * top_cap)%nat -> ex_hash (Z.of_nat c) i ∉ ex_hashes n.
Proof.
  intros Hn Hin. apply elem_of_list_lookup in Hin as [j Hj]. pose proof (lookup_lt_Some _ _ _ Hj) as Hlt. rewrite ex_hashes_length in Hlt.
  rewrite ex_hashes_lookup in Hj by done. apply (inj Some) in Hj. apply ex_hash_inj in Hj as [Hj _]. apply Nat2Z.inj in Hj. pose proof top_cap_pos as Hp.
  assert (j / top_cap < c)%nat as Hd; [|rewrite Hj in Hd; by apply Nat.lt_irrefl in Hd].
  apply Nat.div_lt_upper_bound; [clear -Hp; lia|]. rewrite Nat.mul_comm. clear -Hn Hlt. lia.
Qed.
Lemma ex_hashes_batch n j : ((j + 1) * top_cap <= n)%nat -> take top_cap (drop (j * top_cap) (ex_hashes n)) = ex_hash (Z.of_nat j) <$> seq 0 top_cap.
Proof.
  intros H. pose proof top_cap_pos as Hp. apply list_eq. intros i. rewrite list_lookup_fmap. destruct (decide (i < top_cap)%nat) as [Hi|Hi].
  - rewrite lookup_take by done. rewrite lookup_drop, ex_hashes_lookup by lia. rewrite lookup_seq_lt by done. cbn [fmap option_fmap option_map]. rewrite Nat.add_0_l.
    rewrite Nat.add_comm, Nat.div_add, Nat.div_small, Nat.mod_add, Nat.mod_small by lia. done.
  - rewrite lookup_take_ge by lia. rewrite lookup_seq_ge by lia. done.
Qed.
Lemma ex_same c off : same_from 2 (top_input off (ex_hash c <$> seq 0 top_cap)).
Proof.
  intros x y j Hx Hy Hj. apply top_input_elem in Hx as (a & g & Ea & ->), Hy as (b & h & Eb & ->). cbn [th_hash].
  apply elem_of_list_lookup_2, elem_of_list_fmap in Ea as (a' & -> & _). apply elem_of_list_lookup_2, elem_of_list_fmap in Eb as (b' & -> & _).
  unfold ex_hash. rewrite lookup_total_app_r by (cbn [length]; lia). symmetry. rewrite lookup_total_app_r by (cbn [length]; lia). done.
Qed.

Section Real.
  Context (ent : list thash -> nat -> Z) (Hent : entropy_ok ent) (srt : nat -> list thash -> list thash) (Hsrt : sort_ok srt) (R : nat) (HR : (R <= 32)%nat).
  Context (deep : nat -> Z -> list (Z * forest) -> list (list Z) -> option forest).

  Lemma ex_bakes n : (n <= 256 * top_cap)%nat -> batches top_cap (cake_bake ent srt R deep) (ex_hashes n).
  Proof using All.
    intros Hn j Hj. rewrite ex_hashes_length in Hj. cbn [cake_bake]. rewrite ex_hashes_batch by done. pose proof top_cap_val. pose proof top_cap_pos.
    assert (Hjl : Z.of_nat j < 256) by nia.
    apply (bake_top_works ent Hent srt Hsrt R HR 2); [lia| | | |lia| |apply ex_same].
    - apply Forall_fmap, Forall_forall. intros i Hi. apply elem_of_seq in Hi. apply ex_hash_ok; lia.
    - apply NoDup_fmap_2; [|apply NoDup_seq]. intros a b E. by apply ex_hash_inj in E as [_ E].
    - intros E. apply (f_equal length) in E. rewrite fmap_length, seq_length in E. cbn [length] in E. lia.
    - rewrite fmap_length, seq_length. lia.
  Qed.
  Lemma ex_runs n : (n < 5 * top_cap)%nat -> exists k, run top_cap top_quota (cake_bake ent srt R deep) (create top_quota) (Append <$> ex_hashes n) = Ok k.
  Proof using All.
    intros Hn. apply (run_works top_cap top_quota (cake_bake ent srt R deep) 5 (Append <$> ex_hashes n) eq_refl [] []).
    - apply inv_create, top_cap_pos.
    - apply top_create.
    - apply careful_appends.
    - by apply inv0_create.
    - rewrite appended_appends. cbn [app]. by rewrite ex_hashes_length.
    - rewrite appended_appends. cbn [app]. apply ex_bakes. lia.
  Qed.
End Real.

(** C34 as stated is false: with the code's own sizes, 65536 distinct hashes can be appended and then the last of
    them cannot be asked for. *)
Theorem C34_every_index_answered_refuted :
  exists hs, Forall hash32 hs /\ NoDup hs /\
    forall ent srt R deep, entropy_ok ent -> sort_ok srt -> (R <= 32)%nat ->
      exists k i h, run top_cap top_quota (cake_bake ent srt R deep) (create top_quota) (Append <$> hs) = Ok k /\ hs !! i = Some h /\ get_at k (Z.of_nat i) = Panic.
Proof.
  pose proof top_cap_pos as Hp. exists (ex_hashes (top_cap + 1)). split; [apply ex_hashes_ok; lia|]. split; [apply ex_hashes_nodup|].
  intros ent srt R deep He Hs HR. destruct (ex_runs ent He srt Hs R HR deep (top_cap + 1)) as [k E]; [lia|].
  exists k, top_cap. eexists. split; [exact E|]. split; [apply ex_hashes_lookup; lia|].
  apply (C34_unbaked_after_bake_crashes _ top_cap top_quota (cake_bake ent srt R deep) (Append <$> ex_hashes (top_cap + 1)) k top_cap Hp E); rewrite appended_appends, ex_hashes_length; [lia|].
  assert (Ed : ((top_cap + 1) / top_cap = 1)%nat).
  { pose proof top_cap_val. symmetry. apply (Nat.div_unique _ _ 1 1); lia. }
  rewrite Ed. clear. lia.
Qed.

(** ** C35: the index of a hash *)

(** C35. Before the first bake the answer for an appended hash is its last index, and -1 for any other. *)
Theorem C35_before_first_bake_last_index :
  forall F cap quota bakeF findF ops (k : cake (F:=F)) h,
    careful [] ops -> quota <> [] -> (1 <= hd 0 quota)%nat -> run cap quota bakeF (create quota) ops = Ok k -> (length (appended ∅ ops) < cap)%nat ->
    (forall i, is_last (appended ∅ ops) h i -> index_of findF k h = Ok (Z.of_nat i)) /\
    (h ∉ appended ∅ ops -> index_of findF k h = Ok (-1)).
Proof.
  intros F cap quota bakeF findF ops k h C Hne Hq0 E Hlen. assert (Hc : (1 <= cap)%nat) by lia.
  destruct quota as [|q0 quota']; [done|]. set (quota := q0 :: quota') in *. assert (Hq : quota !! 0%nat = Some q0) by done. change (1 <= q0)%nat in Hq0.
  pose proof (inv_run cap quota bakeF ops [] _ k (inv_create cap quota Hc) E) as I. cbn [app] in I. change (k_vars (create quota)) with (∅ : gmap nat (list Z)) in I.
  pose proof (aligned_run cap quota bakeF ops [] _ k (inv_create cap quota Hc) (aligned_create cap quota) E) as A.
  assert (Hlen0 : (length (appended ∅ ops) < q0 * cap)%nat).
  { apply Nat.lt_le_trans with cap; [done|]. rewrite <- (Nat.mul_1_l cap) at 1. by apply Nat.mul_le_mono_r. }
  assert (I0 : inv0 cap bakeF (appended ∅ ops) k).
  { apply (inv0_run cap quota bakeF q0 ops Hq [] [] (create quota) k); [by apply inv_create|by apply top_create|done| |done|done]. by apply inv0_create. }
  assert (I1 : inv1 k).
  { apply (inv1_run cap quota bakeF q0 ops Hq [] [] (create quota) k); [by apply inv_create|by apply top_create|done| | |done|done|cbn [app]; change (k_vars (create quota)) with (∅ : gmap nat (list Z)); lia]; [by apply (inv0_create cap)|by apply (inv1_create cap quota bakeF)]. }
  pose proof (first_is cap quota _ k I A) as Hf. rewrite Nat.div_small in Hf by done. cbn in Hf.
  pose proof (i_all _ _ _ _ I) as Ea. pose proof (i_first _ _ _ _ I) as Hf'. assert (older 0 (k_disk k) = []) as Eo; [apply nil_length_inv; lia|].
  rewrite Eo in Ea. cbn [app] in Ea. unfold index_of. rewrite (i_map _ _ _ _ I), <- Ea. split.
  - intros i Hi. apply map_of_last in Hi. rewrite Hi, Hf. done.
  - intros Hn. apply map_of_none in Hn. rewrite Hn. rewrite find_chain_quiet; [done|]. by apply (inv0_quiet cap quota bakeF (appended ∅ ops)).
Qed.

(** C35 as stated is false: of a hash appended twice the second index is reported. *)
Theorem C35_repeated_hash_refuted :
  exists hs h i, Forall hash32 hs /\ is_first hs h i /\
    forall ent srt R deep deepf, exists k,
      run top_cap top_quota (cake_bake ent srt R deep) (create top_quota) (Append <$> hs) = Ok k /\ index_of (cake_find R deepf) k h = Ok 1 /\ i = 0%nat.
Proof.
  exists [ex_hash 0 0; ex_hash 0 0], (ex_hash 0 0), 0%nat. pose proof top_cap_val. split; [rewrite !Forall_cons; split_and!; try apply ex_hash_ok; lia || done|].
  split; [split; [done|lia]|]. intros ent srt R deep deepf.
  destruct (run_fill top_cap top_quota (cake_bake ent srt R deep) [ex_hash 0 0; ex_hash 0 0] (create top_quota)) as (k & E & _); [cbn [length create reopen k_slice fmap list_fmap k_file]; lia|].
  exists k. split; [exact E|]. split; [|done].
  destruct (C35_before_first_bake_last_index _ top_cap top_quota (cake_bake ent srt R deep) (cake_find R deepf) (Append <$> [ex_hash 0 0; ex_hash 0 0]) k (ex_hash 0 0)) as [HL _].
  - apply careful_appends.
  - done.
  - cbn. lia.
  - exact E.
  - rewrite appended_appends. cbn [length]. lia.
  - rewrite appended_appends in HL. apply (HL 1%nat). split; [done|]. intros j Hj. rewrite lookup_ge_None_2; [done|]. cbn [length]. lia.
Qed.

Lemma batch_sub (hs : list (list Z)) j h : h ∈ take top_cap (drop (j * top_cap) hs) -> h ∈ hs.
Proof. intros H. apply elem_of_take in H as (i & H & _). rewrite lookup_drop in H. by eapply elem_of_list_lookup_2. Qed.

Lemma batch_lookup (hs : list (list Z)) (i : nat) : take top_cap (drop (i / top_cap * top_cap) hs) !! (i mod top_cap)%nat = hs !! i.
Proof.
  pose proof top_cap_pos as Hp. pose proof (Nat.mod_upper_bound i top_cap ltac:(lia)). rewrite lookup_take by done. rewrite lookup_drop. f_equal.
  rewrite Nat.mul_comm, <- Nat.div_mod_eq. done.
Qed.

Section Find.
  Context (ent : list thash -> nat -> Z) (Hent : entropy_ok ent) (srt : nat -> list thash -> list thash) (Hsrt : sort_ok srt) (R : nat) (HR : (R <= 32)%nat).
  Context (deep : nat -> Z -> list (Z * forest) -> list (list Z) -> option forest) (deepf : nat -> forest -> list Z -> option Z).
  Notation bakeR := (cake_bake ent srt R deep).
  Notation findR := (cake_find R deepf).

  (** what is known of a cake whose first tier has room *)
  Lemma real_state ops k : careful [] ops -> run top_cap top_quota bakeR (create top_quota) ops = Ok k -> (length (appended ∅ ops) < 5 * top_cap)%nat ->
    inv top_cap top_quota (appended ∅ ops) k /\ inv0 top_cap bakeR (appended ∅ ops) k /\ aligned top_cap k.
  Proof using All.
    intros C E Hlen. pose proof top_cap_pos as Hp. split_and!.
    - pose proof (inv_run top_cap top_quota bakeR ops [] _ k (inv_create top_cap top_quota Hp) E) as I. exact I.
    - apply (inv0_run top_cap top_quota bakeR 5 ops eq_refl [] [] (create top_quota) k); [by apply inv_create|by apply top_create|done| |done|done]. by apply inv0_create.
    - exact (aligned_run top_cap top_quota bakeR ops [] _ k (inv_create top_cap top_quota Hp) (aligned_create top_cap top_quota) E).
  Qed.

  (** what the forests of the first tier answer *)
  Lemma forest_facts all k fs hs j x : Forall hash32 all -> inv top_cap top_quota all k -> inv0 top_cap bakeR all k -> k_disk k !! 0%nat = Some (fs, hs) -> fs !! j = Some x ->
    fst x = Z.of_nat (j * top_cap) /\
    (forall i h, take top_cap (drop (j * top_cap) all) !! i = Some h -> findR 0 (snd x) h = Some (Z.of_nat i + 1)) /\
    (R = 32%nat -> forall q, hash32 q -> q ∉ take top_cap (drop (j * top_cap) all) -> findR 0 (snd x) q = Some 0).
  Proof using All.
    intros Hall I I0 E0 Hj. pose proof top_cap_val as Hv. pose proof top_cap_pos as Hp. pose proof (inv0_fs top_cap top_quota bakeR all k fs hs I I0 E0) as Hfs.
    pose proof I0 as (fs' & hs' & E0' & H1 & H2 & H3). rewrite E0 in E0'. injection E0' as <- <-. destruct (H3 j x Hj) as [A B]. cbn [cake_bake] in B.
    split; [done|]. pose proof (lookup_lt_Some _ _ _ Hj) as Hlt.
    assert (Hb : ((j + 1) * top_cap <= length all)%nat).
    { transitivity (length all / top_cap * top_cap)%nat; [apply Nat.mul_le_mono_r; lia|]. rewrite Nat.mul_comm. apply Nat.mul_div_le. lia. }
    assert (Hl : length (take top_cap (drop (j * top_cap) all)) = top_cap) by (rewrite take_length, drop_length; lia).
    assert (Hok : Forall hash32 (take top_cap (drop (j * top_cap) all))) by (by apply Forall_take, Forall_drop).
    split.
    - intros i h Hi. cbn [cake_find]. eapply (bake_top_find ent Hent srt Hsrt R HR); [exact Hok| | |exact B|done]; lia.
    - intros ER q Hq Hn. cbn [cake_find]. eapply (bake_top_absent ent Hent srt Hsrt R HR); [done|exact Hok| | | |exact B|done|done]; [|lia|lia].
      intros E. rewrite E in Hl. cbn [length] in Hl. lia.
  Qed.
End Find.

(** C35. While the first tier has room, distinct hashes are reported at their index, if the leaves hold whole hashes,
    or if the hash is in the first batch, or still in the top tier. *)
Theorem C35_distinct_hashes_partial :
  forall ent srt R deep deepf ops k i h,
    entropy_ok ent -> sort_ok srt -> (R <= 32)%nat -> careful [] ops -> Forall hash32 (appended ∅ ops) -> NoDup (appended ∅ ops) ->
    (length (appended ∅ ops) < 5 * top_cap)%nat -> run top_cap top_quota (cake_bake ent srt R deep) (create top_quota) ops = Ok k ->
    appended ∅ ops !! i = Some h -> (R = 32 \/ i < top_cap \/ length (appended ∅ ops) / top_cap * top_cap <= i)%nat ->
    index_of (cake_find R deepf) k h = Ok (Z.of_nat i).
Proof.
  intros ent srt R deep deepf ops k i h He Hs HR C Hok Hd Hlen E Hi Hcase. pose proof top_cap_pos as Hp. pose proof top_cap_val as Hv.
  destruct (real_state ent He srt Hs R HR deep deepf ops k C E Hlen) as (I & I0 & A). set (all := appended ∅ ops) in *.
  pose proof (first_is top_cap top_quota all k I A) as Hf. pose proof (i_first _ _ _ _ I) as Hf'. pose proof (i_all _ _ _ _ I) as Ea.
  pose proof I0 as (fs & hs & E0 & H1 & H2 & H3). pose proof (inv0_older k fs hs E0 H1) as Eo. pose proof (inv0_fs top_cap top_quota _ all k fs hs I I0 E0) as Hfs.
  assert (Hhs : length hs = (length all / top_cap * top_cap)%nat) by (rewrite <- Hfs; exact H2). rewrite Eo in Ea.
  rewrite <- Hfs in Hf, Hhs, Hcase. rewrite Eo in Hf'. clear H2 Hfs.
  remember (length fs * top_cap)%nat as S0 eqn:HS.
  unfold index_of. rewrite (i_map _ _ _ _ I).
  destruct (decide (S0 <= i)%nat) as [Hge|Hlt].
  - assert (Hfi : k_file k !! (i - length hs)%nat = Some h). { rewrite Ea, lookup_app_r in Hi by lia. done. }
    assert (HL : is_last (k_file k) h (i - length hs)).
    { split; [done|]. intros j Hj Ej. assert (all !! (length hs + j)%nat = Some h) as Ej'.
      { rewrite Ea, lookup_app_r by lia. rewrite <- Ej. f_equal. lia. }
      pose proof (NoDup_lookup _ _ _ _ Hd Hi Ej'). lia. }
    apply map_of_last in HL. rewrite HL, Hf. f_equal. lia.
  - assert (Hni : h ∉ k_file k).
    { intros Hin. apply elem_of_list_lookup in Hin as [j Ej]. assert (all !! (length hs + j)%nat = Some h) as Ej'.
      { rewrite Ea, lookup_app_r by lia. rewrite <- Ej. f_equal. lia. }
      pose proof (NoDup_lookup _ _ _ _ Hd Hi Ej'). lia. }
    apply map_of_none in Hni. rewrite Hni. destruct (find_chain_first top_cap top_quota (cake_find R deepf) all k fs hs h I E0) as (rest & _ & _ & ->).
    assert (Hdm : exists j r, take top_cap (drop (j * top_cap) all) !! r = all !! i /\ i = (j * top_cap + r)%nat /\ (r < top_cap)%nat).
    { exists (i / top_cap)%nat, (i mod top_cap)%nat. split; [apply batch_lookup|]. clear -Hp. split.
      - rewrite Nat.mul_comm. apply Nat.div_mod_eq.
      - apply Nat.mod_upper_bound. intros E. rewrite E in Hp. inversion Hp. }
    destruct Hdm as (j & r & Hbl & Ei & Hr).
    assert (Hj : (j < length fs)%nat).
    { apply Nat.nle_gt. intros Hle. apply (Nat.mul_le_mono_r _ _ top_cap) in Hle. clear -HS Hle Ei Hlt. lia. }
    destruct (lookup_lt_is_Some_2 fs j Hj) as [[f0 f] Hx].
    destruct (forest_facts ent He srt Hs R HR deep deepf all k fs hs j (f0, f) Hok I I0 E0 Hx) as (F1 & F2 & _). cbn [fst snd] in F1, F2.
    rewrite <- (take_drop_middle fs j (f0, f) Hx).
    assert (Hh : hash32 h) by (rewrite Forall_lookup in Hok; by apply (Hok i)).
    rewrite (find_forests_first (cake_find R deepf) 0 (take j fs) f0 f (drop (S j) fs) h (Z.of_nat r + 1)).
    + f_equal. rewrite F1. lia.
    + intros y Hy. apply elem_of_take in Hy as (j' & Hy & Hj').
      destruct (forest_facts ent He srt Hs R HR deep deepf all k fs hs j' y Hok I I0 E0 Hy) as (_ & _ & F3).
      destruct Hcase as [ER|[Hsmall|Hbig]]; [| |lia].
      2: { assert (1 * top_cap <= j * top_cap)%nat by (apply Nat.mul_le_mono_r; lia). lia. }
      apply F3; [done|done|]. intros Hin. apply elem_of_take in Hin as (i' & Hi' & Hi''). rewrite lookup_drop in Hi'.
      pose proof (NoDup_lookup _ _ _ _ Hd Hi Hi') as Eq. assert ((j' + 1) * top_cap <= j * top_cap)%nat by (apply Nat.mul_le_mono_r; lia). lia.
    + apply F2. by rewrite Hbl.
    + lia.
Qed.

(** C35 is false of distinct hashes too, unless the leaves hold nearly whole hashes: an earlier forest answers for a
    hash that differs from one of its own only behind the bytes it looks at (nothing is compared with the stored hash). *)
Theorem C35_distinct_hashes_refuted :
  exists hs i h, Forall hash32 hs /\ NoDup hs /\ hs !! i = Some h /\ i <> 0%nat /\
    forall ent srt R deep deepf, entropy_ok ent -> sort_ok srt -> (R <= 29)%nat -> exists k,
      run top_cap top_quota (cake_bake ent srt R deep) (create top_quota) (Append <$> hs) = Ok k /\ index_of (cake_find R deepf) k h = Ok 0.
Proof.
  pose proof top_cap_pos as Hp. pose proof top_cap_val as Hv. set (n := (2 * top_cap)%nat). exists (ex_hashes n), top_cap, (ex_hash 1 0).
  split; [apply ex_hashes_ok; lia|]. split; [apply ex_hashes_nodup|]. split.
  { rewrite ex_hashes_lookup by lia. rewrite Nat.div_same, Nat.mod_same by lia. done. }
  split; [lia|]. intros ent srt R deep deepf He Hs HR.
  destruct (ex_runs ent He srt Hs R ltac:(lia) deep n) as [k E]; [lia|]. exists k. split; [exact E|].
  destruct (real_state ent He srt Hs R ltac:(lia) deep deepf _ k (careful_appends [] _) E) as (I & I0 & A); [rewrite appended_appends, ex_hashes_length; lia|].
  rewrite appended_appends in I, I0. pose proof I0 as (fs & hs & E0 & H1 & H2 & H3). pose proof (inv0_older k fs hs E0 H1) as Eo.
  pose proof (inv0_fs top_cap top_quota _ _ k fs hs I I0 E0) as Hfs. rewrite ex_hashes_length in Hfs. unfold n in Hfs. rewrite Nat.div_mul in Hfs by lia.
  unfold index_of. rewrite (i_map _ _ _ _ I).
  assert (k_file k = []) as ->.
  { pose proof (f_equal length (i_all _ _ _ _ I)) as Hl. rewrite app_length, ex_hashes_length, Eo, H2, Hfs in Hl. apply nil_length_inv. lia. }
  change (map_of [] !! ex_hash 1 0) with (@None nat). cbv iota.
  destruct (find_chain_first top_cap top_quota (cake_find R deepf) _ k fs hs (ex_hash 1 0) I E0) as (rest & _ & _ & ->).
  destruct fs as [|[f0 f] fs]; [done|]. destruct (H3 0%nat _ eq_refl) as [F1 F2]. cbn [fst snd cake_bake] in F1, F2. rewrite ex_hashes_batch in F2 by lia.
  change ((f0, f) :: fs) with ([] ++ (f0, f) :: fs).
  rewrite (find_forests_first (cake_find R deepf) 0 [] f0 f fs (ex_hash 1 0) 1).
  - rewrite F1. done.
  - intros y Hy. exact (False_ind _ (not_elem_of_nil _ Hy)).
  - cbn [cake_find]. apply (bake_top_mistake ent He srt Hs R ltac:(lia) 2 _ (ex_hash 0 <$> seq 0 top_cap) f 0 (ex_hash 0 0) (ex_hash 1 0)) in F2; [exact F2|lia| | |lia| |apply ex_same| | |].
    + apply Forall_fmap, Forall_forall. intros j Hj. apply elem_of_seq in Hj. apply ex_hash_ok; lia.
    + rewrite fmap_length, seq_length. lia.
    + rewrite fmap_length, seq_length. lia.
    + rewrite list_lookup_fmap, lookup_seq_lt by lia. reflexivity.
    + apply ex_hash_ok; lia.
    + reflexivity.
  - lia.
Qed.

(** ** C36: the caller's variable *)

(** C36 as stated is false: until it is baked, an appended hash is the caller's own array. *)
Theorem C36_changed_later_refuted :
  exists h h', hash32 h /\ hash32 h' /\ h <> h' /\
    forall ent srt R deep, exists k,
      run top_cap top_quota (cake_bake ent srt R deep) (create top_quota) [SetVar 0 h; AppendVar 0; SetVar 0 h'] = Ok k /\
      appended ∅ [SetVar 0 h; AppendVar 0; SetVar 0 h'] = [h] /\ get_at k 0 = Ok h'.
Proof.
  exists (ex_hash 0 0), (ex_hash 0 1). pose proof top_cap_val as Hv. split; [apply ex_hash_ok; lia|]. split; [apply ex_hash_ok; lia|].
  split; [intros E; by apply ex_hash_inj in E as [_ E]|]. intros ent srt R deep. eexists. split.
  - unfold run, step, append. cbn [create reopen k_slice k_file fmap list_fmap length]. cbv zeta.
    destruct (Nat.leb_spec top_cap 0) as [H|H]; [lia|]. destruct (Nat.eqb_spec 1 top_cap) as [H'|H']; [lia|]. reflexivity.
  - split; reflexivity.
Qed.

(** a caller that fills one variable again and again *)
Definition loop_ops (hs : list (list Z)) : list op := concat ((fun h => [SetVar 0 h; AppendVar 0]) <$> hs).
Lemma appended_loop hs : forall vars, appended vars (loop_ops hs) = hs.
Proof. induction hs as [|h hs IH]; intros vars; [done|]. unfold loop_ops in *. cbn [fmap list_fmap concat app appended]. rewrite lookup_insert, IH. done. Qed.

Lemma run_loop {F} cap quota (bakeF : nat -> Z -> list (Z * F) -> list (list Z) -> option F) hs : forall k n, k_slice k = replicate n (Shared 0) -> (n + length hs < cap)%nat ->
  exists k', run cap quota bakeF k (loop_ops hs) = Ok k' /\ k_slice k' = replicate (n + length hs) (Shared 0) /\ k_first k' = k_first k.
Proof.
  induction hs as [|h hs IH]; intros k n Hk Hl.
  - exists k. rewrite Nat.add_0_r. done.
  - unfold loop_ops. cbn [fmap list_fmap concat app run step]. cbn [length] in Hl. unfold append. cbv zeta. cbn [k_slice k_map k_file k_first k_chain k_disk k_vars].
    rewrite Hk, replicate_length.
    destruct (Nat.leb_spec cap n) as [H|H]; [lia|]. destruct (Nat.eqb_spec (S n) cap) as [H'|H']; [lia|].
    match goal with |- context [run _ _ _ ?k1 _] => destruct (IH k1 (S n)) as (k' & E & A1 & A2) end.
    { cbn [k_slice]. symmetry. apply (replicate_cons_app n (Shared 0)). }
    { lia. }
    exists k'. split; [exact E|]. split; [|done]. rewrite A1. f_equal. cbn [length]. lia.
Qed.

(** C36. Worse: a caller that reuses one variable for all its hashes, as a read loop would, crashes at the first bake,
    however distinct the hashes are (what is baked is the variable's last value, 65535 times). *)
Theorem C36_reused_variable_refuted :
  forall ent srt R deep hs, entropy_ok ent -> sort_ok srt -> (R <= 32)%nat -> Forall hash32 hs -> length hs = top_cap ->
    appended ∅ (loop_ops hs) = hs /\ run top_cap top_quota (cake_bake ent srt R deep) (create top_quota) (loop_ops hs) = Panic.
Proof.
  intros ent srt R deep hs He Hs HR Hok Hlen. split; [apply appended_loop|]. pose proof top_cap_val as Hv.
  destruct hs as [|h hs' _] using rev_ind; [cbn [length] in Hlen; lia|]. rewrite app_length in Hlen. cbn [length] in Hlen. apply Forall_app in Hok as [_ Hh]. apply Forall_inv in Hh.
  assert (E : loop_ops (hs' ++ [h]) = loop_ops hs' ++ [SetVar 0 h; AppendVar 0]).
  { unfold loop_ops. rewrite fmap_app, concat_app. done. }
  rewrite E, run_app. destruct (run_loop top_cap top_quota (cake_bake ent srt R deep) hs' (create top_quota) 0 eq_refl) as (k & -> & A & _); [lia|].
  rewrite Nat.add_0_l in A. cbn [run step]. unfold append. cbv zeta. cbn [k_slice k_map k_file k_first k_chain k_disk k_vars]. rewrite A, replicate_length.
  destruct (Nat.leb_spec top_cap (length hs')) as [H|H]; [lia|]. rewrite (proj2 (Nat.eqb_eq _ _)) by lia.
  rewrite <- (replicate_cons_app (length hs') (Shared 0)). set (k0 := <[0%nat := h]> (k_vars k)).
  assert (Er : deref k0 <$> Shared 0 :: replicate (length hs') (Shared 0) = replicate (S (length hs')) h).
  { rewrite fmap_cons, fmap_replicate. unfold deref, k0. rewrite lookup_insert. done. }
  rewrite Er. assert (Eb : cake_bake ent srt R deep 0 (k_first k) [] (replicate (S (length hs')) h) = None).
  { cbn [cake_bake]. apply (bake_top_repeat ent He srt Hs R HR); [by apply Forall_replicate|].
    intros Hn. pose proof (NoDup_lookup _ 0%nat 1%nat h Hn) as Hx. rewrite !lookup_replicate_2 in Hx by lia. specialize (Hx eq_refl eq_refl). lia. }
  change (length top_quota) with 4%nat. cbn [write]. rewrite Eb. destruct (k_disk k !! 0%nat) as [[? ?]|]; [|done]. destruct (top_quota !! 0%nat); done.
Qed.

(** C36. What was appended is on disk all the same: whatever the caller did to its variables, after reopening the
    baked hashes, and before the first bake all of them, are what was appended. *)
Theorem C36_after_reopening_partial :
  forall F cap quota bakeF ops (k : cake (F:=F)) i h,
    (1 <= cap)%nat -> run cap quota bakeF (create quota) (ops ++ [Reopen]) = Ok k -> appended ∅ ops !! i = Some h ->
    (i < length (appended ∅ ops) / cap * cap \/ length (appended ∅ ops) < cap)%nat -> get_at k (Z.of_nat i) = Ok h.
Proof.
  intros F cap quota bakeF ops k i h Hc E Hi [Hb|Hlen]; [by eapply C34_baked_after_reopening_partial|].
  rewrite run_app in E. destruct (run cap quota bakeF (create quota) ops) as [k0| |] eqn:E'; [|done|done]. cbn [run step] in E. injection E as <-.
  pose proof (inv_run cap quota bakeF ops [] _ k0 (inv_create cap quota Hc) E') as I. cbn [app] in I. change (k_vars (create quota)) with (∅ : gmap nat (list Z)) in I.
  pose proof (aligned_run cap quota bakeF ops [] _ k0 (inv_create cap quota Hc) (aligned_create cap quota) E') as A.
  pose proof (first_is cap quota _ k0 I A) as Hf. rewrite Nat.div_small in Hf by done. cbn in Hf.
  pose proof (i_all _ _ _ _ I) as Ea. pose proof (i_first _ _ _ _ I) as Hf'. assert (older 0 (k_disk k0) = []) as Eo; [apply nil_length_inv; lia|].
  rewrite Eo in Ea. cbn [app] in Ea. unfold get_at. rewrite (get_top_spec cap quota _ _ _ (inv_reopen cap quota _ k0 I)). cbn [reopen k_first k_slice k_vars]. rewrite Hf.
  pose proof (lookup_lt_Some _ _ _ Hi) as Hlt. rewrite (proj2 (Z.leb_le _ _)) by lia. rewrite (proj2 (Z.ltb_lt _ _)) by lia. cbn [andb Z.eqb].
  rewrite Nat2Z.id, <- list_fmap_compose, <- Ea, list_lookup_fmap, Hi. done.
Qed.

(** C36. Nor does it change what index is reported for a hash, nor what is read at a baked index. *)
Theorem C36_other_answers_unchanged_partial :
  forall F cap quota bakeF findF (k k' : cake (F:=F)) v h, step cap quota bakeF k (SetVar v h) = Ok k' ->
    (forall q, index_of findF k' q = index_of findF k q) /\ (forall i, i < k_first k -> get_at k' i = get_at k i).
Proof.
  intros F cap quota bakeF findF k k' v h E. cbn [step] in E. injection E as <-. split; [done|]. intros i Hi.
  unfold get_at, get_top. cbn [k_slice k_map k_file k_first k_chain k_disk k_vars]. rewrite (proj2 (Z.leb_gt _ _)) by done. done.
Qed.

(** ** C68: looking up a hash that was never appended *)

(** C68. With leaves that hold whole hashes, the answer is -1 right after reopening, while the first tier has room,
    and without reopening until the second bake. *)
Theorem C68_unknown_hash_partial :
  forall ent srt R deep deepf ops k q,
    entropy_ok ent -> sort_ok srt -> R = 32%nat -> careful [] ops -> Forall hash32 (appended ∅ ops) ->
    (length (appended ∅ ops) < 5 * top_cap)%nat -> run top_cap top_quota (cake_bake ent srt R deep) (create top_quota) ops = Ok k ->
    hash32 q -> q ∉ appended ∅ ops ->
    index_of (cake_find R deepf) (reopen k) q = Ok (-1) /\ ((length (appended ∅ ops) < 2 * top_cap)%nat -> index_of (cake_find R deepf) k q = Ok (-1)).
Proof.
  intros ent srt R deep deepf ops k q He Hs ER C Hok Hlen E Hq Hn. pose proof top_cap_pos as Hp. assert (HR : (R <= 32)%nat) by lia.
  destruct (real_state ent He srt Hs R HR deep deepf ops k C E Hlen) as (I & I0 & A).
  assert (HF : forall k, inv top_cap top_quota (appended ∅ ops) k -> inv0 top_cap (cake_bake ent srt R deep) (appended ∅ ops) k -> inv1 k -> index_of (cake_find R deepf) k q = Ok (-1)).
  { clear k E I I0 A. intros k I I0 I1. pose proof I0 as (fs & hs & E0 & H1 & H2 & H3).
    unfold index_of. rewrite (i_map _ _ _ _ I). rewrite (proj2 (map_of_none (k_file k) q)).
    2: { intros Hin. apply Hn. rewrite (i_all _ _ _ _ I). apply elem_of_app. by right. }
    destruct (find_chain_first top_cap top_quota (cake_find R deepf) _ k fs hs q I E0) as (rest & _ & Er & ->).
    rewrite find_forests_none.
    - rewrite Er, find_chain_quiet; [done|exact I1].
    - intros y Hy. apply elem_of_list_lookup in Hy as [j Hy].
      destruct (forest_facts ent He srt Hs R HR deep deepf _ k fs hs j y Hok I I0 E0 Hy) as (_ & _ & F3). apply F3; [done|done|].
      intros Hin. apply batch_sub in Hin. done. }
  split.
  - apply HF; [by apply inv_reopen|exact I0|]. unfold inv1. cbn [reopen k_chain]. by apply (inv0_tail top_cap (cake_bake ent srt R deep) (appended ∅ ops)).
  - intros Hlen2. apply HF; [done|done|].
    apply (inv1_run top_cap top_quota (cake_bake ent srt R deep) 5 ops eq_refl [] [] (create top_quota) k); [by apply inv_create|by apply top_create|done|by apply inv0_create| |done|done|done].
    by apply (inv1_create top_cap top_quota (cake_bake ent srt R deep)).
Qed.

(** C68 is false with fewer reassurance bytes: after one bake a hash that was never appended is reported at index 0. *)
Theorem C68_unknown_hash_found_refuted :
  exists hs q, Forall hash32 hs /\ NoDup hs /\ hash32 q /\ q ∉ hs /\
    forall ent srt R deep deepf, entropy_ok ent -> sort_ok srt -> (R <= 29)%nat -> exists k,
      run top_cap top_quota (cake_bake ent srt R deep) (create top_quota) (Append <$> hs) = Ok k /\ index_of (cake_find R deepf) k q = Ok 0.
Proof.
  pose proof top_cap_pos as Hp. pose proof top_cap_val as Hv. exists (ex_hashes top_cap), (ex_hash 1 0).
  split; [apply ex_hashes_ok; lia|]. split; [apply ex_hashes_nodup|]. split; [apply ex_hash_ok; lia|]. split.
  { apply (ex_hashes_not _ 1). lia. }
  intros ent srt R deep deepf He Hs HR.
  destruct (ex_runs ent He srt Hs R ltac:(lia) deep top_cap) as [k E]; [lia|]. exists k. split; [exact E|].
  destruct (real_state ent He srt Hs R ltac:(lia) deep deepf _ k (careful_appends [] _) E) as (I & I0 & A); [rewrite appended_appends, ex_hashes_length; lia|].
  rewrite appended_appends in I, I0. pose proof I0 as (fs & hs & E0 & H1 & H2 & H3). pose proof (inv0_older k fs hs E0 H1) as Eo.
  pose proof (inv0_fs top_cap top_quota _ _ k fs hs I I0 E0) as Hfs. rewrite ex_hashes_length, Nat.div_same in Hfs by (clear -Hp; lia).
  unfold index_of. rewrite (i_map _ _ _ _ I).
  assert (k_file k = []) as ->.
  { pose proof (f_equal length (i_all _ _ _ _ I)) as Hl. rewrite app_length, ex_hashes_length, Eo, H2, Hfs in Hl. apply nil_length_inv. lia. }
  change (map_of [] !! ex_hash 1 0) with (@None nat). cbv iota.
  destruct (find_chain_first top_cap top_quota (cake_find R deepf) _ k fs hs (ex_hash 1 0) I E0) as (rest & _ & _ & ->).
  destruct fs as [|[f0 f] fs]; [done|]. destruct (H3 0%nat _ eq_refl) as [F1 F2]. cbn [fst snd cake_bake] in F1, F2. rewrite ex_hashes_batch in F2 by lia.
  change ((f0, f) :: fs) with ([] ++ (f0, f) :: fs).
  rewrite (find_forests_first (cake_find R deepf) 0 [] f0 f fs (ex_hash 1 0) 1).
  - rewrite F1. done.
  - intros y Hy. exact (False_ind _ (not_elem_of_nil _ Hy)).
  - cbn [cake_find]. apply (bake_top_mistake ent He srt Hs R ltac:(lia) 2 _ (ex_hash 0 <$> seq 0 top_cap) f 0 (ex_hash 0 0) (ex_hash 1 0)) in F2; [exact F2|lia| | |lia| |apply ex_same| | |].
    + apply Forall_fmap, Forall_forall. intros j Hj. apply elem_of_seq in Hj. apply ex_hash_ok; lia.
    + rewrite fmap_length, seq_length. lia.
    + rewrite fmap_length, seq_length. lia.
    + rewrite list_lookup_fmap, lookup_seq_lt by lia. reflexivity.
    + apply ex_hash_ok; lia.
    + reflexivity.
  - lia.
Qed.

(** C68 is false even with leaves that hold whole hashes: after two bakes without reopening, looking up any unknown
    hash crashes (the first tier's object of before the second bake, closed, stays in the chain). *)
Theorem C68_unknown_hash_crashes_refuted :
  exists hs q0, Forall hash32 hs /\ NoDup hs /\ hash32 q0 /\ q0 ∉ hs /\
    forall ent srt R deep deepf, entropy_ok ent -> sort_ok srt -> R = 32%nat -> exists k,
      run top_cap top_quota (cake_bake ent srt R deep) (create top_quota) (Append <$> hs) = Ok k /\
      forall q, hash32 q -> q ∉ hs -> index_of (cake_find R deepf) k q = Panic.
Proof.
  pose proof top_cap_pos as Hp. pose proof top_cap_val as Hv. set (n := (2 * top_cap)%nat). exists (ex_hashes n), (ex_hash 7 0).
  split; [apply ex_hashes_ok; lia|]. split; [apply ex_hashes_nodup|]. split; [apply ex_hash_ok; lia|]. split.
  { apply (ex_hashes_not _ 7). lia. }
  intros ent srt R deep deepf He Hs ER. assert (HR : (R <= 32)%nat) by lia.
  destruct (ex_runs ent He srt Hs R HR deep n) as [k E]; [lia|]. exists k. split; [exact E|].
  destruct (real_state ent He srt Hs R HR deep deepf _ k (careful_appends [] _) E) as (I & I0 & A); [rewrite appended_appends, ex_hashes_length; lia|].
  assert (exists a b, ex_hashes n = a ++ b /\ length a = top_cap /\ length b = top_cap) as (a & b & Hab & Ha & Hb).
  { exists (take top_cap (ex_hashes n)), (drop top_cap (ex_hashes n)). clear -Hp. split; [exact (eq_sym (take_drop _ _))|]. rewrite take_length, drop_length, ex_hashes_length. subst n. lia. }
  assert (exists o o1 ch, k_chain k = o :: close o1 :: ch /\ o_forests o1 <> []) as (o & o1 & ch & Ech & Ho1).
  { rewrite Hab, fmap_app, run_app in E. destruct (run top_cap top_quota (cake_bake ent srt R deep) (create top_quota) (Append <$> a)) as [k1| |] eqn:E1; [|done|done].
    destruct (real_state ent He srt Hs R HR deep deepf _ k1 (careful_appends [] _) E1) as (J & J0 & _); [rewrite appended_appends; lia|]. rewrite appended_appends in J, J0.
    pose proof J0 as (fs & hs & E0 & H1 & H2 & _). pose proof (inv0_older k1 fs hs E0 H1) as Eo.
    pose proof (inv0_fs top_cap top_quota _ _ k1 fs hs J J0 E0) as Hfs. rewrite Ha, Nat.div_same in Hfs by (clear -Hp; lia).
    assert (Hk : k_slice k1 = []).
    { apply nil_length_inv. rewrite (i_len _ _ _ _ J). pose proof (f_equal length (i_all _ _ _ _ J)) as Hl. rewrite app_length, Eo, H2, Hfs, Ha in Hl. lia. }
    destruct (batch_chain top_cap top_quota _ 5 a k1 b k eq_refl J J0 Hk ltac:(lia) Hb E) as [o Ech].
    destruct (i_head _ _ _ _ J _ E0) as (o1 & ch & Ec1 & _ & Ho & _). cbn [fst] in Ho. rewrite Ec1 in Ech. exists o, o1, ch. split; [exact Ech|].
    rewrite Ho. intros ->. cbn [length] in Hfs. lia. }
  intros q Hq Hn. rewrite appended_appends in I, I0. pose proof I0 as (fs & hs & E0 & H1 & H2 & H3).
  unfold index_of. rewrite (i_map _ _ _ _ I). rewrite (proj2 (map_of_none (k_file k) q)).
  2: { intros Hin. apply Hn. rewrite (i_all _ _ _ _ I). apply elem_of_app. by right. }
  destruct (find_chain_first top_cap top_quota (cake_find R deepf) _ k fs hs q I E0) as (rest & _ & Er & ->).
  rewrite find_forests_none.
  - rewrite Er, Ech. cbn [tail find_chain]. unfold find_obj, close. cbn [o_forests o_file]. destruct (o_forests o1); [exact (False_ind _ (Ho1 eq_refl))|reflexivity].
  - intros y Hy. apply elem_of_list_lookup in Hy as [j Hy].
    destruct (forest_facts ent He srt Hs R HR deep deepf _ k fs hs j y (ex_hashes_ok n ltac:(lia)) I I0 E0 Hy) as (_ & _ & F3). apply F3; [exact ER|exact Hq|].
    intros Hin. apply batch_sub in Hin. exact (Hn Hin).
Qed.

(** ** C69: appending *)

(** C69. Appending works while the first tier has room, if no batch of 65535 has a repeat, and the hashes of a batch
    differ only in their first nine bytes. *)
Theorem C69_appending_works_partial :
  forall ent srt R deep m ops,
    entropy_ok ent -> sort_ok srt -> (R <= 32)%nat -> (m <= 9)%nat -> careful [] ops -> Forall hash32 (appended ∅ ops) ->
    (length (appended ∅ ops) < 5 * top_cap)%nat ->
    (forall j, ((j + 1) * top_cap <= length (appended ∅ ops))%nat ->
      NoDup (batch top_cap j (appended ∅ ops)) /\ same_from m (top_input 0 (batch top_cap j (appended ∅ ops)))) ->
    exists k, run top_cap top_quota (cake_bake ent srt R deep) (create top_quota) ops = Ok k.
Proof.
  intros ent srt R deep m ops He Hs HR Hm C Hok Hlen Hb. pose proof top_cap_pos as Hp. pose proof top_cap_val as Hv.
  apply (run_works top_cap top_quota (cake_bake ent srt R deep) 5 ops eq_refl [] []).
  - by apply inv_create.
  - apply top_create.
  - done.
  - by apply inv0_create.
  - exact Hlen.
  - change (k_vars (create top_quota)) with (∅ : gmap nat (list Z)). cbn [app]. intros j Hj. destruct (Hb j Hj) as [Hd Hsame]. unfold batch in Hd, Hsame. cbn [cake_bake].
    assert (Hl : length (take top_cap (drop (j * top_cap) (appended ∅ ops))) = top_cap) by (rewrite take_length, drop_length; lia).
    apply (bake_top_works ent He srt Hs R HR m); [done|by apply Forall_take, Forall_drop|done| |lia|rewrite Hl; lia|].
    + intros E0. rewrite E0 in Hl. cbn [length] in Hl. lia.
    + intros x y i Hx Hy Hi. apply top_input_elem in Hx as (a & g & Ea & ->), Hy as (b & h & Eb & ->). cbn [th_hash].
      apply (Hsame (mk_th g (0 + Z.of_nat a + 1)) (mk_th h (0 + Z.of_nat b + 1)) i); [apply top_input_elem; eauto|apply top_input_elem; eauto|done].
Qed.

(** C69. An append that succeeds answers with the number of hashes appended before it. *)
Theorem C69_indices_are_consecutive :
  forall F cap quota bakeF ops (k k' : cake (F:=F)) c h r,
    (1 <= cap)%nat -> run cap quota bakeF (create quota) ops = Ok k -> append cap quota bakeF k c h = Ok (k', r) -> r = Z.of_nat (length (appended ∅ ops)).
Proof.
  intros F cap quota bakeF ops k k' c h r Hc E Ea.
  pose proof (inv_run cap quota bakeF ops [] _ k (inv_create cap quota Hc) E) as I. destruct (inv_append _ _ _ _ _ _ _ _ _ I Ea) as (_ & Hr & _). exact Hr.
Qed.

(** C69 as stated is false: with a repeat among the 65535 hashes of a batch, the append that completes it crashes,
    whatever is done before and after. *)
Theorem C69_repeat_in_a_batch_refuted :
  forall ent srt R deep ops j,
    entropy_ok ent -> sort_ok srt -> (R <= 32)%nat -> careful [] ops -> Forall hash32 (appended ∅ ops) ->
    ((j + 1) * top_cap <= length (appended ∅ ops))%nat -> ~ NoDup (batch top_cap j (appended ∅ ops)) ->
    forall k, run top_cap top_quota (cake_bake ent srt R deep) (create top_quota) ops <> Ok k.
Proof.
  intros ent srt R deep ops j He Hs HR C Hok Hj Hn k E. pose proof top_cap_pos as Hp.
  pose proof (batches_run top_cap top_quota (cake_bake ent srt R deep) ops [] [] (create top_quota) k) as B.
  change (k_vars (create top_quota)) with (∅ : gmap nat (list Z)) in B. cbn [app] in B.
  destruct (B (inv_create _ _ Hp) (aligned_create _ _) (top_create _) C (batches_nil _ _ Hp) E j Hj) as [f Ef]. cbn [cake_bake] in Ef.
  rewrite (bake_top_repeat ent He srt Hs R HR) in Ef; [done|by apply Forall_take, Forall_drop|exact Hn].
Qed.

(** the smallest such history: the same hash at two of the first 65535 places *)
Example C69_repeat_example : exists hs, Forall hash32 hs /\ length hs = top_cap /\
  forall ent srt R deep k, entropy_ok ent -> sort_ok srt -> (R <= 32)%nat ->
    run top_cap top_quota (cake_bake ent srt R deep) (create top_quota) (Append <$> hs) <> Ok k.
Proof.
  pose proof top_cap_pos as Hp. pose proof top_cap_val as Hv. exists (<[1%nat := ex_hash 0 0]> (ex_hashes top_cap)).
  assert (Hl : length (<[1%nat := ex_hash 0 0]> (ex_hashes top_cap)) = top_cap) by (by rewrite insert_length, ex_hashes_length).
  assert (Hok : Forall hash32 (<[1%nat := ex_hash 0 0]> (ex_hashes top_cap))).
  { apply Forall_insert; [apply ex_hashes_ok; lia|apply ex_hash_ok; lia]. }
  split; [done|]. split; [done|]. intros ent srt R deep k He Hs HR.
  apply (C69_repeat_in_a_batch_refuted ent srt R deep _ 0 He Hs HR (careful_appends [] _)); rewrite appended_appends; [done|rewrite Hl; lia|].
  unfold batch. rewrite Nat.mul_0_l, drop_0, take_ge by lia. intros Hn.
  pose proof (NoDup_lookup _ 0%nat 1%nat (ex_hash 0 0) Hn) as Hx. rewrite list_lookup_insert in Hx by (rewrite ex_hashes_length; lia).
  rewrite list_lookup_insert_ne, ex_hashes_lookup, Nat.div_0_l, Nat.mod_0_l in Hx by lia. specialize (Hx eq_refl eq_refl). lia.
Qed.

(** ** The hypotheses can be met: four bakes' worth of hashes, two of them, and a reopening *)
Lemma ex_run : exists k, run top_cap top_quota (cake_bake ex_ent ex_srt 32 (fun _ _ _ _ => None)) (create top_quota) (Append <$> ex_hashes (4 * top_cap + 9)) = Ok k.
Proof. apply (ex_runs ex_ent ex_ent_ok ex_srt ex_srt_ok 32); [done|]. pose proof top_cap_val. lia. Qed.

Example C34_example : exists k h h',
  run top_cap top_quota (cake_bake ex_ent ex_srt 32 (fun _ _ _ _ => None)) (create top_quota) (Append <$> ex_hashes (4 * top_cap + 9)) = Ok k /\
  get_at k (Z.of_nat (3 * top_cap + 5)) = Ok h /\ get_at k 0 = Ok h' /\ h <> h'.
Proof.
  destruct ex_run as [k E]. pose proof top_cap_val as Hv. exists k, (ex_hash 3 5), (ex_hash 0 0). split; [exact E|].
  assert (Ed : ((4 * top_cap + 9) / top_cap = 4)%nat) by (symmetry; apply (Nat.div_unique _ _ 4 9); lia).
  assert (HG : forall i h, (i < 4 * top_cap)%nat -> ex_hashes (4 * top_cap + 9) !! i = Some h -> get_at k (Z.of_nat i) = Ok h).
  { intros i h Hi Hh. apply (C34_first_tier_partial _ top_cap top_quota _ 5 (Append <$> ex_hashes (4 * top_cap + 9)) k i h eq_refl (careful_appends [] _) E); rewrite appended_appends; rewrite ?ex_hashes_length; [clear -Hv; lia|done|]. rewrite Ed. exact Hi. }
  clear Ed E. split_and!.
  - apply HG; [clear -Hv; lia|]. rewrite ex_hashes_lookup by (clear -Hv; lia). rewrite <- (Nat.div_unique (3 * top_cap + 5) top_cap 3 5), <- (Nat.mod_unique (3 * top_cap + 5) top_cap 3 5) by (clear -Hv; lia). reflexivity.
  - apply (HG 0%nat); [clear -Hv; lia|]. rewrite ex_hashes_lookup by (clear -Hv; lia). rewrite Nat.div_0_l, Nat.mod_0_l by (clear -Hv; lia). reflexivity.
  - intros Ex. by apply ex_hash_inj in Ex as [Ex _].
Qed.

Example C35_example : exists k,
  run top_cap top_quota (cake_bake ex_ent ex_srt 32 (fun _ _ _ _ => None)) (create top_quota) (Append <$> ex_hashes (4 * top_cap + 9)) = Ok k /\
  index_of (cake_find 32 (fun _ _ _ => None)) k (ex_hash 3 5) = Ok (Z.of_nat (3 * top_cap + 5)) /\
  index_of (cake_find 32 (fun _ _ _ => None)) (reopen k) (ex_hash 9 5) = Ok (-1).
Proof.
  destruct ex_run as [k E]. pose proof top_cap_val as Hv. exists k. split; [exact E|]. split.
  - eapply (C35_distinct_hashes_partial ex_ent ex_srt 32 _ _ _ k _ _ ex_ent_ok ex_srt_ok); [done|apply careful_appends| | | |exact E| |by left]; rewrite appended_appends.
    + apply ex_hashes_ok. lia.
    + apply ex_hashes_nodup.
    + rewrite ex_hashes_length. lia.
    + rewrite ex_hashes_lookup by lia. rewrite <- (Nat.div_unique (3 * top_cap + 5) top_cap 3 5), <- (Nat.mod_unique (3 * top_cap + 5) top_cap 3 5) by (clear -Hv; lia). reflexivity.
  - eapply (C68_unknown_hash_partial ex_ent ex_srt 32 _ _ _ k (ex_hash 9 5) ex_ent_ok ex_srt_ok); [done|apply careful_appends| | |exact E|apply ex_hash_ok; lia|]; rewrite appended_appends.
    + apply ex_hashes_ok. lia.
    + rewrite ex_hashes_length. lia.
    + apply (ex_hashes_not _ 9). lia.
Qed.

Example C36_example : Forall hash32 (ex_hashes top_cap) /\ length (ex_hashes top_cap) = top_cap /\ NoDup (ex_hashes top_cap) /\ ~ careful [] (loop_ops [ex_hash 0 0; ex_hash 0 1]).
Proof.
  split; [apply ex_hashes_ok; pose proof top_cap_val; lia|]. split; [apply ex_hashes_length|]. split; [apply ex_hashes_nodup|].
  unfold loop_ops. cbn [fmap list_fmap concat app careful]. intros (_ & H & _). apply H. left.
Qed.

Print Assumptions C34_answers_are_right_partial.
Print Assumptions C34_before_first_bake_partial.
Print Assumptions C34_baked_after_reopening_partial.
Print Assumptions C34_first_tier_partial.
Print Assumptions C34_unbaked_after_bake_crashes.
Print Assumptions C34_every_index_answered_refuted.
Print Assumptions C35_before_first_bake_last_index.
Print Assumptions C35_repeated_hash_refuted.
Print Assumptions C35_distinct_hashes_partial.
Print Assumptions C35_distinct_hashes_refuted.
Print Assumptions C36_changed_later_refuted.
Print Assumptions C36_reused_variable_refuted.
Print Assumptions C36_after_reopening_partial.
Print Assumptions C36_other_answers_unchanged_partial.
Print Assumptions C68_unknown_hash_partial.
Print Assumptions C68_unknown_hash_found_refuted.
Print Assumptions C68_unknown_hash_crashes_refuted.
Print Assumptions C69_appending_works_partial.
Print Assumptions C69_indices_are_consecutive.
Print Assumptions C69_repeat_in_a_batch_refuted.
