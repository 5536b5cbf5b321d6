(** C91 and more of C69: baking a full tier into the next one. *)
From Verif Require Import Base Model_Tree Spec_Tree Prop_Tree Model_Chunk Spec_Chunk Proof_Node Prop_Chunk Model_Top Proof_Top Model_Cake Spec_Cake Proof_Cake Prop_Cake Model_Bake Proof_Chunk Proof_Bake.

(** ** C91: what a tier gives up *)

(** the forests made of consecutive batches, the first of which starts at index [off] *)
Fixpoint forests_of (ent : list thash -> nat -> Z) (srt : nat -> list thash -> list thash) (R : nat) (off : Z) (bs : list (list (list Z))) (fs : list (Z * forest)) : Prop :=
  match bs, fs with
  | [], [] => True
  | sh :: bs', (f0, f) :: fs' => f0 = off /\ bake_top ent srt R off sh = Some f /\ forests_of ent srt R (off + Z.of_nat (length sh)) bs' fs'
  | _, _ => False
  end.
Definition batch_ok (sh : list (list Z)) : Prop := sh <> [] /\ Forall hash32 sh /\ Z.of_nat (length sh) < 65536.

(** every hash with its index, counted from one *)
Definition indexed (off : Z) (hs : list (list Z)) : list thash := imap (fun i h => mk_th h (off + Z.of_nat i + 1)) hs.

Lemma top_input_app off a b : top_input off (a ++ b) = top_input off a ++ top_input (off + Z.of_nat (length a)) b.
Proof.
  unfold top_input. rewrite imap_app. f_equal. apply imap_ext. intros i x _. cbn. f_equal. lia.
Qed.

Section Gather.
  Context (ent : list thash -> nat -> Z) (Hent : entropy_ok ent) (srt : nat -> list thash -> list thash) (Hsrt : sort_ok srt) (R : nat) (HR : (R <= 32)%nat).

  Lemma gather_many bs : forall fs off base before, Forall batch_ok bs -> 0 <= base -> base + Z.of_nat (length before) = off -> forests_of ent srt R off bs fs ->
    exists ls, mapM (gather_forest (tier0 R) base (before ++ concat bs) 0) fs = Some ls /\ concat ls ≡ₚ top_input off (concat bs).
  Proof using All.
    induction bs as [|sh bs IH]; intros [|[f0 f] fs] off base before Hbs Hb Hoff Hfs; [by exists []|done|done|].
    destruct Hfs as (-> & Ef & Hfs). apply Forall_cons in Hbs as [(Hne & Hok & Hlen) Hbs].
    destruct (gather_batch ent Hent srt Hsrt R HR base (before ++ concat (sh :: bs)) off sh f Hok Hne ltac:(lia) ltac:(lia) Hlen) as (l & El & Hl).
    { intros i h Hi. replace (Z.to_nat (off - base)) with (length before) by lia. rewrite lookup_app_r by lia. replace (length before + i - length before)%nat with i by lia.
      cbn [concat]. rewrite lookup_app_l by (by eapply lookup_lt_Some). done. }
    { exact Ef. }
    destruct (IH fs (off + Z.of_nat (length sh)) base (before ++ sh) Hbs Hb) as (ls & Els & Hls).
    { rewrite app_length. lia. }
    { exact Hfs. }
    exists (l :: ls). split.
    - cbn [mapM]. rewrite El. cbn [mbind option_bind]. cbn [concat]. rewrite <- app_assoc in Els. rewrite Els. done.
    - cbn [concat]. rewrite Hl, Hls, top_input_app. done.
  Qed.
End Gather.

(** C91. The first tier: whatever batches it was baked from, collecting it for the next tier gives every hash of
    every batch once, with the index it was appended at.  Missing: the tiers below, where it is false (next). *)
Theorem C91_first_tier_gives_up_its_hashes_partial :
  forall ent srt R off bs fs,
    entropy_ok ent -> sort_ok srt -> (R <= 32)%nat -> 0 <= off -> bs <> [] -> Forall batch_ok bs -> forests_of ent srt R off bs fs ->
    exists l, gather (tier_cfg R 0) fs (concat bs) 0 = Some l /\ l ≡ₚ indexed off (concat bs).
Proof.
  intros ent srt R off bs fs He Hs HR Hoff Hne Hbs Hfs.
  destruct (gather_many ent He srt Hs R HR bs fs off off [] Hbs Hoff ltac:(cbn; lia) Hfs) as (ls & Els & Hls).
  destruct bs as [|sh bs]; [done|]. destruct fs as [|[f0 f] fs]; [done|]. destruct Hfs as (-> & _).
  exists (concat ls). split; [|exact Hls]. unfold gather. cbn [fst]. cbn [app] in Els. change (tier_cfg R 0) with (tier0 R). rewrite Els. done.
Qed.

(** In the tiers below it is false.  A forest of the second tier with a tree of three hashes and one of two: collecting
    the first tree crashes, and collecting the second gives the hashes of the first, so that the third tier can never
    be baked from it. *)
Definition ex_stored : list (list Z) := [two_bytes 0 1; two_bytes 0 2; two_bytes 0 3; two_bytes 1 1; two_bytes 1 2].
Lemma two_bytes_ok a b : 0 <= a < 256 -> 0 <= b < 256 -> hash32 (two_bytes a b).
Proof.
  intros Ha Hb. split; [done|]. unfold bytes, two_bytes. apply Forall_cons; split; [exact Ha|]. apply Forall_cons; split; [exact Hb|].
  apply Forall_replicate. unfold is_byte. lia.
Qed.
Lemma ex_stored_ok : Forall hash32 ex_stored.
Proof. unfold ex_stored. repeat (apply Forall_cons; split; [apply two_bytes_ok; lia|]). apply Forall_nil. done. Qed.
Theorem C91_next_tier_mixed_up_refuted :
  exists R ts f hs t1 l,
    Forall (wf R (fun pi => 0 < pi <= 5) (flags_init 32 1)) ts /\ length ts = 256%nat /\ bake (tier_cfg R 1) (tier_lid 0) ts = Some f /\
    Forall hash32 hs /\ NoDup hs /\ ts !! 1%nat = Some t1 /\ tree_pis t1 = [4; 5] /\
    gather (tier_cfg R 1) [(0, f)] hs 0 = None /\
    gather (tier_cfg R 1) [(0, f)] hs 1 = Some l /\ l = take 2 (indexed 0 hs) /\
    forall ent srt, bake_tier ent srt R 2 0 [(0, f)] hs = None.
Proof.
  exists 2%nat, ex_forest. eexists. exists ex_stored, ex_t1. eexists.
  split.
  { assert (forall a b pi, 0 < pi <= 5 -> wf 2 (fun pi => 0 < pi <= 5) (flip 1 (flags_init 32 1)) (lf a b pi)) as Hlf.
    { intros a b pi H. split; [vm_compute; reflexivity|done]. }
    unfold ex_forest. cbn [app]. rewrite !Forall_cons. split; [|split; [|by apply Forall_replicate]].
    - split; [vm_compute; reflexivity|]. split; [apply Nat.leb_le; vm_compute; reflexivity|]. intros v.
      destruct (v =? 1); [apply Hlf; lia|]. destruct (v =? 2); [apply Hlf; lia|]. destruct (v =? 3); [apply Hlf; lia|done].
    - split; [vm_compute; reflexivity|]. split; [apply Nat.leb_le; vm_compute; reflexivity|]. intros v.
      destruct (v =? 1); [apply Hlf; lia|]. destruct (v =? 2); [apply Hlf; lia|done]. }
  split; [vm_compute; reflexivity|]. split; [vm_compute; reflexivity|].
  split; [apply ex_stored_ok|].
  split. { apply (bool_decide_unpack _). vm_compute. exact I. }
  split; [done|]. split; [vm_compute; reflexivity|]. split; [vm_compute; reflexivity|]. split; [vm_compute; reflexivity|]. split; [vm_compute; reflexivity|].
  intros ent srt. unfold bake_tier. change (Z.to_nat (pow256 (c_pre (tier_cfg 2 (2 - 1))))) with 256%nat. change (seq 0 256) with (0%nat :: seq 1 255). cbn [mapM].
  match goal with |- context [gather ?c ?fs ?hs 0] => replace (gather c fs hs 0) with (@None (list thash)) by (vm_compute; reflexivity) end. done.
Qed.

(** ** C69: filling the first tier *)

Lemma nodup_buckets {A} (f : A -> Z) (h : A -> list Z) (vs : list Z) : (forall x y, h x = h y -> f x = f y) -> forall l,
  (forall x, x ∈ l -> f x ∈ vs) -> (forall v, v ∈ vs -> NoDup (h <$> filter (fun x => f x = v) l)) -> NoDup (h <$> l).
Proof.
  intros Hf. induction l as [|x l IH]; intros Hin Hnd; [apply NoDup_nil; done|]. rewrite fmap_cons. apply NoDup_cons. split.
  - intros Hx. apply elem_of_list_fmap in Hx as (y & E & Hy). pose proof (Hnd (f x) (Hin x ltac:(by left))) as Hd.
    rewrite filter_cons_True in Hd by done. rewrite fmap_cons in Hd. apply NoDup_cons in Hd as [Hd _]. apply Hd. rewrite E.
    apply elem_of_list_fmap. exists y. split; [done|]. apply elem_of_list_filter. split; [symmetry; by apply Hf|done].
  - apply IH; [intros y Hy; apply Hin; by right|]. intros v Hv. pose proof (Hnd v Hv) as Hd. rewrite filter_cons in Hd. case_decide; [|done].
    rewrite fmap_cons in Hd. by apply NoDup_cons in Hd as [_ Hd].
Qed.

(** A repeat anywhere in the first tier: it cannot be baked into the second. *)
Lemma bake_tier_repeat ent srt R off bs fs :
  entropy_ok ent -> sort_ok srt -> (R <= 32)%nat -> 0 <= off -> bs <> [] -> Forall batch_ok bs -> forests_of ent srt R off bs fs ->
  ~ NoDup (concat bs) -> bake_tier ent srt R 1 off fs (concat bs) = None.
Proof.
  intros He Hs HR Hoff Hne Hbs Hfs Hn.
  destruct (C91_first_tier_gives_up_its_hashes_partial ent srt R off bs fs He Hs HR Hoff Hne Hbs Hfs) as (l & El & Hl).
  unfold bake_tier. change (seq 0 (Z.to_nat (pow256 (c_pre (tier_cfg R (1 - 1)))))) with [0%nat]. change (tier_cfg R (1 - 1)) with (tier_cfg R 0). cbn [mapM].
  rewrite El. cbn [mbind option_bind]. change (Nat.eqb 1 1) with true. cbn [andb]. change (c_pre (tier_cfg R 1) - 1)%nat with 0%nat.
  cbn [mret option_ret mbind option_bind].
  destruct (forallb (fun b : list thash => bool_decide (NoDup (th_hash <$> b))) (buckets 0 [l])) eqn:Eb; [|done]. exfalso. apply Hn.
  assert (Hhash : th_hash <$> l ≡ₚ concat bs) by (rewrite Hl; change (indexed off (concat bs)) with (top_input off (concat bs)); by rewrite (top_input_hashes off (concat bs))).
  rewrite <- Hhash. rewrite forallb_forall in Eb.
  apply (nodup_buckets (fun x => th_hash x !!! 0%nat) th_hash byte_vals).
  - intros x y E. by rewrite E.
  - intros x Hx. assert (Hh : hash32 (th_hash x)).
    { assert (Hin : th_hash x ∈ concat bs) by (rewrite <- Hhash; apply elem_of_list_fmap; by exists x).
      clear -Hin Hbs. induction Hbs as [|sh bs (_ & Hok & _) _ IH]; [by apply elem_of_nil in Hin|]. cbn [concat] in Hin. apply elem_of_app in Hin as [Hin|Hin]; [|by apply IH].
      rewrite Forall_forall in Hok. by apply Hok. }
    destruct Hh as [H1 H2]. apply byte_vals_in. destruct (th_hash x) as [|b h]; [done|]. apply Forall_cons in H2 as [H2 _]. exact H2.
  - intros v Hv. assert (Hin : In (bucket 0 l v) (buckets 0 [l])).
    { unfold buckets. cbn [map concat]. rewrite app_nil_r. apply in_map. by apply elem_of_list_In. }
    apply Eb in Hin. by apply bool_decide_eq_true in Hin.
Qed.

(** the first tier when its last place is taken *)
Section Full.
  Context {F : Type} (cap : nat) (q0 q1 : nat) (qs : list nat) (bakeF : nat -> Z -> list (Z * F) -> list (list Z) -> option F).
  Notation quota := (q0 :: q1 :: qs).

  Lemma full_append all used k c h k' r : inv cap quota all k -> top_ok used k -> inv0 cap bakeF all k -> deref (k_vars k) c = h ->
    append cap quota bakeF k c h = Ok (k', r) -> (length all + 1 = q0 * cap)%nat ->
    exists fs, length fs = q0 /\ (forall j x, fs !! j = Some x -> fst x = Z.of_nat (j * cap) /\ bakeF 0 (fst x) [] (take cap (drop (j * cap) (all ++ [h]))) = Some (snd x)) /\
      is_Some (bakeF 1 0 fs (all ++ [h])).
  Proof using.
    intros I [T _] I0 Ec E Hlen. pose proof I as []. unfold append in E. cbv zeta in E.
    destruct (Nat.leb_spec cap (length (k_slice k))) as [H|H]; [done|].
    destruct I0 as (fs & hs & E0 & H1 & H2 & H3). pose proof (inv0_older k fs hs E0 H1) as Eo.
    assert (Eall : length all = (length fs * cap + length (k_slice k))%nat).
    { rewrite i_all, app_length, Eo, i_len. lia. }
    assert (Hq : q0 = S (length fs)).
    { destruct (decide (q0 <= length fs)%nat) as [Hle|Hgt]; [exfalso|].
      - assert (q0 * cap <= length fs * cap)%nat by (by apply Nat.mul_le_mono_r). lia.
      - destruct (decide (q0 = S (length fs))); [done|exfalso]. assert (S (S (length fs)) * cap <= q0 * cap)%nat by (apply Nat.mul_le_mono_r; lia). lia. }
    assert (Hs : S (length (k_slice k)) = cap) by (rewrite Hq in Hlen; lia). rewrite Hs, Nat.eqb_refl in E.
    destruct (write quota bakeF (length quota) 0 _ [] _ _ _ _) as [[disk ch]|] eqn:Ew; [|done]. clear E.
    change (length quota) with (S (S (length qs))) in Ew. remember (S (length qs)) as n1 eqn:En1. cbn [write] in Ew. rewrite E0 in Ew. change (quota !! 0%nat) with (Some q0) in Ew.
    rewrite fmap_app, T in Ew. cbn [fmap list_fmap] in Ew. rewrite Ec in Ew.
    destruct (bakeF 0 (k_first k) [] (k_file k ++ [h])) as [f|] eqn:Eb; [|done]. cbv zeta in Ew.
    rewrite app_length in Ew. cbn [length] in Ew. rewrite Hq in Ew at 1. rewrite Nat.add_1_r, Nat.eqb_refl in Ew.
    destruct (write quota bakeF n1 1 _ _ _ _ _ _) as [[disk' ch']|] eqn:Ew1; [|done]. clear Ew. apply write_baked in Ew1.
    assert (Ef : k_first k = Z.of_nat (length fs * cap)) by (rewrite i_first, Eo, H2; done).
    assert (Hfs : forall j x, (fs ++ [(k_first k, f)]) !! j = Some x -> fst x = Z.of_nat (j * cap) /\ bakeF 0 (fst x) [] (take cap (drop (j * cap) (all ++ [h]))) = Some (snd x)).
    { intros j x Hj. apply lookup_app_Some in Hj as [Hj|[Hj1 Hj2]].
      - destruct (H3 j x Hj) as [A B]. split; [done|]. rewrite <- B. f_equal. pose proof (lookup_lt_Some _ _ _ Hj) as Hlt.
        assert ((j + 1) * cap <= length fs * cap)%nat by (apply Nat.mul_le_mono_r; lia).
        rewrite drop_app_le by lia. rewrite take_app_le; [done|]. rewrite drop_length. lia.
      - apply list_lookup_singleton_Some in Hj2 as [Hj2 <-]. assert (j = length fs) as -> by lia. cbn [fst snd].
        split; [done|]. rewrite <- Eb. f_equal.
        rewrite i_all, Eo, <- app_assoc. rewrite <- H2, drop_app. rewrite take_ge; [done|]. rewrite app_length, <- i_len. cbn [length]. lia. }
    exists (fs ++ [(k_first k, f)]). split; [rewrite app_length; cbn [length]; lia|]. split; [exact Hfs|].
    assert (Hh : fst (hd (k_first k, f) (fs ++ [(k_first k, f)])) = 0).
    { destruct fs as [|x fs']; [cbn; cbn in Ef; lia|]. cbn. destruct (H3 0%nat x eq_refl) as [A _]. rewrite A. lia. }
    rewrite Hh in Ew1. replace (all ++ [h]) with (hs ++ k_file k ++ [h]); [exact Ew1|]. rewrite i_all, Eo, <- app_assoc. done.
  Qed.

  Lemma full_run ops : forall used all k k', inv cap quota all k -> top_ok used k -> careful used ops -> inv0 cap bakeF all k ->
    (length all < q0 * cap)%nat -> (q0 * cap <= length (all ++ appended (k_vars k) ops))%nat -> run cap quota bakeF k ops = Ok k' ->
    exists fs, length fs = q0 /\ (forall j x, fs !! j = Some x -> fst x = Z.of_nat (j * cap) /\ bakeF 0 (fst x) [] (take cap (drop (j * cap) (all ++ appended (k_vars k) ops))) = Some (snd x)) /\
      is_Some (bakeF 1 0 fs (take (q0 * cap) (all ++ appended (k_vars k) ops))).
  Proof using.
    induction ops as [|o ops IH]; intros used all k k' I T C I0 Hlt Hge E.
    { cbn [appended] in Hge. rewrite app_nil_r in Hge. lia. }
    cbn [run] in E. destruct (step cap quota bakeF k o) as [k1| |] eqn:Es; [|done|done].
    destruct (inv_step cap quota bakeF o all k k1 I Es) as (x & I1 & Ex). destruct (careful_step cap quota bakeF o ops used k k1 T C Es) as (used' & T1 & C1).
    rewrite Ex in Hge |- *. specialize (Ex []). cbn [appended] in Ex. rewrite app_nil_r in Ex.
    assert (Happ : forall c h r, x = [h] -> deref (k_vars k) c = h -> append cap quota bakeF k c h = Ok (k1, r) ->
      exists fs, length fs = q0 /\ (forall j y, fs !! j = Some y -> fst y = Z.of_nat (j * cap) /\ bakeF 0 (fst y) [] (take cap (drop (j * cap) (all ++ x ++ appended (k_vars k1) ops))) = Some (snd y)) /\
      is_Some (bakeF 1 0 fs (take (q0 * cap) (all ++ x ++ appended (k_vars k1) ops)))).
    { intros c h r -> Ec Ea. destruct (decide (length all + 1 < q0 * cap)%nat) as [Hs|Hs].
      - pose proof (inv0_append cap quota bakeF q0 all used k c h k1 r eq_refl I T I0 Ec Ea Hs) as I01. rewrite !app_assoc in *.
        apply (IH used' (all ++ [h]) k1 k' I1 T1 C1 I01); [rewrite app_length; cbn [length]; lia|exact Hge|exact E].
      - destruct (full_append all used k c h k1 r I T I0 Ec Ea ltac:(lia)) as (fs & Hl & Hfs & Hb). exists fs. split; [done|]. rewrite !app_assoc.
        assert (Hla : length (all ++ [h]) = (q0 * cap)%nat) by (rewrite app_length; cbn [length]; lia). split.
        + intros j y Hj. destruct (Hfs j y Hj) as [A B]. split; [done|]. rewrite <- B. f_equal. pose proof (lookup_lt_Some _ _ _ Hj) as Hlt'. rewrite Hl in Hlt'.
          apply batch_app. rewrite Hla. apply Nat.mul_le_mono_r. lia.
        + rewrite <- Hla, take_app. exact Hb. }
    destruct o as [h|v|v h|]; cbn [step] in Es.
    - destruct (append cap quota bakeF k (Own h) h) as [[k2 r]| |] eqn:Ea; [|done|done]. injection Es as ->. by eapply (Happ (Own h) h).
    - destruct (append cap quota bakeF k (Shared v) _) as [[k2 r]| |] eqn:Ea; [|done|done]. injection Es as ->. by eapply (Happ (Shared v)).
    - injection Es as <-. subst x. cbn [app]. rewrite app_nil_r in I1. apply (IH used' all _ k' I1 T1 C1); [exact I0|exact Hlt|exact Hge|exact E].
    - injection Es as <-. subst x. cbn [app]. rewrite app_nil_r in I1. apply (IH used' all _ k' I1 T1 C1); [exact I0|exact Hlt|exact Hge|exact E].
  Qed.
End Full.

Fixpoint split_batches (n cap : nat) (hs : list (list Z)) : list (list (list Z)) :=
  match n with O => [] | S n' => take cap hs :: split_batches n' cap (drop cap hs) end.
Lemma split_concat n cap : forall hs, (n * cap <= length hs)%nat -> concat (split_batches n cap hs) = take (n * cap) hs.
Proof.
  induction n as [|n IH]; intros hs H; [done|]. cbn [split_batches concat]. rewrite IH by (rewrite drop_length; lia).
  rewrite <- (take_drop cap hs) at 3. rewrite take_app_alt' || (rewrite take_app_ge by (rewrite take_length; lia)). rewrite take_length, Nat.min_l by lia. f_equal. f_equal. lia.
Qed.

(** C69 is false of repeats across batches as well: if two of the first 327675 hashes are equal, the append that fills
    the first tier (or an earlier one) crashes, wherever the two are, whatever is done before and after. *)
Theorem C69_repeat_in_the_first_tier_refuted :
  forall ent srt R ops,
    entropy_ok ent -> sort_ok srt -> (R <= 32)%nat -> careful [] ops -> Forall hash32 (appended ∅ ops) ->
    (5 * top_cap <= length (appended ∅ ops))%nat -> ~ NoDup (take (5 * top_cap) (appended ∅ ops)) ->
    forall k, run top_cap top_quota (cake_bake ent srt R (bake_tier ent srt R)) (create top_quota) ops <> Ok k.
Proof.
  intros ent srt R ops He Hs HR C Hok Hlen Hn k E. pose proof top_cap_pos as Hp. pose proof top_cap_val as Hv.
  pose proof (full_run top_cap 5 255 [255; 255]%nat (cake_bake ent srt R (bake_tier ent srt R)) ops [] [] (create top_quota) k (inv_create _ _ Hp) (top_create _) C) as Hf.
  change (k_vars (create top_quota)) with (∅ : gmap nat (list Z)) in Hf. cbn [app] in Hf.
  destruct Hf as (fs & Hl & Hfs & [f Hb]); [by apply inv0_create|cbn [length]; lia|exact Hlen|exact E|].
  cbn [cake_bake] in Hfs, Hb. set (all := appended ∅ ops) in *.
  rewrite <- (split_concat 5 top_cap all Hlen) in Hb, Hn.
  assert (Hgen : forall n m, (n + m = 5)%nat -> Forall batch_ok (split_batches n top_cap (drop (m * top_cap) all)) /\
    forests_of ent srt R (Z.of_nat (m * top_cap)) (split_batches n top_cap (drop (m * top_cap) all)) (drop m fs)).
  { induction n as [|n IH]; intros m Hm.
    - split; [by apply Forall_nil|]. rewrite (drop_ge fs m) by lia. done.
    - destruct (IH (S m) ltac:(lia)) as [A B]. cbn [split_batches]. rewrite drop_drop. replace (m * top_cap + top_cap)%nat with (S m * top_cap)%nat by lia.
      assert ((m + 1) * top_cap <= 5 * top_cap)%nat as Hle by (apply Nat.mul_le_mono_r; lia).
      assert (Hbl : length (take top_cap (drop (m * top_cap) all)) = top_cap) by (rewrite take_length, drop_length; lia).
      split.
      + apply Forall_cons. split; [|exact A]. split; [intros E0; rewrite E0 in Hbl; cbn [length] in Hbl; lia|]. split; [by apply Forall_take, Forall_drop|]. rewrite Hbl. lia.
      + destruct (lookup_lt_is_Some_2 fs m ltac:(lia)) as [[f0 g] Hg]. rewrite (drop_S _ _ _ Hg). destruct (Hfs m _ Hg) as [F1 F2]. cbn [fst snd] in F1, F2. cbn [forests_of].
        split; [done|]. split; [by rewrite <- F1|]. rewrite Hbl. replace (Z.of_nat (m * top_cap) + Z.of_nat top_cap) with (Z.of_nat (S m * top_cap)) by lia. exact B. }
  destruct (Hgen 5%nat 0%nat eq_refl) as [A B]. cbn [Nat.mul] in A, B. rewrite !drop_0 in A, B. change (Z.of_nat 0) with 0 in B.
  rewrite (bake_tier_repeat ent srt R 0 (split_batches 5 top_cap all) fs He Hs HR ltac:(lia) ltac:(done) A B Hn) in Hb. done.
Qed.

(** such a history: no batch has a repeat, but the first hash of all comes again at the start of the second batch *)
Example C69_repeat_across_batches_example : exists hs, Forall hash32 hs /\ length hs = (5 * top_cap)%nat /\
  (forall j, (j < 5)%nat -> NoDup (batch top_cap j hs)) /\
  forall ent srt R k, entropy_ok ent -> sort_ok srt -> (R <= 32)%nat ->
    run top_cap top_quota (cake_bake ent srt R (bake_tier ent srt R)) (create top_quota) (Append <$> hs) <> Ok k.
Proof.
  pose proof top_cap_pos as Hp. pose proof top_cap_val as Hv. pose (hs := <[top_cap := ex_hash 0 0]> (ex_hashes (5 * top_cap))).
  assert (Hl : length hs = (5 * top_cap)%nat) by (unfold hs; by rewrite insert_length, ex_hashes_length).
  assert (Hok : Forall hash32 hs) by (apply Forall_insert; [apply ex_hashes_ok; lia|apply ex_hash_ok; lia]).
  assert (Hlk : forall i h, hs !! i = Some h -> (i = top_cap /\ h = ex_hash 0 0) \/ (i <> top_cap /\ h = ex_hash (Z.of_nat (i / top_cap)) (i mod top_cap))).
  { intros i h Hi. pose proof (lookup_lt_Some _ _ _ Hi) as Hlt. rewrite Hl in Hlt. unfold hs in Hi. destruct (decide (i = top_cap)) as [->|Hne].
    - rewrite list_lookup_insert in Hi by (by rewrite ex_hashes_length). left. apply (inj Some) in Hi. split; [reflexivity|]. symmetry. exact Hi.
    - rewrite list_lookup_insert_ne, ex_hashes_lookup in Hi by done. right. apply (inj Some) in Hi. split; [exact Hne|]. symmetry. exact Hi. }
  exists hs. split; [done|]. split; [done|]. split.
  - intros j Hj. unfold batch. apply NoDup_alt. intros a b h Ha Hb.
    assert (Ha' : (a < top_cap)%nat) by (apply lookup_lt_Some in Ha; rewrite take_length in Ha; lia).
    assert (Hb' : (b < top_cap)%nat) by (apply lookup_lt_Some in Hb; rewrite take_length in Hb; lia).
    rewrite lookup_take, lookup_drop in Ha, Hb by done. apply Hlk in Ha, Hb.
    assert (Hdm : forall c, (c < top_cap)%nat -> ((j * top_cap + c) / top_cap = j /\ (j * top_cap + c) mod top_cap = c)%nat).
    { intros c Hc. rewrite Nat.add_comm, Nat.div_add, Nat.mod_add by lia. rewrite Nat.div_small, Nat.mod_small by (exact Hc). split; reflexivity. }
    destruct (Hdm a Ha') as [Da Ma], (Hdm b Hb') as [Db Mb].
    destruct Ha as [[Ea ->]|[Ea ->]], Hb as [[Eb Hh]|[Eb Hh]].
    + clear -Ea Eb. lia.
    + apply ex_hash_inj in Hh as [Hh _]. rewrite Db in Hh. assert (j = 0%nat) as -> by (clear -Hh; lia). clear -Ea Ha'. lia.
    + apply ex_hash_inj in Hh as [Hh _]. rewrite Da in Hh. assert (j = 0%nat) as -> by (clear -Hh; lia). clear -Eb Hb'. lia.
    + apply ex_hash_inj in Hh as [_ Hh]. rewrite Ma, Mb in Hh. exact Hh.
  - intros ent srt R k He Hs HR.
    apply (C69_repeat_in_the_first_tier_refuted ent srt R _ He Hs HR (careful_appends [] _)); rewrite appended_appends; [done|rewrite Hl; lia|].
    rewrite take_ge by lia. intros Hn. pose proof (NoDup_lookup hs 0%nat top_cap (ex_hash 0 0) Hn) as Hx.
    unfold hs in Hx. rewrite list_lookup_insert in Hx by (rewrite ex_hashes_length; lia).
    rewrite list_lookup_insert_ne, ex_hashes_lookup, Nat.div_0_l, Nat.mod_0_l in Hx by lia. specialize (Hx eq_refl eq_refl). lia.
Qed.

(** the hypotheses of C91: the first two batches of the example *)
Example C91_example : exists bs fs, Forall batch_ok bs /\ map length bs = [top_cap; top_cap] /\ NoDup (concat bs) /\
  entropy_ok ex_ent /\ sort_ok ex_srt /\ forests_of ex_ent ex_srt 32 0 bs fs.
Proof.
  pose proof top_cap_pos as Hp. pose proof top_cap_val as Hv. pose (hs := ex_hashes (2 * top_cap)).
  assert (Hl : length hs = (2 * top_cap)%nat) by (unfold hs; by rewrite ex_hashes_length).
  assert (Hok : Forall hash32 hs) by (apply ex_hashes_ok; lia).
  pose proof (ex_bakes ex_ent ex_ent_ok ex_srt ex_srt_ok 32 ltac:(lia) (fun _ _ _ _ => None) (2 * top_cap) ltac:(lia)) as Hb. fold hs in Hb.
  destruct (Hb 0%nat ltac:(lia)) as [f0 E0], (Hb 1%nat ltac:(lia)) as [f1 E1]. cbn [cake_bake] in E0, E1.
  rewrite Nat.mul_0_l, drop_0 in E0. rewrite Nat.mul_1_l in E1.
  assert (L0 : length (take top_cap hs) = top_cap) by (rewrite take_length; lia).
  assert (L1 : length (take top_cap (drop top_cap hs)) = top_cap) by (rewrite take_length, drop_length; lia).
  exists [take top_cap hs; take top_cap (drop top_cap hs)], [(0, f0); (Z.of_nat top_cap, f1)]. split_and!.
  - apply Forall_cons; split; [|apply Forall_cons; split; [|by apply Forall_nil]].
    + split; [intros E; rewrite E in L0; cbn [length] in L0; lia|]. split; [by apply Forall_take|]. rewrite L0. lia.
    + split; [intros E; rewrite E in L1; cbn [length] in L1; lia|]. split; [by apply Forall_take, Forall_drop|]. rewrite L1. lia.
  - cbn [map]. by rewrite L0, L1.
  - cbn [concat]. rewrite app_nil_r. rewrite (take_ge (drop top_cap hs)) by (rewrite drop_length; lia). rewrite take_drop. apply ex_hashes_nodup.
  - apply ex_ent_ok.
  - apply ex_srt_ok.
  - cbn [forests_of]. split; [done|]. split; [exact E0|]. rewrite L0. split; [lia|]. split; [exact E1|]. done.
Qed.

Print Assumptions C91_first_tier_gives_up_its_hashes_partial.
Print Assumptions C91_next_tier_mixed_up_refuted.
Print Assumptions C69_repeat_in_the_first_tier_refuted.
