(** A tree that is exactly full: 65279 hashes in 257 nodes, 65536 in all. *)
From Verif Require Import Base Model_Tree Spec_Tree Proof_Tree Model_Pool Spec_Pool Proof_Pool Model_Fixed Proof_Fixed.

Definition hh (a b : nat) : list Z := Z.of_nat a :: Z.of_nat b :: replicate 30 0.
(** all pairs of two different bytes, except for 0, 1 *)
Definition row (a : nat) : list nat := filter (fun b => b <> a /\ ~ (a = 0%nat /\ b = 1%nat)) (seq 0 256).
Definition full_hashes : list (list Z) := concat ((fun a => hh a <$> row a) <$> seq 0 256).
Definition full_input : list thash := imap (fun i h => mk_th h (Z.of_nat i)) full_hashes.

Lemma row_elem a b : b ∈ row a <-> (b < 256)%nat /\ b <> a /\ ~ (a = 0%nat /\ b = 1%nat).
Proof. unfold row. rewrite elem_of_list_filter, elem_of_seq. split; [intros [? ?]; split; [lia|done]|intros (? & ? & ?); split; [done|lia]]. Qed.
Lemma row_length : Forall (fun a => length (row a) = if Nat.eqb a 0 then 254%nat else 255%nat) (seq 0 256).
Proof.
  assert (H : forallb (fun a => Nat.eqb (length (row a)) (if Nat.eqb a 0 then 254 else 255)%nat) (seq 0 256) = true) by (vm_compute; reflexivity).
  rewrite forallb_forall in H. apply Forall_forall. intros a Ha. apply Nat.eqb_eq, H. by apply elem_of_list_In.
Qed.
Lemma full_hashes_length : Z.of_nat (length full_hashes) = 65279.
Proof.
  unfold full_hashes.
  assert (H : forall l, Forall (fun a => length (row a) = if Nat.eqb a 0 then 254%nat else 255%nat) l ->
    Z.of_nat (length (concat ((fun a => hh a <$> row a) <$> l))) = foldr (fun a z => (if Nat.eqb a 0 then 254 else 255) + z) 0 l).
  { induction l as [|a l IH]; intros Hl; [done|]. apply Forall_cons in Hl as [Ha Hl]. rewrite fmap_cons. cbn [concat foldr]. rewrite app_length, fmap_length, Nat2Z.inj_add, IH, Ha by done. by destruct (Nat.eqb a 0). }
  rewrite (H _ row_length). vm_compute. reflexivity.
Qed.
Lemma full_length : Z.of_nat (length full_input) = 65279.
Proof. unfold full_input. rewrite imap_length. exact full_hashes_length. Qed.
Lemma full_hashes_elem h : h ∈ full_hashes <-> exists a b, h = hh a b /\ (a < 256)%nat /\ b ∈ row a.
Proof.
  unfold full_hashes. rewrite elem_of_list_In, in_concat. split.
  - intros (l & Hl & Hh). apply elem_of_list_In, elem_of_list_fmap in Hl as (a & -> & Ha). apply elem_of_list_In, elem_of_list_fmap in Hh as (b & -> & Hb). apply elem_of_seq in Ha. exists a, b. split_and!; [done|lia|done].
  - intros (a & b & -> & Ha & Hb). exists (hh a <$> row a). split; apply elem_of_list_In.
    + apply (elem_of_list_fmap_1 (fun a => hh a <$> row a)). apply elem_of_seq. lia.
    + by apply elem_of_list_fmap_1.
Qed.
Lemma hh_inj a b a' b' : hh a b = hh a' b' -> a = a' /\ b = b'.
Proof. unfold hh. intros H. injection H as H1 H2. split; by apply Nat2Z.inj. Qed.
Lemma full_hashes_nodup : NoDup full_hashes.
Proof.
  unfold full_hashes. assert (H : forall l, NoDup l -> NoDup (concat ((fun a => hh a <$> row a) <$> l))); [|apply H, NoDup_seq].
  induction l as [|a l IH]; intros Hl; [constructor|]. apply NoDup_cons in Hl as [Ha Hl]. rewrite fmap_cons. cbn [concat]. apply NoDup_app. split_and!.
  - apply NoDup_fmap_2; [|unfold row; apply NoDup_filter, NoDup_seq]. intros b b' E. apply (hh_inj a b a b' E).
  - intros x Hx Hx'. apply elem_of_list_fmap in Hx as (b & -> & _). apply elem_of_list_In, in_concat in Hx' as (k & Hk & Hx). apply elem_of_list_In, elem_of_list_fmap in Hk as (a' & -> & Ha').
    apply elem_of_list_In, elem_of_list_fmap in Hx as (b' & E & _). apply hh_inj in E as [-> _]. done.
  - by apply IH.
Qed.
Lemma full_hash_fmap : th_hash <$> full_input = full_hashes.
Proof.
  apply list_eq. intros i. rewrite list_lookup_fmap. unfold full_input. rewrite list_lookup_imap. by destruct (full_hashes !! i).
Qed.
Lemma full_distinct : distinct full_input.
Proof. unfold distinct. rewrite full_hash_fmap. exact full_hashes_nodup. Qed.
Lemma full_numbered : numbered 0 full_input.
Proof. intros i x H. unfold full_input in H. rewrite list_lookup_imap in H. destruct (full_hashes !! i); [|done]. cbn in H. apply (inj Some) in H as <-. cbn [th_pi]. lia. Qed.
Lemma full_elem x : x ∈ full_input -> exists a b, th_hash x = hh a b /\ (a < 256)%nat /\ b ∈ row a.
Proof. intros H. apply full_hashes_elem. rewrite <- full_hash_fmap. by apply elem_of_list_fmap_1. Qed.
Lemma full_has a b : (a < 256)%nat -> b ∈ row a -> exists x, x ∈ full_input /\ th_hash x = hh a b.
Proof.
  intros Ha Hb. assert (H : hh a b ∈ th_hash <$> full_input) by (rewrite full_hash_fmap; apply full_hashes_elem; by exists a, b).
  apply elem_of_list_fmap in H as (x & E & Hx). exists x. by split.
Qed.
Lemma full_ok : hashes_ok 32 full_input.
Proof.
  intros x Hx. destruct (full_elem x Hx) as (a & b & -> & Ha & Hb). apply row_elem in Hb. split; [reflexivity|]. unfold hh. apply Forall_cons. split; [unfold is_byte; lia|].
  apply Forall_cons. split; [unfold is_byte; lia|]. apply Forall_replicate. unfold is_byte. lia.
Qed.
Lemma full_nodup : NoDup full_input.
Proof. pose proof full_distinct as H. unfold distinct in H. by apply NoDup_fmap_1 in H. Qed.
Lemma full_nonempty : full_input <> [].
Proof. intros E. pose proof full_length as H. rewrite E in H. cbn [length] in H. lia. Qed.
Lemma full_byte x y j : x ∈ full_input -> y ∈ full_input -> (2 <= j)%nat -> th_hash x !!! j = th_hash y !!! j.
Proof.
  intros Hx Hy Hj. destruct (full_elem x Hx) as (a & b & -> & _ & _). destruct (full_elem y Hy) as (a' & b' & -> & _ & _). destruct j as [|[|j]]; [lia|lia|]. reflexivity.
Qed.
Global Opaque full_input.

(** every byte value occurs at least twice in both of the first two places *)
Lemma full_two bi v : (bi < 2)%nat -> (v < 256)%nat -> exists x y, x ∈ full_input /\ y ∈ full_input /\ x <> y /\ th_hash x !!! bi = Z.of_nat v /\ th_hash y !!! bi = Z.of_nat v.
Proof.
  intros Hbi Hv.
  assert (Hpick : exists c d : nat, c <> d /\ c <> v /\ d <> v /\ (c = 10 \/ c = 20 \/ c = 30)%nat /\ (d = 10 \/ d = 20 \/ d = 30)%nat).
  { destruct (decide (v = 10)%nat) as [->|]; [exists 20%nat, 30%nat; lia|]. destruct (decide (v = 20)%nat) as [->|]; [exists 10%nat, 30%nat; lia|]. exists 10%nat, 20%nat. lia. }
  destruct Hpick as (c & d & Hcd & Hc & Hd & Hc' & Hd'). destruct bi as [|[|bi]]; [| |lia].
  - destruct (full_has v c Hv) as (x & Hx & Ex); [apply row_elem; lia|]. destruct (full_has v d Hv) as (y & Hy & Ey); [apply row_elem; lia|].
    exists x, y. split_and!; [done|done| |by rewrite Ex|by rewrite Ey]. intros ->. rewrite Ex in Ey. apply hh_inj in Ey as [_ ?]. done.
  - destruct (full_has c v) as (x & Hx & Ex); [lia|apply row_elem; lia|]. destruct (full_has d v) as (y & Hy & Ey); [lia|apply row_elem; lia|].
    exists x, y. split_and!; [done|done| |by rewrite Ex|by rewrite Ey]. intros ->. rewrite Ex in Ey. apply hh_inj in Ey as [? _]. done.
Qed.
(** the two bytes determine the hash *)
Lemma full_same x y : x ∈ full_input -> y ∈ full_input -> th_hash x !!! 0%nat = th_hash y !!! 0%nat -> th_hash x !!! 1%nat = th_hash y !!! 1%nat -> x = y.
Proof.
  intros Hx Hy H0 H1. destruct (full_elem x Hx) as (a & b & Ex & _ & _). destruct (full_elem y Hy) as (a' & b' & Ey & _ & _). rewrite Ex, Ey in *.
  change (Z.of_nat a = Z.of_nat a') in H0. change (Z.of_nat b = Z.of_nat b') in H1. apply Nat2Z.inj in H0, H1. subst a' b'.
  apply (distinct_two full_input); [exact full_distinct|done|done|by rewrite Ex, Ey].
Qed.

Lemma two_elems {A} (l : list A) x y : x ∈ l -> y ∈ l -> x <> y -> (2 <= length l)%nat.
Proof. intros Hx Hy Hxy. destruct l as [|p [|q r]]; [by apply elem_of_nil in Hx| |cbn [length]; lia]. apply elem_of_list_singleton in Hx, Hy. congruence. Qed.
Lemma elem_nonempty {A} (l : list A) x : x ∈ l -> l <> [].
Proof. intros H ->. by apply elem_of_nil in H. Qed.
Lemma dead_end_level first l level : n_level (dead_end first l level) = level.
Proof. unfold dead_end. by destruct l as [|x [|y l]], level. Qed.
Section Grow.
  Context (ent : list thash -> nat -> Z) (Hent : entropy_ok ent) (srt : nat -> list thash -> list thash) (Hsrt : sort_ok srt) (first count : Z).

  Lemma fill_flat child bi s : forall vs look ns, (forall v, v ∈ vs -> (length (run bi (Z.of_nat v) s) <= 1)%nat) ->
    exists look', fill first count child bi s vs look ns = Some (look', ns).
  Proof using.
    induction vs as [|v vs IH]; intros look ns H; cbn [fill]; [by eexists|]. pose proof (H v ltac:(left)) as Hv.
    destruct (run bi (Z.of_nat v) s) as [|x [|y l]]; [| |cbn [length] in Hv; lia]; apply IH; intros u Hu; apply H; by right.
  Qed.
  Lemma fill_ones child bi s : forall vs look ns, (0 < length ns)%nat -> 0 < count -> Z.of_nat (length ns + length vs) + count <= 65536 -> NoDup vs ->
    (forall v, v ∈ vs -> (2 <= length (run bi (Z.of_nat v) s))%nat /\ forall m, exists m', child (run bi (Z.of_nat v) s) m = Some m' /\ length m' = S (length m)) ->
    exists look' ns', fill first count child bi s vs look ns = Some (look', ns') /\ length ns' = (length ns + length vs)%nat /\
      (forall w, (forall v, v ∈ vs -> w <> Z.of_nat v) -> look' w = look w) /\
      forall k v, vs !! k = Some v -> look' (Z.of_nat v) = 65536 - Z.of_nat (length ns + k).
  Proof using.
    induction vs as [|v vs IH]; intros look ns Hn Hc Hb Hd H; cbn [fill].
    { exists look, ns. split_and!; [done|cbn [length]; lia|done|]. intros k v Hk. by apply lookup_nil_Some in Hk || done. }
    apply NoDup_cons in Hd as [Hv Hd]. destruct (H v ltac:(left)) as [H2 Hch]. destruct (Hch ns) as (ns1 & E1 & L1). cbn [length] in Hb.
    destruct (run bi (Z.of_nat v) s) as [|x [|y l]] eqn:Er; [cbn [length] in H2; lia|cbn [length] in H2; lia|]. rewrite E1. rewrite u16_small by lia. rewrite (proj2 (Z.leb_gt _ _)) by lia.
    destruct (IH (put look (Z.of_nat v) (65536 - Z.of_nat (length ns))) ns1) as (look' & ns' & I1 & I2 & I3 & I4).
    - lia.
    - done.
    - lia.
    - done.
    - intros u Hu. apply H. by right.
    - exists look', ns'. split_and!; [done|cbn [length]; lia| |].
      + intros w Hw. rewrite I3 by (intros u Hu; apply Hw; by right). apply put_other. apply Hw. left.
      + intros [|k] u Hk; cbn [lookup list_lookup] in Hk.
        * apply (inj Some) in Hk as <-. rewrite I3 by (intros u Hu E; apply Nat2Z.inj in E as ->; done). rewrite put_same. lia.
        * rewrite (I4 k u Hk). lia.
  Qed.

  Lemma grow_singles fuel l fl level ns : l <> [] -> alike l fl -> length fl = 32%nat -> NoDup l -> (forall x, x ∈ l -> x ∈ full_input) ->
    (exists b v, (b < 2)%nat /\ forall x, x ∈ l -> th_hash x !!! b = v) ->
    exists ns', grow ent srt first count (S fuel) l fl level ns = Some ns' /\ length ns' = S (length ns).
  Proof using Hent Hsrt.
    intros Hne A H32 Hd Hfull (b & v & Hb & Hbv). cbn [grow]. destruct (choose ent l fl) as [bi|] eqn:E.
    - destruct (choose_some ent Hent l fl bi Hne E) as (Hbi & x & y & Hx & Hy & Hxy). pose proof (lookup_lt_Some _ _ _ Hbi) as Hlt. pose proof (al_ok _ _ A) as Hok.
      assert (Hbi2 : (bi < 2)%nat). { destruct (decide (bi < 2)%nat) as [|Hge]; [done|]. exfalso. apply Hxy. apply full_byte; [by apply Hfull|by apply Hfull|lia]. }
      assert (bi <> b) as Hbb by (intros ->; apply Hxy; by rewrite !Hbv).
      destruct (fill_flat (fun l' ns' => grow ent srt first count fuel l' (flip bi fl) (S level) ns') bi (srt bi l) (seq 0 256) blank (ns ++ [mk_pnode level bi blank])) as [look E1].
      { intros u _. change (run bi (Z.of_nat u) (srt bi l)) with (Proof_Tree.group srt bi (Z.of_nat u) l).
        pose proof (group_spec srt Hsrt bi (Z.of_nat u) l _ Hok Hlt ltac:(lia)) as Hg. assert (Hgd : NoDup (Proof_Tree.group srt bi (Z.of_nat u) l)) by (rewrite Hg; by apply NoDup_filter).
        destruct (Proof_Tree.group srt bi (Z.of_nat u) l) as [|p [|q r]] eqn:Eg; [cbn [length]; lia|cbn [length]; lia|]. exfalso.
        assert (Hp : p ∈ p :: q :: r) by left. assert (Hq : q ∈ p :: q :: r) by (right; left). rewrite Hg in Hp, Hq. apply elem_of_list_filter in Hp as [Ep Hp], Hq as [Eq Hq].
        assert (p = q) as ->; [|apply NoDup_cons in Hgd as [Hgd _]; apply Hgd; left].
        assert (bi = 0%nat /\ b = 1%nat \/ bi = 1%nat /\ b = 0%nat) as [[-> ->]|[-> ->]] by lia; apply full_same; first [by apply Hfull|congruence|by rewrite !Hbv]. }
      rewrite E1. eexists. split; [reflexivity|]. rewrite insert_length, app_length. cbn [length]. lia.
    - eexists. split; [reflexivity|]. rewrite app_length. cbn [length]. lia.
  Qed.
End Grow.

Section Full.
  Context (ent : list thash -> nat -> Z) (Hent : entropy_ok ent) (srt : nat -> list thash -> list thash) (Hsrt : sort_ok srt).

  Lemma full_choose : exists bi, choose ent full_input (flags_init 32 0) = Some bi /\ (bi < 2)%nat.
  Proof using Hent.
    destruct (choose ent full_input (flags_init 32 0)) as [bi|] eqn:E.
    - exists bi. split; [done|]. destruct (choose_some ent Hent full_input _ bi full_nonempty E) as (_ & x & y & Hx & Hy & Hxy).
      destruct (decide (bi < 2)%nat) as [|Hge]; [done|]. exfalso. apply Hxy. apply full_byte; [done|done|lia].
    - exfalso. destruct (full_has 5 6) as (x & Hx & Ex); [lia|apply row_elem; lia|]. destruct (full_has 6 5) as (y & Hy & Ey); [lia|apply row_elem; lia|].
      pose proof (choose_none ent Hent full_input _ full_nonempty E 0%nat x y) as H. rewrite flags_init_lookup in H by lia.
      assert (Hz : th_hash x !!! 0%nat = th_hash y !!! 0%nat) by (apply H; done). rewrite Ex, Ey in Hz. discriminate Hz.
  Qed.

  Lemma full_generate : exists t bi look, pool_generate ent srt full_input = Some t /\ (bi < 2)%nat /\ length (t_nodes t) = 257%nat /\
    t_nodes t !! 0%nat = Some (mk_pnode 0 bi look) /\ (forall v, (v < 256)%nat -> look (Z.of_nat v) = 65536 - Z.of_nat (S v)).
  Proof using Hent Hsrt.
    destruct full_choose as (bi & Ec & Hbi). pose proof full_length as HL. pose proof full_ok as Hok. pose proof full_nodup as Hnd. pose proof full_numbered as Hnum. pose proof full_nonempty as Hne.
    pose proof (alike_init _ Hok) as A.
    assert (Hg : exists look ns', grow ent srt 0 65279 33 full_input (flags_init 32 0) 0 [] = Some ns' /\ length ns' = 257%nat /\ ns' !! 0%nat = Some (mk_pnode 0 bi look) /\
      forall v, (v < 256)%nat -> look (Z.of_nat v) = 65536 - Z.of_nat (S v)).
    { remember 32%nat as f eqn:Ef in |- * at 1. cbn [grow]. rewrite Ec. cbn [app length].
      destruct (fill_ones 0 65279 (fun l' ns' => grow ent srt 0 65279 f l' (flip bi (flags_init 32 0)) 1 ns') bi (srt bi full_input) (seq 0 256) blank [mk_pnode 0 bi blank]) as (look & ns' & F1 & F2 & _ & F4).
      - cbn [length]. lia.
      - lia.
      - rewrite seq_length. cbn [length]. lia.
      - apply NoDup_seq.
      - intros v Hv. apply elem_of_seq in Hv. change (run bi (Z.of_nat v) (srt bi full_input)) with (Proof_Tree.group srt bi (Z.of_nat v) full_input).
        pose proof (group_spec srt Hsrt bi (Z.of_nat v) full_input 32 Hok ltac:(lia) ltac:(lia)) as Hgs.
        destruct (full_two bi v Hbi ltac:(lia)) as (x & y & Hx & Hy & Hxy & Ex & Ey).
        assert (Hx' : x ∈ Proof_Tree.group srt bi (Z.of_nat v) full_input) by (apply (group_elem srt Hsrt bi (Z.of_nat v) full_input 32 x Hok); [lia|lia|exact (conj Hx Ex)]).
        assert (Hy' : y ∈ Proof_Tree.group srt bi (Z.of_nat v) full_input) by (apply (group_elem srt Hsrt bi (Z.of_nat v) full_input 32 y Hok); [lia|lia|exact (conj Hy Ey)]).
        split.
        { exact (two_elems _ x y Hx' Hy' Hxy). }
        intros m. rewrite Ef. apply (grow_singles ent Hent srt Hsrt).
        + exact (elem_nonempty _ x Hx').
        + apply (alike_group srt Hsrt full_input (flags_init 32 0) bi (Z.of_nat v) A); [|lia]. rewrite flags_init_lookup by lia. reflexivity.
        + rewrite flip_length. exact init_length.
        + rewrite Hgs. apply NoDup_filter. exact Hnd.
        + intros z Hz. exact (proj1 (proj1 (group_elem srt Hsrt bi (Z.of_nat v) full_input 32 z Hok ltac:(lia) ltac:(lia)) Hz)).
        + exists bi, (Z.of_nat v). split; [exact Hbi|]. intros z Hz. exact (proj2 (proj1 (group_elem srt Hsrt bi (Z.of_nat v) full_input 32 z Hok ltac:(lia) ltac:(lia)) Hz)).
      - rewrite F1. exists look. eexists. split; [reflexivity|]. rewrite seq_length in F2. cbn [length] in F2. split_and!.
        + rewrite insert_length. lia.
        + apply list_lookup_insert. lia.
        + intros v Hv. rewrite (F4 v v); [cbn [length]; lia|]. apply lookup_seq. lia. }
    destruct Hg as (look & ns' & G1 & G2 & G3 & G4). unfold pool_generate. destruct full_input as [|x l] eqn:El; [destruct (Hne eq_refl)|]. pose proof (numbered_head _ _ _ Hnum) as Hx. rewrite <- El in *.
    rewrite HL. rewrite (proj2 (Z.leb_gt _ _)) by lia. rewrite Hx, G1. cbn [mbind option_bind]. eexists _, bi, look. split; [reflexivity|]. cbn [t_nodes]. exact (conj Hbi (conj G2 (conj G3 G4))).
  Qed.

  (** one node is linked to under a number that reads as the last presentation *)
  Lemma full_lost t rs : pool_generate ent srt full_input = Some t -> writable config_a t rs ->
    exists c v, serialize config_a rs t = Some c /\ (v < 256)%nat /\ exists bi, (bi < 2)%nat /\
      forall q, length q = 32%nat -> q !! bi = Some (Z.of_nat v) -> exists bits, container_lookup config_a c q = Some (65278, false, bits).
  Proof using Hent Hsrt.
    intros E Hw. destruct full_generate as (t' & bi & look & E' & Hbi & Hlen & Hroot & Hlook). rewrite E in E'. apply (inj Some) in E'. subst t'.
    destruct (generated ent srt 0 full_input t full_nonempty full_numbered E) as (_ & G2 & G3 & _ & G5). rewrite full_length in G3, G5.
    destruct (writable_nodes config_a t rs Hw) as (W1 & W2 & W3 & W4).
    assert (Hlev : forall v nd, (v < 256)%nat -> t_nodes t !! S v = Some nd -> n_level nd = 1%nat).
    { intros v nd Hv Hnd. rewrite rep_step in G5. destruct full_choose as (bi' & Ec & Hbi'). rewrite Ec in G5. destruct G5 as (look' & E1 & _ & _ & R2). rewrite Hroot in E1. apply (inj Some) in E1. injection E1 as <- <-.
      destruct (full_two bi v Hbi Hv) as (x & y & Hx & Hy & Hxy & Ex & Ey).
      assert (Hx' : x ∈ Proof_Tree.group srt bi (Z.of_nat v) full_input) by (apply (group_elem srt Hsrt bi (Z.of_nat v) full_input 32 x full_ok); [lia|lia|exact (conj Hx Ex)]).
      assert (Hy' : y ∈ Proof_Tree.group srt bi (Z.of_nat v) full_input) by (apply (group_elem srt Hsrt bi (Z.of_nat v) full_input 32 y full_ok); [lia|lia|exact (conj Hy Ey)]).
      destruct (R2 (Z.of_nat v) ltac:(lia) (two_elems _ x y Hx' Hy' Hxy)) as (c & _ & _ & C3 & C4). rewrite Hlook in C3 by done. assert (c = S v) as -> by lia.
      rewrite rep_step in C4. destruct (choose ent (Proof_Tree.group srt bi (Z.of_nat v) full_input) (flip bi (flags_init 32 0))).
      - destruct C4 as (lk & C4 & _). rewrite Hnd in C4. apply (inj Some) in C4 as ->. reflexivity.
      - rewrite Hnd in C4. apply (inj Some) in C4 as ->. apply dead_end_level. }
    assert (Hrec : forall idx nd r, reconf_of config_a idx nd = Some r -> s_level (r_spec r) = n_level nd /\ r_old r = idx).
    { intros idx nd r. unfold reconf_of. destruct (Nat.eqb (n_byte nd) 32).
      - destruct (suitable_duplicate config_a (n_level nd)) as [s|] eqn:Es; [|intros H; discriminate H]. cbn [mbind option_bind]. intros H. apply (inj Some) in H as <-. cbn [r_spec r_old]. split; [|reflexivity]. by destruct (suitable_dup_in _ _ _ Es) as (_ & _ & ?).
      - destruct (suitable config_a (n_level nd) (length (used (n_look nd)))) as [s|] eqn:Es; [|intros H; discriminate H]. cbn [mbind option_bind]. intros H. apply (inj Some) in H as <-. cbn [r_spec r_old]. split; [|reflexivity].
        by destruct (suitable_in _ _ _ _ Es) as (_ & _ & _ & ?). }
    destruct (W4 0%nat _ Hroot) as (i0 & r0 & Hi0 & Hid0 & Hn0 & Hr0).
    destruct (lookup_lt_is_Some_2 rs 256) as [r Hr]; [lia|].
    assert (Hidx : exists v, (v < 256)%nat /\ new_id rs (S v) = 257%nat).
    { assert (Hold : (r_old r < 257)%nat).
      { destruct Hw as [_ (rs0 & Ers & Hp)]. destruct (reconfs_ok config_a t rs0 Ers) as (O1 & _). assert (Ho : r_old r ∈ r_old <$> rs0) by (rewrite <- Hp; apply elem_of_list_fmap_1; by apply elem_of_list_lookup_2 with 256%nat).
        rewrite O1, Hlen in Ho. apply elem_of_seq in Ho. lia. }
      pose proof (new_id_ok rs 256 r W2 Hr) as Hnew. destruct (r_old r) as [|v] eqn:Eo; [|exists v; split; [lia|exact Hnew]]. exfalso.
      assert (i0 = 256%nat) as -> by lia.
      destruct (lookup_lt_is_Some_2 (t_nodes t) 1) as [nd1 Hnd1]; [lia|]. destruct (W4 1%nat nd1 Hnd1) as (i1 & r1 & Hi1 & Hid1 & _ & Hr1).
      destruct (Hrec _ _ _ Hr0) as [L0 O0]. destruct (Hrec _ _ _ Hr1) as [L1 O1]. rewrite (Hlev 0%nat nd1 ltac:(lia) Hnd1) in L1. cbn [n_level] in L0.
      pose proof (lookup_lt_Some _ _ _ Hi1) as Hlt1. assert (i1 <> 256%nat) by (intros ->; rewrite Hi0 in Hi1; apply (inj Some) in Hi1; subst r1; lia).
      pose proof (less_level _ _ (proj1 Hw i1 256%nat r1 r0 ltac:(lia) Hi1 Hi0)). lia. }
    destruct Hidx as (v & Hv & Hnew). eexists _, v. split; [apply serialize_ok; [exact config_a_sorted|exact Hw|intros En; rewrite En in Hroot; discriminate Hroot]|]. split; [exact Hv|].
    exists bi. split; [exact Hbi|]. intros q Hq Hqv.
    unfold container_lookup. cbn [c_count c_root]. rewrite G3. rewrite (proj2 (Z.eqb_neq _ _)) by lia. rewrite Hid0. rewrite G2. cbn [descend].
    pose proof (locate_loaded ent Hent srt Hsrt config_a config_a_sorted config_a_tiny 0 65279 (t_nodes t) rs (length rs) (proj1 Hw) W3 W1 W4 i0 r0 Hi0) as [L1 L2].
    unfold loaded in L1, L2. rewrite (take_ge rs (length rs) (le_n _)) in L1, L2. rewrite <- (all_bytes_length 65279 rs rs) in L1, L2. rewrite (take_ge _ _ (le_n _)) in L1, L2. rewrite Hid0 in L1, L2. cbn [c_bytes] in L2.
    pose proof (lookup_lt_Some _ _ _ Hi0) as Hi0l. rewrite L1. cbn [mbind option_bind]. rewrite (proj2 (Nat.leb_gt _ _)) by exact Hi0l. specialize (L2 Hi0l).
    assert (Hsp : s_fmt (r_spec r0) <> Duplicate /\ roomy (r_spec r0) look).
    { unfold reconf_of in Hr0. cbn [n_byte n_level n_look] in Hr0. rewrite (proj2 (Nat.eqb_neq bi 32)) in Hr0 by lia. destruct (suitable config_a 0 (length (used look))) as [s|] eqn:Es; [|discriminate Hr0].
      cbn [mbind option_bind] in Hr0. apply (inj Some) in Hr0. subst r0. cbn [r_spec]. destruct (suitable_in _ _ _ _ Es) as (S1 & S2 & S3 & S4). split; [exact S3|].
      assert (Hu : (2 <= length (used look))%nat).
      { apply (two_elems _ 0%nat 1%nat); [apply used_elem; rewrite Hlook by lia; lia|apply used_elem; rewrite Hlook by lia; lia|lia]. }
      unfold roomy. destruct (s_fmt s) eqn:Ef; [|exact S2|exact I|exact (S3 eq_refl)]. split; [exact S2|]. left. symmetry. exact (config_a_tiny 0%nat _ s Es Ef Hu). }
    destruct Hsp as [Hdup Hroomy].
    destruct (read_node_ok 65279 rs r0 (concat (node_bytes 65279 rs <$> rs)) (sizes (take i0 rs)) L2) as (N1 & N2 & lk & N3 & N4).
    { rewrite Hn0. exact Hroomy. }
    { intros u Hu. rewrite Hn0. cbn [n_look]. rewrite <- (Z2Nat.id u) by lia. rewrite Hlook by lia. unfold relink. rewrite (proj2 (Z.eqb_neq _ _)), (proj2 (Z.leb_gt _ _)) by lia.
      unfold u16_ok, u16. apply Z.mod_pos_bound. lia. }
    rewrite bool_decide_eq_false_2 by exact Hdup. cbn [c_bytes]. rewrite N2. cbn [mbind option_bind]. rewrite N3. cbn [mbind option_bind]. rewrite Hn0. cbn [n_byte]. rewrite Nat2Z.id, Hqv. cbn [mbind option_bind].
    rewrite N4 by lia. rewrite Hn0. cbn [n_look]. rewrite Hlook by exact Hv.
    assert (relink 65279 rs (65536 - Z.of_nat (S v)) = 65279) as ->.
    { unfold relink. rewrite (proj2 (Z.eqb_neq _ _)), (proj2 (Z.leb_gt _ _)) by lia. replace (Z.to_nat (65536 - (65536 - Z.of_nat (S v)))) with (S v) by lia. rewrite Hnew. reflexivity. }
    cbn [c_count c_first]. eexists. reflexivity.
  Qed.
End Full.
