(** Invariants of the cake. *)
From Verif Require Import Base Model_Cake Spec_Cake.

Lemma careful_mono ops : forall used used', used' ⊆ used -> careful used ops -> careful used' ops.
Proof.
  induction ops as [|o ops IH]; intros used used' Hs C; [done|]. destruct o; cbn [careful] in *.
  - by eapply IH.
  - eapply IH; [|exact C]. intros u Hu. apply elem_of_cons in Hu as [->|Hu]; [by left|right; by apply Hs].
  - destruct C as [Hv C]. split; [intros H; by apply Hv, Hs|by eapply IH].
  - by eapply IH.
Qed.

Section Inv.
  Context {F : Type} (cap : nat) (quota : list nat).
  Context (bakeF : nat -> Z -> list (Z * F) -> list (list Z) -> option F).
  Notation folder := (list (Z * F) * list (list Z))%type.

  (** everything in the tiers from [d] down, oldest first *)
  Definition older (d : nat) (disk : list folder) : list (list Z) := concat (reverse (drop d (snd <$> disk))).

  Lemma older_step d (disk : list folder) fs hs : disk !! d = Some (fs, hs) -> older d disk = older (S d) disk ++ hs.
  Proof using. clear bakeF cap quota.
    intros H. unfold older. rewrite (drop_S (snd <$> disk) hs d); [|by rewrite list_lookup_fmap, H]. rewrite reverse_cons, concat_app.
    cbn [concat]. by rewrite app_nil_r.
  Qed.
  Lemma older_insert d i x (disk : list folder) : (i < d)%nat -> older d (<[i := x]> disk) = older d disk.
  Proof using. clear bakeF cap quota. intros H. unfold older. rewrite list_fmap_insert, drop_insert_gt by lia. done. Qed.
  Lemma older_agree d (disk disk' : list folder) : length disk = length disk' -> (forall i, (d <= i)%nat -> disk !! i = disk' !! i) -> older d disk = older d disk'.
  Proof using. clear bakeF cap quota.
    intros Hl H. unfold older. do 2 f_equal. apply list_eq. intros i. rewrite !lookup_drop, !list_lookup_fmap, H by lia. done.
  Qed.

  (** a tier starts where the older ones end; it has forests exactly if it has hashes *)
  Definition tier_ok (disk : list folder) (i : nat) (d : folder) : Prop :=
    (fst d = [] <-> snd d = []) /\ forall f0 f fs, fst d = (f0, f) :: fs -> f0 = Z.of_nat (length (older (S i) disk)).
  Definition tiers_ok (d : nat) (disk : list folder) : Prop := forall i x, (d <= i)%nat -> disk !! i = Some x -> tier_ok disk i x.

  (** an open object of the chain tells the truth about [all] *)
  Definition obj_ok (all : list (list Z)) (o : obj (F:=F)) : Prop :=
    match o_forests o, o_file o with
    | (f0, _) :: _, Some hs => exists n, f0 = Z.of_nat n /\ hs `prefix_of` drop n all
    | _, _ => True
    end.
  Lemma obj_ok_app all x o : obj_ok all o -> obj_ok (all ++ x) o.
  Proof using. clear bakeF cap quota.
    unfold obj_ok. destruct (o_forests o) as [|[f0 f] fs]; [done|]. destruct (o_file o) as [hs|]; [|done].
    intros (n & E & Hp). exists n. split; [done|]. destruct (decide (n <= length all)%nat) as [H|H].
    - rewrite drop_app_le by done. by apply prefix_app_r.
    - rewrite drop_ge in Hp by lia. apply prefix_nil_inv in Hp as ->. apply prefix_nil.
  Qed.
  Lemma obj_ok_close all o : obj_ok all (close o).
  Proof using. clear bakeF. unfold obj_ok, close. cbn. by destruct (o_forests o) as [|[]]. Qed.
  Lemma close_head_ok all ch : Forall (obj_ok all) ch -> Forall (obj_ok all) (close_head ch).
  Proof using. clear bakeF. destruct 1 as [|o ch Ho Hch]; [constructor|]. cbn [close_head]. constructor; [apply obj_ok_close|done]. Qed.

  (** the first object of the chain is the tier as it is on disk *)
  Definition head_ok (d : nat) (disk : list folder) (ch : list (obj (F:=F))) : Prop :=
    forall x, disk !! d = Some x -> exists o ch', ch = o :: ch' /\ o_tier o = d /\ o_forests o = fst x /\ (fst x <> [] -> o_file o = Some (snd x)).

  Lemma write_ok n : forall d off sf sh file rest disk disk' ch all,
    write quota bakeF n d off sf sh file rest disk = Some (disk', ch) ->
    tiers_ok d disk -> off = Z.of_nat (length (older d disk)) -> file <> [] ->
    all = older d disk ++ file -> Forall (obj_ok all) rest ->
    older d disk' = all /\ length disk' = length disk /\ (forall i, (i < d)%nat -> disk' !! i = disk !! i) /\
    tiers_ok d disk' /\ Forall (obj_ok all) ch /\ head_ok d disk' ch.
  Proof.
    induction n as [|n IH]; intros d off sf sh file rest disk disk' ch all E Ht Hoff Hfile Eall Hrest; [done|].
    cbn [write] in E. destruct (disk !! d) as [[fs hs]|] eqn:Ed; [|done]. destruct (quota !! d) as [q|]; [|done].
    destruct (bakeF d off sf sh) as [f|]; [|done]. cbv zeta in E.
    pose proof (lookup_lt_Some _ _ _ Ed) as Hd.
    destruct (Ht d (fs, hs) ltac:(lia) Ed) as [He H0]. cbn [fst snd] in He, H0.
    pose proof (older_step d disk fs hs Ed) as Eo.
    set (fs' := fs ++ [(off, f)]) in *. set (hs' := hs ++ file) in *. set (dk := <[d:=(fs', hs')]> disk) in *.
    assert (Edk : dk !! d = Some (fs', hs')) by (apply list_lookup_insert; done).
    assert (Eo1 : older (S d) dk = older (S d) disk) by (apply older_insert; lia).
    assert (Eo2 : older d dk = all). { rewrite (older_step d dk fs' hs' Edk), Eo1, Eall, Eo. unfold hs'. by rewrite app_assoc. }
    assert (Hhd : fst (hd (off, f) fs') = Z.of_nat (length (older (S d) disk))).
    { destruct fs as [|[f0 f1] fs].
      - cbn. rewrite Hoff, Eo. destruct He as [He _]. rewrite He by done. by rewrite app_nil_r.
      - cbn. by apply (H0 f0 f1 fs). }
    assert (Htk : tiers_ok d dk).
    { intros i x Hi Hx. destruct (decide (i = d)) as [->|Hne].
      - rewrite Edk in Hx. injection Hx as <-. split; cbn [fst snd].
        + unfold fs', hs'. split; intros H; apply app_nil in H as [_ H]; done.
        + intros f0 f1 fs1 E1. rewrite Eo1. rewrite <- Hhd. rewrite E1. done.
      - unfold dk in Hx. rewrite list_lookup_insert_ne in Hx by done. destruct (Ht i x Hi Hx) as [H1 H2]. split; [done|].
        intros f0 f1 fs1 E1. rewrite (H2 _ _ _ E1). unfold dk. rewrite older_insert by lia. done. }
    destruct (Nat.eqb_spec (length fs') q) as [Hq|Hq].
    - destruct (write quota bakeF n (S d) _ fs' hs' hs' (close_head rest) dk) as [[dk2 ch2]|] eqn:Ew; [|done]. injection E as <- <-.
      destruct (IH (S d) _ _ _ _ _ _ _ _ all Ew) as (A1 & A2 & A3 & A4 & A5 & A6).
      { intros i x Hi. apply Htk. lia. }
      { rewrite Hhd, Eo1. done. }
      { unfold hs'. intros H. apply app_nil in H as [_ H]. done. }
      { rewrite Eo1, Eall, Eo. unfold hs'. by rewrite app_assoc. }
      { by apply close_head_ok. }
      assert (Hl2 : length dk2 = length disk) by (rewrite A2; unfold dk; apply insert_length).
      assert (Edk2 : <[d:=([], [])]> dk2 !! d = Some (([], []) : folder)) by (apply list_lookup_insert; lia).
      assert (Eo3 : older (S d) (<[d:=([], [])]> dk2) = older (S d) dk2) by (apply older_insert; lia).
      split_and!.
      + rewrite (older_step d _ _ _ Edk2), Eo3, app_nil_r. done.
      + by rewrite insert_length.
      + intros i Hi. rewrite list_lookup_insert_ne by lia. rewrite A3 by lia. unfold dk. rewrite list_lookup_insert_ne by lia. done.
      + intros i x Hi Hx. destruct (decide (i = d)) as [->|Hne].
        * rewrite Edk2 in Hx. injection Hx as <-. split; [done|]. intros f0 f1 fs1 E1. done.
        * rewrite list_lookup_insert_ne in Hx by done. destruct (A4 i x ltac:(lia) Hx) as [H1 H2]. split; [done|].
          intros f0 f1 fs1 E1. rewrite (H2 _ _ _ E1). rewrite older_insert by lia. done.
      + constructor; [done|done].
      + intros x Hx. rewrite Edk2 in Hx. injection Hx as <-. eexists _, ch2. split_and!; done.
    - injection E as <- <-. split_and!.
      + done.
      + unfold dk. apply insert_length.
      + intros i Hi. unfold dk. rewrite list_lookup_insert_ne by lia. done.
      + done.
      + constructor; [|by apply close_head_ok]. unfold obj_ok. cbn [o_forests o_file]. destruct fs' as [|[f0 f1] fs1] eqn:Ef; [done|].
        exists (length (older (S d) disk)). split; [exact Hhd|]. rewrite Eall, Eo. rewrite <- app_assoc, drop_app. done.
      + intros x Hx. rewrite Edk in Hx. injection Hx as <-. eexists _, _. split_and!; done.
  Qed.

  (** ** The state *)

  Record inv (all : list (list Z)) (k : cake (F:=F)) : Prop := {
    i_all : all = older 0 (k_disk k) ++ k_file k;
    i_first : k_first k = Z.of_nat (length (older 0 (k_disk k)));
    i_len : length (k_slice k) = length (k_file k);
    i_cap : (length (k_file k) < cap)%nat;
    i_disk : length (k_disk k) = length quota;
    i_tiers : tiers_ok 0 (k_disk k);
    i_chain : Forall (obj_ok all) (k_chain k);
    i_head : head_ok 0 (k_disk k) (k_chain k);
    i_map : k_map k = map_of (k_file k);
    i_big : k_first k = 0 \/ (cap <= length (older 0 (k_disk k)))%nat
  }.

  Lemma map_of_snoc hs h : map_of (hs ++ [h]) = <[h := length hs]> (map_of hs).
  Proof using. clear bakeF cap quota. unfold map_of. rewrite imap_app, foldl_app. cbn. by rewrite Nat.add_0_r. Qed.

  Lemma open_ok disk all : tiers_ok 0 disk -> (exists f, all = older 0 disk ++ f) -> Forall (obj_ok all) (imap open_tier disk).
  Proof using. clear bakeF.
    intros Ht [f Eall]. apply Forall_lookup. intros i o Ho. rewrite list_lookup_imap in Ho. destruct (disk !! i) as [[fs hs]|] eqn:Ed; [|done].
    injection Ho as <-. unfold obj_ok, open_tier. cbn [o_forests o_file fst snd]. destruct fs as [|[f0 f1] fs]; [done|].
    destruct (Ht i _ ltac:(lia) Ed) as [_ H]. exists (length (older (S i) disk)). split; [by apply (H f0 f1 fs)|].
    assert (Ho : forall j, (j <= length disk)%nat -> exists y, older 0 disk = older j disk ++ y).
    { induction j as [|j IHj]; intros Hj; [exists []; by rewrite app_nil_r|]. destruct IHj as [y Hy]; [lia|].
      destruct (disk !! j) as [[a b]|] eqn:Ej; [|apply lookup_ge_None_1 in Ej; lia]. exists (b ++ y).
      rewrite Hy, (older_step j disk a b Ej), <- app_assoc. done. }
    destruct (Ho i) as [y Hy]; [apply lookup_lt_Some in Ed; lia|]. rewrite Eall, Hy, (older_step i disk _ _ Ed).
    rewrite <- !app_assoc, drop_app. by apply prefix_app_r.
  Qed.

  Lemma head_open disk : head_ok 0 disk (imap open_tier disk).
  Proof using. clear bakeF.
    intros x Hx. destruct disk as [|x' disk]; [done|]. injection Hx as ->. eexists _, _. split; [done|]. unfold open_tier. cbn [o_tier o_forests o_file].
    split_and!; [done|done|]. destruct x as [[|] ?]; done.
  Qed.

  Lemma inv_reopen all k : inv all k -> inv all (reopen k).
  Proof using. clear bakeF.
    intros []. split; cbn [reopen k_slice k_map k_file k_first k_chain k_disk]; try done.
    - by rewrite fmap_length.
    - apply open_ok; [done|]. by eexists.
    - apply head_open.
  Qed.

  Lemma older_empty n d : older d (replicate n (([], []) : folder)) = [].
  Proof using. clear bakeF.
    unfold older. apply concat_nil_Forall. apply Forall_reverse, Forall_drop, Forall_fmap, Forall_replicate. done.
  Qed.

  Lemma inv_create : (1 <= cap)%nat -> inv [] (create quota).
  Proof using. clear bakeF.
    intros Hc. unfold create.
    assert (Ht : tiers_ok 0 (replicate (length quota) (([], []) : folder))).
    { intros i x _ Hx. apply lookup_replicate in Hx as [-> _]. split; [done|]. intros ? ? ? E. done. }
    split; cbn [reopen k_slice k_map k_file k_first k_chain k_disk]; rewrite ?older_empty; try done.
    - by rewrite replicate_length.
    - apply open_ok; [done|]. exists []. by rewrite older_empty.
    - apply head_open.
    - by left.
  Qed.

  Lemma inv_append all k c h k' r : inv all k -> append cap quota bakeF k c h = Ok (k', r) ->
    inv (all ++ [h]) k' /\ r = Z.of_nat (length all) /\ k_vars k' = k_vars k.
  Proof.
    intros I E. pose proof I as []. unfold append in E. cbv zeta in E.
    destruct (Nat.leb_spec cap (length (k_slice k))) as [H|H]; [done|].
    assert (Er : k_first k + Z.of_nat (length (k_slice k)) = Z.of_nat (length all)).
    { rewrite i_all0, app_length, i_first0, i_len0. lia. }
    destruct (Nat.eqb_spec (S (length (k_slice k))) cap) as [Hc|Hc].
    - destruct (write quota bakeF (length quota) 0 _ [] _ _ _ _) as [[disk ch]|] eqn:Ew; [|done]. injection E as <- <-.
      destruct (write_ok _ _ _ _ _ _ _ _ _ _ (all ++ [h]) Ew) as (A1 & A2 & A3 & A4 & A5 & A6); try done.
      { intros E. by apply app_nil in E as [_ E]. }
      { rewrite i_all0, <- app_assoc. done. }
      { eapply Forall_impl; [exact i_chain0|]. intros o Ho. by apply obj_ok_app. }
      split_and!; [|done|done]. split; cbn [k_slice k_map k_file k_first k_chain k_disk]; try done.
      + by rewrite A1, app_nil_r.
      + rewrite A1, i_all0, i_first0, !app_length. cbn [length]. lia.
      + cbn [length]. lia.
      + lia.
      + right. rewrite A1, i_all0, !app_length. cbn [length]. lia.
    - injection E as <- <-. split_and!; [|done|done]. split; cbn [k_slice k_map k_file k_first k_chain k_disk]; try done.
      + rewrite i_all0, <- app_assoc. done.
      + rewrite !app_length, i_len0. done.
      + rewrite app_length, <- i_len0. cbn [length]. lia.
      + eapply Forall_impl; [exact i_chain0|]. intros o Ho. by apply obj_ok_app.
      + rewrite map_of_snoc, i_map0, i_len0. done.
  Qed.

  Lemma inv_run ops : forall all k k', inv all k -> run cap quota bakeF k ops = Ok k' -> inv (all ++ appended (k_vars k) ops) k'.
  Proof.
    induction ops as [|o ops IH]; intros all k k' I E; cbn [run appended] in *.
    - injection E as <-. by rewrite app_nil_r.
    - destruct o as [h|v|v h|]; cbn [step] in E.
      + destruct (append cap quota bakeF k (Own h) h) as [[k1 r]| |] eqn:Ea; [|done|done].
        destruct (inv_append _ _ _ _ _ _ I Ea) as (I1 & _ & Ev). rewrite <- Ev. change (h :: appended (k_vars k1) ops) with ([h] ++ appended (k_vars k1) ops).
        rewrite app_assoc. by apply IH.
      + destruct (append cap quota bakeF k (Shared v) _) as [[k1 r]| |] eqn:Ea; [|done|done].
        destruct (inv_append _ _ _ _ _ _ I Ea) as (I1 & _ & Ev). rewrite <- Ev.
        change (default [] (k_vars k1 !! v) :: appended (k_vars k1) ops) with ([default [] (k_vars k1 !! v)] ++ appended (k_vars k1) ops).
        rewrite app_assoc. rewrite Ev at 1. by apply IH.
      + apply (IH all) in E; [exact E|]. destruct I. by split.
      + apply (IH all) in E; [exact E|]. by apply inv_reopen.
  Qed.

  (** *** The top tier when the caller leaves its variables alone *)

  Definition top_ok (used : list nat) (k : cake (F:=F)) : Prop :=
    deref (k_vars k) <$> k_slice k = k_file k /\ forall v, Shared v ∈ k_slice k -> v ∈ used.

  (** *** Getting a hash by index *)

  Lemma get_obj_true all o i h : obj_ok all o -> get_obj o i = Ok h -> 0 <= i /\ all !! Z.to_nat i = Some h.
  Proof using. clear bakeF cap quota.
    unfold obj_ok, get_obj. destruct (o_forests o) as [|[f0 f] fs]; [done|]. destruct (o_file o) as [hs|]; [|done].
    intros (n & -> & [z Hz]) E. destruct (Z.leb_spec (Z.of_nat n) i) as [H1|H1]; [|done]. destruct (Z.ltb_spec i (Z.of_nat n + Z.of_nat (length hs))) as [H2|H2]; [|done].
    cbn [andb] in E. destruct (hs !! _) as [h'|] eqn:Eh; [|done]. injection E as ->. split; [lia|].
    assert (E : drop n all !! Z.to_nat (i - Z.of_nat n) = Some h) by (rewrite Hz; by apply lookup_app_l_Some).
    rewrite lookup_drop in E. replace (n + Z.to_nat (i - Z.of_nat n))%nat with (Z.to_nat i) in E by lia. done.
  Qed.
  Lemma get_chain_true all ch i h : Forall (obj_ok all) ch -> get_chain ch i = Ok h -> 0 <= i /\ all !! Z.to_nat i = Some h.
  Proof using. clear bakeF cap quota.
    induction 1 as [|o ch Ho Hch IH]; intros E; [done|]. cbn [get_chain] in E.
    destruct (get_obj o i) as [h'| |] eqn:Eo; [|by apply IH|done]. injection E as ->. by eapply get_obj_true.
  Qed.

  Lemma get_top_spec all k i : inv all k ->
    get_top k i = if (k_first k <=? i) && (i <? Z.of_nat (length all))
                  then (if k_first k =? 0 then match (deref (k_vars k) <$> k_slice k) !! Z.to_nat i with Some h => Ok h | None => Panic end else Panic)
                  else Missing.
  Proof using. clear bakeF.
    intros I. pose proof I as []. unfold get_top.
    replace (k_first k + Z.of_nat (length (k_slice k))) with (Z.of_nat (length all)).
    2: { rewrite i_all0, app_length, i_first0, i_len0. lia. }
    destruct (Z.leb_spec (k_first k) i) as [H1|H1]; [|done]. destruct (Z.ltb_spec i (Z.of_nat (length all))) as [H2|H2]; [|done]. cbn [andb]. cbv zeta.
    destruct (Z.ltb_spec (i - - k_first k) 0) as [H3|H3]; [lia|]. destruct (Z.eqb_spec (k_first k) 0) as [H4|H4].
    - rewrite list_lookup_fmap. replace (i - - k_first k) with i by lia. by destruct (k_slice k !! Z.to_nat i).
    - rewrite lookup_ge_None_2; [done|]. assert (cap <= length (older 0 (k_disk k)))%nat; [|lia].
      destruct i_big0; lia.
  Qed.

  Lemma imap_drop_S {A B} (f : nat -> A -> B) d (l : list A) x : l !! d = Some x ->
    imap (fun i => f (d + i)%nat) (drop d l) = f d x :: imap (fun i => f (S d + i)%nat) (drop (S d) l).
  Proof using. clear bakeF cap quota.
    intros H. rewrite (drop_S l x d H). cbn [imap]. rewrite Nat.add_0_r. f_equal. apply imap_ext. intros i y _. unfold compose. f_equal. lia.
  Qed.

  Lemma get_open_disk (disk : list folder) : tiers_ok 0 disk -> forall n d i, (n = length disk - d)%nat -> 0 <= i < Z.of_nat (length (older d disk)) ->
    exists h, get_chain (imap (fun j => open_tier (d + j)%nat) (drop d disk)) i = Ok h /\ older d disk !! Z.to_nat i = Some h.
  Proof using. clear bakeF cap quota.
    intros Ht. induction n as [|n IH]; intros d i En Hi.
    - unfold older in Hi. rewrite drop_ge in Hi by (rewrite fmap_length; lia). cbn in Hi. lia.
    - destruct (disk !! d) as [[fs hs]|] eqn:Ed; [|apply lookup_ge_None_1 in Ed; lia].
      rewrite (imap_drop_S open_tier d disk (fs, hs) Ed). cbn [get_chain]. rewrite (older_step d disk fs hs Ed) in *.
      destruct (Ht d _ ltac:(lia) Ed) as [He H0]. cbn [fst snd] in He, H0. unfold open_tier at 1, get_obj at 1. cbn [o_forests o_file fst snd].
      destruct fs as [|[f0 f] fs].
      + assert (hs = []) as -> by (by apply He). rewrite app_nil_r in *. apply IH; [lia|done].
      + rewrite (H0 f0 f fs eq_refl). rewrite app_length in Hi. set (m := length (older (S d) disk)) in *.
        destruct (Z.leb_spec (Z.of_nat m) i) as [H1|H1].
        * destruct (Z.ltb_spec i (Z.of_nat m + Z.of_nat (length hs))) as [H2|H2]; [|lia]. cbn [andb].
          destruct (hs !! Z.to_nat (i - Z.of_nat m)) as [h|] eqn:Eh.
          -- exists h. split; [done|]. rewrite lookup_app_r by lia. fold m. replace (Z.to_nat i - m)%nat with (Z.to_nat (i - Z.of_nat m)) by lia. done.
          -- apply lookup_ge_None_1 in Eh. lia.
        * cbn [andb]. destruct (IH (S d) i ltac:(lia)) as (h & E1 & E2); [fold m; lia|]. exists h. split; [done|]. by apply lookup_app_l_Some.
  Qed.

  (** *** As long as the first tier has not filled up *)

  Definition inv0 (all : list (list Z)) (k : cake (F:=F)) : Prop :=
    exists fs hs, k_disk k !! 0%nat = Some (fs, hs) /\ (forall i x, (1 <= i)%nat -> k_disk k !! i = Some x -> x = ([], [])) /\
      length hs = (length fs * cap)%nat /\
      forall j x, fs !! j = Some x -> fst x = Z.of_nat (j * cap) /\ bakeF 0 (fst x) [] (take cap (drop (j * cap) all)) = Some (snd x).

  Lemma older_one (disk : list folder) : (forall i x, (1 <= i)%nat -> disk !! i = Some x -> x = ([], [])) -> older 1 disk = [].
  Proof using. clear bakeF cap quota.
    intros H. unfold older. apply concat_nil_Forall. apply Forall_reverse. apply Forall_lookup. intros i x Hx. rewrite lookup_drop, list_lookup_fmap in Hx.
    destruct (disk !! (1 + i)%nat) as [y|] eqn:Ey; [|done]. injection Hx as <-. rewrite (H (1 + i)%nat y ltac:(lia) Ey). done.
  Qed.
  Lemma inv0_older (k : cake (F:=F)) fs hs : k_disk k !! 0%nat = Some (fs, hs) -> (forall i x, (1 <= i)%nat -> k_disk k !! i = Some x -> x = ([], [])) -> older 0 (k_disk k) = hs.
  Proof using. clear bakeF cap quota. intros E H. rewrite (older_step 0 _ _ _ E), older_one; done. Qed.

  Lemma inv0_app all x k : inv all k -> inv0 all k -> inv0 (all ++ x) k.
  Proof.
    intros I (fs & hs & E & H1 & H2 & H3). exists fs, hs. split_and!; [done|done|done|]. intros j y Hj. destruct (H3 j y Hj) as [A B]. split; [done|].
    rewrite <- B. f_equal. pose proof (lookup_lt_Some _ _ _ Hj) as Hlt. pose proof (inv0_older k fs hs E H1) as Eo. destruct I.
    assert (Hl : (length hs <= length all)%nat) by (rewrite i_all0, app_length, Eo; lia).
    assert ((j + 1) * cap <= length fs * cap)%nat by (apply Nat.mul_le_mono_r; lia).
    rewrite drop_app_le by lia. rewrite take_app_le; [done|]. rewrite drop_length. lia.
  Qed.

  Lemma inv0_append q0 all used k c h k' r : quota !! 0%nat = Some q0 -> inv all k -> top_ok used k -> inv0 all k -> deref (k_vars k) c = h ->
    append cap quota bakeF k c h = Ok (k', r) -> (length all + 1 < q0 * cap)%nat -> inv0 (all ++ [h]) k'.
  Proof.
    intros Hq I [T _] I0 Ec E Hlen. pose proof I as []. unfold append in E. cbv zeta in E.
    destruct (Nat.leb_spec cap (length (k_slice k))) as [H|H]; [done|].
    destruct (Nat.eqb_spec (S (length (k_slice k))) cap) as [Hc|Hc].
    - destruct (write quota bakeF (length quota) 0 _ [] _ _ _ _) as [[disk ch]|] eqn:Ew; [|done]. injection E as <- <-.
      destruct I0 as (fs & hs & E0 & H1 & H2 & H3). pose proof (inv0_older k fs hs E0 H1) as Eo.
      assert (Eall : length all = (length fs * cap + length (k_slice k))%nat).
      { rewrite i_all0, app_length, Eo, i_len0. lia. }
      assert (Hne : (S (length fs) <> q0)%nat).
      { intros <-. lia. }
      destruct quota as [|q quota']; [done|]. injection Hq as ->. cbn [length write] in Ew. rewrite E0 in Ew. cbn [lookup list_lookup] in Ew.
      rewrite fmap_app, T in Ew. cbn [fmap list_fmap] in Ew. rewrite Ec in Ew.
      destruct (bakeF 0 (k_first k) [] (k_file k ++ [h])) as [f|] eqn:Eb; [|done]. cbv zeta in Ew.
      rewrite app_length in Ew. cbn [length] in Ew. destruct (Nat.eqb_spec (length fs + 1) q0) as [Hx|Hx]; [lia|]. injection Ew as <- <-.
      exists (fs ++ [(k_first k, f)]), (hs ++ (k_file k ++ [h])). cbn [k_disk]. pose proof (lookup_lt_Some _ _ _ E0) as Hd.
      split_and!.
      + by rewrite list_lookup_insert.
      + intros i x Hi Hx'. rewrite list_lookup_insert_ne in Hx' by lia. by eapply H1.
      + rewrite !app_length, H2. cbn [length]. lia.
      + intros j x Hj. apply lookup_app_Some in Hj as [Hj|[Hj1 Hj2]].
        * destruct (H3 j x Hj) as [A B]. split; [done|]. rewrite <- B. f_equal. pose proof (lookup_lt_Some _ _ _ Hj) as Hlt.
          assert ((j + 1) * cap <= length fs * cap)%nat by (apply Nat.mul_le_mono_r; lia).
          rewrite drop_app_le by lia. rewrite take_app_le; [done|]. rewrite drop_length. lia.
        * apply list_lookup_singleton_Some in Hj2 as [Hj2 <-]. assert (j = length fs) as -> by lia. cbn [fst snd].
          assert (Ef : k_first k = Z.of_nat (length fs * cap)) by (rewrite i_first0, Eo, H2; done).
          split; [done|]. rewrite <- Eb. f_equal.
          rewrite i_all0, Eo, <- app_assoc. rewrite <- H2, drop_app. rewrite take_ge; [done|]. rewrite app_length, <- i_len0. cbn [length]. lia.
    - injection E as <- <-. exact (inv0_app all [h] k I I0).
  Qed.

  Lemma careful_step (o : op) ops used k k1 : top_ok used k -> careful used (o :: ops) -> step cap quota bakeF k o = Ok k1 ->
    exists used', top_ok used' k1 /\ careful used' ops.
  Proof.
    intros T C E. assert (HA : forall c h k1 r, deref (k_vars k) c = h -> append cap quota bakeF k c h = Ok (k1, r) ->
        forall used', (forall v, v ∈ used -> v ∈ used') -> (forall v, c = Shared v -> v ∈ used') -> top_ok used' k1).
    { intros c h k2 r Ec Ea used' Hu Hc. unfold append in Ea. cbv zeta in Ea. destruct (_ <=? _)%nat; [done|].
      destruct (Nat.eqb _ _).
      - destruct (write _ _ _ _ _ _ _ _ _ _) as [[disk ch]|]; [|done]. injection Ea as <- <-. split; [done|]. intros v Hv. by apply elem_of_nil in Hv.
      - injection Ea as <- <-. destruct T as [T1 T2]. split; cbn [k_vars k_slice k_file].
        + rewrite fmap_app, T1. cbn. by rewrite Ec.
        + intros v Hv. apply elem_of_app in Hv as [Hv|Hv]; [by apply Hu, T2|]. apply elem_of_list_singleton in Hv. by apply Hc. }
    destruct o as [h|v|v h|]; cbn [step careful] in *.
    - exists used. split; [|done]. destruct (append cap quota bakeF k (Own h) h) as [[k2 r]| |] eqn:Ea; [|done|done]. injection E as <-.
      by eapply (HA (Own h)).
    - exists (v :: used). split; [|done]. destruct (append cap quota bakeF k (Shared v) _) as [[k2 r]| |] eqn:Ea; [|done|done]. injection E as <-.
      eapply (HA (Shared v)); [done|exact Ea| |].
      + intros u Hu. by right.
      + intros u [= <-]. by left.
    - injection E as <-. destruct C as [Hv C]. exists used. split; [|done]. destruct T as [T1 T2]. split; cbn [k_vars k_slice k_file]; [|done].
      rewrite <- T1. apply list_fmap_ext. intros i c Hc. destruct c as [|u]; [done|]. cbn [deref].
      apply elem_of_list_lookup_2 in Hc. rewrite lookup_insert_ne; [done|]. intros ->. by apply Hv, T2.
    - injection E as <-. exists []. split.
      + split; cbn [reopen k_vars k_slice k_file].
        * rewrite <- list_fmap_compose. rewrite <- (list_fmap_id (k_file k)) at 2. apply list_fmap_ext. done.
        * intros v Hv. apply elem_of_list_fmap in Hv as (? & ? & _). done.
      + eapply careful_mono; [|exact C]. apply list_subseteq_nil.
  Qed.

  Lemma inv_step o all k k1 : inv all k -> step cap quota bakeF k o = Ok k1 ->
    exists x, inv (all ++ x) k1 /\ forall ops, appended (k_vars k) (o :: ops) = x ++ appended (k_vars k1) ops.
  Proof.
    intros I E. destruct o as [h|v|v h|]; cbn [step appended] in *.
    - destruct (append cap quota bakeF k (Own h) h) as [[k2 r]| |] eqn:Ea; [|done|done]. injection E as <-.
      destruct (inv_append _ _ _ _ _ _ I Ea) as (I1 & _ & Ev). exists [h]. split; [done|]. intros ops. by rewrite Ev.
    - destruct (append cap quota bakeF k (Shared v) _) as [[k2 r]| |] eqn:Ea; [|done|done]. injection E as <-.
      destruct (inv_append _ _ _ _ _ _ I Ea) as (I1 & _ & Ev). eexists. split; [exact I1|]. intros ops. by rewrite Ev.
    - injection E as <-. exists []. rewrite app_nil_r. split; [|done]. destruct I. by split.
    - injection E as <-. exists []. rewrite app_nil_r. split; [by apply inv_reopen|done].
  Qed.

  Lemma inv0_run q0 ops : quota !! 0%nat = Some q0 -> forall used all k k', inv all k -> top_ok used k -> careful used ops -> inv0 all k ->
    run cap quota bakeF k ops = Ok k' -> (length (all ++ appended (k_vars k) ops) < q0 * cap)%nat -> inv0 (all ++ appended (k_vars k) ops) k'.
  Proof.
    intros Hq. induction ops as [|o ops IH]; intros used all k k' I T C I0 E Hlen.
    - cbn [run appended] in *. injection E as <-. by rewrite app_nil_r.
    - cbn [run] in E. destruct (step cap quota bakeF k o) as [k1| |] eqn:Es; [|done|done].
      destruct (inv_step o all k k1 I Es) as (x & I1 & Ex). destruct (careful_step o ops used k k1 T C Es) as (used' & T1 & C1).
      rewrite Ex in *. rewrite app_assoc in *. eapply IH; [exact I1|exact T1|exact C1| |exact E|exact Hlen].
      rewrite app_length in Hlen.
      destruct o as [h|v|v h|]; cbn [step] in Es.
      + destruct (append cap quota bakeF k (Own h) h) as [[k2 r]| |] eqn:Ea; [|done|done]. injection Es as ->.
        specialize (Ex []). cbn [appended] in Ex. rewrite app_nil_r in Ex. subst x.
        rewrite app_length in Hlen. cbn [length] in Hlen. eapply (inv0_append q0 all used k (Own h) h); eauto. lia.
      + destruct (append cap quota bakeF k (Shared v) _) as [[k2 r]| |] eqn:Ea; [|done|done]. injection Es as ->.
        specialize (Ex []). cbn [appended] in Ex. rewrite app_nil_r in Ex. subst x.
        rewrite app_length in Hlen. cbn [length] in Hlen. eapply (inv0_append q0 all used k (Shared v)); eauto. lia.
      + injection Es as <-. specialize (Ex []). cbn in Ex. rewrite app_nil_r in Ex. subst x. by rewrite app_nil_r.
      + injection Es as <-. specialize (Ex []). cbn in Ex. rewrite app_nil_r in Ex. subst x. by rewrite app_nil_r.
  Qed.

  Lemma inv0_create : quota <> [] -> inv0 [] (create quota).
  Proof.
    intros Hq. exists [], []. unfold create, reopen. cbn [k_disk]. split_and!.
    - apply lookup_replicate. split; [done|]. destruct quota; [done|cbn; lia].
    - intros i x _ Hx. by apply lookup_replicate in Hx as [-> _].
    - done.
    - intros j x Hj. done.
  Qed.
  Lemma top_create : top_ok [] (create quota).
  Proof using. clear bakeF. split; [done|]. intros v Hv. by apply elem_of_nil in Hv. Qed.

  Lemma top_run ops : forall used k k', top_ok used k -> careful used ops -> run cap quota bakeF k ops = Ok k' -> exists used', top_ok used' k'.
  Proof.
    induction ops as [|o ops IH]; intros used k k' T C E.
    - injection E as <-. by exists used.
    - cbn [run] in E. destruct (step cap quota bakeF k o) as [k1| |] eqn:Es; [|done|done].
      destruct (careful_step o ops used k k1 T C Es) as (used' & T1 & C1). by eapply IH.
  Qed.

  (** *** Which batches have been baked *)

  (** every full batch of [all] was baked from the top tier *)
  Definition batches (all : list (list Z)) : Prop :=
    forall j, ((j + 1) * cap <= length all)%nat -> is_Some (bakeF 0 (Z.of_nat (j * cap)) [] (take cap (drop (j * cap) all))).
  Definition aligned (k : cake (F:=F)) : Prop := exists m, length (older 0 (k_disk k)) = (m * cap)%nat.

  Lemma batch_app (all x : list (list Z)) j : ((j + 1) * cap <= length all)%nat -> take cap (drop (j * cap) (all ++ x)) = take cap (drop (j * cap) all).
  Proof using. clear bakeF. intros H. rewrite drop_app_le by lia. rewrite take_app_le; [done|]. rewrite drop_length. lia. Qed.

  Lemma write_baked n d off sf sh file rest disk r : write quota bakeF n d off sf sh file rest disk = Some r -> is_Some (bakeF d off sf sh).
  Proof. destruct n; [done|]. cbn [write]. destruct (disk !! d) as [[]|]; [|done]. destruct (quota !! d); [|done]. by destruct (bakeF d off sf sh). Qed.

  Lemma batches_append all used k c h k' r : inv all k -> aligned k -> top_ok used k -> batches all -> deref (k_vars k) c = h ->
    append cap quota bakeF k c h = Ok (k', r) -> batches (all ++ [h]) /\ aligned k'.
  Proof.
    intros I [m Hm] [T _] B Ec E. pose proof I as [].
    assert (Hlen : length all = (m * cap + length (k_file k))%nat) by (rewrite i_all0, app_length, Hm; done).
    destruct (inv_append _ _ _ _ _ _ I E) as ([A1 A2 A3 A4 _ _ _ _ _ _] & _ & _).
    unfold append in E. cbv zeta in E. destruct (Nat.leb_spec cap (length (k_slice k))) as [H|H]; [done|].
    destruct (Nat.eqb_spec (S (length (k_slice k))) cap) as [Hc|Hc].
    - destruct (write quota bakeF (length quota) 0 _ [] _ _ _ _) as [[disk ch]|] eqn:Ew; [|done].
      injection E as <- <-. cbn [k_disk k_file k_first] in *. apply write_baked in Ew. rewrite fmap_app, T in Ew. cbn [fmap list_fmap] in Ew. rewrite Ec in Ew.
      split.
      + intros j Hj. rewrite app_length in Hj. cbn [length] in Hj. destruct (decide (j = m)) as [->|Hne].
        * rewrite <- Hm, i_first0 in *. rewrite i_all0, <- app_assoc, drop_app. rewrite take_ge; [done|]. rewrite app_length. cbn [length]. lia.
        * assert (j < m)%nat. { destruct (decide (j < m)%nat); [done|]. assert ((m + 2) * cap <= (j + 1) * cap)%nat by (apply Nat.mul_le_mono_r; lia). lia. }
          assert ((j + 1) * cap <= m * cap)%nat by (apply Nat.mul_le_mono_r; lia). rewrite batch_app by lia. apply B. lia.
      + exists (m + 1)%nat. unfold aligned. cbn [k_disk]. rewrite app_nil_r in A1. rewrite <- A1, app_length. cbn [length]. lia.
    - injection E as <- <-. split; [|by exists m]. intros j Hj. rewrite app_length in Hj. cbn [length] in Hj.
      assert (j < m)%nat. { destruct (decide (j < m)%nat); [done|]. assert ((m + 1) * cap <= (j + 1) * cap)%nat by (apply Nat.mul_le_mono_r; lia). lia. }
      assert ((j + 1) * cap <= m * cap)%nat by (apply Nat.mul_le_mono_r; lia). rewrite batch_app by lia. apply B. lia.
  Qed.

  Lemma batches_run ops : forall used all k k', inv all k -> aligned k -> top_ok used k -> careful used ops -> batches all ->
    run cap quota bakeF k ops = Ok k' -> batches (all ++ appended (k_vars k) ops).
  Proof.
    induction ops as [|o ops IH]; intros used all k k' I A T C B E.
    - cbn [run appended] in *. by rewrite app_nil_r.
    - cbn [run] in E. destruct (step cap quota bakeF k o) as [k1| |] eqn:Es; [|done|done].
      destruct (inv_step o all k k1 I Es) as (x & I1 & Ex). destruct (careful_step o ops used k k1 T C Es) as (used' & T1 & C1).
      rewrite Ex, app_assoc. specialize (Ex []). cbn [appended] in Ex. rewrite app_nil_r in Ex.
      assert (batches (all ++ x) /\ aligned k1) as [B1 A1]; [|by eapply IH].
      destruct o as [h|v|v h|]; cbn [step] in Es.
      + destruct (append cap quota bakeF k (Own h) h) as [[k2 r]| |] eqn:Ea; [|done|done]. injection Es as ->. subst x.
        by eapply (batches_append all used k (Own h) h).
      + destruct (append cap quota bakeF k (Shared v) _) as [[k2 r]| |] eqn:Ea; [|done|done]. injection Es as ->. subst x.
        by eapply (batches_append all used k (Shared v)).
      + injection Es as <-. subst x. by rewrite app_nil_r.
      + injection Es as <-. subst x. by rewrite app_nil_r.
  Qed.

  Lemma aligned_run ops : forall all k k', inv all k -> aligned k -> run cap quota bakeF k ops = Ok k' -> aligned k'.
  Proof.
    assert (HA : forall all k c h k' r, inv all k -> aligned k -> append cap quota bakeF k c h = Ok (k', r) -> aligned k').
    { intros all k c h k' r I [m Hm] E. pose proof I as []. destruct (inv_append _ _ _ _ _ _ I E) as ([A1 _ _ _ _ _ _ _ _ _] & _ & _).
      unfold append in E. cbv zeta in E. destruct (Nat.leb_spec cap (length (k_slice k))) as [H|H]; [done|].
      destruct (Nat.eqb_spec (S (length (k_slice k))) cap) as [Hc|Hc].
      - destruct (write quota bakeF (length quota) 0 _ [] _ _ _ _) as [[disk ch]|] eqn:Ew; [|done]. injection E as <- <-. cbn [k_disk k_file] in A1.
        exists (m + 1)%nat. cbn [k_disk]. rewrite app_nil_r in A1. rewrite <- A1, i_all0, !app_length. cbn [length]. lia.
      - injection E as <- <-. by exists m. }
    induction ops as [|o ops IH]; intros all k k' I A E; cbn [run] in E; [by injection E as <-|].
    destruct (step cap quota bakeF k o) as [k1| |] eqn:Es; [|done|done]. destruct (inv_step o all k k1 I Es) as (x & I1 & _).
    eapply IH; [exact I1| |exact E]. destruct o as [h|v|v h|]; cbn [step] in Es.
    - destruct (append cap quota bakeF k (Own h) h) as [[k2 r]| |] eqn:Ea; [|done|done]. injection Es as ->. exact (HA _ _ _ _ _ _ I A Ea).
    - destruct (append cap quota bakeF k (Shared v) _) as [[k2 r]| |] eqn:Ea; [|done|done]. injection Es as ->. exact (HA _ _ _ _ _ _ I A Ea).
    - by injection Es as <-.
    - by injection Es as <-.
  Qed.
  Lemma aligned_create : aligned (create quota).
  Proof using. clear bakeF. exists 0%nat. unfold create, reopen. cbn [k_disk]. by rewrite older_empty. Qed.
  Lemma batches_nil : (1 <= cap)%nat -> batches [].
  Proof. intros Hc j Hj. cbn [length] in Hj. lia. Qed.

  (** where the top tier starts *)
  Lemma first_is all k : inv all k -> aligned k -> k_first k = Z.of_nat (length all / cap * cap).
  Proof using. clear bakeF.
    intros [] [m Hm]. rewrite i_first0, i_all0, app_length, Hm. do 2 f_equal. symmetry.
    rewrite Nat.add_comm, Nat.div_add by lia. rewrite Nat.div_small by done. lia.
  Qed.

  (** *** Appending does not fail while the first tier has room *)

  Lemma append_works q0 all used k c h : quota !! 0%nat = Some q0 -> inv all k -> top_ok used k -> inv0 all k -> deref (k_vars k) c = h ->
    (length all + 1 < q0 * cap)%nat -> batches (all ++ [h]) -> exists k' r, append cap quota bakeF k c h = Ok (k', r).
  Proof.
    intros Hq I [T _] (fs & hs & E0 & H1 & H2 & H3) Ec Hlen B. pose proof I as []. pose proof (inv0_older k fs hs E0 H1) as Eo.
    unfold append. cbv zeta. destruct (Nat.leb_spec cap (length (k_slice k))) as [H|H]; [lia|].
    destruct (Nat.eqb_spec (S (length (k_slice k))) cap) as [Hc|Hc]; [|by eexists _, _].
    assert (Eall : length all = (length fs * cap + length (k_slice k))%nat) by (rewrite i_all0, app_length, Eo, i_len0; lia).
    destruct (B (length fs)) as [f Ef]; [rewrite app_length; cbn [length]; lia|].
    assert (Ed : take cap (drop (length fs * cap) (all ++ [h])) = k_file k ++ [h]).
    { rewrite i_all0, Eo, <- app_assoc, <- H2, drop_app. rewrite take_ge; [done|]. rewrite app_length, <- i_len0. cbn [length]. lia. }
    rewrite Ed in Ef. assert (Efi : k_first k = Z.of_nat (length fs * cap)) by (rewrite i_first0, Eo, H2; done).
    destruct quota as [|q quota']; [done|]. injection Hq as ->. cbn [length write]. rewrite E0. cbn [lookup list_lookup].
    rewrite fmap_app, T. cbn [fmap list_fmap]. rewrite Ec, Efi, Ef. cbv zeta. rewrite app_length. cbn [length].
    destruct (Nat.eqb_spec (length fs + 1) q0) as [Hx|Hx]; [subst q0; lia|]. by eexists _, _.
  Qed.

  Lemma batches_prefix all x : batches (all ++ x) -> batches all.
  Proof. intros B j Hj. rewrite <- (batch_app all x) by done. apply B. rewrite app_length. lia. Qed.

  Lemma run_works q0 ops : quota !! 0%nat = Some q0 -> forall used all k, inv all k -> top_ok used k -> careful used ops -> inv0 all k ->
    (length (all ++ appended (k_vars k) ops) < q0 * cap)%nat -> batches (all ++ appended (k_vars k) ops) -> exists k', run cap quota bakeF k ops = Ok k'.
  Proof.
    intros Hq. induction ops as [|o ops IH]; intros used all k I T C I0 Hlen B; [by exists k|].
    assert (exists k1, step cap quota bakeF k o = Ok k1 /\ forall x, (forall ops, appended (k_vars k) (o :: ops) = x ++ appended (k_vars k1) ops) -> inv0 (all ++ x) k1) as (k1 & Es & Hk).
    { destruct o as [h|v|v h|]; cbn [step appended] in *.
      - rewrite app_length in Hlen. cbn [length] in Hlen.
        assert (B' : batches (all ++ [h])). { eapply (batches_prefix (all ++ [h])). rewrite <- app_assoc. exact B. }
        destruct (append_works q0 all used k (Own h) h Hq I T I0 eq_refl ltac:(lia) B') as (k1 & r & Ea). rewrite Ea. exists k1. split; [done|]. intros x Hx.
        specialize (Hx []). cbn in Hx. rewrite app_nil_r in Hx. subst x. eapply (inv0_append q0 all used k (Own h)); eauto. lia.
      - rewrite app_length in Hlen. cbn [length] in Hlen.
        assert (B' : batches (all ++ [default [] (k_vars k !! v)])). { eapply (batches_prefix (all ++ [_])). rewrite <- app_assoc. exact B. }
        destruct (append_works q0 all used k (Shared v) _ Hq I T I0 eq_refl ltac:(lia) B') as (k1 & r & Ea). cbn [deref] in Ea. rewrite Ea. exists k1. split; [done|]. intros x Hx.
        specialize (Hx []). cbn in Hx. rewrite app_nil_r in Hx. subst x. eapply (inv0_append q0 all used k (Shared v)); eauto. lia.
      - eexists. split; [done|]. intros x Hx. specialize (Hx []). cbn in Hx. rewrite app_nil_r in Hx. subst x. by rewrite app_nil_r.
      - eexists. split; [done|]. intros x Hx. specialize (Hx []). cbn in Hx. rewrite app_nil_r in Hx. subst x. by rewrite app_nil_r. }
    destruct (inv_step o all k k1 I Es) as (x & I1 & Ex). destruct (careful_step o ops used k k1 T C Es) as (used' & T1 & C1).
    cbn [run]. rewrite Es. rewrite Ex, app_assoc in Hlen, B. eapply (IH used' (all ++ x)); eauto.
  Qed.

  (** *** A batch appended in one session *)

  Lemma run_fill hs : forall k, (length (k_slice k) + length hs < cap)%nat ->
    exists k', run cap quota bakeF k (Append <$> hs) = Ok k' /\ k_chain k' = k_chain k /\ k_disk k' = k_disk k /\ k_first k' = k_first k /\ length (k_slice k') = (length (k_slice k) + length hs)%nat.
  Proof.
    induction hs as [|h hs IH]; intros k Hl.
    - exists k. split_and!; try done; cbn; lia.
    - cbn [fmap list_fmap run step]. cbn [length] in Hl. unfold append. cbv zeta.
      destruct (Nat.leb_spec cap (length (k_slice k))) as [H|H]; [lia|]. destruct (Nat.eqb_spec (S (length (k_slice k))) cap) as [H'|H']; [lia|].
      match goal with |- context [run _ _ _ ?k1 _] => destruct (IH k1) as (k' & E & A1 & A2 & A3 & A4) end.
      { cbn [k_slice]. rewrite app_length. cbn [length]. lia. }
      exists k'. rewrite E. cbn [k_chain k_disk k_first k_slice] in *. split_and!; [done|done|done|done|]. rewrite A4, app_length. cbn [length]. lia.
  Qed.

  Lemma appended_appends vars hs : appended vars (Append <$> hs) = hs.
  Proof using. clear bakeF. induction hs as [|h hs IH]; [done|]. cbn [fmap list_fmap appended]. f_equal. exact IH. Qed.
  Lemma careful_appends used hs : careful used (Append <$> hs).
  Proof using. clear bakeF. induction hs as [|h hs IH]; [done|]. cbn [fmap list_fmap careful]. exact IH. Qed.
  Lemma run_app ops1 ops2 : forall k, run cap quota bakeF k (ops1 ++ ops2) = match run cap quota bakeF k ops1 with Ok k' => run cap quota bakeF k' ops2 | Missing => Missing | Panic => Panic end.
  Proof. induction ops1 as [|o ops1 IH]; intros k; [done|]. cbn [app run]. destruct (step cap quota bakeF k o); [apply IH|done|done]. Qed.

  (** the chain after a batch that did not fill the first tier: the object of the first tier before it, closed, stays behind the new one *)
  Lemma batch_chain q0 all k hs k' : quota !! 0%nat = Some q0 -> inv all k -> inv0 all k -> k_slice k = [] -> (length all + cap < q0 * cap)%nat ->
    length hs = cap -> run cap quota bakeF k (Append <$> hs) = Ok k' -> exists o, k_chain k' = o :: close_head (k_chain k).
  Proof.
    intros Hq I I0 Hs Hlen Hhs E. pose proof I as []. destruct hs as [|h hs' _] using rev_ind.
    { cbn in Hhs. lia. }
    rewrite app_length in Hhs. cbn [length] in Hhs. rewrite fmap_app, run_app in E. cbn [fmap list_fmap] in E.
    destruct (run_fill hs' k) as (k1 & E1 & A1 & A2 & A3 & A4); [rewrite Hs; cbn [length]; lia|]. rewrite E1 in E. cbn [run step] in E.
    unfold append in E. cbv zeta in E. rewrite A4, Hs in E. cbn [length plus] in E.
    destruct (Nat.leb_spec cap (length hs')) as [H|H]; [lia|]. destruct (Nat.eqb_spec (S (length hs')) cap) as [H'|H']; [|lia].
    destruct (write quota bakeF (length quota) 0 _ [] _ _ _ _) as [[disk ch]|] eqn:Ew; [|done]. injection E as <-. cbn [k_chain].
    destruct I0 as (fs & hs & E0 & H1 & H2 & H3). pose proof (inv0_older k fs hs E0 H1) as Eo.
    assert (length all = length fs * cap)%nat as Eall.
    { rewrite i_all0, app_length, Eo, H2, <- i_len0, Hs. cbn [length]. lia. }
    destruct quota as [|q quota']; [done|]. injection Hq as ->. cbn [length write] in Ew. rewrite A2, E0 in Ew. cbn [lookup list_lookup] in Ew.
    destruct (bakeF 0 _ _ _) as [f|]; [|done]. cbv zeta in Ew. rewrite app_length in Ew. cbn [length] in Ew.
    destruct (Nat.eqb_spec (length fs + 1) q0) as [Hx|Hx]; [subst q0; lia|]. injection Ew as <- <-. rewrite A1. by eexists.
  Qed.

  (** *** The chain before the second bake: nothing below the first tier, and no old object with forests *)

  Definition quiet (ch : list (obj (F:=F))) : Prop := Forall (fun o => o_forests o = []) ch.
  Definition inv1 (k : cake (F:=F)) : Prop := quiet (tail (k_chain k)).

  Lemma quiet_close ch : quiet ch -> quiet (close_head ch).
  Proof using. clear bakeF. destruct 1 as [|o ch Ho Hch]; [constructor|]. by constructor. Qed.

  Lemma inv0_tail (all : list (list Z)) k : inv0 all k -> quiet (tail (imap open_tier (k_disk k))).
  Proof.
    intros (fs & hs & E & H1 & _). destruct (k_disk k) as [|x disk]; [done|]. cbn [imap tail]. apply Forall_lookup. intros i o Ho.
    rewrite list_lookup_imap in Ho. destruct (disk !! i) as [y|] eqn:Ey; [|done]. injection Ho as <-. unfold compose, open_tier. cbn [o_forests].
    rewrite (H1 (S i) y ltac:(lia) Ey). done.
  Qed.

  Lemma inv0_fs all k fs hs : inv all k -> inv0 all k -> k_disk k !! 0%nat = Some (fs, hs) -> length fs = (length all / cap)%nat.
  Proof.
    intros I (fs' & hs' & E & H1 & H2 & _) E'. rewrite E in E'. injection E' as -> ->. destruct I.
    rewrite i_all0, app_length, (inv0_older k fs hs E H1), H2. symmetry.
    rewrite Nat.add_comm, Nat.div_add by lia. rewrite Nat.div_small by done. lia.
  Qed.

  Lemma inv0_quiet all k : inv all k -> inv0 all k -> (length all < cap)%nat -> inv1 k -> quiet (k_chain k).
  Proof.
    intros I I0 Hlen H1. pose proof I0 as (fs & hs & E & _). pose proof (inv0_fs all k fs hs I I0 E) as Hfs. rewrite Nat.div_small in Hfs by done.
    destruct fs; [|done]. destruct (i_head _ _ I _ E) as (o & ch & Ech & _ & Ho & _). unfold inv1 in H1. rewrite Ech in *. cbn [tail] in H1. by constructor.
  Qed.

  Lemma inv1_append q0 all used k c h k' r : quota !! 0%nat = Some q0 -> inv all k -> top_ok used k -> inv0 all k -> inv1 k ->
    append cap quota bakeF k c h = Ok (k', r) -> (length all + 1 < q0 * cap)%nat -> (length all + 1 < 2 * cap)%nat -> inv1 k'.
  Proof.
    intros Hq I T I0 I1 E Hlen Hlen2. pose proof I as []. unfold append in E. cbv zeta in E.
    destruct (Nat.leb_spec cap (length (k_slice k))) as [H|H]; [done|].
    destruct (Nat.eqb_spec (S (length (k_slice k))) cap) as [Hc|Hc]; [|by injection E as <- <-].
    destruct (write quota bakeF (length quota) 0 _ [] _ _ _ _) as [[disk ch]|] eqn:Ew; [|done]. injection E as <- <-.
    pose proof I0 as (fs & hs & E0 & H1 & H2 & H3). pose proof (inv0_older k fs hs E0 H1) as Eo.
    assert (Eall : length all = (length fs * cap + length (k_slice k))%nat) by (rewrite i_all0, app_length, Eo, i_len0; lia).
    assert (length fs = 0)%nat. { destruct (length fs) as [|n]; [done|]. lia. }
    destruct quota as [|q quota']; [done|]. injection Hq as ->. cbn [length write] in Ew. rewrite E0 in Ew. cbn [lookup list_lookup] in Ew.
    destruct (bakeF 0 _ _ _) as [f|]; [|done]. cbv zeta in Ew. rewrite app_length in Ew. cbn [length] in Ew.
    destruct (Nat.eqb_spec (length fs + 1) q0) as [Hx|Hx]; [subst q0; lia|]. injection Ew as <- <-. unfold inv1. cbn [k_chain tail].
    apply quiet_close. apply (inv0_quiet all); [done|done|lia|done].
  Qed.

  Lemma inv1_run q0 ops : quota !! 0%nat = Some q0 -> forall used all k k', inv all k -> top_ok used k -> careful used ops -> inv0 all k -> inv1 k ->
    run cap quota bakeF k ops = Ok k' -> (length (all ++ appended (k_vars k) ops) < q0 * cap)%nat -> (length (all ++ appended (k_vars k) ops) < 2 * cap)%nat -> inv1 k'.
  Proof.
    intros Hq. induction ops as [|o ops IH]; intros used all k k' I T C I0 I1 E Hlen Hlen2.
    - cbn [run appended] in *. by injection E as <-.
    - cbn [run] in E. destruct (step cap quota bakeF k o) as [k1| |] eqn:Es; [|done|done].
      destruct (inv_step o all k k1 I Es) as (x & J & Ex). destruct (careful_step o ops used k k1 T C Es) as (used' & T1 & C1).
      rewrite Ex, app_assoc in Hlen, Hlen2.
      assert (J0 : inv0 (all ++ x) k1).
      { specialize (Ex []). cbn in Ex. assert (Eq : run cap quota bakeF k [o] = Ok k1) by (cbn [run]; by rewrite Es).
        assert (Hap : appended (k_vars k) [o] = x) by (destruct o; cbn [appended] in *; rewrite ?app_nil_r in Ex; done).
        rewrite <- Hap. eapply (inv0_run q0 [o] Hq used); [done|done| |done|done|].
        - destruct o; cbn [careful] in *; try done. by destruct C.
        - rewrite Hap. rewrite app_length in Hlen. lia. }
      eapply (IH used' (all ++ x)); [done|done|done|done| |done|done|done].
      rewrite app_length in Hlen, Hlen2. specialize (Ex []). cbn [appended] in Ex. rewrite app_nil_r in Ex.
      destruct o as [h|v|v h|]; cbn [step] in Es.
      + destruct (append cap quota bakeF k (Own h) h) as [[k2 r]| |] eqn:Ea; [|done|done]. injection Es as ->. subst x.
        rewrite app_length in Hlen, Hlen2. cbn [length] in Hlen, Hlen2. eapply (inv1_append q0 all used k); eauto; lia.
      + destruct (append cap quota bakeF k (Shared v) _) as [[k2 r]| |] eqn:Ea; [|done|done]. injection Es as ->. subst x.
        rewrite app_length in Hlen, Hlen2. cbn [length] in Hlen, Hlen2. eapply (inv1_append q0 all used k); eauto; lia.
      + by injection Es as <-.
      + injection Es as <-. unfold inv1. cbn [reopen k_chain]. by eapply inv0_tail.
  Qed.
  Lemma inv1_create : quota <> [] -> inv1 (create quota).
  Proof. intros Hq. unfold inv1, create, reopen. cbn [k_chain]. apply (inv0_tail [] (create quota)). by apply inv0_create. Qed.

  (** *** Looking a hash up *)

  Lemma map_of_last hs h i : map_of hs !! h = Some i <-> is_last hs h i.
  Proof using. clear bakeF cap quota.
    unfold is_last. revert i. induction hs as [|x hs IH] using rev_ind; intros i.
    - change (map_of []) with (∅ : gmap (list Z) nat). rewrite lookup_empty. split; [done|]. intros [H _]. done.
    - rewrite map_of_snoc. destruct (decide (x = h)) as [->|Hne].
      + rewrite lookup_insert. split.
        * intros [= <-]. split; [by rewrite lookup_app_r, Nat.sub_diag by lia|]. intros j Hj. rewrite lookup_ge_None_2; [done|]. rewrite app_length. cbn [length]. lia.
        * intros [H1 H2]. f_equal. destruct (decide (length hs = i)) as [|Hx]; [done|]. exfalso.
          pose proof (lookup_lt_Some _ _ _ H1) as Hlt. rewrite app_length in Hlt. cbn [length] in Hlt.
          apply (H2 (length hs)); [lia|]. by rewrite lookup_app_r, Nat.sub_diag by lia.
      + rewrite lookup_insert_ne by done. rewrite IH. split; intros [H1 H2].
        * split; [by apply lookup_app_l_Some|]. intros j Hj E. apply lookup_app_Some in E as [E|[_ E]]; [by apply (H2 j)|].
          apply list_lookup_singleton_Some in E as [_ E]. done.
        * assert (H : hs !! i = Some h). { apply lookup_app_Some in H1 as [E|[_ E]]; [done|]. apply list_lookup_singleton_Some in E as [_ E]. done. }
          split; [done|]. intros j Hj E. apply (H2 j Hj). by apply lookup_app_l_Some.
  Qed.
  Lemma map_of_none hs h : map_of hs !! h = None <-> h ∉ hs.
  Proof using. clear bakeF cap quota.
    split.
    - intros H Hin. assert (exists i, is_last hs h i) as [i Hi].
      { clear H. induction hs as [|x hs IH] using rev_ind; [by apply elem_of_nil in Hin|]. destruct (decide (x = h)) as [->|Hne].
        - exists (length hs). split; [by rewrite lookup_app_r, Nat.sub_diag by lia|]. intros j Hj. rewrite lookup_ge_None_2; [done|]. rewrite app_length. cbn [length]. lia.
        - apply elem_of_app in Hin as [Hin|Hin]; [|apply elem_of_list_singleton in Hin; done]. destruct (IH Hin) as (i & H1 & H2). exists i. split; [by apply lookup_app_l_Some|].
          intros j Hj E. apply lookup_app_Some in E as [E|[_ E]]; [by apply (H2 j)|]. apply list_lookup_singleton_Some in E as [_ E]. done. }
      apply map_of_last in Hi. by rewrite H in Hi.
    - intros H. destruct (map_of hs !! h) as [i|] eqn:E; [|done]. apply map_of_last in E as [E _]. exfalso. apply H. by eapply elem_of_list_lookup_2.
  Qed.

  Context (findF : nat -> F -> list Z -> option Z).

  Lemma find_chain_quiet ch q : quiet ch -> find_chain findF ch q = Missing.
  Proof. induction 1 as [|o ch Ho Hch IH]; [done|]. cbn [find_chain]. unfold find_obj. by rewrite Ho. Qed.

  Lemma find_forests_first t a f0 f b q x : (forall y, y ∈ a -> findF t (snd y) q = Some 0) -> findF t f q = Some x -> x <> 0 ->
    find_forests findF t (a ++ (f0, f) :: b) q = Ok (x - 1 + f0).
  Proof.
    intros Ha Hf Hx. induction a as [|[g0 g] a IH]; cbn [app find_forests].
    - rewrite Hf. destruct (Z.eqb_spec x 0); done.
    - pose proof (Ha (g0, g) ltac:(left)) as H0. cbn [snd] in H0. rewrite H0. cbn [Z.eqb]. apply IH. intros y Hy. apply Ha. by right.
  Qed.
  Lemma find_forests_none t a q : (forall y, y ∈ a -> findF t (snd y) q = Some 0) -> find_forests findF t a q = Missing.
  Proof.
    intros Ha. induction a as [|[g0 g] a IH]; cbn [find_forests]; [done|]. pose proof (Ha (g0, g) ltac:(left)) as H0. cbn [snd] in H0. rewrite H0. cbn [Z.eqb]. apply IH. intros y Hy. apply Ha. by right.
  Qed.
  Lemma find_obj_open o q : (o_forests o <> [] -> is_Some (o_file o)) -> find_obj findF o q = find_forests findF (o_tier o) (o_forests o) q.
  Proof. unfold find_obj. destruct (o_forests o) as [|x fs]; [done|]. intros [hs ->]; done. Qed.

  (** the chain starts with the first tier as it is on disk *)
  Lemma find_chain_first all k fs hs q : inv all k -> k_disk k !! 0%nat = Some (fs, hs) -> exists rest, k_chain k = hd (mk_obj 0 [] None) (k_chain k) :: rest /\ rest = tail (k_chain k) /\
    find_chain findF (k_chain k) q = match find_forests findF 0 fs q with Missing => find_chain findF rest q | r => r end.
  Proof.
    intros I E. destruct (i_head _ _ I _ E) as (o & ch & Ech & Ht & Ho & Hf). cbn [fst snd] in Ho, Hf. exists ch. rewrite Ech. split_and!; [done|done|]. cbn [find_chain].
    rewrite find_obj_open, Ht, Ho; [done|]. rewrite Ho. intros Hne. rewrite (Hf Hne). by eexists.
  Qed.
End Inv.
