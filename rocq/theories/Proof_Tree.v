(** Lemmas about the trees. *)
From Coq Require Import Sorting.Sorted.
From Verif Require Import Base Model_Tree Spec_Tree.

(** ** The scan of the sorted hashes *)
Section Scan.
  Context (bi : nat).
  Notation byte x := (th_hash x !!! bi).
  Definition ssorted (l : list thash) : Prop := StronglySorted (fun x y => byte x <= byte y) l.

  Lemma ssorted_of_lookup l :
    (forall a b x y, l !! a = Some x -> l !! b = Some y -> (a <= b)%nat -> byte x <= byte y) -> ssorted l.
  Proof.
    induction l as [|z l IH]; intros H; [constructor|]. constructor.
    - apply IH. intros a b x y Ha Hb Hab. apply (H (S a) (S b)); [done|done|lia].
    - apply Forall_forall. intros y Hy. apply elem_of_list_lookup in Hy as [b Hb]. apply (H 0%nat (S b)); [done|done|lia].
  Qed.

  Lemma filter_all (P : thash -> Prop) `{HD : !forall x, Decision (P x)} (l : list thash) : (forall x, x ∈ l -> P x) -> filter P l = l.
  Proof.
    induction l as [|x l IH]; intros H; [done|]. rewrite filter_cons_True by (apply H; by left). f_equal. apply IH. intros y Hy. apply H. by right.
  Qed.
  Lemma filter_none (P : thash -> Prop) `{HD : !forall x, Decision (P x)} (l : list thash) : (forall x, x ∈ l -> ~ P x) -> filter P l = [].
  Proof.
    induction l as [|x l IH]; intros H; [done|]. rewrite filter_cons_False by (apply H; by left). apply IH. intros y Hy. apply H. by right.
  Qed.

  Lemma ssorted_filter (P : thash -> Prop) `{HD : !forall x, Decision (P x)} (l : list thash) : ssorted l -> ssorted (filter P l).
  Proof.
    induction 1 as [|x l Hs IH Hf]; [constructor|]. destruct (decide (P x)).
    - rewrite filter_cons_True by done. constructor; [done|]. apply Forall_forall. intros y Hy.
      apply elem_of_list_filter in Hy as [_ Hy]. rewrite Forall_forall in Hf. by apply Hf.
    - by rewrite filter_cons_False by done.
  Qed.

  Lemma skip_filter w l : ssorted l -> (forall x, x ∈ l -> w <= byte x) -> skip_while bi w l = filter (fun x => w < byte x) l.
  Proof.
    induction 1 as [|x l Hs IH Hf]; intros Hge; [done|]. cbn [skip_while].
    pose proof (Hge x ltac:(by left)) as Hx. destruct (Z.eqb_spec (byte x) w).
    - rewrite filter_cons_False by lia. apply IH. intros y Hy. apply Hge. by right.
    - symmetry. apply filter_all. intros y Hy. apply elem_of_cons in Hy as [->|Hy]; [lia|].
      rewrite Forall_forall in Hf. pose proof (Hf y Hy). cbn in *. lia.
  Qed.
  Lemma take_filter w l : ssorted l -> (forall x, x ∈ l -> w <= byte x) -> take_while bi w l = filter (fun x => byte x = w) l.
  Proof.
    induction 1 as [|x l Hs IH Hf]; intros Hge; [done|]. cbn [take_while].
    pose proof (Hge x ltac:(by left)) as Hx. destruct (Z.eqb_spec (byte x) w).
    - rewrite filter_cons_True by done. f_equal. apply IH. intros y Hy. apply Hge. by right.
    - symmetry. apply filter_none. intros y Hy. apply elem_of_cons in Hy as [->|Hy]; [done|].
      rewrite Forall_forall in Hf. pose proof (Hf y Hy). cbn in *. lia.
  Qed.

  Lemma advance_filter v l : ssorted l -> (forall x, x ∈ l -> 0 <= byte x) -> advance bi v l = filter (fun x => Z.of_nat v <= byte x) l.
  Proof.
    intros Hs Hge. induction v as [|v IH]; cbn [advance].
    - symmetry. apply filter_all. intros x Hx. by apply Hge.
    - rewrite IH, skip_filter.
      + rewrite list_filter_filter. apply list_filter_iff. intros x. lia.
      + by apply ssorted_filter.
      + intros x Hx. by apply elem_of_list_filter in Hx as [? _].
  Qed.

  Lemma run_filter v l : ssorted l -> (forall x, x ∈ l -> 0 <= byte x) -> 0 <= v -> run bi v l = filter (fun x => byte x = v) l.
  Proof.
    intros Hs Hge Hv. unfold run. rewrite advance_filter, take_filter by
      (try done; first [by apply ssorted_filter | intros x Hx; apply elem_of_list_filter in Hx as [? _]; lia]).
    rewrite list_filter_filter. apply list_filter_iff. intros x. lia.
  Qed.
End Scan.

(** ** Flags *)
Lemma flip_length i fl : length (flip i fl) = length fl.
Proof. unfold flip. destruct (fl !! i); [by rewrite insert_length|done]. Qed.
Lemma flip_same i fl : fl !! i = Some true -> flip i fl !! i = Some false.
Proof. intros H. unfold flip. rewrite H. cbn. apply list_lookup_insert. by eapply lookup_lt_Some. Qed.
Lemma flip_other i j fl : i <> j -> flip i fl !! j = fl !! j.
Proof. intros H. unfold flip. destruct (fl !! i); [by rewrite list_lookup_insert_ne|done]. Qed.

Definition set_count (fl : list bool) : nat := length (filter (fun b => b = true) fl).
Lemma flip_count i fl : fl !! i = Some true -> S (set_count (flip i fl)) = set_count fl.
Proof.
  intros H. unfold flip. rewrite H. cbn. unfold set_count. revert i H. induction fl as [|b fl IH]; intros [|i] H; try done.
  - injection H as ->. cbn. done.
  - cbn in H. cbn [insert list_insert]. destruct b.
    + rewrite !filter_cons_True by done. cbn [length]. f_equal. by apply IH.
    + rewrite !filter_cons_False by done. by apply IH.
Qed.

Lemma flags_init_length hl pre : (pre <= hl)%nat -> length (flags_init hl pre) = hl.
Proof. intros. unfold flags_init. rewrite app_length, !replicate_length. lia. Qed.
Lemma flags_init_lookup hl pre i : (pre <= hl)%nat -> (i < hl)%nat -> flags_init hl pre !! i = Some (pre <=? i)%nat.
Proof.
  intros H1 H2. unfold flags_init. destruct (decide (i < pre)%nat).
  - rewrite lookup_app_l by (rewrite replicate_length; lia). rewrite lookup_replicate_2 by lia. f_equal. symmetry. apply Nat.leb_gt. lia.
  - rewrite lookup_app_r, replicate_length by (rewrite replicate_length; lia). rewrite lookup_replicate_2 by lia. f_equal. symmetry. apply Nat.leb_le. lia.
Qed.
Lemma set_count_init hl pre : (pre <= hl)%nat -> set_count (flags_init hl pre) = (hl - pre)%nat.
Proof.
  intros H. unfold set_count, flags_init. rewrite filter_app, app_length.
  replace (length (filter (fun b => b = true) (replicate pre false))) with 0%nat.
  - generalize (hl - pre)%nat as n. induction n as [|n IH]; [done|]. cbn [replicate]. rewrite filter_cons_True by done. cbn [length]. lia.
  - clear. induction pre as [|n IH]; [done|]. cbn [replicate]. rewrite filter_cons_False by done. done.
Qed.

(** ** Reassurance bytes *)
Lemma check_own n fl h : length h = length fl -> check fl h (reassure n fl h) = Some true.
Proof.
  revert n h. induction fl as [|b fl IH]; intros n [|x h] H; try done.
  cbn [length] in H. cbn [reassure]. destruct b.
  - destruct n as [|n]; [done|]. cbn [check]. rewrite Z.eqb_refl. apply IH. lia.
  - pose proof (IH n h ltac:(lia)) as H0. cbn [check]. by destruct (reassure n fl h).
Qed.

(** what a passed check means *)
Lemma check_passed n fl h q : length h = length fl -> length q = length fl ->
  match check fl q (reassure n fl h) with
  | None => False
  | Some false => True
  | Some true => exists P, NoDup P /\ length P = (n `min` set_count fl)%nat /\ (forall i, i ∈ P -> fl !! i = Some true /\ h !! i = q !! i)
  end.
Proof.
  revert n h q. induction fl as [|b fl IH]; intros n [|x h] [|y q] H1 H2; try done.
  - cbn. exists []. split; [constructor|]. split; [by rewrite Nat.min_0_r|]. intros i Hi. by apply elem_of_nil in Hi.
  - cbn [length] in H1, H2. cbn [reassure]. destruct b.
    + destruct n as [|n].
      * cbn. exists []. split; [constructor|]. split; [done|]. intros i Hi. by apply elem_of_nil in Hi.
      * cbn [check]. destruct (Z.eqb_spec y x) as [->|]; [|done]. specialize (IH n h q ltac:(lia) ltac:(lia)).
        destruct (check fl q (reassure n fl h)) as [[|]|]; [|done|done]. destruct IH as (P & HP1 & HP2 & HP3).
        exists (0%nat :: (S <$> P)). split; [|split].
        -- constructor; [|by apply NoDup_fmap_2; [apply _|]]. intros Hi. apply elem_of_list_fmap in Hi as (j & Hj & _). done.
        -- unfold set_count. rewrite filter_cons_True by done. cbn [length]. rewrite fmap_length, HP2. unfold set_count. lia.
        -- intros i Hi. apply elem_of_cons in Hi as [->|Hi]; [done|]. apply elem_of_list_fmap in Hi as (j & -> & Hj). by apply HP3.
    + specialize (IH n h q ltac:(lia) ltac:(lia)).
      assert (check (false :: fl) (y :: q) (reassure n fl h) = check fl q (reassure n fl h)) as ->.
      { cbn [check]. destruct (reassure n fl h); [by destruct fl|done]. }
      destruct (check fl q (reassure n fl h)) as [[|]|]; [|done|done]. destruct IH as (P & HP1 & HP2 & HP3).
      exists (S <$> P). split; [|split].
      * by apply NoDup_fmap_2; [apply _|].
      * unfold set_count. rewrite filter_cons_False by done. rewrite fmap_length, HP2. done.
      * intros i Hi. apply elem_of_list_fmap in Hi as (j & -> & Hj). by apply HP3.
Qed.

(** ** The choice of a byte *)
Section Choice.
  Context (ent : list thash -> nat -> Z) (Hent : entropy_ok ent).

  Lemma pick_from_spec l i fl best : l <> [] -> 0 <= snd best -> (snd best = 0 <-> fst best = None) ->
    let r := pick_from ent l i fl best in
    0 <= snd r /\ snd best <= snd r /\ (snd r = 0 <-> fst r = None) /\
    (fst r = fst best /\ snd r = snd best \/ exists j, fst r = Some (i + j)%nat /\ fl !! j = Some true /\ 0 < ent l (i + j) /\ snd r = ent l (i + j)) /\
    (forall j, fl !! j = Some true -> ent l (i + j) <= snd r).
  Proof using Hent.
    intros Hl. revert i best. induction fl as [|b fl IH]; intros i best H0 Hb; cbn [pick_from].
    - split; [done|]. split; [lia|]. split; [done|]. split; [by left|]. intros j Hj. done.
    - set (best' := if b then _ else _).
      assert (0 <= snd best' /\ snd best <= snd best' /\ (snd best' = 0 <-> fst best' = None) /\
        (best' = best \/ fst best' = Some i /\ b = true /\ 0 < ent l i /\ snd best' = ent l i) /\ (b = true -> ent l i <= snd best')) as (A1 & A2 & A3 & A4 & A5).
      { unfold best'. destruct b; [|split; [done|split; [lia|split; [done|split; [by left|done]]]]].
        destruct (Z.ltb_spec (snd best) (ent l i)); cbn [fst snd].
        - split; [lia|]. split; [lia|]. split; [split; [lia|done]|]. split; [right; repeat split; lia|lia].
        - split; [done|]. split; [lia|]. split; [done|]. split; [by left|lia]. }
      destruct (IH (S i) best' A1 A3) as (B1 & B2 & B3 & B4 & B5). cbn zeta in *.
      split; [done|]. split; [lia|]. split; [done|]. split.
      + destruct B4 as [[B4 B4']|(j & C1 & C2 & C3 & C4)].
        * destruct A4 as [->|(D1 & D2 & D3 & D4)]; [by left|]. right. exists 0%nat. rewrite Nat.add_0_r, B4, D1. rewrite D2. repeat split; lia || done.
        * right. exists (S j). replace (i + S j)%nat with (S i + j)%nat by lia. done.
      + intros [|j] Hj.
        * cbn in Hj. injection Hj as ->. rewrite Nat.add_0_r. pose proof (A5 eq_refl). lia.
        * replace (i + S j)%nat with (S i + j)%nat by lia. by apply B5.
  Qed.

  Lemma choose_some l fl bi : l <> [] -> choose ent l fl = Some bi ->
    fl !! bi = Some true /\ exists x y, x ∈ l /\ y ∈ l /\ th_hash x !!! bi <> th_hash y !!! bi.
  Proof using Hent.
    intros Hl. unfold choose. destruct (pick_from_spec l 0 fl (None, 0)) as (_ & _ & H3 & H4 & _); [done|done|done|].
    cbn zeta in *. destruct (Z.eqb_spec (snd (pick_from ent l 0 fl (None, 0))) 0) as [|Hn]; [done|]. intros E.
    destruct H4 as [[H4 _]|(j & H4 & H5 & H6 & _)].
    - rewrite H4 in E. done.
    - rewrite H4 in E. injection E as <-. split; [done|]. by apply (Hent l j Hl).
  Qed.

  Lemma choose_none l fl : l <> [] -> choose ent l fl = None ->
    forall j x y, fl !! j = Some true -> x ∈ l -> y ∈ l -> th_hash x !!! j = th_hash y !!! j.
  Proof using Hent.
    intros Hl. unfold choose. destruct (pick_from_spec l 0 fl (None, 0)) as (_ & _ & H3 & _ & H5); [done|done|done|].
    cbn zeta in *. destruct (Z.eqb_spec (snd (pick_from ent l 0 fl (None, 0))) 0) as [E|Hn].
    - intros _ j x y Hj Hx Hy. destruct (decide (th_hash x !!! j = th_hash y !!! j)) as [|Hne]; [done|].
      pose proof (H5 j Hj) as Hle. cbn in Hle. destruct (Hent l j Hl) as [_ [_ Hpos]].
      assert (0 < ent l j) by (apply Hpos; eauto). lia.
    - intros E. by apply H3 in E.
  Qed.
End Choice.

(** ** Building *)
Section Gen.
  Context (ent : list thash -> nat -> Z) (Hent : entropy_ok ent) (srt : nat -> list thash -> list thash) (Hsrt : sort_ok srt) (R : nat).

  (** the state in which a node is built: distinct hashes that agree on the bytes used so far *)
  Record ready (l : list thash) (fl : list bool) : Prop := mk_ready {
    rd_ok : hashes_ok (length fl) l;
    rd_distinct : distinct l;
    rd_agree : forall x y j, x ∈ l -> y ∈ l -> fl !! j = Some false -> th_hash x !!! j = th_hash y !!! j
  }.

  Definition group (bi : nat) (v : Z) (l : list thash) : list thash := run bi v (srt bi l).

  Lemma group_spec bi v l n : hashes_ok n l -> (bi < n)%nat -> 0 <= v -> group bi v l ≡ₚ filter (fun x => th_hash x !!! bi = v) l.
  Proof using Hsrt.
    intros Hok Hbi Hv. destruct (Hsrt bi l) as [Hp Hs]. unfold group. rewrite run_filter; [by rewrite Hp|by apply ssorted_of_lookup| |done].
    intros x Hx. rewrite Hp in Hx. destruct (Hok x Hx) as [E Hb].
    destruct (lookup_lt_is_Some_2 (th_hash x) bi) as [z Hz]; [lia|]. rewrite (list_lookup_total_correct _ _ _ Hz).
    unfold bytes in Hb. rewrite Forall_forall in Hb. pose proof (Hb z (elem_of_list_lookup_2 _ _ _ Hz)) as H. unfold is_byte in H. lia.
  Qed.

  Lemma group_elem bi v l n x : hashes_ok n l -> (bi < n)%nat -> 0 <= v -> x ∈ group bi v l <-> x ∈ l /\ th_hash x !!! bi = v.
  Proof using Hsrt.
    intros Hok Hbi Hv. rewrite (group_spec bi v l n Hok Hbi Hv), elem_of_list_filter. tauto.
  Qed.

  Lemma byte_of x l n bi : hashes_ok n l -> (bi < n)%nat -> x ∈ l -> 0 <= th_hash x !!! bi < 256.
  Proof using.
    intros Hok Hbi Hx. destruct (Hok x Hx) as [E Hb].
    destruct (lookup_lt_is_Some_2 (th_hash x) bi) as [z Hz]; [lia|]. rewrite (list_lookup_total_correct _ _ _ Hz).
    unfold bytes in Hb. rewrite Forall_forall in Hb. apply (Hb z (elem_of_list_lookup_2 _ _ _ Hz)).
  Qed.

  Lemma distinct_sub (l l' : list thash) (P : thash -> Prop) `{HD : !forall x, Decision (P x)} : l' ≡ₚ filter P l -> distinct l -> distinct l'.
  Proof using.
    unfold distinct. intros -> H. revert H. induction l as [|x l IH]; intros H; [done|].
    rewrite fmap_cons in H. apply NoDup_cons in H as [H1 H2]. destruct (decide (P x)).
    - rewrite filter_cons_True by done. rewrite fmap_cons. constructor; [|by apply IH].
      intros Hi. apply H1. apply elem_of_list_fmap in Hi as (y & -> & Hy). apply elem_of_list_filter in Hy as [_ Hy].
      apply elem_of_list_fmap. by exists y.
    - rewrite filter_cons_False by done. by apply IH.
  Qed.

  Lemma ready_group l fl bi v : ready l fl -> fl !! bi = Some true -> 0 <= v -> ready (group bi v l) (flip bi fl).
  Proof using Hsrt.
    intros [H1 H2 H3] Hbi Hv. pose proof (lookup_lt_Some _ _ _ Hbi) as Hlt. split.
    - rewrite flip_length. intros x Hx. apply (group_elem bi v l _ x H1 Hlt Hv) in Hx as [Hx _]. by apply H1.
    - eapply distinct_sub; [|exact H2]. by apply (group_spec bi v l (length fl)).
    - intros x y j Hx Hy Hj. apply (group_elem bi v l _ x H1 Hlt Hv) in Hx as [Hx Ex]. apply (group_elem bi v l _ y H1 Hlt Hv) in Hy as [Hy Ey].
      destruct (decide (bi = j)) as [<-|Hne]; [congruence|]. apply H3; [done|done|]. by rewrite flip_other in Hj.
  Qed.

  Lemma ready_eq l fl x y : ready l fl -> x ∈ l -> y ∈ l -> (forall j, fl !! j = Some true -> th_hash x !!! j = th_hash y !!! j) -> th_hash x = th_hash y.
  Proof using.
    intros [H1 H2 H3] Hx Hy H. destruct (H1 x Hx) as [E1 _], (H1 y Hy) as [E2 _]. apply list_eq_same_length with (length fl); [done|done|].
    intros j a b Hj Ha Hb. rewrite <- (list_lookup_total_correct _ _ _ Ha), <- (list_lookup_total_correct _ _ _ Hb).
    destruct (lookup_lt_is_Some_2 fl j Hj) as [[|] Hf]; [by apply H|by apply H3].
  Qed.

  Lemma distinct_two l x y : distinct l -> x ∈ l -> y ∈ l -> th_hash x = th_hash y -> x = y.
  Proof using.
    unfold distinct. intros Hd Hx Hy E. apply elem_of_list_lookup in Hx as [i Hi], Hy as [j Hj].
    assert (i = j) as <-.
    { eapply (NoDup_lookup _ i j (th_hash x) Hd); rewrite list_lookup_fmap; [by rewrite Hi|rewrite Hj; cbn; congruence]. }
    congruence.
  Qed.

  Lemma two_of {A} (l : list A) : (2 <= length l)%nat -> exists a b l', l = a :: b :: l'.
  Proof using. destruct l as [|a [|b l']]; cbn [length]; try lia. eauto. Qed.

  Lemma ready_choice l fl : ready l fl -> (2 <= length l)%nat -> exists bi, choose ent l fl = Some bi.
  Proof using Hent.
    intros Hr Hl. destruct (two_of l Hl) as (a & b & l' & ->).
    destruct (choose ent (a :: b :: l') fl) as [bi|] eqn:E; [by exists bi|]. exfalso.
    pose proof (choose_none ent Hent (a :: b :: l') fl ltac:(done) E) as H.
    assert (th_hash a = th_hash b) as Eab.
    { eapply ready_eq; [exact Hr|by left|right; by left|]. intros j Hj. apply H; [done|by left|right; by left]. }
    destruct Hr as [_ Hd _]. unfold distinct in Hd. rewrite !fmap_cons in Hd. apply NoDup_cons in Hd as [Hd _]. apply Hd. rewrite Eab. by left.
  Qed.

  (** distinct hashes: no panic *)
  Lemma gen_ok_true fuel l fl : ready l fl -> (2 <= length l)%nat -> (set_count fl < fuel)%nat -> gen_ok ent srt fuel l fl = true.
  Proof using Hent Hsrt.
    revert l fl. induction fuel as [|fuel IH]; intros l fl Hr Hl Hf; [lia|]. cbn [gen_ok].
    destruct (ready_choice l fl Hr Hl) as [bi E]. rewrite E.
    destruct (choose_some ent Hent l fl bi) as [Hbi _]; [intros ->; cbn [length] in Hl; lia|done|].
    apply forallb_forall. intros v _. fold (group bi (Z.of_nat v) l).
    pose proof (ready_group l fl bi (Z.of_nat v) Hr Hbi ltac:(lia)) as Hg.
    destruct (group bi (Z.of_nat v) l) as [|a [|b g]] eqn:Eg; [done|done|].
    apply IH; [done|cbn [length]; lia|]. pose proof (flip_count bi fl Hbi). lia.
  Qed.

  (** repeated hashes: panic *)
  Lemma gen_ok_false fuel l fl : hashes_ok (length fl) l -> ~ distinct l -> gen_ok ent srt fuel l fl = false.
  Proof using Hent Hsrt.
    revert l fl. induction fuel as [|fuel IH]; intros l fl Hok Hd; [done|]. cbn [gen_ok].
    destruct (choose ent l fl) as [bi|] eqn:E; [|done].
    assert (l <> []) as Hne. { intros ->. apply Hd. constructor. }
    destruct (choose_some ent Hent l fl bi Hne E) as [Hbi _]. pose proof (lookup_lt_Some _ _ _ Hbi) as Hlt.
    (* two equal hashes *)
    assert (exists i j x y, l !! i = Some x /\ l !! j = Some y /\ (i < j)%nat /\ th_hash x = th_hash y) as (i & j & x & y & Hi & Hj & Hij & Exy).
    { clear -Hd. unfold distinct in Hd. induction l as [|z l IH]; [exfalso; apply Hd; constructor|].
      destruct (decide (th_hash z ∈ (th_hash <$> l))) as [Hin|Hni].
      - apply elem_of_list_fmap in Hin as (y & Ey & Hy). apply elem_of_list_lookup in Hy as [j Hj].
        exists 0%nat, (S j), z, y. repeat split; [done|lia|done].
      - destruct IH as (i & j & x & y & H1 & H2 & H3 & H4).
        { intros Hn. apply Hd. rewrite fmap_cons. by constructor. }
        exists (S i), (S j), x, y. repeat split; [done|done|lia|done]. }
    apply not_true_is_false. rewrite forallb_forall. intros Hall.
    set (v := th_hash x !!! bi). pose proof (byte_of x l _ bi Hok Hlt (elem_of_list_lookup_2 _ _ _ Hi)) as Hv. fold v in Hv.
    specialize (Hall (Z.to_nat v)). rewrite Z2Nat.id in Hall by lia. fold (group bi v l) in Hall.
    assert (gen_ok ent srt fuel (group bi v l) (flip bi fl) = false) as Hf.
    { apply IH.
      - rewrite flip_length. intros z Hz. apply (group_elem bi v l _ z Hok Hlt) in Hz as [Hz _]; [|lia]. by apply Hok.
      - unfold distinct. rewrite (group_spec bi v l _ Hok Hlt) by lia.
        intros Hn. clear -Hi Hj Hij Exy Hn v. 
        assert (v = th_hash y !!! bi) as Ev by (unfold v; congruence). assert (v = th_hash x !!! bi) as Ev' by done. clearbody v.
        revert i j Hi Hj Hij Hn. induction l as [|z l IH]; intros [|i] [|j] Hi Hj Hij Hn; try done; try lia.
        + injection Hi as ->. rewrite filter_cons_True in Hn by done. rewrite fmap_cons in Hn. apply NoDup_cons in Hn as [Hn _].
          apply Hn. apply elem_of_list_fmap. exists y. split; [done|]. apply elem_of_list_filter. split; [done|]. by eapply elem_of_list_lookup_2.
        + apply (IH i j); [done|done|lia|]. destruct (decide (th_hash z !!! bi = v)).
          * rewrite filter_cons_True in Hn by done. rewrite fmap_cons in Hn. by apply NoDup_cons in Hn as [_ Hn].
          * by rewrite filter_cons_False in Hn by done. }
    assert (In (Z.to_nat v) (seq 0 256)) as Hin by (apply in_seq; lia). specialize (Hall Hin).
    destruct (group bi v l) as [|a [|b g]] eqn:Eg; [| |congruence].
    - assert (x ∈ group bi v l) as Hx by (apply (group_elem bi v l _ x Hok Hlt); [lia|]; split; [by eapply elem_of_list_lookup_2|done]).
      rewrite Eg in Hx. by apply elem_of_nil in Hx.
    - assert (2 <= length (group bi v l))%nat as H2; [|rewrite Eg in H2; cbn [length] in H2; lia].
      rewrite (group_spec bi v l _ Hok Hlt) by lia.
      assert (th_hash x !!! bi = v) as Ex by done. assert (th_hash y !!! bi = v) as Ey by (rewrite <- Exy; done). clearbody v. clear -Hi Hj Hij Ex Ey.
      revert i j Hi Hj Hij. induction l as [|z l IH]; intros [|i] [|j] Hi Hj Hij; try done; try lia.
      + injection Hi as ->. rewrite filter_cons_True by done. cbn [length].
        assert (y ∈ filter (fun x => th_hash x !!! bi = v) l) as Hy by (apply elem_of_list_filter; split; [done|by eapply elem_of_list_lookup_2]).
        destruct (filter _ l); [by apply elem_of_nil in Hy|cbn [length]; lia].
      + pose proof (IH i j Hi Hj ltac:(lia)). rewrite filter_cons. case_decide; cbn [length]; lia.
  Qed.

  (** ** Lookups in a generated tree *)
  Lemma gen_step fuel l fl bi : choose ent l fl = Some bi ->
    gen ent srt R (S fuel) l fl = Slots bi (fun v =>
      if (0 <=? v) && (v <? 256) then
        match group bi v l with
        | [] => Empty
        | [x] => Leaf (reassure R (flip bi fl) (th_hash x)) (th_pi x) (th_hash x)
        | l' => gen ent srt R fuel l' (flip bi fl)
        end else Empty).
  Proof using. intros E. cbn [gen]. rewrite E. done. Qed.

  Lemma range_test v : (0 <=? v) && (v <? 256) = true <-> 0 <= v < 256.
  Proof using. rewrite andb_true_iff, Z.leb_le, Z.ltb_lt. done. Qed.

  (** every presented hash is found *)
  Lemma gen_lookup fuel l fl x : ready l fl -> (2 <= length l)%nat -> (set_count fl < fuel)%nat -> x ∈ l ->
    shallow_lookup (gen ent srt R fuel l fl) fl (th_hash x) = Found (th_pi x).
  Proof using Hent Hsrt.
    revert l fl. induction fuel as [|fuel IH]; intros l fl Hr Hl Hf Hx; [lia|].
    destruct (ready_choice l fl Hr Hl) as [bi E]. rewrite (gen_step fuel l fl bi E). cbn [shallow_lookup].
    destruct (choose_some ent Hent l fl bi) as [Hbi _]; [intros ->; cbn [length] in Hl; lia|done|]. pose proof (lookup_lt_Some _ _ _ Hbi) as Hlt.
    pose proof (byte_of x l _ bi (rd_ok _ _ Hr) Hlt Hx) as Hv. rewrite (proj2 (range_test _) Hv).
    set (v := th_hash x !!! bi) in *.
    pose proof (ready_group l fl bi v Hr Hbi ltac:(lia)) as Hg. pose proof (flip_count bi fl Hbi) as Hc.
    assert (x ∈ group bi v l) as Hxg by (apply (group_elem bi v l _ x (rd_ok _ _ Hr) Hlt); [lia|done]).
    destruct (group bi v l) as [|a [|b g]] eqn:Eg.
    - by apply elem_of_nil in Hxg.
    - apply elem_of_list_singleton in Hxg as ->. cbn [shallow_lookup].
      rewrite check_own; [done|]. rewrite flip_length. by apply (rd_ok _ _ Hr).
    - apply IH; [done|cbn [length]; lia|lia|done].
  Qed.

  (** an answer is a presented hash that agrees on everything looked at *)
  Lemma gen_sound fuel l fl q : ready l fl -> (2 <= length l)%nat -> (set_count fl < fuel)%nat -> length q = length fl ->
    match shallow_lookup (gen ent srt R fuel l fl) fl q with
    | Crash => False
    | NotFound => True
    | Found pi => exists x P, x ∈ l /\ th_pi x = pi /\ NoDup P /\ (forall i, i ∈ P -> fl !! i = Some true) /\
        (exists P', P = path_bytes (gen ent srt R fuel l fl) q ++ P' /\ length P' = (R `min` (set_count fl - length (path_bytes (gen ent srt R fuel l fl) q)))%nat) /\
        agree P (th_hash x) q
    end.
  Proof using Hent Hsrt.
    revert l fl. induction fuel as [|fuel IH]; intros l fl Hr Hl Hf Hq; [lia|].
    destruct (ready_choice l fl Hr Hl) as [bi E]. rewrite (gen_step fuel l fl bi E). cbn [shallow_lookup path_bytes].
    destruct (choose_some ent Hent l fl bi) as [Hbi _]; [intros ->; cbn [length] in Hl; lia|done|]. pose proof (lookup_lt_Some _ _ _ Hbi) as Hlt.
    set (v := q !!! bi). destruct ((0 <=? v) && (v <? 256)) eqn:Hv; [|done]. apply range_test in Hv.
    pose proof (ready_group l fl bi v Hr Hbi ltac:(lia)) as Hg. pose proof (flip_count bi fl Hbi) as Hc.
    assert (forall x, x ∈ group bi v l -> x ∈ l /\ th_hash x !! bi = q !! bi) as Hin.
    { intros x Hx. apply (group_elem bi v l _ x (rd_ok _ _ Hr) Hlt) in Hx as [Hx Ex]; [|lia]. split; [done|].
      destruct (rd_ok _ _ Hr x Hx) as [El _].
      destruct (lookup_lt_is_Some_2 (th_hash x) bi) as [z Hz]; [lia|]. destruct (lookup_lt_is_Some_2 q bi) as [z' Hz']; [lia|].
      rewrite (list_lookup_total_correct _ _ _ Hz) in Ex. unfold v in Ex. rewrite (list_lookup_total_correct _ _ _ Hz') in Ex. congruence. }
    destruct (group bi v l) as [|a [|b g]] eqn:Eg.
    - done.
    - cbn [shallow_lookup path_bytes]. destruct (Hin a ltac:(by left)) as [Ha Ea].
      pose proof (check_passed R (flip bi fl) (th_hash a) q) as Hck. rewrite flip_length in Hck.
      specialize (Hck (proj1 (rd_ok _ _ Hr a Ha)) Hq).
      destruct (check (flip bi fl) q (reassure R (flip bi fl) (th_hash a))) as [[|]|]; [|done|done].
      destruct Hck as (P & P1 & P2 & P3).
      exists a, (bi :: P). split; [done|]. split; [done|]. split; [|split; [|split]].
      + constructor; [|done]. intros Hi. destruct (P3 bi Hi) as [Hfl _]. by rewrite flip_same in Hfl.
      + intros i Hi. apply elem_of_cons in Hi as [->|Hi]; [done|]. destruct (P3 i Hi) as [Hfl _].
        destruct (decide (bi = i)) as [<-|Hne]; [done|]. by rewrite flip_other in Hfl.
      + exists P. split; [done|]. cbn [length]. rewrite P2. lia.
      + intros i Hi. apply elem_of_cons in Hi as [->|Hi]; [done|]. by apply P3.
    - specialize (IH (a :: b :: g) (flip bi fl) Hg ltac:(cbn [length]; lia) ltac:(lia)). rewrite flip_length in IH. specialize (IH Hq).
      destruct (shallow_lookup (gen ent srt R fuel (a :: b :: g) (flip bi fl)) (flip bi fl) q) as [|pi|]; [done| |done].
      destruct IH as (x & P & Hx & Epi & P1 & P2 & (P' & EP & LP) & P3). destruct (Hin x Hx) as [Hx' Ex].
      exists x, (bi :: P). split; [done|]. split; [done|]. split; [|split; [|split]].
      + constructor; [|done]. intros Hi. pose proof (P2 bi Hi) as Hfl. by rewrite flip_same in Hfl.
      + intros i Hi. apply elem_of_cons in Hi as [->|Hi]; [done|]. pose proof (P2 i Hi) as Hfl.
        destruct (decide (bi = i)) as [<-|Hne]; [done|]. by rewrite flip_other in Hfl.
      + exists P'. split; [by rewrite EP|]. cbn [length]. rewrite LP. lia.
      + intros i Hi. apply elem_of_cons in Hi as [->|Hi]; [done|]. by apply P3.
  Qed.

  (** ** The whole-hash tree *)
  Lemma gen_single pre fuel l fl q : ready l fl -> (2 <= length l)%nat -> (set_count fl < fuel)%nat -> length q = length fl -> bytes q ->
    (forall j, fl !! j = Some true -> (pre <= j)%nat) ->
    match single_lookup pre (gen ent srt R fuel l fl) fl q with
    | Crash => False
    | NotFound => forall x, x ∈ l -> th_hash x <> q
    | Found pi => mk_th q pi ∈ l
    end.
  Proof using Hent Hsrt.
    revert l fl. induction fuel as [|fuel IH]; intros l fl Hr Hl Hf Hq Hb Hpre; [lia|].
    destruct (ready_choice l fl Hr Hl) as [bi E]. rewrite (gen_step fuel l fl bi E). cbn [single_lookup].
    destruct (choose_some ent Hent l fl bi) as [Hbi _]; [intros ->; cbn [length] in Hl; lia|done|]. pose proof (lookup_lt_Some _ _ _ Hbi) as Hlt.
    pose proof (Hpre bi Hbi) as Hp. destruct (Nat.ltb_spec bi pre); [lia|]. rewrite Hbi.
    assert (0 <= q !!! bi < 256) as Hv.
    { destruct (lookup_lt_is_Some_2 q bi) as [z Hz]; [lia|]. rewrite (list_lookup_total_correct _ _ _ Hz).
      unfold bytes in Hb. rewrite Forall_forall in Hb. apply (Hb z (elem_of_list_lookup_2 _ _ _ Hz)). }
    rewrite (proj2 (range_test _) Hv). set (v := q !!! bi) in *.
    pose proof (ready_group l fl bi v Hr Hbi ltac:(lia)) as Hg. pose proof (flip_count bi fl Hbi) as Hc.
    assert (forall x, x ∈ l -> th_hash x = q -> x ∈ group bi v l) as Hin.
    { intros x Hx Ex. apply (group_elem bi v l _ x (rd_ok _ _ Hr) Hlt); [lia|]. split; [done|]. by rewrite Ex. }
    assert (forall x, x ∈ group bi v l -> x ∈ l) as Hin'.
    { intros x Hx. apply (group_elem bi v l _ x (rd_ok _ _ Hr) Hlt) in Hx as [? _]; [done|lia]. }
    destruct (group bi v l) as [|a [|b g]] eqn:Eg; cbn [single_lookup].
    - intros x Hx Ex. by apply (Hin x Hx), elem_of_nil in Ex.
    - destruct (decide (th_hash a = q)) as [<-|Hne].
      + destruct a. cbn. apply Hin'. by left.
      + intros x Hx Ex. apply (Hin x Hx) in Ex as Hxa. apply elem_of_list_singleton in Hxa as ->. done.
    - specialize (IH (a :: b :: g) (flip bi fl) Hg ltac:(cbn [length]; lia) ltac:(lia)). rewrite flip_length in IH.
      specialize (IH Hq Hb). destruct (single_lookup pre (gen ent srt R fuel (a :: b :: g) (flip bi fl)) (flip bi fl) q).
      + intros x Hx Ex. refine (IH _ x (Hin x Hx Ex) Ex). intros j Hj. destruct (decide (bi = j)) as [<-|Hne]; [done|]. apply Hpre. by rewrite flip_other in Hj.
      + apply Hin'. apply IH. intros j Hj. destruct (decide (bi = j)) as [<-|Hne]; [done|]. apply Hpre. by rewrite flip_other in Hj.
      + apply IH. intros j Hj. destruct (decide (bi = j)) as [<-|Hne]; [done|]. apply Hpre. by rewrite flip_other in Hj.
  Qed.
End Gen.
