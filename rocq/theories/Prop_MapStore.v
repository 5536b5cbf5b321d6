(** Properties C10 (two-slot integer array map store) and C11 (cached map store). *)
From Verif Require Import Base Model_Codec Model_Folders Model_MapStore Spec_MapStore Proof_Codec Proof_Folders Proof_MapStore.

(** Everything that can happen to a two-slot store: the history lists the appends that reported
    success.  The store may be closed and opened again once a flush has succeeded. *)
Inductive ms_reach (c : cfg) : list (Z * Z) -> ms -> Prop :=
  | mr_create : ms_reach c [] (ms_open c create_disk)
  | mr_append hist s k v s' ok :
      ms_reach c hist s -> good_append (c_es c) (k, v) -> Z.of_nat (length hist) + 1 < 2^63 ->
      ms_append s k v = Some (s', ok) -> ms_reach c (if ok then hist ++ [(k, v)] else hist) s'
  | mr_flush hist s s' ok : ms_reach c hist s -> ms_flush s = (s', ok) -> ms_reach c hist s'
  | mr_get hist s k s' r : ms_reach c hist s -> 0 <= k < 2^63 -> ms_get s k = Some (s', r) -> ms_reach c hist s'
  | mr_reopen hist s s' : ms_reach c hist s -> ms_flush s = (s', true) -> ms_reach c hist (ms_open c (m_disk s')).

Lemma ms_reach_inv c hist s : cfg_ok c -> ms_reach c hist s ->
  ms_inv c hist s /\ good_hist c hist /\ [] ∈ d_dirs (m_disk s).
Proof.
  intros Hc. induction 1 as [|hist s k v s' ok H (Hi & Hg & Hr) Hga Hlen E|hist s s' ok H (Hi & Hg & Hr) E
    |hist s k s' r H (Hi & Hg & Hr) Hk E|hist s s' H (Hi & Hg & Hr) E].
  - split_and!; [apply ms_open_inv|split; [constructor|cbn; lia]|cbn; set_solver].
  - destruct (ms_append_inv c hist s k v Hc Hg Hi (proj1 Hga)) as (s1 & ok1 & E1 & Hi1 & Hd & _).
    rewrite E in E1. injection E1 as <- <-. split_and!; [done| |set_solver].
    destruct ok; [|done]. destruct Hg as [Hg1 Hg2]. split.
    + apply Forall_app. split; [done|]. constructor; [done|constructor].
    + rewrite app_length. cbn [length]. lia.
  - destruct (ms_flush_inv c hist s s' ok Hc Hg Hi E) as (Hi1 & _ & Hd & _). split_and!; [done..|]. rewrite Hd. done.
  - destruct (ms_get_inv c hist s k Hc Hg Hi Hk) as (s1 & r1 & E1 & Hi1 & Hd & _).
    rewrite E in E1. injection E1 as <- <-. split_and!; [done..|]. rewrite Hd. done.
  - destruct (ms_flush_inv c hist s s' true Hc Hg Hi E) as (Hi1 & Hok & Hd & _).
    destruct (Hok eq_refl) as [Hl Ho]. split_and!; [|done|cbn; rewrite Hd; done].
    constructor; cbn; try done. intros p _ _. apply (mi_disk _ _ _ Hi1); congruence.
Qed.

(** C10. Whatever happened before, an array that is returned is exactly what was appended under its
    key: flushing, reloading, evicting and reopening lose, reorder and duplicate nothing, and a failed
    append changes no array.  Neither operation panics.
    (Partial: the operations can report errors, see the theorems below.) *)
Theorem C10_returned_arrays_are_exact_partial :
  forall c hist s k, (1 <= c_dd c)%nat -> (c_es c <= 8)%nat -> ms_reach c hist s -> 0 <= k < 2^63 ->
    (exists s' r, ms_get s k = Some (s', r)) /\
    (forall v, exists s' ok, ms_append s k v = Some (s', ok)) /\
    (forall s' arr, ms_get s k = Some (s', Some arr) -> arr = array_of hist k).
Proof.
  intros c hist s k Hd He H Hk. destruct (ms_reach_inv c hist s (conj Hd He) H) as (Hi & Hg & _).
  destruct (ms_get_inv c hist s k (conj Hd He) Hg Hi Hk) as (s1 & r & E & _ & _ & Hr).
  split_and!; [eauto| |].
  - intros v. destruct (ms_append_inv c hist s k v (conj Hd He) Hg Hi Hk) as (s2 & ok & E2 & _). eauto.
  - intros s' arr E'. rewrite E in E'. injection E' as <- ->. apply Hr.
Qed.

(** A disk on which every folder but the outermost lies in a folder, and every file too. *)
Definition tree (d : disk) : Prop :=
  [] ∈ d_dirs d /\
  (forall above below, above ++ Sep :: below ∈ d_dirs d -> above ∈ d_dirs d) /\
  (forall folder file, is_Some (d_files d !! (folder, file)) -> folder ∈ d_dirs d).

Lemma elem_of_ancestors p a : a ∈ ancestors p <-> exists b, p = a ++ Sep :: b.
Proof.
  revert a. induction p as [|c p IH]; intros a.
  - cbn [ancestors]. split; [intros []%not_elem_of_nil|intros (b & E); destruct a; discriminate E].
  - assert (forall c', a ∈ map (cons c') (ancestors p) <-> exists a', a = c' :: a' /\ exists b, p = a' ++ Sep :: b) as Hm.
    { intros c'. rewrite elem_of_list_In, in_map_iff. split.
      - intros (a' & <- & H%elem_of_list_In). exists a'. split; [done|]. by apply IH.
      - intros (a' & -> & H). exists a'. split; [done|]. apply elem_of_list_In. by apply IH. }
    assert (a ∈ map (cons c) (ancestors p) -> exists b, c :: p = a ++ Sep :: b) as Hf.
    { rewrite Hm. intros (a' & -> & b & ->). exists b. done. }
    assert ((exists b, c :: p = a ++ Sep :: b) -> (c = Sep /\ a = []) \/ a ∈ map (cons c) (ancestors p)) as Hb.
    { intros (b & E). destruct a as [|x a]; cbn [app] in E.
      - left. injection E as -> _. done.
      - right. injection E as <- E. apply Hm. exists a. split; [done|]. exists b. done. }
    destruct c; cbn [ancestors].
    + split; [exact Hf|]. intros H. destruct (Hb H) as [[? _]|?]; done.
    + split; [exact Hf|]. intros H. destruct (Hb H) as [[? _]|?]; done.
    + rewrite elem_of_cons. split.
      * intros [->|H]; [exists p; done|by apply Hf].
      * intros H. destruct (Hb H) as [[_ ->]|?]; [by left|by right].
Qed.

Lemma tree_mkdir d p : tree d -> tree (mkdir_all d p).
Proof.
  intros (H0 & H1 & H2). unfold mkdir_all. split_and!; cbn [d_dirs d_files].
  - set_solver.
  - intros a b [H|H]%elem_of_union; apply elem_of_union; [left; by eapply H1|right].
    rewrite elem_of_list_to_set in *. apply elem_of_cons. right.
    apply elem_of_cons in H as [H|H]; apply elem_of_ancestors; [by exists b|].
    apply elem_of_ancestors in H as (b' & ->). rewrite <- app_assoc. cbn [app]. eexists. reflexivity.
  - intros fo fi H. apply elem_of_union. left. by eapply H2.
Qed.

Lemma tree_write d p b d' : tree d -> write_file d p b = Some d' -> tree d'.
Proof.
  intros (H0 & H1 & H2). unfold write_file. case_decide as Hp; [|done]. intros E. apply (inj Some) in E. subst d'.
  split_and!; cbn [d_dirs d_files]; [done..|]. intros fo fi.
  destruct (decide (p = (fo, fi))) as [->|Hne]; [done|]. rewrite lookup_insert_ne by done. apply H2.
Qed.

Lemma tree_flush s : tree (m_disk s) -> tree (m_disk (ms_flush s).1).
Proof.
  intros H. unfold ms_flush. destruct (m_older s) as [p|].
  - destruct (write_file (m_disk s) p _) as [d|] eqn:E; [|done]. cbn [m_latest m_disk m_latest_a].
    pose proof (tree_write _ _ _ _ H E) as H'. destruct (m_latest s) as [q|]; [|done].
    destruct (write_file d q _) as [d2|] eqn:E2; [|done]. cbn [fst m_disk]. by eapply tree_write.
  - destruct (m_latest s) as [q|]; [|done].
    destruct (write_file (m_disk s) q _) as [d2|] eqn:E2; [|done]. cbn [fst m_disk]. by eapply tree_write.
Qed.

Lemma tree_get s k s' r : tree (m_disk s) -> ms_get s k = Some (s', r) -> tree (m_disk s').
Proof.
  intros H. unfold ms_get. pose proof (tree_flush s H) as Hf. destruct (ms_flush s) as [s1 ok]. cbn [fst] in Hf.
  destruct ok; cbn [negb]; [|intros E; apply (inj Some), pair_equal_spec in E as [<- _]; done].
  destruct (number_to_path _ _ k) as [[[fo fi] n]|]; [|done].
  destruct (load_file _ _ _) as [[a [|]]|]; [..|done]; intros E; apply (inj Some), pair_equal_spec in E as [<- _]; done.
Qed.

Lemma tree_append s k v s' ok : tree (m_disk s) -> ms_append s k v = Some (s', ok) -> tree (m_disk s').
Proof.
  intros H. unfold ms_append. destruct (number_to_path _ _ k) as [[[fo fi] n]|]; [|done].
  case_decide; [intros E; apply (inj Some), pair_equal_spec in E as [<- _]; done|].
  destruct (_ <? n).
  { set (d := match m_latest s with Some q => _ | None => _ end).
    assert (tree d) as Hd.
    { unfold d. destruct (m_latest s) as [q|]; [|done]. destruct (write_file (m_disk s) q _) as [d2|] eqn:E2; [|done].
      by eapply tree_write. }
    clearbody d. destruct (load_file _ _ _) as [[a x]|]; [|done].
    intros E; apply (inj Some), pair_equal_spec in E as [<- _]. cbn [m_disk]. by apply tree_mkdir. }
  case_decide; [intros E; apply (inj Some), pair_equal_spec in E as [<- _]; done|].
  pose proof (tree_mkdir _ fo H) as Hm. destruct (m_older s) as [q|].
  - destruct (write_file (mkdir_all (m_disk s) fo) q _) as [d2|] eqn:E2.
    + pose proof (tree_write _ _ _ _ Hm E2). destruct (load_file _ _ _) as [[a x]|]; [|done].
      intros E; apply (inj Some), pair_equal_spec in E as [<- _]. done.
    + intros E; apply (inj Some), pair_equal_spec in E as [<- _]. done.
  - destruct (load_file _ _ _) as [[a x]|]; [|done].
    intros E; apply (inj Some), pair_equal_spec in E as [<- _]. done.
Qed.

(** C10. However the store was used, what is on the disk is a tree of folders: no folder without the
    one above it, no file without its folder. *)
Theorem C10_folders_form_a_tree : forall c hist s, ms_reach c hist s -> tree (m_disk s).
Proof.
  induction 1 as [|hist s k v s' ok H IH Hga Hlen E|hist s s' ok H IH E|hist s k s' r H IH Hk E|hist s s' H IH E].
  - split_and!; cbn [ms_open m_disk create_disk d_dirs d_files].
    + set_solver.
    + intros a b E%elem_of_singleton. destruct a; discriminate E.
    + intros fo fi [x E]. rewrite lookup_empty in E. done.
  - by eapply tree_append.
  - pose proof (tree_flush s IH) as Hf. rewrite E in Hf. done.
  - by eapply tree_get.
  - pose proof (tree_flush s IH) as Hf. rewrite E in Hf. done.
Qed.

(** The folder part of a key's path. *)
Definition folder_exists (c : cfg) (d : disk) (k : Z) : Prop :=
  forall folders file n, number_to_path (c_fd c) (c_dd c) k = Some (folders, file, n) -> folders ∈ d_dirs d.

(** C10. If the folders of the keys appended so far exist, no operation fails: flushing and appending
    succeed, and reading a key fails only when its file has never been appended to. *)
Theorem C10_no_errors_when_folders_exist_partial :
  forall c hist s k, (1 <= c_dd c)%nat -> (c_es c <= 8)%nat -> ms_reach c hist s -> 0 <= k < 2^63 ->
    Forall (fun kv => folder_exists c (m_disk s) kv.1) hist ->
    (exists s', ms_flush s = (s', true)) /\
    (forall v, exists s', ms_append s k v = Some (s', true)) /\
    (exists s', ms_get s k = Some (s', if decide (file_used (c_fd c) hist k) then Some (array_of hist k) else None)).
Proof.
  intros c hist s k Hd He H Hk HF. destruct (ms_reach_inv c hist s (conj Hd He) H) as (Hi & Hg & _).
  assert (forall p, m_older s = Some p -> p.1 ∈ d_dirs (m_disk s)) as Hold.
  { intros p Hp. pose proof (mi_older _ _ _ Hi) as Ho. rewrite Hp in Ho. destruct Ho as (n & (_ & Ht & _) & _).
    unfold touched in Ht. apply Exists_exists in Ht as (kv & Hin & Hkp).
    rewrite Forall_forall in HF. specialize (HF _ Hin). unfold folder_exists in HF.
    unfold key_path in Hkp. destruct (number_to_path (c_fd c) (c_dd c) kv.1) as [[[f g] m]|]; [|done].
    apply (inj Some) in Hkp. subst p. eapply HF. reflexivity. }
  split_and!.
  - destruct (ms_flush s) as [s1 ok] eqn:E. destruct (ms_flush_inv c hist s s1 ok (conj Hd He) Hg Hi E) as (_ & _ & _ & Hb).
    destruct ok; [eauto|]. destruct (Hb eq_refl) as (p & Hp & Hn). destruct Hn. auto.
  - intros v. destruct (ms_append_inv c hist s k v (conj Hd He) Hg Hi Hk) as (s2 & ok & E2 & _ & _ & Hb).
    destruct ok; [eauto|]. destruct (Hb eq_refl) as (p & Hp & Hn). destruct Hn. auto.
  - destruct (ms_get_inv c hist s k (conj Hd He) Hg Hi Hk) as (s1 & r & E & _ & _ & Hr).
    exists s1. rewrite E. f_equal. f_equal. destruct r as [arr|].
    + destruct Hr as [-> Hr]. rewrite decide_True by done. done.
    + rewrite decide_False; [done|]. destruct Hr as [Hr|(p & Hp & Hn)]; [done|]. destruct Hn. auto.
Qed.

(** The hypothesis is met whenever all keys fit the first file: its folder always exists. *)
Theorem C10_first_file_folder_always_exists :
  forall c hist s k, (1 <= c_dd c)%nat -> (c_es c <= 8)%nat -> (1 <= c_fd c)%nat -> ms_reach c hist s ->
    0 <= k < 10 ^ Z.of_nat (c_fd c) -> folder_exists c (m_disk s) k.
Proof.
  intros c hist s k Hd He Hf H Hk folders file n E.
  destruct (ms_reach_inv c hist s (conj Hd He) H) as (_ & _ & Hr).
  rewrite (number_to_path_small _ _ _ _ _ _ Hf Hk E). exact Hr.
Qed.

(** C10 is false as stated: after appending under 500 and then under 300 (one digit per file, one per
    folder) the folder of 300's file does not exist, so flushing fails, for ever, and reading any key
    reports an error although both appends succeeded. *)
Definition c10_cfg := mk_cfg 1 1 2.
Definition c10_state : ms :=
  match ms_append (ms_open c10_cfg create_disk) 500 7 with
  | Some (s, _) => match ms_append s 300 8 with Some (s', _) => s' | None => s end
  | None => ms_open c10_cfg create_disk
  end.
Theorem C10_flush_and_reads_succeed_refuted :
  exists c hist s, ms_reach c hist s /\ hist = [(500, 7); (300, 8)] /\
    ms_flush s = (s, false) /\ forall k, ms_get s k = Some (s, None).
Proof.
  exists c10_cfg, [(500, 7); (300, 8)], c10_state.
  assert (ms_flush c10_state = (c10_state, false)) as Hf by (vm_compute; reflexivity).
  split_and!; [|done|done|].
  - destruct (ms_append (ms_open c10_cfg create_disk) 500 7) as [[s1 ok1]|] eqn:E1; [|exfalso; revert E1; vm_compute; discriminate].
    assert (ok1 = true) as ->. { revert E1. vm_compute. congruence. }
    destruct (ms_append s1 300 8) as [[s2 ok2]|] eqn:E2.
    2:{ exfalso. assert (match ms_append (ms_open c10_cfg create_disk) 500 7 with Some (s, _) => match ms_append s 300 8 with Some _ => true | None => false end | None => false end = true) as Hx by (vm_compute; reflexivity).
        rewrite E1, E2 in Hx. done. }
    assert (ok2 = true) as ->.
    { assert (match ms_append (ms_open c10_cfg create_disk) 500 7 with Some (s, _) => match ms_append s 300 8 with Some (_, o) => o | None => false end | None => false end = true) as Hx by (vm_compute; reflexivity).
      rewrite E1, E2 in Hx. done. }
    assert (c10_state = s2) as ->. { unfold c10_state. rewrite E1, E2. done. }
    assert (good_append 2 (500, 7) /\ good_append 2 (300, 8)) as [G1 G2].
    { unfold good_append, elem_fits. cbn [fst snd]. change (pow256 2) with 65536. split; lia. }
    pose proof (mr_append c10_cfg _ _ 500 7 s1 true (mr_create c10_cfg) G1 ltac:(cbn; lia) E1) as R1.
    pose proof (mr_append c10_cfg _ _ 300 8 s2 true R1 G2 ltac:(cbn; lia) E2) as R2. exact R2.
  - intros k. unfold ms_get. rewrite Hf. done.
Qed.

(** Non-trivial instance of the positive theorems: two files, evicted and reloaded. *)
Example C10_example :
  let run := match ms_append (ms_open c10_cfg create_disk) 3 1 with
    | Some (s, _) => match ms_append s 14 2 with
      | Some (s, _) => match ms_append s 3 5 with
        | Some (s, _) => match ms_get s 3 with Some (_, r) => r | None => None end
        | None => None end | None => None end | None => None end in
  run = Some [1; 5].
Proof. vm_compute. reflexivity. Qed.

(** ** C11 *)

(** Everything that can happen to a cached store with cache limit [lim] (in elements). *)
Inductive cms_reach (c : cfg) (lim : Z) : list (Z * Z) -> cms -> Prop :=
  | kr_create : cms_reach c lim [] (cms_open c lim create_disk)
  | kr_append hist s k v s' :
      cms_reach c lim hist s -> good_append (c_es c) (k, v) -> Z.of_nat (length hist) + 1 < 2^63 ->
      cms_append s k v = Some s' -> cms_reach c lim (hist ++ [(k, v)]) s'
  | kr_flush hist s : cms_reach c lim hist s -> cms_reach c lim hist (cms_flush s)
  | kr_get hist s k s' r : cms_reach c lim hist s -> 0 <= k < 2^63 -> cms_get s k = Some (s', r) -> cms_reach c lim hist s'
  | kr_reopen hist s : cms_reach c lim hist s -> cms_reach c lim hist (cms_open c lim (k_disk (cms_flush s))).

Lemma cms_reach_inv c lim hist s : cfg_ok c -> cms_reach c lim hist s ->
  cms_inv c hist None s /\ good_hist c hist /\ access_inv s /\ k_limit s = lim /\
  (Z.of_nat (length hist) <= lim -> count_exact c hist s).
Proof.
  intros Hc. assert (forall hist s, good_hist c hist -> cms_inv c hist None s ->
     cms_inv c hist None (cms_flush s) /\ access_inv (cms_flush s) /\ count_exact c hist (cms_flush s) /\ k_limit (cms_flush s) = k_limit s) as Hfl.
  { intros hist' s' Hg Hi. destruct (cms_flush_inv c hist' s' Hc Hg Hi) as [H1 H2].
    split_and!; [done| |done|done]. unfold access_inv. cbn. split_and!; [constructor|lia|constructor]. }
  induction 1 as [|hist s k v s' H (Hi & Hg & Ha & Hl & Hx) Hga Hlen E|hist s H (Hi & Hg & Ha & Hl & Hx)
    |hist s k s' r H (Hi & Hg & Ha & Hl & Hx) Hk E|hist s H (Hi & Hg & Ha & Hl & Hx)].
  - split_and!; [|split; [constructor|cbn; lia]| |done|done].
    + constructor; cbn; [done|constructor|intros e He; by apply not_elem_of_nil in He|].
      intros p _. unfold disk_ok, create_disk. cbn [d_files]. rewrite lookup_empty. unfold touched. rewrite Exists_nil. tauto.
    + unfold access_inv. cbn. split_and!; [constructor|lia|constructor].
  - destruct (cms_append_inv c hist s k v s' Hc Hg Hi (proj1 Hga) E) as (Hi1 & Ha1 & Hl1).
    split_and!; [done| |auto|congruence|].
    + destruct Hg as [Hg1 Hg2]. split.
      * apply Forall_app. split; [done|]. constructor; [done|constructor].
      * rewrite app_length. cbn [length]. lia.
    + rewrite app_length. cbn [length]. intros Hle.
      destruct (cms_append_total c hist s k v Hc Hg Hi (proj1 Hga)) as (s2 & E2 & Hx2); [apply Hx; lia|lia|].
      rewrite E in E2. injection E2 as <-. done.
  - destruct (Hfl hist s Hg Hi) as (H1 & H2 & H3 & H4). split_and!; [done..|congruence|done].
  - destruct (cms_get_inv c hist s k Hc Hg Hi Hk) as (s1 & r1 & E1 & -> & _).
    rewrite E in E1. injection E1 as -> _.
    destruct (Hfl hist s Hg Hi) as (H1 & H2 & H3 & H4). split_and!; [done..|congruence|done].
  - destruct (Hfl hist s Hg Hi) as (H1 & H2 & H3 & H4). split_and!; [|done| |done|done].
    + constructor; cbn; [done|constructor|intros e He; by apply not_elem_of_nil in He|].
      intros p _. apply (ci_disk _ _ _ _ H1). cbn. apply not_elem_of_nil.
    + unfold access_inv. cbn. split_and!; [constructor|lia|constructor].
Qed.

(** C11. Reading a key gives exactly what was appended under it (an error exactly when nothing was ever
    appended to its file), for every cache limit and whatever was evicted. *)
Theorem C11_cached_arrays_are_exact :
  forall c lim hist s k, (1 <= c_dd c)%nat -> (c_es c <= 8)%nat -> cms_reach c lim hist s -> 0 <= k < 2^63 ->
    exists s', cms_get s k =
      Some (s', if decide (file_used (c_fd c) hist k) then Some (array_of hist k) else None).
Proof.
  intros c lim hist s k Hd He H Hk. destruct (cms_reach_inv c lim hist s (conj Hd He) H) as (Hi & Hg & _).
  destruct (cms_get_inv c hist s k (conj Hd He) Hg Hi Hk) as (s1 & r & E & _ & Hr).
  exists s1. rewrite E. f_equal. f_equal. destruct r as [arr|].
  - destruct Hr as [-> Hr]. rewrite decide_True by done. done.
  - rewrite decide_False by done. done.
Qed.

(** C11. The entry to evict is never ambiguous: entries have pairwise different access numbers. *)
Theorem C11_eviction_choice_is_unique :
  forall c lim hist s e1 e2, (1 <= c_dd c)%nat -> (c_es c <= 8)%nat -> cms_reach c lim hist s ->
    e1 ∈ k_entries s -> e2 ∈ k_entries s -> ce_access e1 = ce_access e2 -> e1 = e2.
Proof.
  intros c lim hist s e1 e2 Hd He H H1 H2 E. destruct (cms_reach_inv c lim hist s (conj Hd He) H) as (_ & _ & (Ha & _) & _).
  clear -Ha H1 H2 E. induction (k_entries s) as [|e l IH]; [by apply not_elem_of_nil in H1|].
  cbn [map] in Ha. apply NoDup_cons in Ha as [Hn Ha].
  apply elem_of_cons in H1 as [->|H1]; apply elem_of_cons in H2 as [->|H2]; auto.
  - destruct Hn. rewrite E. apply elem_of_map_ce, H2.
  - destruct Hn. rewrite <- E. apply elem_of_map_ce, H1.
Qed.

(** C11. Appending returns while the number of elements in the store is below the limit. *)
Theorem C11_append_returns_below_limit_partial :
  forall c lim hist s k v, (1 <= c_dd c)%nat -> (c_es c <= 8)%nat -> cms_reach c lim hist s -> 0 <= k < 2^63 ->
    Z.of_nat (length hist) < lim -> exists s', cms_append s k v = Some s'.
Proof.
  intros c lim hist s k v Hd He H Hk Hlt. destruct (cms_reach_inv c lim hist s (conj Hd He) H) as (Hi & Hg & _ & Hl & Hx).
  destruct (cms_append_total c hist s k v (conj Hd He) Hg Hi Hk) as (s' & E & _); [apply Hx; lia|lia|]. eauto.
Qed.

(** State after [n] appends under key 0 *)
Lemma append_zeros c lim p0 : cfg_ok c -> key_path c 0 = Some p0 ->
  forall n, Z.of_nat n <= lim -> 1 <= lim -> Z.of_nat n < 2^63 ->
  exists s a, cms_reach c lim (replicate n (0, 0)) s /\ k_cfg s = c /\ k_limit s = lim /\
    k_count s = Z.of_nat n /\ k_counter s = Z.of_nat n /\ k_disk s = create_disk /\
    k_entries s = (match n with O => [] | _ => [mk_ce p0 a (Z.of_nat n)] end).
Proof.
  intros Hc Hp n. induction n as [|n IH]; intros Hn Hl Hb.
  - exists (cms_open c lim create_disk), (c_new c). split_and!; try done. constructor.
  - destruct IH as (s & a & Hr & Hcfg & Hlim & Hcnt & Hctr & Hdisk & Hent); [lia..|].
    destruct (cms_reach_inv c lim _ s Hc Hr) as (Hi & Hg & _ & _ & Hx).
    destruct (key_path_spec c 0 (proj1 Hc) ltac:(lia)) as (p & Hp' & _ & Hnp).
    rewrite Hp in Hp'. injection Hp' as <-.
    assert (exists s1 a1, load_into_cache s p0 = Some s1 /\ k_limit s1 = lim /\
        k_count s1 = Z.of_nat n /\ k_counter s1 = Z.of_nat n /\ k_disk s1 = create_disk /\
        k_entries s1 = [mk_ce p0 a1 (Z.of_nat n)]) as (s1 & a1 & E1 & L1 & C1 & D1 & K1 & N1).
    { unfold load_into_cache. rewrite Hent. destruct n as [|n].
      - cbn [ce_find filter list_filter head]. rewrite Hdisk. unfold load_file, create_disk at 1. cbn [d_files]. rewrite lookup_empty.
        cbn [app length trim_loop k_count k_limit iaa_tally k_entries]. rewrite Hcfg, Hcnt, Hlim. cbn [iaa_new iaa_tally].
        replace (Z.of_nat 0 + 0 <? lim) with true by (symmetry; apply Z.ltb_lt; lia).
        eexists _, _. split; [reflexivity|]. cbn. split_and!; done.
      - unfold ce_find. rewrite filter_cons, decide_True by done. cbn [head]. eauto 10. }
    assert (exists s', cms_append s 0 0 = Some s' /\ k_cfg s' = c /\ k_limit s' = lim /\
        k_count s' = Z.of_nat (S n) /\ k_counter s' = Z.of_nat (S n) /\ k_disk s' = create_disk /\
        exists a', k_entries s' = [mk_ce p0 a' (Z.of_nat (S n))]) as (s' & E' & P1 & P2 & P3 & P4 & P5 & a' & P6).
    { unfold cms_append. rewrite Hcfg, Hnp, E1. eexists. split; [reflexivity|]. cbn [k_cfg k_limit k_count k_counter k_disk k_entries].
      split_and!; [done|done|lia|lia|done|]. rewrite N1. cbn [map ce_path ce_a]. rewrite decide_True by done.
      eexists. f_equal. f_equal. lia. }
    exists s', a'. split_and!; try done.
    rewrite replicate_S_end. eapply kr_append; [exact Hr| | |exact E'].
    + split; [cbn; lia|]. cbn [snd]. unfold elem_fits. pose proof (pow256_pos (c_es c)).
      destruct Hc as [_ Hes]. destruct (decide (c_es c = 8%nat)); [right; split; [done|unfold is_i64; lia]|left; split; lia].
    + rewrite replicate_length. lia.
Qed.

(** C11 is false as to termination: whatever the cache limit, after [lim] appends under one key the next
    append to another file never returns (the recently used file is never evicted, and the loop only
    ends when the element count drops). *)
Theorem C11_append_terminates_refuted :
  forall c lim, (1 <= c_dd c)%nat -> (c_es c <= 8)%nat -> (c_fd c <= 18)%nat -> 1 <= lim < 2^63 ->
    exists hist s k v, cms_reach c lim hist s /\ good_append (c_es c) (k, v) /\ cms_append s k v = None.
Proof.
  intros c lim Hd He Hf Hl.
  destruct (key_path_spec c 0 Hd ltac:(lia)) as (p0 & Hp0 & _).
  destruct (append_zeros c lim p0 (conj Hd He) Hp0 (Z.to_nat lim)) as (s & a & Hr & Hcfg & Hlim & Hcnt & Hctr & Hdisk & Hent); [lia..|].
  assert (0 < 10 ^ Z.of_nat (c_fd c) <= 10 ^ 18) as Hk.
  { split; [apply pow10_pos|]. apply Z.pow_le_mono_r; lia. }
  exists (replicate (Z.to_nat lim) (0, 0)), s, (10 ^ Z.of_nat (c_fd c)), 0. split_and!; [done| |].
  - split; [cbn; lia|]. cbn [snd]. unfold elem_fits. pose proof (pow256_pos (c_es c)).
    destruct (decide (c_es c = 8%nat)); [right; split; [done|unfold is_i64; lia]|left; split; lia].
  - destruct (key_path_spec c (10 ^ Z.of_nat (c_fd c)) Hd ltac:(lia)) as (p1 & Hp1 & _ & Hn1).
    assert (p1 <> p0) as Hne.
    { intros ->. assert (same_file (c_fd c) (10 ^ Z.of_nat (c_fd c)) 0) as Hs by (apply key_path_same_file; [done|lia|lia|congruence]).
      unfold same_file in Hs. rewrite Z.div_same, Z.div_0_l in Hs by lia. done. }
    unfold cms_append. rewrite Hcfg, Hn1.
    assert (load_into_cache s p1 = None) as ->; [|done].
    unfold load_into_cache. destruct (Z.to_nat lim) as [|n] eqn:En; [lia|]. rewrite Hent.
    unfold ce_find. rewrite filter_cons. cbn [ce_path]. rewrite decide_False by congruence. rewrite filter_nil. cbn [head].
    rewrite Hdisk. unfold load_file, create_disk at 1. cbn [d_files]. rewrite lookup_empty.
    cbn [app length trim_loop k_count k_limit iaa_tally iaa_new k_counter k_entries]. rewrite Hlim, Hcnt, Hctr.
    destruct (Z.ltb_spec (Z.of_nat (S n) + 0) lim); [lia|].
    assert (forall x y, pick_oldest (Z.of_nat (S n)) p1 [mk_ce p0 x (Z.of_nat (S n)); mk_ce p1 y 0] = None) as Hpk.
    { intros x y. unfold pick_oldest. cbn [fold_left ce_access ce_path].
      rewrite (bool_decide_eq_false_2 (Z.of_nat (S n) < Z.of_nat (S n) /\ p0 <> p1)) by (intros [? _]; lia).
      rewrite bool_decide_eq_false_2 by (intros [_ ?]; done). done. }
    rewrite Hpk. done.
Qed.

Example C11_example :
  (* two files with a cache limit of two elements: hang; with three: fine *)
  let app c s k v := match s with Some s => cms_append s k v | None => None end in
  let run lim := app 0 (app 0 (app 0 (Some (cms_open c10_cfg lim create_disk)) 3 1) 4 2) 14 5 in
  run 2 = None /\ (exists s, run 3 = Some s /\ snd <$> cms_get s 3 = Some (Some [1])).
Proof.
  split; [vm_compute; reflexivity|]. eexists. split; [vm_compute; reflexivity|]. vm_compute. reflexivity.
Qed.

Print Assumptions C10_returned_arrays_are_exact_partial.
Print Assumptions C10_no_errors_when_folders_exist_partial.
Print Assumptions C10_first_file_folder_always_exists.
Print Assumptions C10_flush_and_reads_succeed_refuted.
Print Assumptions C11_cached_arrays_are_exact.
Print Assumptions C11_eviction_choice_is_unique.
Print Assumptions C11_append_returns_below_limit_partial.
Print Assumptions C11_append_terminates_refuted.
Print Assumptions C10_folders_form_a_tree.
