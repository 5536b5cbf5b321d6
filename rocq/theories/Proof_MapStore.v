From Verif Require Import Base Model_Codec Spec_Codec Proof_Codec Model_Folders Proof_Folders Model_MapStore Spec_MapStore.

Lemma elem_fits_stored es v : elem_fits es v -> stored_as es v = v.
Proof.
  intros [[Hes Hv]|[-> Hv]]; unfold stored_as.
  - rewrite Z.mod_small by exact Hv. apply to_i64_small.
    pose proof (pow256_le es 7 ltac:(lia)). change (pow256 7) with (2^56) in *. lia.
  - rewrite pow256_8. apply (to_i64_to_u64 v Hv).
Qed.

Lemma elem_fits_es es v : elem_fits es v -> (es <= 8)%nat.
Proof. intros [[? _]|[-> _]]; lia. Qed.

Global Opaque number_to_path.

(** What a file holds: index within the file |-> values. *)
Definition key_path (c : cfg) (k : Z) : option path := fst <$> number_to_path (c_fd c) (c_dd c) k.
Definition in_slot (c : cfg) (p : path) (i : nat) (kv : Z * Z) : Prop :=
  key_path c kv.1 = Some p /\ c_idx c kv.1 = i.
Global Instance in_slot_dec c p i kv : Decision (in_slot c p i kv).
Proof. unfold in_slot. apply _. Defined.
Definition fileF (c : cfg) (hist : list (Z * Z)) (p : path) (i : nat) : list Z :=
  map snd (filter (in_slot c p i) hist).
Definition touched (c : cfg) (hist : list (Z * Z)) (p : path) : Prop :=
  Exists (fun kv => key_path c kv.1 = Some p) hist.

Definition wf_iaa (c : cfg) (a : iaa) (f : nat -> list Z) : Prop :=
  iaa_esize a = c_es c /\ iaa_count a = c_count c /\
  forall i, (i < c_count c)%nat -> iaa_get a i = f i.

Definition good_hist (c : cfg) (hist : list (Z * Z)) : Prop :=
  Forall (good_append (c_es c)) hist /\ Z.of_nat (length hist) < 2^63.

Lemma fileF_length c hist p i : (length (fileF c hist p i) <= length hist)%nat.
Proof. unfold fileF. rewrite map_length. apply filter_length. Qed.

Lemma fileF_snoc c hist p i k v :
  fileF c (hist ++ [(k, v)]) p i = if decide (in_slot c p i (k, v)) then fileF c hist p i ++ [v] else fileF c hist p i.
Proof.
  unfold fileF. rewrite filter_app, filter_cons, filter_nil.
  destruct (decide (in_slot c p i (k, v))).
  - rewrite map_app. done.
  - rewrite app_nil_r. done.
Qed.

Lemma fileF_fits c hist p i : good_hist c hist -> Forall (elem_fits (c_es c)) (fileF c hist p i).
Proof.
  intros [H _]. unfold fileF. apply Forall_map. apply Forall_forall. intros kv [_ Hin]%elem_of_list_filter.
  rewrite Forall_forall in H. apply H in Hin. apply Hin.
Qed.

Lemma c_idx_lt c k : (c_idx c k < c_count c)%nat.
Proof.
  unfold c_idx, c_count. pose proof (Z.mod_pos_bound k _ (pow10_pos (c_fd c))). lia.
Qed.

(** Where a key is kept. *)
Lemma key_path_spec c k : (1 <= c_dd c)%nat -> 0 <= k < 2^63 ->
  exists p, key_path c k = Some p /\ atoi p.2 = k - k mod 10 ^ Z.of_nat (c_fd c) /\
    number_to_path (c_fd c) (c_dd c) k = Some (p, k - k mod 10 ^ Z.of_nat (c_fd c)).
Proof.
  intros Hd Hk. destruct (number_to_path_spec (c_fd c) (c_dd c) k Hd ltac:(lia)) as (f & n & E).
  exists (f, n). unfold key_path. pose proof (number_to_path_atoi _ _ _ _ _ _ E) as A.
  rewrite E. split_and!; [reflexivity|symmetry; exact A|reflexivity].
Qed.

(** Keys are determined by path and index. *)
Lemma path_idx_inj c a b : (1 <= c_dd c)%nat -> 0 <= a < 2^63 -> 0 <= b < 2^63 ->
  key_path c a = key_path c b -> c_idx c a = c_idx c b -> a = b.
Proof.
  intros Hd Ha Hb Hp Hi.
  destruct (key_path_spec c a Hd Ha) as (pa & Ea & Aa & _).
  destruct (key_path_spec c b Hd Hb) as (pb & Eb & Ab & _).
  rewrite Ea, Eb in Hp. apply (inj Some) in Hp. subst pb.
  unfold c_idx in Hi. pose proof (pow10_pos (c_fd c)) as Hp.
  pose proof (Z.mod_pos_bound a _ Hp). pose proof (Z.mod_pos_bound b _ Hp). lia.
Qed.

Lemma key_path_same_file c a b : (1 <= c_dd c)%nat -> 0 <= a < 2^63 -> 0 <= b < 2^63 ->
  key_path c a = key_path c b <-> same_file (c_fd c) a b.
Proof.
  intros Hd Ha Hb. unfold same_file. split.
  - destruct (key_path_spec c a Hd Ha) as (pa & Ea & Aa & _).
    destruct (key_path_spec c b Hd Hb) as (pb & Eb & Ab & _).
    rewrite Ea, Eb. intros Hp. apply (inj Some) in Hp. subst pb.
    pose proof (pow10_pos (c_fd c)) as Hp.
    rewrite <- (sub_mod_div a), <- (sub_mod_div b) by done. rewrite <- Aa, Ab. done.
  - intros E. unfold key_path. rewrite (number_to_path_same (c_fd c) (c_dd c) a b Hd); [reflexivity|lia|lia|done].
Qed.

Lemma fileF_array c hist k p : (1 <= c_dd c)%nat -> good_hist c hist -> 0 <= k < 2^63 ->
  key_path c k = Some p -> fileF c hist p (c_idx c k) = array_of hist k.
Proof.
  intros Hd [Hh _] Hk Hp. unfold fileF, array_of. f_equal.
  induction Hh as [|kv hist Hkv Hh IH]; [done|]. rewrite !filter_cons, IH.
  destruct (decide (in_slot c p (c_idx c k) kv)) as [[H1 H2]|Hn]; destruct (decide (kv.1 = k)) as [E|Hne]; try done.
  - destruct Hne. eapply path_idx_inj; [done|apply Hkv|done| |done]. congruence.
  - destruct Hn. split; congruence.
Qed.

Lemma touched_used c hist k p : (1 <= c_dd c)%nat -> good_hist c hist -> 0 <= k < 2^63 ->
  key_path c k = Some p -> touched c hist p <-> file_used (c_fd c) hist k.
Proof.
  intros Hd [Hh _] Hk Hp. unfold touched, file_used. rewrite !Exists_exists. rewrite Forall_forall in Hh.
  split; intros (kv & Hin & H); exists kv; (split; [done|]); destruct (Hh _ Hin) as [Hk' _].
  - apply key_path_same_file; [done..|congruence].
  - rewrite <- Hp. apply key_path_same_file; done.
Qed.

Lemma touched_snoc c hist p k v : touched c (hist ++ [(k,v)]) p <-> touched c hist p \/ key_path c k = Some p.
Proof. unfold touched. rewrite Exists_app, Exists_cons, Exists_nil. cbn. tauto. Qed.

Lemma untouched_fileF c hist p i : ~ touched c hist p -> fileF c hist p i = [].
Proof.
  intros H. unfold fileF. destruct (filter _ hist) as [|kv l] eqn:E; [done|].
  exfalso. apply H. apply Exists_exists. exists kv.
  assert (kv ∈ filter (in_slot c p i) hist) as [[? _] ?]%elem_of_list_filter by (rewrite E; left). done.
Qed.

(** Saved files load back *)
Lemma load_saved c a hist p : good_hist c hist -> (c_es c <= 8)%nat -> wf_iaa c a (fileF c hist p) ->
  exists a', iaa_load (c_new c) (iaa_save a) = Some a' /\ wf_iaa c a' (fileF c hist p) /\
    iaa_tally a' = foldr Z.add 0 (map (fun i => Z.of_nat (length (fileF c hist p i))) (seq 0 (c_count c))).
Proof.
  intros Hg Hes (He & Hc & Hf). unfold iaa_load, iaa_save, c_new, iaa_new. cbn [iaa_esize iaa_count].
  rewrite He, Hc.
  assert (map (fun i => iaa_save_one (c_es c) (iaa_get a i)) (seq 0 (c_count c)) =
          map (fun i => iaa_save_one (c_es c) (fileF c hist p i)) (seq 0 (c_count c))) as ->.
  { apply map_ext_in. intros i Hi%in_seq. rewrite Hf by lia. done. }
  destruct (load_arrays_save (c_es c) (fileF c hist p) 0 (c_count c) [] ∅ 0 Hes) as (m & E & H1 & _).
  { intros k _. pose proof (fileF_length c hist p k). destruct Hg. lia. }
  rewrite app_nil_r in E. rewrite E. eexists. split; [reflexivity|]. split; [split_and!; [done..|]|cbn; done].
  intros i Hi. unfold iaa_get. cbn [iaa_map]. rewrite H1 by lia. cbn [from_option]. unfold id.
  pose proof (fileF_fits c hist p i Hg) as HF. clear -HF.
  induction HF as [|v l Hv HF IH]; [done|]. cbn [map]. rewrite IH, elem_fits_stored by done. done.
Qed.

Lemma iaa_load_dims a b x : iaa_count a = iaa_count b -> iaa_esize a = iaa_esize b -> iaa_load a x = iaa_load b x.
Proof. intros H1 H2. unfold iaa_load. rewrite H1, H2. done. Qed.

Lemma wf_new c f : (forall i, (i < c_count c)%nat -> f i = []) -> wf_iaa c (c_new c) f.
Proof.
  intros H. split_and!; [done..|]. intros i Hi. rewrite H by done. unfold iaa_get. cbn. done.
Qed.

Lemma wf_append c a hist p k v : wf_iaa c a (fileF c hist p) -> key_path c k = Some p ->
  wf_iaa c (iaa_append a (c_idx c k) v) (fileF c (hist ++ [(k,v)]) p).
Proof.
  intros (He & Hc & Hf) Hp. split_and!; [done..|]. intros i Hi. rewrite iaa_append_get, fileF_snoc.
  destruct (decide (i = c_idx c k)) as [->|Hne].
  - rewrite decide_True by (split; done). rewrite Hf by done. done.
  - rewrite decide_False by (intros [_ ?]; cbn in *; congruence). apply Hf. done.
Qed.

Lemma wf_other c a hist p k v : wf_iaa c a (fileF c hist p) -> key_path c k <> Some p ->
  wf_iaa c a (fileF c (hist ++ [(k,v)]) p).
Proof.
  intros (He & Hc & Hf) Hp. split_and!; [done..|]. intros i Hi. rewrite fileF_snoc.
  rewrite decide_False by (intros [? _]; cbn in *; congruence). apply Hf. done.
Qed.

(** A file on disk is up to date *)
Definition disk_ok (c : cfg) (hist : list (Z * Z)) (d : disk) (p : path) : Prop :=
  match d_files d !! p with
  | None => ~ touched c hist p
  | Some b => touched c hist p /\ exists a, iaa_load (c_new c) b = Some a /\ wf_iaa c a (fileF c hist p) /\
      iaa_tally a = foldr Z.add 0 (map (fun i => Z.of_nat (length (fileF c hist p i))) (seq 0 (c_count c)))
  end.

Lemma disk_ok_other c hist d p k v : disk_ok c hist d p -> key_path c k <> Some p ->
  disk_ok c (hist ++ [(k,v)]) d p.
Proof.
  unfold disk_ok. intros H Hp. destruct (d_files d !! p) as [b|].
  - destruct H as (Ht & a & Hl & Hw & Hty). rewrite touched_snoc. split; [auto|].
    exists a. split_and!; [done|apply wf_other; done|]. rewrite Hty. f_equal. apply map_ext. intros i.
    rewrite fileF_snoc, decide_False; [done|]. intros [? _]; cbn in *; congruence.
  - rewrite touched_snoc. tauto.
Qed.

Lemma disk_ok_mkdir c hist d p f : disk_ok c hist d p -> disk_ok c hist (mkdir_all d f) p.
Proof. done. Qed.

Lemma write_disk_ok c hist d p a d' : good_hist c hist -> (c_es c <= 8)%nat ->
  write_file d p (iaa_save a) = Some d' -> wf_iaa c a (fileF c hist p) -> touched c hist p ->
  disk_ok c hist d' p /\ (forall q, q <> p -> disk_ok c hist d q -> disk_ok c hist d' q) /\ d_dirs d' = d_dirs d.
Proof.
  intros Hg Hes Hw Ha Ht. unfold write_file in Hw. destruct (decide _) as [Hd|]; [|done]. injection Hw as <-.
  split_and!; [| |done].
  - unfold disk_ok. cbn [d_files]. rewrite lookup_insert. split; [done|]. apply load_saved; done.
  - intros q Hq. unfold disk_ok. cbn [d_files]. rewrite lookup_insert_ne by done. done.
Qed.

Lemma load_file_ok c hist d p a : iaa_count a = c_count c -> iaa_esize a = c_es c -> disk_ok c hist d p ->
  exists a' e, load_file a d p = Some (a', e) /\ wf_iaa c a' (fileF c hist p) /\ (e = true <-> touched c hist p) /\
    iaa_tally a' = foldr Z.add 0 (map (fun i => Z.of_nat (length (fileF c hist p i))) (seq 0 (c_count c))).
Proof.
  intros Hc He H. unfold load_file, disk_ok in *. destruct (d_files d !! p) as [b|].
  - destruct H as (Ht & a' & Hl & Hw & Hty).
    rewrite (iaa_load_dims a (c_new c)) by done. rewrite Hl. exists a', true. split_and!; [done..| |done]. done.
  - exists (c_new c), false. rewrite Hc, He. split_and!; [done| | |].
    + apply wf_new. intros i Hi. apply untouched_fileF. done.
    + split; done.
    + assert (forall i, fileF c hist p i = []) as E by (intros; apply untouched_fileF; done).
      rewrite (map_ext _ (fun _ => 0)) by (intros; rewrite E; done). cbn [c_new iaa_new iaa_tally].
      generalize (seq 0 (c_count c)). intros l. induction l as [|x l IH]; [done|]. cbn. rewrite <- IH. done.
Qed.

(** ** The two-slot store *)

Definition slot_ok (c : cfg) (hist : list (Z * Z)) (p : path) (n : Z) (a : iaa) : Prop :=
  wf_iaa c a (fileF c hist p) /\ touched c hist p /\ atoi p.2 = n.

Record ms_inv (c : cfg) (hist : list (Z * Z)) (s : ms) : Prop := {
  mi_cfg : m_cfg s = c;
  mi_ldim : iaa_count (m_latest_a s) = c_count c /\ iaa_esize (m_latest_a s) = c_es c;
  mi_odim : iaa_count (m_older_a s) = c_count c /\ iaa_esize (m_older_a s) = c_es c;
  mi_latest : match m_latest s with
    | None => m_latest_num s = 0
    | Some p => slot_ok c hist p (m_latest_num s) (m_latest_a s) /\ p.1 ∈ d_dirs (m_disk s)
    end;
  mi_older : match m_older s with
    | None => True
    | Some p => exists n, slot_ok c hist p n (m_older_a s) /\ n <= m_latest_num s /\ m_latest s <> Some p
    end;
  mi_disk : forall p, m_latest s <> Some p -> m_older s <> Some p -> disk_ok c hist (m_disk s) p
}.

Definition cfg_ok (c : cfg) : Prop := (1 <= c_dd c)%nat /\ (c_es c <= 8)%nat.

Lemma ms_open_inv c : ms_inv c [] (ms_open c create_disk).
Proof.
  constructor; cbn; try done. intros p _ _. unfold disk_ok, create_disk. cbn [d_files].
  rewrite lookup_empty. unfold touched. rewrite Exists_nil. tauto.
Qed.

Lemma write_file_ok d p b : p.1 ∈ d_dirs d -> exists d', write_file d p b = Some d'.
Proof. intros H. unfold write_file. rewrite decide_True by done. eauto. Qed.

Lemma ms_flush_inv c hist s s' ok : cfg_ok c -> good_hist c hist -> ms_inv c hist s ->
  ms_flush s = (s', ok) ->
  ms_inv c hist s' /\ (ok = true -> m_latest s' = None /\ m_older s' = None) /\
  d_dirs (m_disk s') = d_dirs (m_disk s) /\
  (ok = false -> exists p, m_older s = Some p /\ p.1 ∉ d_dirs (m_disk s)).
Proof.
  intros [Hdd Hes] Hg [Hcfg Hld Hod Hl Ho Hd] E. unfold ms_flush in E.
  destruct (m_older s) as [p|] eqn:Eo.
  - destruct Ho as (n & (Hwf & Ht & Hn) & Hle & Hne).
    destruct (write_file (m_disk s) p (iaa_save (m_older_a s))) as [d|] eqn:Ew.
    + destruct (write_disk_ok c hist _ _ _ _ Hg Hes Ew Hwf Ht) as (Hd1 & Hd2 & Hd3).
      cbn [m_latest m_disk m_latest_a m_cfg m_older m_older_a] in E.
      destruct (m_latest s) as [q|] eqn:El.
      * destruct Hl as [(Hwf' & Ht' & Hn') Hq].
        destruct (write_file_ok d q (iaa_save (m_latest_a s))) as [d' Ew']; [rewrite Hd3; done|].
        rewrite Ew' in E. injection E as <- <-.
        destruct (write_disk_ok c hist _ _ _ _ Hg Hes Ew' Hwf' Ht') as (Hd4 & Hd5 & Hd6).
        split_and!; [|done|cbn; congruence|done].
        constructor; cbn; try done. intros r _ _.
        destruct (decide (r = q)) as [->|Hrq]; [done|]. apply Hd5; [done|].
        destruct (decide (r = p)) as [->|Hrp]; [done|]. apply Hd2; [done|]. apply Hd; congruence.
      * injection E as <- <-. split_and!; [|done|cbn; congruence|done].
        constructor; cbn; try done. intros r _ _.
        destruct (decide (r = p)) as [->|Hrp]; [done|]. apply Hd2; [done|]. apply Hd; congruence.
    + injection E as <- <-. split_and!; [|done|done|].
      * constructor; try done; rewrite ?Eo; try done. exists n. split; [split_and!; done|split; done].
      * intros _. exists p. split; [done|]. unfold write_file in Ew. destruct (decide _); done.
  - destruct (m_latest s) as [q|] eqn:El.
    + destruct Hl as [(Hwf' & Ht' & Hn') Hq].
      destruct (write_file_ok (m_disk s) q (iaa_save (m_latest_a s))) as [d' Ew']; [done|].
      rewrite Ew' in E. injection E as <- <-.
      destruct (write_disk_ok c hist _ _ _ _ Hg Hes Ew' Hwf' Ht') as (Hd4 & Hd5 & Hd6).
      split_and!; [|done|cbn; congruence|done].
      constructor; cbn; rewrite ?Eo; try done. intros r _ _.
      destruct (decide (r = q)) as [->|Hrq]; [done|]. apply Hd5; [done|]. apply Hd; congruence.
    + injection E as <- <-. split_and!; [|done|done|done].
      constructor; rewrite ?El, ?Eo; try done.
Qed.

Lemma slot_ok_other c hist p n a k v : slot_ok c hist p n a -> key_path c k <> Some p ->
  slot_ok c (hist ++ [(k,v)]) p n a.
Proof.
  intros (H1 & H2 & H3) Hp. split_and!; [apply wf_other; done| |done]. rewrite touched_snoc. auto.
Qed.

Lemma slot_ok_append c hist p n a k v : wf_iaa c a (fileF c hist p) -> atoi p.2 = n -> key_path c k = Some p ->
  slot_ok c (hist ++ [(k,v)]) p n (iaa_append a (c_idx c k) v).
Proof.
  intros H1 H2 Hp. split_and!; [apply wf_append; done| |done]. rewrite touched_snoc. auto.
Qed.

(** A successful append extends the history; a failed one changes no array. *)
Lemma ms_append_inv c hist s k v : cfg_ok c -> good_hist c hist -> ms_inv c hist s ->
  0 <= k < 2^63 ->
  exists s' ok, ms_append s k v = Some (s', ok) /\
    ms_inv c (if ok then hist ++ [(k,v)] else hist) s' /\
    d_dirs (m_disk s) ⊆ d_dirs (m_disk s') /\
    (ok = false -> exists p, m_older s = Some p /\ p.1 ∉ d_dirs (m_disk s)).
Proof.
  intros [Hdd Hes] Hg [Hcfg Hld Hod Hl Ho Hd] Hk.
  destruct (key_path_spec c k Hdd Hk) as (p & Hp & Ha & Hn).
  set (num := k - k mod 10 ^ Z.of_nat (c_fd c)) in *.
  unfold ms_append. rewrite Hcfg, Hn. destruct p as [folders file]. cbn [snd] in Ha. clearbody num.
  set (p := (folders, file)) in *.
  destruct (decide (m_latest s = Some p)) as [El|Hnl].
  { eexists _, true. split; [reflexivity|]. split; [|split; [done|intros ?; done]].
    rewrite El in Hl. destruct Hl as [(Hwf & Ht & Hat) Hin].
    pose proof (slot_ok_append c hist p _ _ k v Hwf Hat Hp) as Hs.
    constructor; cbn; try done.
    - rewrite El. split; [exact Hs|done].
    - destruct (m_older s) as [q|]; [|done]. destruct Ho as (n & Hq & Hle & Hne).
      exists n. split_and!; [apply slot_ok_other; [done|congruence]|done|done].
    - intros q Hq1 Hq2. apply disk_ok_other; [apply Hd; done|congruence]. }
  destruct (Z.ltb_spec (m_latest_num s) num) as [Hlt|Hge].
  { (* becomes the latest *)
    set (d := match m_latest s with Some q => default (m_disk s) (write_file (m_disk s) q (iaa_save (m_latest_a s))) | None => m_disk s end).
    assert ((forall q, m_older s <> Some q -> disk_ok c hist d q) /\ d_dirs d = d_dirs (m_disk s)) as [Hd' Hdirs].
    { subst d. destruct (m_latest s) as [q|] eqn:El.
      - destruct Hl as [(Hwf & Ht & Hat) Hin].
        destruct (write_file_ok (m_disk s) q (iaa_save (m_latest_a s)) Hin) as [d Ew]. rewrite Ew. cbn [from_option]. unfold id.
        destruct (write_disk_ok c hist _ _ _ _ Hg Hes Ew Hwf Ht) as (Hd1 & Hd2 & Hd3).
        split; [|done]. intros r Hr. destruct (decide (r = q)) as [->|Hrq]; [done|].
        apply Hd2; [done|]. apply Hd; congruence.
      - split; [|done]. intros r Hr. apply Hd; done. }
    assert (m_older s <> Some p) as Hnop.
    { intros E. rewrite E in Ho. destruct Ho as (n & (_ & _ & Hat) & Hle & _). change (p.2) with file in Hat. lia. }
    destruct (load_file_ok c hist (mkdir_all d folders) p (m_latest_a s)) as (a & e & Hlf & Hwf & _ & _);
      [apply Hld|apply Hld|apply disk_ok_mkdir, Hd', Hnop|].
    rewrite Hlf. eexists _, true. split; [reflexivity|].
    split; [|split; [cbn; rewrite <- Hdirs; set_solver|intros ?; done]].
    constructor; cbn; try done.
    - split; [apply Hwf|apply Hwf].
    - split; [apply slot_ok_append; done|]. set_solver.
    - destruct (m_older s) as [q|]; [|done]. destruct Ho as (n & Hq & Hle & Hne).
      exists n. split_and!; [apply slot_ok_other; [done|congruence]|lia|congruence].
    - intros q Hq1 Hq2. apply disk_ok_other; [|congruence]. apply (Hd' q Hq2). }
  destruct (decide (m_older s = Some p)) as [Eo|Hno].
  { eexists _, true. split; [reflexivity|]. split; [|split; [done|intros ?; done]].
    rewrite Eo in Ho. destruct Ho as (n & (Hwf & Ht & Hat) & Hle & Hne).
    constructor; cbn; try done.
    - destruct (m_latest s) as [q|]; [|done]. destruct Hl as [Hq Hin].
      split; [apply slot_ok_other; [done|congruence]|done].
    - rewrite Eo. exists n. split_and!; [apply slot_ok_append; done|done|done].
    - intros q Hq1 Hq2. apply disk_ok_other; [apply Hd; done|congruence]. }
  destruct (m_older s) as [q|] eqn:Eo.
  - destruct Ho as (n & (Hwf & Ht & Hat) & Hle & Hne).
    destruct (write_file (mkdir_all (m_disk s) folders) q (iaa_save (m_older_a s))) as [d2|] eqn:Ew.
    + destruct (write_disk_ok c hist _ _ _ _ Hg Hes Ew Hwf Ht) as (Hd1 & Hd2 & Hd3).
      assert (forall r, m_latest s <> Some r -> disk_ok c hist d2 r) as Hd'.
      { intros r Hr. destruct (decide (r = q)) as [->|Hrq]; [done|]. apply Hd2; [done|].
        apply disk_ok_mkdir, Hd; congruence. }
      destruct (load_file_ok c hist d2 p (m_older_a s)) as (a & e & Hlf & Hwf' & _ & _);
        [apply Hod|apply Hod|apply Hd', Hnl|].
      rewrite Hlf. eexists _, true. split; [reflexivity|].
      assert (d_dirs (m_disk s) ⊆ d_dirs d2) as Hsub by (rewrite Hd3; set_solver).
      split; [|split; [exact Hsub|intros ?; done]].
      constructor; cbn; try done.
      * split; [apply Hwf'|apply Hwf'].
      * destruct (m_latest s) as [r|]; [|done]. destruct Hl as [Hr Hin].
        split; [apply slot_ok_other; [done|congruence]|set_solver].
      * exists num. split_and!; [apply slot_ok_append; done|lia|done].
      * intros r Hr1 Hr2. apply disk_ok_other; [apply Hd'; done|congruence].
    + eexists _, false. split; [reflexivity|]. split; [|split].
      * constructor; cbn; try done.
        -- destruct (m_latest s) as [r|]; [|done]. destruct Hl as [Hr Hin]. split; [done|set_solver].
        -- exists n. split; [split_and!; done|split; done].
      * cbn. set_solver.
      * intros _. exists q. split; [done|]. unfold write_file in Ew. destruct (decide _) as [|Hni]; [done|].
        cbn in Hni. set_solver.
  - destruct (load_file_ok c hist (m_disk s) p (m_older_a s)) as (a & e & Hlf & Hwf' & _ & _);
      [apply Hod|apply Hod|apply Hd; done|].
    rewrite Hlf. eexists _, true. split; [reflexivity|]. split; [|split; [done|intros ?; done]].
    constructor; cbn; try done.
    * split; [apply Hwf'|apply Hwf'].
    * destruct (m_latest s) as [r|]; [|done]. destruct Hl as [Hr Hin].
      split; [apply slot_ok_other; [done|congruence]|done].
    * exists num. split_and!; [apply slot_ok_append; done|lia|done].
    * intros r Hr1 Hr2. apply disk_ok_other; [apply Hd; done|congruence].
Qed.

Lemma ms_get_inv c hist s k : cfg_ok c -> good_hist c hist -> ms_inv c hist s -> 0 <= k < 2^63 ->
  exists s' r, ms_get s k = Some (s', r) /\ ms_inv c hist s' /\ d_dirs (m_disk s') = d_dirs (m_disk s) /\
    match r with
    | Some arr => arr = array_of hist k /\ file_used (c_fd c) hist k
    | None => ~ file_used (c_fd c) hist k \/ exists p, m_older s = Some p /\ p.1 ∉ d_dirs (m_disk s)
    end.
Proof.
  intros Hc Hg Hi Hk. unfold ms_get. destruct (ms_flush s) as [s1 ok] eqn:Ef.
  destruct (ms_flush_inv c hist s s1 ok Hc Hg Hi Ef) as (Hi1 & Hok & Hdirs & Hbad).
  destruct ok; cbn [negb].
  2:{ eexists _, None. split_and!; [done|done|done|]. right. apply Hbad. done. }
  destruct (Hok eq_refl) as [Hl Ho]. destruct Hc as [Hdd Hes].
  rewrite (mi_cfg _ _ _ Hi).
  destruct (key_path_spec c k Hdd Hk) as (p & Hp & Ha & Hn). rewrite Hn. destruct p as [folders file].
  destruct (load_file_ok c hist (m_disk s1) (folders, file) (c_new c)) as (a & e & Hlf & Hwf & He & _);
    [done|done|apply (mi_disk _ _ _ Hi1); congruence|].
  rewrite Hlf. pose proof (touched_used c hist k (folders, file) Hdd Hg Hk Hp) as Htu.
  destruct e; eexists _, _; (split; [reflexivity|]); split_and!; try done.
  - destruct Hwf as (_ & _ & Hf). rewrite Hf by apply c_idx_lt. apply fileF_array; done.
  - apply Htu, He. done.
  - left. intros Ht. apply Htu, He in Ht. done.
Qed.

(** ** The many-file cached store *)

Record cms_inv (c : cfg) (hist : list (Z * Z)) (excl : option path) (s : cms) : Prop := {
  ci_cfg : k_cfg s = c;
  ci_nodup : NoDup (map ce_path (k_entries s));
  ci_entry : forall e, e ∈ k_entries s -> wf_iaa c (ce_a e) (fileF c hist (ce_path e)) /\
               (Some (ce_path e) <> excl -> touched c hist (ce_path e));
  ci_disk : forall p, p ∉ map ce_path (k_entries s) -> disk_ok c hist (k_disk s) p
}.

(** Access numbers of different entries differ: the choice of the oldest entry is unique. *)
Definition access_inv (s : cms) : Prop :=
  NoDup (map ce_access (k_entries s)) /\ 0 <= k_counter s /\
  Forall (fun e => 1 <= ce_access e <= k_counter s) (k_entries s).

Lemma elem_of_map_ce {B} (f : centry -> B) l e : e ∈ l -> f e ∈ map f l.
Proof. intros H. apply (elem_of_list_fmap_1 f) in H. exact H. Qed.

Lemma elem_of_map_inv {A B} (f : A -> B) l y : y ∈ map f l -> exists x, x ∈ l /\ y = f x.
Proof. intros H. apply (elem_of_list_fmap_2 f) in H as (x & -> & H). eauto. Qed.

Lemma ce_delete_in p e l : e ∈ ce_delete p l <-> ce_path e <> p /\ e ∈ l.
Proof. unfold ce_delete. rewrite elem_of_list_filter. done. Qed.

Lemma ce_delete_sublist p l : sublist (ce_delete p l) l.
Proof.
  unfold ce_delete. induction l as [|e l IH]; [constructor|]. rewrite filter_cons.
  destruct (decide _); constructor; exact IH.
Qed.

Lemma sublist_in {A} (l k : list A) x : sublist l k -> x ∈ l -> x ∈ k.
Proof.
  induction 1 as [|y l k H IH|y l k H IH]; [done|..].
  - intros [->|Hx]%elem_of_cons; [left|right; auto].
  - right. auto.
Qed.

Lemma map_filter_nodup {B} (f : centry -> B) (P : centry -> Prop) `{!forall e, Decision (P e)} l :
  NoDup (map f l) -> NoDup (map f (filter P l)).
Proof.
  induction l as [|e l IH]; cbn [map]; intros Hn; [done|]. apply NoDup_cons in Hn as [H1 H2].
  rewrite filter_cons. destruct (decide (P e)); [|auto]. cbn [map]. apply NoDup_cons. split; [|auto].
  intros (x & Hx & E)%elem_of_map_inv. apply elem_of_list_filter in Hx as [_ Hx]. apply H1. rewrite E.
  apply elem_of_map_ce, Hx.
Qed.

Lemma nodup_path_eq l e1 e2 : NoDup (map ce_path l) -> e1 ∈ l -> e2 ∈ l -> ce_path e1 = ce_path e2 -> e1 = e2.
Proof.
  induction l as [|e l IH]; cbn [map]; intros Hn H1 H2 E; [by apply not_elem_of_nil in H1|].
  apply NoDup_cons in Hn as [Hn1 Hn2].
  apply elem_of_cons in H1 as [->|H1]; apply elem_of_cons in H2 as [->|H2]; auto.
  - destruct Hn1. rewrite E. apply elem_of_map_ce, H2.
  - destruct Hn1. rewrite <- E. apply elem_of_map_ce, H1.
Qed.

Lemma pick_oldest_spec counter excl l e : pick_oldest counter excl l = Some e ->
  e ∈ l /\ ce_path e <> excl /\ ce_access e < counter.
Proof.
  unfold pick_oldest.
  assert (forall best, (forall b, best = Some b -> ce_path b <> excl /\ ce_access b < counter) ->
    fold_left (fun best e => if bool_decide (ce_access e < match best with Some b => ce_access b | None => counter end /\ ce_path e <> excl) then Some e else best) l best = Some e ->
    (e ∈ l \/ best = Some e) /\ ce_path e <> excl /\ ce_access e < counter) as G.
  { induction l as [|x l IH]; intros best Hb E; cbn [fold_left] in E.
    - split; [auto|]. apply Hb, E.
    - case_bool_decide as Hx.
      + apply IH in E as [[H|H] ?].
        * split; [left; right; done|done].
        * injection H as <-. split; [left; left|done].
        * intros b [= <-]. split; [apply Hx|]. destruct best as [b0|]; [|lia].
          specialize (Hb b0 eq_refl). lia.
      + apply IH in E as [[H|H] ?]; [|auto|done]. split; [left; right; done|done]. }
  intros E. apply G in E as [[H|H] ?]; [split; done|done|done].
Qed.

Lemma mkdir_in d p : p ∈ d_dirs (mkdir_all d p).
Proof. cbn. set_solver. Qed.

Lemma trim_loop_inv c hist p fuel s s' : cfg_ok c -> good_hist c hist ->
  cms_inv c hist (Some p) s -> p ∈ map ce_path (k_entries s) ->
  trim_loop fuel p s = Some s' ->
  cms_inv c hist (Some p) s' /\ p ∈ map ce_path (k_entries s') /\ k_counter s' = k_counter s /\ k_limit s' = k_limit s /\
  sublist (k_entries s') (k_entries s).
Proof.
  intros [Hdd Hes] Hg. revert s. induction fuel as [|fuel IH]; intros s Hi Hp E; cbn [trim_loop] in E;
    (destruct (k_count s <? k_limit s); [injection E as <-; done|]); [done|].
  destruct (pick_oldest _ p _) as [e|] eqn:Ep; [|done].
  apply pick_oldest_spec in Ep as (Hin & Hne & _).
  destruct Hi as [Hc Hn He Hd].
  destruct (write_file _ _ _) as [d2|] eqn:Ew; [|done].
  destruct (He _ Hin) as [Hwf Ht]. specialize (Ht ltac:(congruence)).
  destruct (write_disk_ok c hist _ _ _ _ Hg Hes Ew Hwf Ht) as (Hd1 & Hd2 & Hd3).
  apply IH in E as (H1 & H2 & H3 & H4 & H5).
  - split_and!; [done..|]. cbn in H5. etrans; [exact H5|]. apply ce_delete_sublist.
  - constructor; cbn; [done|..].
    + apply map_filter_nodup, Hn.
    + intros x [_ Hx]%ce_delete_in. apply He, Hx.
    + intros q Hq. destruct (decide (q = ce_path e)) as [->|Hqe]; [done|].
      apply Hd2; [done|]. apply disk_ok_mkdir, Hd. intros (x & Hx & ->)%elem_of_map_inv.
      apply Hq. apply elem_of_map_ce, ce_delete_in. done.
  - cbn. apply elem_of_map_inv in Hp as (x & Hx & E1). rewrite E1. apply elem_of_map_ce, ce_delete_in.
    split; [congruence|done].
Qed.

Lemma ce_find_some p l e : ce_find p l = Some e -> p ∈ map ce_path l.
Proof.
  unfold ce_find. destruct (filter _ l) as [|x k] eqn:E; [done|]. intros [= <-].
  assert (x ∈ filter (fun e => ce_path e = p) l) as [<- Hx]%elem_of_list_filter by (rewrite E; left).
  apply elem_of_map_ce, Hx.
Qed.

Lemma ce_find_none p l : ce_find p l = None -> p ∉ map ce_path l.
Proof.
  unfold ce_find. destruct (filter _ l) as [|x k] eqn:E; [|done]. intros _ (x & Hx & ->)%elem_of_map_inv.
  assert (x ∈ filter (fun e => ce_path e = ce_path x) l) as Hf by (apply elem_of_list_filter; done).
  rewrite E in Hf. by apply not_elem_of_nil in Hf.
Qed.

(** The number of elements of a file *)
Definition slot_size (c : cfg) (hist : list (Z * Z)) (p : path) : Z :=
  Z.of_nat (length (filter (fun kv => key_path c kv.1 = Some p) hist)).
Definition zsum (l : list Z) : Z := foldr Z.add 0 l.

Lemma zsum_bump (f g : nat -> Z) i0 n m : (m <= i0 < m + n)%nat ->
  (forall i, i <> i0 -> f i = g i) -> f i0 = g i0 + 1 ->
  zsum (map f (seq m n)) = zsum (map g (seq m n)) + 1.
Proof.
  revert m. induction n as [|n IH]; intros m Hm Hne He; [lia|]. cbn [seq map zsum foldr].
  destruct (decide (m = i0)) as [->|Hmi].
  - rewrite He. assert (map f (seq (S i0) n) = map g (seq (S i0) n)) as ->; [|unfold zsum; lia].
    apply map_ext_in. intros i Hi%in_seq. apply Hne. lia.
  - rewrite (Hne m Hmi). change (foldr Z.add 0 ?l) with (zsum l). rewrite IH by (done || lia). lia.
Qed.

Lemma tally_slot_size c hist p :
  zsum (map (fun i => Z.of_nat (length (fileF c hist p i))) (seq 0 (c_count c))) = slot_size c hist p.
Proof.
  induction hist as [|[k v] hist IH] using rev_ind.
  - change (slot_size c [] p) with 0.
    assert (forall l, zsum (map (fun i => Z.of_nat (length (fileF c [] p i))) l) = 0) as H; [|apply H].
    intros l. induction l as [|x l IHl]; [done|]. cbn [map zsum foldr]. change (foldr Z.add 0 ?k) with (zsum k).
    rewrite IHl. done.
  - unfold slot_size in *. rewrite filter_app, filter_cons, filter_nil, app_length. cbn [fst].
    destruct (decide (key_path c k = Some p)) as [Hk|Hk].
    + cbn [length]. rewrite Nat2Z.inj_add, <- IH. change (Z.of_nat 1) with 1.
      apply (zsum_bump _ _ (c_idx c k)).
      * pose proof (c_idx_lt c k). lia.
      * intros i Hi. rewrite fileF_snoc, decide_False; [done|]. intros [_ ?]. cbn in *. congruence.
      * rewrite fileF_snoc, decide_True by (split; done). rewrite app_length. cbn [length]. lia.
    + cbn [length]. rewrite Nat.add_0_r, <- IH. f_equal. apply map_ext. intros i.
      rewrite fileF_snoc, decide_False; [done|]. intros [? _]. cbn in *. congruence.
Qed.

Lemma slot_size_snoc c hist p k v :
  slot_size c (hist ++ [(k,v)]) p = slot_size c hist p + (if decide (key_path c k = Some p) then 1 else 0).
Proof.
  unfold slot_size. rewrite filter_app, filter_cons, filter_nil, app_length. cbn [fst].
  destruct (decide _); cbn [length]; lia.
Qed.

Lemma zsum_app l k : zsum (l ++ k) = zsum l + zsum k.
Proof. induction l as [|x l IH]; cbn; [done|]. unfold zsum in *. lia. Qed.

Lemma zsum_slot_snoc c hist k v ps : NoDup ps ->
  zsum (map (slot_size c (hist ++ [(k,v)])) ps) =
  zsum (map (slot_size c hist) ps) + (if decide (Exists (fun p => key_path c k = Some p) ps) then 1 else 0).
Proof.
  induction 1 as [|p ps Hp Hn IH]; [done|]. cbn [map zsum foldr].
  change (foldr Z.add 0 ?l) with (zsum l). rewrite IH, slot_size_snoc.
  assert (Exists (fun q => key_path c k = Some q) (p :: ps) <-> key_path c k = Some p \/ Exists (fun q => key_path c k = Some q) ps) as Hx by apply Exists_cons.
  destruct (decide (key_path c k = Some p)) as [E|E].
  - rewrite (decide_False (P := Exists _ ps)).
    + rewrite decide_True by tauto. lia.
    + intros (q & Hq & E')%Exists_exists. congruence.
  - destruct (decide (Exists _ ps)) as [H|H]; destruct (decide (Exists _ (p :: ps))); try tauto; lia.
Qed.

Lemma zsum_slots_le c hist ps : NoDup ps -> zsum (map (slot_size c hist) ps) <= Z.of_nat (length hist).
Proof.
  intros Hn. induction hist as [|[k v] hist IH] using rev_ind.
  - cbn [length]. clear Hn. induction ps as [|p ps IH]; [done|]. cbn [map zsum foldr].
    change (slot_size c [] p) with 0. unfold zsum in IH. lia.
  - rewrite zsum_slot_snoc, app_length by done. cbn [length]. destruct (decide _); lia.
Qed.

(** The element count is exact as long as nothing has been evicted. *)
Definition count_exact (c : cfg) (hist : list (Z * Z)) (s : cms) : Prop :=
  k_count s = zsum (map (slot_size c hist) (map ce_path (k_entries s))).

Lemma load_into_cache_inv c hist s p s' : cfg_ok c -> good_hist c hist ->
  cms_inv c hist None s -> load_into_cache s p = Some s' ->
  cms_inv c hist (Some p) s' /\ p ∈ map ce_path (k_entries s') /\ k_counter s' = k_counter s /\ k_limit s' = k_limit s /\
  exists x, sublist (k_entries s') (k_entries s ++ x) /\ Forall (fun e => ce_path e = p /\ ce_access e = 0) x /\
    (length x <= 1)%nat.
Proof.
  intros Hc Hg Hi E. unfold load_into_cache in E.
  destruct (ce_find p (k_entries s)) as [e|] eqn:Ef.
  - injection E as <-. apply ce_find_some in Ef. split_and!; try done.
    + destruct Hi as [H1 H2 H3 H4]. constructor; try done. intros e' He'. destruct (H3 e' He') as [Hw Ht].
      split; [done|]. intros _. apply Ht. done.
    + exists []. rewrite app_nil_r. split_and!; [done|constructor|cbn; lia].
  - apply ce_find_none in Ef. rewrite (ci_cfg _ _ _ _ Hi) in E.
    destruct (load_file_ok c hist (k_disk s) p (c_new c)) as (a & e & Hlf & Hwf & _ & Hty);
      [done|done|apply (ci_disk _ _ _ _ Hi), Ef|].
    rewrite Hlf in E. apply (trim_loop_inv c hist) in E as (H1 & H2 & H3 & H4 & H5); [|done|done| |].
    + split_and!; try done. exists [mk_ce p a 0]. split_and!; [done| |cbn; lia]. constructor; [done|constructor].
    + destruct Hi as [I1 I2 I3 I4]. constructor; cbn; [done|..].
      * rewrite map_app. cbn [map ce_path]. apply NoDup_app. split_and!; [done| |].
        -- intros x Hx ->%elem_of_list_singleton. done.
        -- apply NoDup_singleton.
      * intros x [Hx|Hx]%elem_of_app.
        -- destruct (I3 x Hx) as [Hw Ht]. split; [done|]. intros _. apply Ht. done.
        -- apply elem_of_list_singleton in Hx as ->. cbn. split; done.
      * intros q Hq. apply I4. rewrite map_app, not_elem_of_app in Hq. apply Hq.
    + cbn. rewrite map_app. apply elem_of_app. right. left.
Qed.

Lemma cms_append_inv c hist s k v s' : cfg_ok c -> good_hist c hist -> cms_inv c hist None s -> 0 <= k < 2^63 ->
  cms_append s k v = Some s' -> cms_inv c (hist ++ [(k,v)]) None s' /\ (access_inv s -> access_inv s') /\
    k_limit s' = k_limit s.
Proof.
  intros Hc Hg Hi Hk E. unfold cms_append in E. rewrite (ci_cfg _ _ _ _ Hi) in E.
  destruct (key_path_spec c k ltac:(apply Hc) Hk) as (p & Hp & Ha & Hn). rewrite Hn in E.
  destruct (load_into_cache s p) as [s1|] eqn:El; [|done].
  destruct (load_into_cache_inv c hist s p s1 Hc Hg Hi El) as (Hi1 & Hin & Hcnt & Hlim & x & Hsub & Hx & Hxl).
  injection E as <-. destruct Hi1 as [I1 I2 I3 I4].
  match goal with |- context [map ?f (k_entries s1)] => set (upd := f) end.
  assert (map ce_path (map upd (k_entries s1)) = map ce_path (k_entries s1)) as Hpaths.
  { rewrite map_map. apply map_ext. intros e. subst upd. cbn. destruct (decide _) as [<-|]; done. }
  split; [|split; [|done]].
  - constructor; cbn [k_cfg k_entries k_disk].
    + done.
    + rewrite Hpaths. done.
    + intros e (e0 & He0 & ->)%elem_of_map_inv. destruct (I3 e0 He0) as [Hw Ht]. subst upd. cbn beta.
      destruct (decide (ce_path e0 = p)) as [Ep|Ep]; cbn [ce_path ce_a].
      * rewrite Ep in Hw. split; [|intros _; rewrite touched_snoc; auto].
        apply (wf_append c _ hist p k v) in Hw; [|done]. destruct Hw as (W1 & W2 & W3). split_and!; [done..|].
        exact W3.
      * split; [apply wf_other; [done|congruence]|]. intros _. rewrite touched_snoc. left. apply Ht. congruence.
    + intros q Hq. rewrite Hpaths in Hq. apply disk_ok_other; [apply I4, Hq|]. intros E. congruence.
  - intros (A1 & A2 & A3). unfold access_inv. cbn [k_entries k_counter]. rewrite Hcnt.
    (* entries of s1: those of s, in order, possibly with the new one of access number 0 *)
    assert (NoDup (map ce_access (k_entries s1)) /\ Forall (fun e => ce_access e <= k_counter s /\ (ce_path e <> p -> 1 <= ce_access e)) (k_entries s1)) as [B1 B2].
    { split.
      - assert (NoDup (map ce_access (k_entries s ++ x))) as Hnd.
        { rewrite map_app. apply NoDup_app. split_and!; [done| |].
          - intros y (e & He & ->)%elem_of_map_inv (e' & He' & E')%elem_of_map_inv.
            rewrite Forall_forall in A3, Hx. apply A3 in He. apply Hx in He'. lia.
          - destruct x as [|x0 [|x1 x]]; [constructor|apply NoDup_singleton|cbn in Hxl; lia]. }
        clear -Hsub Hnd. induction Hsub; [constructor|..]; cbn [map] in *; apply NoDup_cons in Hnd as [N1 N2].
        + apply NoDup_cons. split; [|auto]. intros (e & He & E)%elem_of_map_inv. apply N1. rewrite E.
          apply elem_of_map_ce. eapply sublist_in; done.
        + auto.
      - apply Forall_forall. intros e He. assert (e ∈ k_entries s ++ x) as [H|H]%elem_of_app by (eapply sublist_in; done).
        + rewrite Forall_forall in A3. apply A3 in H. split; [lia|]. intros; lia.
        + rewrite Forall_forall in Hx. apply Hx in H as [H1 H2]. split; [lia|]. done. }
    split_and!; [|lia|].
    + clear -B1 B2 I2 Hcnt. induction (k_entries s1) as [|e l IH]; [constructor|]. cbn [map] in *.
      apply NoDup_cons in B1 as [B1 B1']. apply NoDup_cons in I2 as [I2 I2']. apply Forall_cons in B2 as [B2 B2'].
      apply NoDup_cons. split; [|auto]. intros (y & Hy & E)%elem_of_map_inv.
      apply elem_of_map_inv in Hy as (z & Hz & ->). subst upd. cbn beta in E.
      rewrite Forall_forall in B2'. pose proof (B2' z Hz) as [Hz1 _].
      destruct (decide (ce_path e = p)) as [E1|E1], (decide (ce_path z = p)) as [E2|E2]; cbn [ce_access] in E.
      * apply I2. rewrite E1, <- E2. apply elem_of_map_ce, Hz.
      * lia.
      * lia.
      * apply B1. rewrite E. apply elem_of_map_ce, Hz.
    + apply Forall_forall. intros y (z & Hz & ->)%elem_of_map_inv. subst upd. cbn beta.
      rewrite Forall_forall in B2. apply B2 in Hz as [Hz1 Hz2]. destruct (decide (ce_path z = p)) as [E1|E1]; cbn [ce_access]; [lia|].
      specialize (Hz2 E1). lia.
Qed.

(** Below the limit nothing is evicted and appending returns. *)
Lemma cms_append_total c hist s k v : cfg_ok c -> good_hist c hist -> cms_inv c hist None s -> 0 <= k < 2^63 ->
  count_exact c hist s -> Z.of_nat (length hist) < k_limit s ->
  exists s', cms_append s k v = Some s' /\ count_exact c (hist ++ [(k,v)]) s'.
Proof.
  intros Hc Hg Hi Hk He Hlim. unfold cms_append. rewrite (ci_cfg _ _ _ _ Hi).
  destruct (key_path_spec c k ltac:(apply Hc) Hk) as (p & Hp & Ha & Hn). rewrite Hn.
  assert (exists s1, load_into_cache s p = Some s1 /\ count_exact c hist s1) as (s1 & El & He1).
  { unfold load_into_cache. destruct (ce_find p (k_entries s)) as [e|] eqn:Ef; [eauto|].
    apply ce_find_none in Ef. rewrite (ci_cfg _ _ _ _ Hi).
    destruct (load_file_ok c hist (k_disk s) p (c_new c)) as (a & e & Hlf & Hwf & _ & Hty);
      [done|done|apply (ci_disk _ _ _ _ Hi), Ef|].
    change (foldr Z.add 0 ?l) with (zsum l) in Hty. rewrite tally_slot_size in Hty. rewrite Hlf.
    set (s1 := mk_cms _ _ _ _ _ _).
    assert (count_exact c hist s1) as He1.
    { unfold count_exact in *. subst s1. cbn. rewrite !map_app, zsum_app, <- He. cbn. lia. }
    assert (NoDup (map ce_path (k_entries s1))) as Hnd.
    { subst s1. cbn. rewrite map_app. apply NoDup_app. split_and!; [apply Hi| |apply NoDup_singleton].
      intros q Hq ->%elem_of_list_singleton. done. }
    exists s1. split; [|done].
    destruct (length (k_entries s1)) as [|fuel] eqn:Elen; [subst s1; cbn in Elen; rewrite app_length in Elen; cbn in Elen; lia|].
    cbn [trim_loop]. destruct (Z.ltb_spec (k_count s1) (k_limit s1)) as [|Hbad]; [done|].
    rewrite He1 in Hbad. pose proof (zsum_slots_le c hist (map ce_path (k_entries s1)) Hnd).
    subst s1. cbn in *. lia. }
  rewrite El. eexists. split; [reflexivity|].
  destruct (load_into_cache_inv c hist s p s1 Hc Hg Hi El) as (Hi1 & Hin & _).
  unfold count_exact in *. cbn [k_count k_entries].
  match goal with |- context [map ?f (k_entries s1)] => set (upd := f) end.
  assert (map ce_path (map upd (k_entries s1)) = map ce_path (k_entries s1)) as ->.
  { rewrite map_map. apply map_ext. intros e. subst upd. cbn. destruct (decide _) as [<-|]; done. }
  rewrite zsum_slot_snoc by apply Hi1. rewrite decide_True; [lia|]. apply Exists_exists. eauto.
Qed.

Lemma cms_flush_inv c hist s : cfg_ok c -> good_hist c hist -> cms_inv c hist None s ->
  cms_inv c hist None (cms_flush s) /\ k_entries (cms_flush s) = [].
Proof.
  intros [Hdd Hes] Hg [H1 H2 H3 H4]. split; [|done]. unfold cms_flush.
  constructor; cbn [k_cfg k_entries k_disk map]; [done|constructor|intros e He; by apply not_elem_of_nil in He|].
  intros p _. destruct (decide (p ∈ map ce_path (k_entries s))) as [Hin|Hn].
  2:{ assert (disk_ok c hist (k_disk s) p) as Hd by (apply H4, Hn). clear H4.
      revert Hd. generalize (k_disk s). clear H2. induction (k_entries s) as [|e l IH]; intros d Hd; [done|].
      cbn [fold_left]. apply IH.
      - intros e' He'. apply H3. right. done.
      - intros Hp. apply Hn. right. done.
      - destruct (write_file_ok (mkdir_all d (ce_path e).1) (ce_path e) (iaa_save (ce_a e)) (mkdir_in _ _)) as [d2 Ew].
        rewrite Ew. cbn [from_option]. unfold id.
        destruct (H3 e ltac:(left)) as [Hw Ht].
        destruct (write_disk_ok c hist _ _ _ _ Hg Hes Ew Hw (Ht ltac:(done))) as (_ & Hd2 & _).
        apply Hd2; [|done]. intros ->. apply Hn. left. }
  clear H4. revert Hin. generalize (k_disk s). induction (k_entries s) as [|e l IH]; intros d Hin; [by apply not_elem_of_nil in Hin|].
  cbn [fold_left map] in *. apply NoDup_cons in H2 as [H2 H2'].
  destruct (decide (p ∈ map ce_path l)) as [Hp|Hp].
  { apply IH; [done| |done]. intros e' He'. apply H3. right. done. }
  apply elem_of_cons in Hin as [->|Hin]; [|done].
  destruct (H3 e ltac:(left)) as [Hw Ht].
  destruct (write_file_ok (mkdir_all d (ce_path e).1) (ce_path e) (iaa_save (ce_a e)) (mkdir_in _ _)) as [d2 Ew].
  rewrite Ew. cbn [from_option]. unfold id.
  destruct (write_disk_ok c hist _ _ _ _ Hg Hes Ew Hw (Ht ltac:(done))) as (Hd1 & _ & _).
  clear IH H2'. revert Hd1. generalize d2. clear Ew d2 d.
  assert (forall e', e' ∈ l -> wf_iaa c (ce_a e') (fileF c hist (ce_path e')) /\ touched c hist (ce_path e')) as H3'.
  { intros e' He'. destruct (H3 e' ltac:(right; done)) as [? Ht']. split; [done|]. apply Ht'. done. }
  clear H3. induction l as [|x l IH]; intros d Hd; [done|]. cbn [fold_left map] in *.
  apply not_elem_of_cons in Hp as [Hp1 Hp2].
  apply IH; [done|done|intros e' He'; apply H3'; right; done|].
  destruct (write_file_ok (mkdir_all d (ce_path x).1) (ce_path x) (iaa_save (ce_a x)) (mkdir_in _ _)) as [d2 Ew].
  rewrite Ew. cbn [from_option]. unfold id. destruct (H3' x ltac:(left)) as [Hw' Ht'].
  destruct (write_disk_ok c hist _ _ _ _ Hg Hes Ew Hw' Ht') as (_ & Hd2 & _). apply Hd2; done.
Qed.

Lemma cms_get_inv c hist s k : cfg_ok c -> good_hist c hist -> cms_inv c hist None s -> 0 <= k < 2^63 ->
  exists s' r, cms_get s k = Some (s', r) /\ s' = cms_flush s /\
    match r with
    | Some arr => arr = array_of hist k /\ file_used (c_fd c) hist k
    | None => ~ file_used (c_fd c) hist k
    end.
Proof.
  intros Hc Hg Hi Hk. unfold cms_get. rewrite (ci_cfg _ _ _ _ Hi).
  destruct (cms_flush_inv c hist s Hc Hg Hi) as [Hi1 Hnil].
  destruct (key_path_spec c k ltac:(apply Hc) Hk) as (p & Hp & Ha & Hn). rewrite Hn.
  destruct (load_file_ok c hist (k_disk (cms_flush s)) p (c_new c)) as (a & e & Hlf & Hwf & He & _);
    [done|done|apply (ci_disk _ _ _ _ Hi1); rewrite Hnil; apply not_elem_of_nil|].
  rewrite Hlf. pose proof (touched_used c hist k p ltac:(apply Hc) Hg Hk Hp) as Htu.
  destruct e; eexists _, _; (split; [reflexivity|]); split_and!; try done.
  - destruct Hwf as (_ & _ & Hf). rewrite Hf by apply c_idx_lt. apply fileF_array; [apply Hc|done..].
  - apply Htu, He. done.
  - intros Ht. apply Htu, He in Ht. done.
Qed.
