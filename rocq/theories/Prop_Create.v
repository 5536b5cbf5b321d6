(** Properties C99 and C100: making the files of a chain, and the job with its phases. *)
From Coq Require Import String.
From stdpp Require Import strings.
From Verif Require Import Base Model_Create.
From Verif Require Model_Chain.
Local Open Scope string_scope.

(** ** What is asked for *)
(** the name on disk of every file that storing and reading a chain works with (Model_Chain, where ints have numbers) *)
Definition named (f : Model_Chain.fid) : file :=
  match f with
  | Model_Chain.FirstTrans => ("Blocks", "firsttrans")
  | Model_Chain.FirstTxi => ("Transactions", "firsttxi") | Model_Chain.FirstTxo => ("Transactions", "firsttxo")
  | Model_Chain.TxiTx => ("TransactionInputs", "tx") | Model_Chain.TxiVout => ("TransactionInputs", "vout")
  | Model_Chain.TxoSats => ("TransactionOutputs", "value") | Model_Chain.TxoAddr => ("TransactionOutputs", "address")
  | Model_Chain.TxoSpent => ("TransactionOutputs", "spenttotxi") | Model_Chain.AddrFirst => ("Addresses", "firsttxo")
  | Model_Chain.ParBlk => ("Parents", "parentblockoftrans")
  | Model_Chain.ParTxi => ("Parents", "parenttransoftxi") | Model_Chain.ParTxo => ("Parents", "parenttransoftxo")
  | Model_Chain.BlkInt n => ("Blocks", nth n ["version"; "time"; "difficulty"; "mediantime"; "nonce"; "strippedsize"; "size"; "weight"] "")
  | Model_Chain.TrnInt n => ("Transactions", nth n ["version"; "size"; "vsize"; "weight"; "locktime"] "")
  end.
Definition wanted (blk_req trn_req : list string) : list file := map named Model_Chain.fixed_files ++ map (pair "Blocks") blk_req ++ map (pair "Transactions") trn_req.
Definition chain_file (f : file) : Prop := f ∈ wanted blk_names trn_names \/ fst f = map_folder.

(** ** Lemmas *)
Lemma wanted_eq blk_req trn_req : wanted blk_req trn_req = (fixed_files ++ map (pair "Blocks") blk_req ++ map (pair "Transactions") trn_req)%list.
Proof. reflexivity. Qed.
Lemma create_files_touch works fs fo f : f ∉ fs -> fst (create_files works fs fo) !! f = fo !! f.
Proof.
  revert fo. induction fs as [|g fs IH]; intros fo H; [done|]. cbn [create_files]. apply not_elem_of_cons in H as [H1 H2].
  destruct (works g); [|done]. rewrite IH by done. by apply lookup_insert_ne.
Qed.
Lemma create_files_there works fs fo f : is_Some (fo !! f) -> is_Some (fst (create_files works fs fo) !! f).
Proof.
  revert fo. induction fs as [|g fs IH]; intros fo H; [done|]. cbn [create_files]. destruct (works g); [|done]. apply IH.
  destruct (decide (g = f)) as [->|Hne]; [by rewrite lookup_insert|by rewrite lookup_insert_ne].
Qed.
Lemma create_files_made works fs fo f : snd (create_files works fs fo) = true -> f ∈ fs -> fst (create_files works fs fo) !! f = Some [].
Proof.
  revert fo. induction fs as [|g fs IH]; intros fo H Hf; [by apply elem_of_nil in Hf|]. cbn [create_files] in *. destruct (works g); [|done].
  destruct (decide (f ∈ fs)) as [Hin|Hni]; [by apply IH|]. rewrite create_files_touch by done. apply elem_of_cons in Hf as [->|Hf]; [apply lookup_insert|done].
Qed.
Lemma create_files_works works fs fo : (forall f, f ∈ fs -> works f = true) -> snd (create_files works fs fo) = true.
Proof.
  revert fo. induction fs as [|g fs IH]; intros fo H; [done|]. cbn [create_files]. rewrite (H g) by left. apply IH. intros f Hf. apply H. by right.
Qed.
Lemma create_map_lookup w fo f : fst (create_map w fo) !! f = if decide (fst f = map_folder) then None else fo !! f.
Proof.
  cbn [create_map fst]. case_decide as H.
  - apply map_filter_lookup_None. right. intros x _ Hn. by apply Hn.
  - destruct (fo !! f) as [x|] eqn:E.
    + apply map_filter_lookup_Some. done.
    + apply map_filter_lookup_None. by left.
Qed.
Lemma also_true r next : snd (also r next) = true -> snd r = true /\ also r next = next (fst r) /\ snd (next (fst r)) = true.
Proof. unfold also. destruct (snd r) eqn:E; [done|]. intros H. congruence. Qed.
Lemma also_inv r next : snd (also r next) = true -> exists fo, r = (fo, true) /\ also r next = next fo.
Proof. unfold also. destruct r as [fo [|]]; [by exists fo|done]. Qed.
Lemma also_inv2 r next fo' : also r next = (fo', true) -> exists fo, r = (fo, true) /\ next fo = (fo', true).
Proof. unfold also. destruct r as [fo [|]]; [by exists fo|done]. Qed.
Lemma also_fst (P : folder -> Prop) r next : P (fst r) -> (forall fo, P fo -> P (fst (next fo))) -> P (fst (also r next)).
Proof. intros H1 H2. unfold also. destruct (snd r); [by apply H2|done]. Qed.

Lemma fixed_elem f : f ∈ fixed_files -> f ∈ wanted [] [].
Proof. intros H. rewrite wanted_eq. apply elem_of_app. by left. Qed.
Lemma fixed_not_map f : f ∈ fixed_files -> fst f <> map_folder.
Proof. intros H. unfold fixed_files in H. repeat (apply elem_of_cons in H as [->|H]; [done|]). by apply elem_of_nil in H. Qed.
Lemma blocks_not_fixed n : n ∈ blk_names -> ("Blocks", n) ∉ fixed_files.
Proof. intros H. unfold blk_names in H. repeat (apply elem_of_cons in H as [->|H]; [by apply (bool_decide_unpack _); vm_compute|]). by apply elem_of_nil in H. Qed.
Lemma trans_not_fixed n : n ∈ trn_names -> ("Transactions", n) ∉ fixed_files.
Proof. intros H. unfold trn_names in H. repeat (apply elem_of_cons in H as [->|H]; [by apply (bool_decide_unpack _); vm_compute|]). by apply elem_of_nil in H. Qed.
Lemma elem_pair (sub : string) (l : list string) f : f ∈ map (pair sub) l <-> fst f = sub /\ snd f ∈ l.
Proof.
  rewrite elem_of_list_In, in_map_iff. split.
  - intros (n & <- & Hn). split; [done|]. by apply elem_of_list_In.
  - intros [<- Hn]. exists (snd f). split; [by destruct f|]. by apply elem_of_list_In.
Qed.

Section Making.
  Context (blk_req trn_req blk_order trn_order : list string) (works : file -> bool) (map_works : bool).
  Context (Hblk : blk_order ≡ₚ blk_names) (Htrn : trn_order ≡ₚ trn_names).
  Notation create in_ram := (create_from_hash_stores in_ram blk_req trn_req blk_order trn_order works map_works).

  Lemma ints_touch sub order req fo f : ~ (fst f = sub /\ snd f ∈ order /\ snd f ∈ req) -> fst (create_ints works sub order req fo) !! f = fo !! f.
  Proof using.
    intros H. unfold create_ints. apply (also_fst (fun fo' => fo' !! f = fo !! f)); [|done]. apply create_files_touch.
    rewrite elem_pair, elem_of_list_filter. tauto.
  Qed.
  Lemma ints_there sub order req fo f : is_Some (fo !! f) -> is_Some (fst (create_ints works sub order req fo) !! f).
  Proof using. intros H. unfold create_ints. apply (also_fst (fun fo' => is_Some (fo' !! f))); [by apply create_files_there|done]. Qed.
  Lemma ints_made sub order req fo : snd (create_ints works sub order req fo) = true ->
    (forall n, n ∈ req -> n ∈ order /\ fst (create_ints works sub order req fo) !! (sub, n) = Some []).
  Proof using.
    unfold create_ints. intros H. apply also_true in H as (H1 & -> & H2). cbn [fst snd] in *. intros n Hn. rewrite forallb_forall in H2.
    pose proof (H2 n ltac:(by apply elem_of_list_In)) as Ho. apply bool_decide_eq_true in Ho. split; [done|].
    apply create_files_made; [done|]. apply elem_pair. split; [done|]. cbn [snd]. by apply elem_of_list_filter.
  Qed.
  Lemma ints_work sub order req fo : (forall f, works f = true) -> (forall n, n ∈ req -> n ∈ order) -> snd (create_ints works sub order req fo) = true.
  Proof using.
    intros Hw Hr. unfold create_ints, also. rewrite create_files_works by done. cbn [snd]. apply forallb_forall. intros n Hn.
    apply bool_decide_eq_true. apply Hr. by apply elem_of_list_In.
  Qed.

  (** a creation that gets past the first file leaves it there *)
  Lemma create_first in_ram fo : works first_file = true -> in_ram = false -> is_Some (fst (create in_ram fo) !! first_file).
  Proof using.
    intros Hw ->. unfold create_from_hash_stores. case_bool_decide as Hf; [done|].
    assert (is_Some (fst (create_files works fixed_files fo) !! first_file)) as H1.
    { change fixed_files with (first_file :: tail fixed_files). generalize (tail fixed_files) as fs. intros fs. cbn [create_files]. rewrite Hw.
      apply create_files_there. by rewrite lookup_insert. }
    apply (also_fst (fun fo' => is_Some (fo' !! first_file))).
    - apply (also_fst (fun fo' => is_Some (fo' !! first_file))).
      + apply (also_fst (fun fo' => is_Some (fo' !! first_file))); [done|]. intros fo' H. rewrite create_map_lookup. by rewrite decide_False.
      + intros fo' H. by apply ints_there.
    - intros fo' H. by apply ints_there.
  Qed.
End Making.

(** ** C99 *)

(** C99. A creation that reports success has made exactly what was asked for: the twelve files and the integers
    requested, all empty, and the folder of further outputs cleared; every other file is as it was.  It only succeeds
    if there was no chain and every integer requested is known. *)
Theorem C99_success_means_exactly_the_files :
  forall in_ram blk_req trn_req blk_order trn_order works map_works fo,
    blk_order ≡ₚ blk_names -> trn_order ≡ₚ trn_names ->
    let r := create_from_hash_stores in_ram blk_req trn_req blk_order trn_order works map_works fo in
    snd r = true ->
    in_ram = false /\ fo !! first_file = None /\ (forall n, n ∈ blk_req -> n ∈ blk_names) /\ (forall n, n ∈ trn_req -> n ∈ trn_names) /\
    forall f, fst r !! f = if decide (f ∈ wanted blk_req trn_req) then Some [] else if decide (fst f = map_folder) then None else fo !! f.
Proof.
  intros in_ram blk_req trn_req blk_order trn_order works map_works fo Hb Ht r. unfold r, create_from_hash_stores.
  destruct in_ram; [done|]. case_bool_decide as Hf; [done|]. intros H. apply eq_None_not_Some in Hf.
  destruct (also_inv _ _ H) as (fo3 & E3 & E4). rewrite E4 in *. destruct (also_inv2 _ _ _ E3) as (fo2 & E2 & E3').
  destruct (also_inv2 _ _ _ E2) as (fo1 & E1 & E2'). clear E2 E3 E4.
  pose proof (ints_made _ _ _ _ _ H) as Mt. pose proof (f_equal snd E3') as H3. cbn [snd] in H3. pose proof (ints_made _ _ _ _ _ H3) as Mb.
  pose proof (f_equal snd E1) as H1. cbn [snd] in H1. pose proof (create_files_made works fixed_files fo) as Mf. specialize (fun f => Mf f H1).
  pose proof (create_files_touch works fixed_files fo) as Tf. rewrite E1 in Mf, Tf. cbn [fst] in Mf, Tf.
  pose proof (ints_touch works "Blocks" blk_order blk_req fo2) as Tb. rewrite E3' in Mb, Tb. cbn [fst] in Mb, Tb.
  pose proof (fun f => create_map_lookup map_works fo1 f) as Tm. rewrite E2' in Tm. cbn [fst] in Tm.
  split; [done|]. split; [done|].
  split; [intros n Hn; rewrite <- Hb; by apply Mb|]. split; [intros n Hn; rewrite <- Ht; by apply Mt|].
  intros f. rewrite wanted_eq. case_decide as Hw.
  - apply elem_of_app in Hw as [Hw|Hw].
    + rewrite ints_touch, Tb, Tm, decide_False, Mf; [done|done|by apply fixed_not_map| |];
        intros (F1 & F2 & _); destruct f as [s n]; cbn [fst snd] in *; subst s.
      * rewrite Hb in F2. by apply blocks_not_fixed in F2.
      * rewrite Ht in F2. by apply trans_not_fixed in F2.
    + apply elem_of_app in Hw as [Hw|Hw]; apply elem_pair in Hw as [E Hn]; destruct f as [s n]; cbn [fst snd] in *; subst s.
      * rewrite ints_touch by (cbn; intros (E & _); done). by apply Mb.
      * by apply Mt.
  - rewrite !not_elem_of_app, !elem_pair in Hw. destruct Hw as (W1 & W2 & W3). rewrite ints_touch by tauto. rewrite Tb by tauto.
    rewrite Tm. case_decide; [done|]. by apply Tf.
Qed.

(** C99. Where there is no chain, known integers are asked for and nothing fails, the creation succeeds. *)
(** every file that storing works with is made, and the ints that can be asked for are those with a number *)
Theorem C99_everything_stored_to_is_made :
  forall u in_ram blk_order trn_order works map_works fo,
    blk_order ≡ₚ blk_names -> trn_order ≡ₚ trn_names ->
    let name f := snd (named f) in
    let r := create_from_hash_stores in_ram (map (fun n => name (Model_Chain.BlkInt n)) (Model_Chain.u_blk u))
               (map (fun n => name (Model_Chain.TrnInt n)) (Model_Chain.u_trn u)) blk_order trn_order works map_works fo in
    snd r = true -> forall f, f ∈ Model_Chain.all_files u -> fst r !! named f = Some [].
Proof.
  intros u in_ram blk_order trn_order works map_works fo Hb Ht name r Hr f Hf.
  destruct (C99_success_means_exactly_the_files _ _ _ _ _ _ _ _ Hb Ht Hr) as (_ & _ & _ & _ & H). fold r in H. rewrite H.
  rewrite decide_True; [done|]. clear H Hr r. unfold wanted. unfold Model_Chain.all_files in Hf.
  rewrite !elem_of_app in Hf. rewrite !elem_of_app. destruct Hf as [Hf|[Hf|Hf]].
  - left. apply elem_of_list_fmap. eauto.
  - right. left. apply elem_of_list_In, in_map_iff in Hf as (n & <- & Hn). apply elem_pair. split; [done|].
    apply elem_of_list_In, in_map_iff. exists n. done.
  - right. right. apply elem_of_list_In, in_map_iff in Hf as (n & <- & Hn). apply elem_pair. split; [done|].
    apply elem_of_list_In, in_map_iff. exists n. done.
Qed.
Theorem C99_ints_that_can_be_asked_for :
  blk_names ≡ₚ map (fun n => snd (named (Model_Chain.BlkInt n))) (seq 0 8) /\
  trn_names ≡ₚ map (fun n => snd (named (Model_Chain.TrnInt n))) (seq 0 5).
Proof.
  split; [|reflexivity]. cbn. do 2 apply perm_skip.
  apply (Permutation_trans (perm_skip "mediantime" (perm_swap "difficulty" "nonce" _))). apply perm_swap.
Qed.

Theorem C99_proper_creation_succeeds :
  forall blk_req trn_req blk_order trn_order works fo,
    blk_order ≡ₚ blk_names -> trn_order ≡ₚ trn_names -> (forall f, works f = true) -> fo !! first_file = None ->
    (forall n, n ∈ blk_req -> n ∈ blk_names) -> (forall n, n ∈ trn_req -> n ∈ trn_names) ->
    snd (create_from_hash_stores false blk_req trn_req blk_order trn_order works true fo) = true.
Proof.
  intros blk_req trn_req blk_order trn_order works fo Hb Ht Hw Hf H1 H2. unfold create_from_hash_stores.
  rewrite bool_decide_eq_false_2 by (rewrite Hf; by apply is_Some_None).
  assert (forall r next, snd r = true -> (forall x, snd (next x) = true) -> snd (also r next) = true) as Hal by (intros r next E1 E2; unfold also; rewrite E1; apply E2).
  apply Hal; [apply Hal; [apply Hal|]|].
  - by apply create_files_works.
  - done.
  - intros x. apply ints_work; [done|]. intros n Hn. rewrite Hb. by apply H1.
  - intros x. apply ints_work; [done|]. intros n Hn. rewrite Ht. by apply H2.
Qed.

(** C99. A chain that is there is never touched, and in no case anything that is not a file of a chain. *)
Theorem C99_existing_files_untouched :
  forall in_ram blk_req trn_req blk_order trn_order works map_works fo,
    blk_order ≡ₚ blk_names -> trn_order ≡ₚ trn_names ->
    let r := create_from_hash_stores in_ram blk_req trn_req blk_order trn_order works map_works fo in
    (is_Some (fo !! first_file) -> r = (fo, false)) /\ (forall f, ~ chain_file f -> fst r !! f = fo !! f).
Proof.
  intros in_ram blk_req trn_req blk_order trn_order works map_works fo Hb Ht r. split.
  - intros H. unfold r, create_from_hash_stores. destruct in_ram; [done|]. by rewrite bool_decide_eq_true_2.
  - intros f Hn. unfold chain_file in Hn. rewrite wanted_eq in Hn. rewrite !elem_of_app, !elem_pair in Hn.
    unfold r, create_from_hash_stores. destruct in_ram; [done|]. case_bool_decide; [done|].
    apply (also_fst (fun fo' => fo' !! f = fo !! f)).
    + apply (also_fst (fun fo' => fo' !! f = fo !! f)).
      * apply (also_fst (fun fo' => fo' !! f = fo !! f)).
        -- apply create_files_touch. tauto.
        -- intros fo' E. rewrite create_map_lookup, decide_False by tauto. done.
      * intros fo' E. rewrite ints_touch; [done|]. rewrite Hb. tauto.
    + intros fo' E. rewrite ints_touch; [done|]. rewrite Ht. tauto.
Qed.

(** C99. After a successful creation the chain opens with the integers asked for (and any whose file was there before). *)
Theorem C99_created_chain_opens :
  forall in_ram blk_req trn_req blk_order trn_order works map_works fo,
    blk_order ≡ₚ blk_names -> trn_order ≡ₚ trn_names ->
    let r := create_from_hash_stores in_ram blk_req trn_req blk_order trn_order works map_works fo in
    snd r = true ->
    exists bs ts, open_chain (fst r) = Some (bs, ts) /\
      (forall n, n ∈ bs <-> n ∈ blk_names /\ (n ∈ blk_req \/ is_Some (fo !! ("Blocks", n)))) /\
      (forall n, n ∈ ts <-> n ∈ trn_names /\ (n ∈ trn_req \/ is_Some (fo !! ("Transactions", n)))).
Proof.
  intros in_ram blk_req trn_req blk_order trn_order works map_works fo Hb Ht r H.
  destruct (C99_success_means_exactly_the_files _ _ _ _ _ _ _ _ Hb Ht H) as (_ & _ & _ & _ & Hl). fold r in Hl.
  unfold open_chain. rewrite (proj2 (forallb_forall _ fixed_files)).
  2:{ intros f Hf. apply bool_decide_eq_true. rewrite Hl, decide_True; [done|]. apply elem_of_app. left. by apply elem_of_list_In. }
  eexists _, _. split; [done|].
  assert (forall (s n : string) (l req : list string), (s, n) ∉ fixed_files -> s <> map_folder -> ((s, n) ∈ wanted blk_req trn_req <-> n ∈ req) ->
    n ∈ filter (fun n => is_Some (fst r !! (s, n))) l <-> n ∈ l /\ (n ∈ req \/ is_Some (fo !! (s, n)))) as Hg.
  { intros s n l req Hs1 Hs2 Hs3. rewrite elem_of_list_filter, Hl. destruct (decide ((s, n) ∈ wanted blk_req trn_req)) as [Hw|Hw].
    - split; [intros [_ Hn]; split; [done|left; tauto]|intros [Hn _]; done].
    - rewrite decide_False by done. tauto. }
  split; intros n.
  - destruct (decide (n ∈ blk_names)) as [Hn|Hn]; [|rewrite elem_of_list_filter; tauto]. apply Hg; [by apply blocks_not_fixed|done|].
    rewrite wanted_eq. rewrite !elem_of_app, !elem_pair. cbn [fst snd]. pose proof (blocks_not_fixed n Hn). split; [intros [?|[[_ ?]|[? _]]]; done|tauto].
  - destruct (decide (n ∈ trn_names)) as [Hn|Hn]; [|rewrite elem_of_list_filter; tauto]. apply Hg; [by apply trans_not_fixed|done|].
    rewrite wanted_eq. rewrite !elem_of_app, !elem_pair. cbn [fst snd]. pose proof (trans_not_fixed n Hn). split; [intros [?|[[? _]|[_ ?]]]; done|tauto].
Qed.

(** C99. Whatever a creation failed for, once it has made its first file every later creation is refused. *)
Theorem C99_failed_creation_blocks_later_ones :
  forall blk_req trn_req blk_order trn_order works map_works fo in_ram' blk_req' trn_req' blk_order' trn_order' works' map_works',
    works first_file = true ->
    let fo' := fst (create_from_hash_stores false blk_req trn_req blk_order trn_order works map_works fo) in
    create_from_hash_stores in_ram' blk_req' trn_req' blk_order' trn_order' works' map_works' fo' = (fo', false).
Proof.
  intros blk_req trn_req blk_order trn_order works map_works fo in_ram' blk_req' trn_req' blk_order' trn_order' works' map_works' Hw fo'.
  pose proof (create_first blk_req trn_req blk_order trn_order works map_works false fo Hw eq_refl) as H. fold fo' in H.
  unfold create_from_hash_stores at 1. destruct in_ram'; [done|]. by rewrite bool_decide_eq_true_2.
Qed.

(** C99 refuted: "a creation refused for an unknown integer can be repeated with the right ones". *)
Theorem C99_creation_can_be_repeated_refuted :
  exists wrong right, (forall n, n ∈ right -> n ∈ blk_names) /\
    let create req := create_from_hash_stores false req [] blk_names trn_names (fun _ => true) true in
    snd (create right ∅) = true /\ snd (create wrong ∅) = false /\ snd (create right (fst (create wrong ∅))) = false.
Proof.
  exists ["tiem"], ["time"]. split; [intros n Hn; apply elem_of_list_singleton in Hn as ->; right; by left|].
  split; [vm_compute; reflexivity|]. split; vm_compute; reflexivity.
Qed.

(** C99 refuted: "what opens as a chain was created without an error and has the integers asked for". *)
Theorem C99_half_made_chain_is_noticed_refuted :
  exists blk_req trn_req bs ts,
    let r := create_from_hash_stores false blk_req trn_req blk_names trn_names (fun _ => true) true ∅ in
    snd r = false /\ open_chain (fst r) = Some (bs, ts) /\ exists n, n ∈ trn_req /\ n ∈ trn_names /\ n ∉ ts.
Proof.
  exists ["tiem"], ["size"], [], []. split; [vm_compute; reflexivity|]. split; [vm_compute; reflexivity|].
  exists "size". split; [by left|]. split; [right; by left|]. apply not_elem_of_nil.
Qed.

(** ** The hypotheses can be met *)
Example C99_example :
  blk_names ≡ₚ blk_names /\
  let r := create_from_hash_stores false job_blk job_trn (rev blk_names) trn_names (fun _ => true) true {[("Blocks/Hashes", "BinStarts.bes") := [1; 2]; ("Addresses/additionaltxos", "00") := [3]]}%Z in
  snd r = true /\ open_chain (fst r) = Some (job_blk, job_trn) /\ fst r !! ("Blocks/Hashes", "BinStarts.bes") = Some [1; 2]%Z /\ fst r !! ("Addresses/additionaltxos", "00") = None.
Proof. split; [done|]. split; [vm_compute; reflexivity|]. split; [vm_compute; reflexivity|]. split; vm_compute; reflexivity. Qed.

(** ** C100 *)

(** C100. One call with all phases does what three calls with one phase each do, each made if the one before finished. *)
Theorem C100_phases_one_by_one :
  forall gather index store stores_there blk_order trn_order works map_works years method fo,
    let run := run_intrinsic gather index store stores_there blk_order trn_order works map_works years in
    run true true true method fo =
      let r1 := run true false false method fo in
      match snd r1 with
      | Finished =>
          let r2 := run false true false method (fst r1) in
          match snd r2 with Finished => run false false true method (fst r2) | _ => r2 end
      | _ => r1
      end.
Proof.
  intros gather index store stores_there blk_order trn_order works map_works years method fo run. unfold run, run_intrinsic.
  destruct ((years <? 0)%Z || (20 <=? years)%Z); [done|]. cbn zeta. destruct (phase_1 gather fo) as [fo1 [| |]]; [|done|done].
  unfold then_do. cbn [fst snd]. destruct (phase_2 index fo1) as [fo2 [| |]]; done.
Qed.

(** C100. A run with the first phase starts from nothing: what was in the folder has no influence on anything. *)
Theorem C100_first_phase_starts_from_nothing :
  forall gather index store stores_there blk_order trn_order works map_works years do2 do3 method fo fo',
    0 <= years < 20 ->
    run_intrinsic gather index store stores_there blk_order trn_order works map_works years true do2 do3 method fo =
    run_intrinsic gather index store stores_there blk_order trn_order works map_works years true do2 do3 method fo'.
Proof.
  intros. unfold run_intrinsic. rewrite (proj2 (Z.ltb_ge years 0)), (proj2 (Z.leb_gt 20 years)) by lia. done.
Qed.

(** C100. A number of years there are no figures for is refused before anything is touched, and without phases nothing
    happens. *)
Theorem C100_wrong_years_leave_files_alone :
  forall gather index store stores_there blk_order trn_order works map_works years do1 do2 do3 method fo,
    ~ 0 <= years < 20 ->
    run_intrinsic gather index store stores_there blk_order trn_order works map_works years do1 do2 do3 method fo = (fo, Panicked).
Proof.
  intros gather index store stores_there blk_order trn_order works map_works years do1 do2 do3 method fo H. unfold run_intrinsic.
  destruct (Z.ltb_spec years 0), (Z.leb_spec 20 years); try done. lia.
Qed.

(** C100. The third phase on a folder that has a chain is refused and leaves every file as it was: a finished chain cannot
    be overwritten or doubled. *)
Theorem C100_stored_chain_is_not_stored_again :
  forall gather index store stores_there blk_order trn_order works map_works years method fo,
    0 <= years < 20 -> is_Some (fo !! first_file) ->
    run_intrinsic gather index store stores_there blk_order trn_order works map_works years false false true method fo = (fo, Failed).
Proof.
  intros gather index store stores_there blk_order trn_order works map_works years method fo Hy Hf. unfold run_intrinsic.
  rewrite (proj2 (Z.ltb_ge years 0)), (proj2 (Z.leb_gt 20 years)) by lia. cbn [orb]. unfold then_do. cbn [fst snd]. unfold phase_3.
  destruct (stores_there fo); [|done]. unfold create_from_hash_stores. rewrite bool_decide_eq_true_2 by done. done.
Qed.

(** C100. Whatever the phases do, a mistyped method ends the third phase after its files were made, and every further run
    of the third phase is refused from then on, with the right method too. *)
Theorem C100_mistyped_method_blocks_later_runs :
  forall gather index store stores_there blk_order trn_order works years method fo,
    blk_order ≡ₚ blk_names -> trn_order ≡ₚ trn_names -> (forall f, works f = true) -> 0 <= years < 20 ->
    stores_there fo = true -> fo !! first_file = None -> method <> "delegated" ->
    let run := run_intrinsic gather index store stores_there blk_order trn_order works true years false false true in
    snd (run method fo) = Panicked /\ forall again, run again (fst (run method fo)) = (fst (run method fo), Failed).
Proof.
  intros gather index store stores_there blk_order trn_order works years method fo Hb Ht Hw Hy Hs Hf Hm run.
  assert (forall n, n ∈ job_blk -> n ∈ blk_names) as Hjb by (intros n Hn; unfold job_blk in Hn; repeat (apply elem_of_cons in Hn as [->|Hn]; [apply (bool_decide_unpack _); vm_compute; done|]); by apply elem_of_nil in Hn).
  assert (forall n, n ∈ job_trn -> n ∈ trn_names) as Hjt by (intros n Hn; unfold job_trn in Hn; repeat (apply elem_of_cons in Hn as [->|Hn]; [apply (bool_decide_unpack _); vm_compute; done|]); by apply elem_of_nil in Hn).
  pose proof (C99_proper_creation_succeeds job_blk job_trn blk_order trn_order works fo Hb Ht Hw Hf Hjb Hjt) as Hc.
  pose proof (C99_created_chain_opens false job_blk job_trn blk_order trn_order works true fo Hb Ht Hc) as (bs & ts & Ho & _).
  pose proof (create_first job_blk job_trn blk_order trn_order works true false fo (Hw _) eq_refl) as H1.
  assert (run method fo = (fst (create_from_hash_stores false job_blk job_trn blk_order trn_order works true fo), Panicked)) as E.
  { unfold run, run_intrinsic. rewrite (proj2 (Z.ltb_ge years 0)), (proj2 (Z.leb_gt 20 years)) by lia. cbn [orb]. unfold then_do. cbn [fst snd]. unfold phase_3.
    rewrite Hs, Hc, Ho. by rewrite bool_decide_eq_false_2. }
  rewrite E. cbn [fst snd]. split; [done|]. intros again. by apply C100_stored_chain_is_not_stored_again.
Qed.

(** C100 refuted: "a run refused for its method can be repeated with the right one". *)
Theorem C100_mistyped_method_can_be_corrected_refuted :
  exists gather index store stores_there method fo,
    let run := run_intrinsic gather index store stores_there blk_names trn_names (fun _ => true) true 2 false false true in
    snd (run "delegated" fo) = Finished /\ snd (run method fo) = Panicked /\ snd (run "delegated" (fst (run method fo))) = Failed.
Proof.
  exists (fun fo => (fo, true)), (fun fo => (fo, true)), (fun fo => (fo, true)), (fun _ => true), "Delegated", ∅.
  split; [vm_compute; reflexivity|]. split; vm_compute; reflexivity.
Qed.

(** C100 refuted: "a run refused for its arguments leaves the stored files as they were".  With the first phase, whatever
    was stored is gone before the method is looked at. *)
Theorem C100_refused_run_leaves_files_alone_refuted :
  exists gather index store stores_there works years method fo,
    let r := run_intrinsic gather index store stores_there blk_names trn_names works true years true true true method fo in
    snd r = Panicked /\ fo !! ("Blocks", "firsttrans") = Some [7; 0; 0; 0]%Z /\ fst r !! ("Blocks", "firsttrans") = Some [].
Proof.
  exists (fun fo => (fo, true)), (fun fo => (fo, true)), (fun fo => (fo, true)), (fun _ => true), (fun _ => true), 2%Z, "separate files",
    {[("Blocks", "firsttrans") := [7; 0; 0; 0]%Z]}.
  split; [vm_compute; reflexivity|]. split; [vm_compute; reflexivity|]. vm_compute. reflexivity.
Qed.

(** the right method: the first phase empties the folder, the third makes the files, a fourth call is refused *)
Example C100_example :
  let gather fo := (<[("Blocks/Hashes", "Hashes.hsh") := [5]%Z]> fo, true) in
  let store fo := (<[("Blocks", "firsttrans") := [0]%Z]> fo, true) in
  let run := run_intrinsic gather (fun fo => (fo, true)) store (fun fo => bool_decide (is_Some (fo !! ("Blocks/Hashes", "Hashes.hsh")))) blk_names trn_names (fun _ => true) true 2 in
  let r := run true true true "delegated" {[("Blocks", "firsttrans") := [7]%Z]} in
  snd r = Finished /\ fst r !! ("Blocks", "firsttrans") = Some [0]%Z /\ fst r !! ("Blocks/Hashes", "Hashes.hsh") = Some [5]%Z /\
  snd (run false false true "delegated" (fst r)) = Failed.
Proof. split; [vm_compute; reflexivity|]. split; [vm_compute; reflexivity|]. split; vm_compute; reflexivity. Qed.

Print Assumptions C99_success_means_exactly_the_files.
Print Assumptions C99_everything_stored_to_is_made.
Print Assumptions C99_ints_that_can_be_asked_for.
Print Assumptions C99_proper_creation_succeeds.
Print Assumptions C99_existing_files_untouched.
Print Assumptions C99_created_chain_opens.
Print Assumptions C99_failed_creation_blocks_later_ones.
Print Assumptions C99_creation_can_be_repeated_refuted.
Print Assumptions C99_half_made_chain_is_noticed_refuted.
Print Assumptions C100_phases_one_by_one.
Print Assumptions C100_first_phase_starts_from_nothing.
Print Assumptions C100_wrong_years_leave_files_alone.
Print Assumptions C100_stored_chain_is_not_stored_again.
Print Assumptions C100_mistyped_method_blocks_later_runs.
Print Assumptions C100_mistyped_method_can_be_corrected_refuted.
Print Assumptions C100_refused_run_leaves_files_alone_refuted.
