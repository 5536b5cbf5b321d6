(** Properties C83 and C84: memory-mapped word files, and chains opened through them. *)
From Verif Require Import Base Spec_Word Model_Word Proof_Word Spec_MapStore Model_MapStore Proof_MapStore Prop_MapStore
  Model_Chain Spec_Chain Proof_Chain Prop_Chain Model_Mmap.

(** ** C83: one file *)
(** ordinary reads with an int64 offset are those of Model_Word where both make sense *)
Lemma os_read_is_wf_read wf (off : nat) : Z.of_nat off * Z.of_nat (wf_size wf) < 2^63 ->
  (os_read wf (Z.of_nat off)).1 = (wf_read wf off).1 /\
  (os_read wf (Z.of_nat off)).2 = match (wf_read wf off).2 with WVal v => RVal v | WErr => RErr end.
Proof.
  intros H. unfold os_read, position. rewrite to_i64_to_u64 by (unfold is_i64; lia).
  destruct (Z.ltb_spec (Z.of_nat off * Z.of_nat (wf_size wf)) 0); [lia|].
  rewrite <- Nat2Z.inj_mul, Nat2Z.id. unfold fill, wf_read. cbn [fst snd]. split; [done|]. by destruct (decide _).
Qed.

Lemma fill_short wf p : (length (wf_data wf) <= p)%nat -> (0 < wf_size wf)%nat -> fill wf p = (wf, RErr).
Proof.
  intros H Hw. unfold fill. rewrite drop_ge, take_nil by done. cbn [length app]. rewrite drop_0.
  rewrite decide_True by done. by destruct wf.
Qed.
Lemma mm_read_eq wf off : (0 < wf_size wf)%nat -> 0 <= position wf off -> mm_read wf off = os_read wf off.
Proof.
  intros Hw Hp. unfold mm_read, os_read. destruct (Z.ltb_spec (position wf off) 0); [lia|].
  destruct (Z.leb_spec (Z.of_nat (length (wf_data wf))) (position wf off)); [|done].
  rewrite fill_short by lia. done.
Qed.
Lemma os_read_size wf off : wf_size (os_read wf off).1 = wf_size wf.
Proof. unfold os_read. by destruct (_ <? _). Qed.

(** A file with something in it gives the same answers either way, whatever is read in whatever order, as long as
    no position is negative (an offset is negative, or so large that the position overflows). *)
Theorem C83_same_answers_partial w data : (0 < w)%nat -> data <> [] ->
  match wf_open w data, mm_open w data with
  | Some a, Some b => wf_count a = wf_count b /\
      forall offs, Forall (fun off => 0 <= to_i64 (to_u64 (off * Z.of_nat w))) offs -> reads mm_read b offs = reads os_read a offs
  | None, None => True
  | _, _ => False
  end.
Proof.
  intros Hw Hne. unfold wf_open, mm_open, map_file. destruct (decide _) as [Hm|]; [|done]. rewrite decide_False by done.
  cbn [mbind option_bind]. split; [done|]. generalize (Model_Word.wf_new data w (length data / w)) (eq_refl : wf_size (Model_Word.wf_new data w (length data / w)) = w).
  intros wf Hs offs. revert wf Hs. induction offs as [|off offs IH]; intros wf Hs HF; [done|].
  apply Forall_cons in HF as [H HF]. cbn [reads].
  rewrite (mm_read_eq wf off) by (unfold position; rewrite ?Hs; done).
  pose proof (os_read_size wf off) as E. destruct (os_read wf off) as [wf' r] eqn:Er. cbn [fst] in E.
  f_equal. rewrite IH by (done || by rewrite E). done.
Qed.
(** In particular every word that was written is read back, exactly. *)
Theorem C83_words_read_back_partial w l : (0 < w <= 8)%nat -> l <> [] -> Forall (fits w) l ->
  exists wf, mm_open w (word_bytes w l) = Some wf /\ wf_count wf = length l /\
  forall i v, l !! i = Some v -> Z.of_nat i * Z.of_nat w < 2^63 -> (mm_read wf (Z.of_nat i)).2 = RVal v.
Proof.
  intros Hw Hne HF.
  assert (word_bytes w l <> []) as Hb.
  { destruct l as [|x l]; [done|]. intros E. apply (f_equal length) in E. rewrite word_bytes_length in E. cbn in E. lia. }
  pose proof (C83_same_answers_partial w (word_bytes w l) ltac:(lia) Hb) as H.
  rewrite wf_open_words in H by lia. destruct (mm_open w (word_bytes w l)) as [wf|] eqn:E; [|done].
  destruct H as [Hc H]. exists wf. split; [done|]. split; [by rewrite <- Hc|].
  intros i v Hi Hlt. assert (to_i64 (to_u64 (Z.of_nat i * Z.of_nat w)) = Z.of_nat i * Z.of_nat w) as Et.
  { apply to_i64_to_u64. unfold is_i64. lia. }
  specialize (H [Z.of_nat i]). cbn [reads] in H.
  destruct (os_read_is_wf_read (Model_Word.wf_new (word_bytes w l) w (length l)) i Hlt) as [_ Hr].
  destruct (wf_is_read w l (Model_Word.wf_new (word_bytes w l) w (length l)) i v Hw) as (wf' & Ew & _); [by apply wf_new_inv|done|].
  rewrite Ew in Hr. cbn [snd] in Hr.
  destruct (mm_read wf (Z.of_nat i)) as [m1 r1] eqn:E1.
  destruct (os_read (Model_Word.wf_new (word_bytes w l) w (length l)) (Z.of_nat i)) as [o1 r2] eqn:E2. cbn [snd] in *. subst r2.
  assert (H' : Forall (fun off => 0 <= to_i64 (to_u64 (off * Z.of_nat w))) [Z.of_nat i]) by (constructor; [rewrite Et; lia|constructor]).
  specialize (H H'). apply (f_equal head) in H. cbn [head] in H. by injection H.
Qed.
(** An empty file opens ordinarily, but not mapped. *)
Theorem C83_empty_file_refuted : exists w data wf, (0 < w <= 8)%nat /\ wf_open w data = Some wf /\ mm_open w data = None.
Proof. exists 5%nat, [], (Model_Word.wf_new [] 5 0). split; [lia|]. split; reflexivity. Qed.
(** A negative offset, reported as an error ordinarily, panics when mapped, whatever the file holds. *)
Theorem C83_negative_offset_panics w data a b off : (0 < w <= 8)%nat -> - 2^60 <= off < 0 ->
  wf_open w data = Some a -> mm_open w data = Some b -> (os_read a off).2 = RErr /\ (mm_read b off).2 = RPanic.
Proof.
  intros Hw Hoff Ea Eb. unfold wf_open, mm_open, map_file in *. destruct (decide (length data mod w = 0)%nat) as [Hm|]; [|done].
  destruct (decide (data = [])); [done|]. apply (inj Some) in Ea. cbn [mbind option_bind] in Eb. apply (inj Some) in Eb. subst a b.
  set (wf := Model_Word.wf_new data w (length data / w)).
  assert (position wf off = off * Z.of_nat w) as Hp. { unfold position. cbn [wf Model_Word.wf_new wf_size]. apply to_i64_to_u64. unfold is_i64. nia. }
  unfold os_read, mm_read. rewrite Hp.
  destruct (Z.leb_spec (Z.of_nat (length (wf_data wf))) (off * Z.of_nat w)); [nia|].
  destruct (Z.ltb_spec (off * Z.of_nat w) 0); [done|nia].
Qed.
Theorem C83_negative_offset_refuted : exists w data a b off, (0 < w <= 8)%nat /\
  wf_open w data = Some a /\ mm_open w data = Some b /\ reads os_read a [off; 0] <> reads mm_read b [off; 0].
Proof.
  exists 5%nat, [7;0;0;0;0], (Model_Word.wf_new [7;0;0;0;0] 5 1), (Model_Word.wf_new [7;0;0;0;0] 5 1), (-1).
  split; [lia|]. split; [reflexivity|]. split; [reflexivity|]. vm_compute. discriminate.
Qed.
(** Either way, an offset far behind the end is not always refused: the position may wrap around into the file. *)
Theorem C83_far_offset_refuted : exists w data a b off, (0 < w <= 8)%nat /\ wf_open w data = Some a /\ mm_open w data = Some b /\
  Z.of_nat (wf_count a) <= off < 2^63 /\ (os_read a off).2 = RVal 7 /\ (mm_read b off).2 = RVal 7.
Proof.
  exists 4%nat, [7;0;0;0], (Model_Word.wf_new [7;0;0;0] 4 1), (Model_Word.wf_new [7;0;0;0] 4 1), (2^62).
  split; [lia|]. split; [reflexivity|]. split; [reflexivity|]. split; [cbn; lia|]. split; vm_compute; reflexivity.
Qed.

(** ** C84: a whole chain *)
Lemma do_act_dom a s s' r f : do_act a s = Some (s', r) -> s_files s !! f = None -> s_files s' !! f = None.
Proof.
  intros E Hf. destruct a as [g|g i|g v i|k v|tr|n tr|n tr]; cbn [do_act] in E.
  - destruct (s_files s !! g); cbn [mbind option_bind] in E; [|done]. by injection E as <- _.
  - destruct (s_files s !! g) as [wf|] eqn:Eg; cbn [mbind option_bind] in E; [|done]. destruct (i <? 0); [done|].
    destruct (wf_read wf (Z.to_nat i)) as [wf' [|v]]; [done|]. injection E as <- _. cbn [with_files s_files].
    rewrite lookup_insert_ne; [done|]. intros ->. by rewrite Eg in Hf.
  - destruct (s_files s !! g) as [wf|] eqn:Eg; cbn [mbind option_bind] in E; [|done]. destruct (i <? 0); [done|].
    injection E as <- _. cbn [with_files s_files]. rewrite lookup_insert_ne; [done|]. intros ->. by rewrite Eg in Hf.
  - destruct (cms_append (s_more s) k v) as [m|]; cbn [mbind option_bind] in E; [|done]. by injection E as <- _.
  - destruct (_ <? _); [done|]. by injection E as <- _.
  - destruct (_ && _); [done|]. by injection E as <- _.
  - by injection E as <- _.
Qed.
Lemma exec_dom p s s' r f : exec p s = Some (s', r) -> s_files s !! f = None -> s_files s' !! f = None.
Proof.
  revert s. induction p as [v| |a k IH]; intros s E Hf; cbn [exec] in E.
  - by injection E as <- _.
  - done.
  - destruct (do_act a s) as [[s1 r1]|] eqn:Ea; [|done]. eapply IH; [exact E|]. by eapply do_act_dom.
Qed.
Lemma run_from_dom u ix h l bs s s' f : run_from u ix h l bs s = Some s' -> s_files s !! f = None -> s_files s' !! f = None.
Proof.
  revert h l s. induction bs as [|b bs IH]; intros h l s E Hf; cbn [run_from] in E; [by injection E as <-|].
  destruct (exec (p_gather u h l b) s) as [[s1 r1]|] eqn:E1; [|done].
  destruct (exec (p_block u ix h b) s1) as [[s2 r2]|] eqn:E2; [|done].
  eapply IH; [exact E|]. eapply exec_dom; [exact E2|]. by eapply exec_dom.
Qed.
Lemma create_dom u pt ptr f : f ∉ all_files u -> s_files (c_create u pt ptr) !! f = None.
Proof.
  intros Hf. cbn [c_create s_files]. apply not_elem_of_list_to_map. intros Hin. apply Hf.
  rewrite map_map in Hin. cbn [fst] in Hin. by rewrite map_id in Hin.
Qed.

(** when a file of a stored chain opens mapped *)
Lemma mm_open_is w l wf : (0 < w <= 8)%nat -> wf_is w l wf ->
  mm_open (wf_size wf) (wf_data wf) = match l with [] => None | _ => wf_open (wf_size wf) (wf_data wf) end.
Proof.
  intros Hw (H1 & H2 & _ & _ & _ & _). rewrite arr_all_nil in H1. rewrite H1, H2. unfold mm_open, wf_open, map_file.
  destruct l as [|x l].
  - change (word_bytes w []) with (@nil Z). by destruct (decide _).
  - rewrite (decide_False (P := word_bytes w (x :: l) = [])); [done|].
    intros E. apply (f_equal length) in E. rewrite word_bytes_length in E. cbn in E. lia.
Qed.

(** What the twelve files need: an input that is kept and an output. *)
Definition has_input (u : setup) (bs : list cblock) : Prop :=
  exists k b n t, bs !! k = Some b /\ b_txs b !! n = Some t /\ shown_ins u (bool_decide (n = 0%nat)) t <> [].
Definition has_output (bs : list cblock) : Prop := outs_of (txs_of bs) <> [].

Lemma concat_nil_iff {X Y} (f : X -> list Y) l : concat (map f l) = [] <-> forall x, x ∈ l -> f x = [].
Proof.
  induction l as [|x l IH]; cbn [map concat].
  - split; [|done]. intros _ x Hx. by apply elem_of_nil in Hx.
  - split.
    + intros E. apply app_nil in E as [E1 E2]. intros y Hy. apply elem_of_cons in Hy as [->|Hy]; [done|]. by apply IH.
    + intros H. rewrite (H x) by left. cbn [app]. apply IH. intros y Hy. apply H. by right.
Qed.
Lemma map_nil_iff {X Y} (f : X -> Y) l : map f l = [] <-> l = [].
Proof. by destruct l. Qed.
Lemma nil_length {X} (l : list X) : l = [] <-> length l = 0%nat.
Proof. by destruct l. Qed.

Lemma tagged_elem bs c t : (c, t) ∈ tagged bs <->
  exists k b n, bs !! k = Some b /\ b_txs b !! n = Some t /\ c = bool_decide (n = 0%nat).
Proof.
  unfold tagged. rewrite elem_of_list_In, in_concat. split.
  - intros (l & Hl & Hin). apply in_map_iff in Hl as (b & <- & Hb). apply elem_of_list_In, elem_of_list_lookup in Hb as (k & Hk).
    apply elem_of_list_In, elem_of_list_lookup in Hin as (n & Hn). unfold tag in Hn. rewrite list_lookup_imap in Hn.
    destruct (b_txs b !! n) as [t'|] eqn:E; [|done]. cbn in Hn. apply (inj Some) in Hn. apply pair_equal_spec in Hn as [<- <-].
    by exists k, b, n.
  - intros (k & b & n & Hk & Hn & ->). exists (tag b). split.
    + apply in_map. apply elem_of_list_In. by eapply elem_of_list_lookup_2.
    + apply elem_of_list_In, elem_of_list_lookup. exists n. unfold tag. rewrite list_lookup_imap, Hn. done.
Qed.

Section Filled.
  Context (u : setup) (ix : stores) (bs : list cblock) (A : ast).
  Context (HS : storable u bs) (HI : sofar u bs bs A).

  Lemma has_input_iff : has_input u bs <-> concat (map (kept u) (tagged bs)) <> [].
  Proof using Type. clear.
    rewrite concat_nil_iff. split.
    - intros (k & b & n & t & Hk & Hn & Hs) H. apply Hs. rewrite <- kept_shown. apply H, tagged_elem. by exists k, b, n.
    - intros H. destruct (decide (Exists (fun p => kept u p <> []) (tagged bs))) as [E|E].
      + apply Exists_exists in E as ([c t] & Hin & Hk). apply tagged_elem in Hin as (k & b & n & H1 & H2 & ->).
        exists k, b, n, t. by rewrite <- kept_shown.
      + destruct H. intros x Hx. destruct (kept u x) eqn:Ek; [done|]. destruct E. apply Exists_exists. exists x. rewrite Ek. done.
  Qed.
  Lemma outs_tagged : outs (tagged bs) = outs_of (txs_of bs).
  Proof using Type. clear. unfold outs, outs_of. rewrite <- tagged_snd, map_map. done. Qed.

  (** which of the files of a stored chain are empty *)
  Lemma fixed_filled : bs <> [] -> forall f, f ∈ fixed_files ->
    (a_f A f = [] <-> match f with TxiTx | TxiVout | ParTxi => ~ has_input u bs
                      | TxoSats | TxoAddr | TxoSpent | AddrFirst | ParTxo => ~ has_output bs | _ => False end).
  Proof using HS HI.
    intros Hne f Hf. destruct HI as [[B1 B2 B3] []].
    assert (Hnt : length (tagged bs) <> 0%nat).
    { pose proof (so_blocks _ _ HS) as Hb. destruct bs as [|b bs']; [done|]. apply Forall_cons in Hb as [Hb _].
      rewrite tagged_length. cbn [map foldr]. unfold ntx. destruct (b_txs b); [done|cbn; lia]. }
    assert (Hin : ~ has_input u bs <-> sum (map (nin u) (tagged bs)) = 0%nat).
    { rewrite has_input_iff, sum_nin, <- nil_length. destruct (concat (map (kept u) (tagged bs))); split; intros H; try done.
      - by intros H'. - destruct H. done. }
    assert (Hout : ~ has_output bs <-> length (outs (tagged bs)) = 0%nat).
    { unfold has_output. rewrite outs_tagged, <- nil_length. destruct (outs_of (txs_of bs)); split; intros H; try done.
      - by intros H'. - destruct H. done. }
    destruct f; try (unfold fixed_files in Hf; repeat (apply elem_of_cons in Hf as [Hf|Hf]; [discriminate|]); by apply elem_of_nil in Hf).
    - rewrite B1. unfold starts. rewrite nil_length, starts_length, map_length. split; [|done]. by destruct bs.
    - rewrite it_first_txi. unfold starts. rewrite nil_length, starts_length, map_length. split; [|done]. done.
    - rewrite it_first_txo. unfold starts. rewrite nil_length, starts_length, map_length. split; [|done]. done.
    - rewrite it_txi_tx, nil_length, len_sources. by rewrite Hin.
    - rewrite it_txi_vout, nil_length, length_concat, map_map, Hin.
      rewrite (map_ext (fun x => length (map i_vout (kept u x))) (nin u)); [done|]. intros p. unfold nin. by rewrite map_length.
    - rewrite it_sats, nil_length, map_length. by rewrite Hout.
    - rewrite it_addr, nil_length. unfold addr_numbers. rewrite map_length. by rewrite Hout.
    - rewrite it_spent, nil_length, replicate_length. by rewrite Hout.
    - rewrite Hout, nil_length. destruct it_ai as [L1 L2 L3 _]. split; [|lia]. intros E.
      destruct (length (outs (tagged bs))) as [|n] eqn:En; [done|]. exfalso.
      assert (exists h, addr_hashes bs !! 0%nat = Some h) as [h Hh].
      { apply lookup_lt_is_Some_2. unfold addr_hashes. rewrite map_length, <- outs_tagged, En. lia. }
      apply (L3 0%nat); [lia|]. exists h. split; [done|]. unfold first_of. destruct (addr_hashes bs) as [|h' l]; [done|].
      cbn in Hh. apply (inj Some) in Hh as ->. cbn [list_find]. by rewrite decide_True.
    - rewrite B2. unfold owners. rewrite nil_length, owners_length, <- tagged_length. split; [|done]. done.
    - rewrite it_par_txi. unfold owners. rewrite nil_length, owners_length. by rewrite Hin.
    - rewrite it_par_txo. unfold owners. rewrite nil_length, owners_length, sum_nout. by rewrite Hout.
  Qed.
  Lemma ints_filled : bs <> [] -> forall f, f ∈ all_files u -> f ∉ fixed_files -> a_f A f <> [].
  Proof using HS HI.
    intros Hne f Hf Hn. destruct HI as [[B1 B2 B3] HT]. unfold all_files in Hf. apply elem_of_app in Hf as [Hf|Hf]; [done|].
    assert (Hnt : length (tagged bs) <> 0%nat).
    { pose proof (so_blocks _ _ HS) as Hb. destruct bs as [|b bs']; [done|]. apply Forall_cons in Hb as [Hb _].
      rewrite tagged_length. cbn [map foldr]. unfold ntx. destruct (b_txs b); [done|cbn; lia]. }
    apply elem_of_app in Hf as [Hf|Hf]; apply elem_of_list_In, in_map_iff in Hf as (n & <- & Hin); apply elem_of_list_In in Hin.
    - rewrite (B3 n Hin). by rewrite map_nil_iff.
    - rewrite (it_ints _ _ _ _ HT n Hin), map_nil_iff. by destruct (tagged bs).
  Qed.
End Filled.

(** Opening in RAM works exactly when the chain has an input that is stored and an output; and then the chain opened in
    RAM is the chain opened ordinarily: same files, counts, additional outputs and hashes, so every answer is the same. *)
Theorem C84_in_ram_partial : forall u ix bs prev_txo prev_trans, good_chain u ix bs -> prev_txo <= 0 -> prev_trans <= 0 ->
  exists s, run_chain u ix bs (c_create u prev_txo prev_trans) = Some s /\
    (has_input u bs -> has_output bs -> open_in_ram ix s = Some (open_read_only ix s)) /\
    (~ (has_input u bs /\ has_output bs) -> open_in_ram ix s = None).
Proof.
  intros u ix bs pt ptr HG Hp Hq. destruct (run_whole u ix bs pt ptr HG Hp Hq) as (s & A & E & HR & HI).
  exists s. split; [done|]. destruct HG as [_ HS _ _]. destruct HR as [HF _].
  assert (Hdom : forall f, f ∉ all_files u -> s_files s !! f = None).
  { intros f Hf. eapply run_from_dom; [exact E|]. by apply create_dom. }
  assert (Hmm : forall f, f ∈ all_files u -> (omap (fun wf => mm_open (wf_size wf) (wf_data wf)) (s_files s) !! f) =
      match a_f A f with [] => None | _ => v_files (open_read_only ix s) !! f end).
  { intros f Hf. cbn [open_read_only v_files]. rewrite !lookup_omap. destruct (HF f Hf) as (wf & El & Hw). rewrite El.
    cbn [mbind option_bind]. rewrite (mm_open_is _ _ _ (width_ok f) Hw). done. }
  assert (Hos : forall f, f ∈ all_files u -> is_Some (v_files (open_read_only ix s) !! f)).
  { intros f Hf. destruct (HF f Hf) as (wf & El & Hw). destruct (wf_is_reopen _ _ _ (width_ok f) Hw) as (wf' & Ew & _).
    exists wf'. cbn [open_read_only v_files]. by rewrite lookup_omap, El. }
  assert (Hfix : forall f, f ∈ fixed_files -> f ∈ all_files u). { intros f Hf. unfold all_files. apply elem_of_app. by left. }
  split.
  - intros H1 H2. assert (Hne : bs <> []) by (intros ->; destruct H1 as (k & b & n & t & Hk & _); done).
    assert (Hfull : forall f, f ∈ all_files u -> a_f A f <> []).
    { intros f Hf. destruct (decide (f ∈ fixed_files)) as [Hx|Hx]; [|by apply (ints_filled u bs A)].
      intros En. apply (fixed_filled u bs A HS HI Hne f Hx) in En. destruct f; done. }
    assert (Hall : omap (fun wf => mm_open (wf_size wf) (wf_data wf)) (s_files s) = v_files (open_read_only ix s)).
    { apply map_eq. intros f. destruct (decide (f ∈ all_files u)) as [Hf|Hf].
      - rewrite (Hmm f Hf). specialize (Hfull f Hf). by destruct (a_f A f).
      - cbn [open_read_only v_files]. rewrite !lookup_omap, (Hdom f Hf). done. }
    unfold open_in_ram. rewrite Hall. replace (forallb _ _) with true; [done|]. symmetry.
    apply forallb_forall. intros f Hf. apply bool_decide_eq_true. apply Hos, Hfix. by apply elem_of_list_In.
  - intros Hno.
    assert (exists f, f ∈ fixed_files /\ a_f A f = []) as (f & Hf & Ef).
    { destruct (decide (bs = [])) as [->|Hne].
      - exists FirstTrans. split; [left|]. destruct HI as [[B1 _ _] _]. by rewrite B1.
      - assert (~ has_input u bs \/ ~ has_output bs) as [H|H].
        { unfold has_output. destruct (outs_of (txs_of bs)) eqn:Eo; [right; auto|]. left. intros H. apply Hno. split; [done|].
          unfold has_output. by rewrite Eo. }
        + exists TxiTx. split; [by repeat constructor|]. apply (fixed_filled u bs A HS HI Hne); [by repeat constructor|done].
        + exists TxoSats. split; [by repeat constructor|]. apply (fixed_filled u bs A HS HI Hne); [by repeat constructor|done]. }
    unfold open_in_ram. replace (forallb _ _) with false; [done|]. symmetry. apply not_true_is_false. intros Ht.
    rewrite forallb_forall in Ht. specialize (Ht f (proj1 (elem_of_list_In _ _) Hf)). apply bool_decide_eq_true in Ht.
    rewrite (Hmm f (Hfix f Hf)), Ef in Ht. by destruct Ht.
Qed.
(** A chain of blocks with a single transaction each (as Bitcoin's first 170 blocks are) cannot be opened in RAM when stored through the
    handles interface, although it opens ordinarily and shows all its blocks. *)
Theorem C84_coinbases_only : forall u ix bs prev_txo prev_trans, good_chain u ix bs -> prev_txo <= 0 -> prev_trans <= 0 ->
  u_chi u = true -> Forall (fun b => length (b_txs b) = 1%nat) bs ->
  exists s, run_chain u ix bs (c_create u prev_txo prev_trans) = Some s /\ open_in_ram ix s = None.
Proof.
  intros u ix bs pt ptr HG Hp Hq Hu HF. destruct (C84_in_ram_partial u ix bs pt ptr HG Hp Hq) as (s & E & _ & H).
  exists s. split; [done|]. apply H. intros [(k & b & n & t & Hk & Hn & Hs) _].
  rewrite Forall_lookup in HF. specialize (HF k b Hk). pose proof (lookup_lt_Some _ _ _ Hn). assert (n = 0%nat) as -> by lia.
  apply Hs. unfold shown_ins. rewrite Hu. by rewrite bool_decide_eq_true_2.
Qed.
Theorem C84_opens_in_ram_refuted : exists u ix bs s, good_chain u ix bs /\ run_chain u ix bs (c_create u (-1) (-1)) = Some s /\
  walk (next_block (open_read_only ix s)) (read_block (open_read_only ix s)) (length bs) genesis = Some (shown_chain u bs) /\
  open_in_ram ix s = None.
Proof.
  exists lone_u, (ideal_stores lone_bs), lone_bs.
  destruct (C84_coinbases_only lone_u (ideal_stores lone_bs) lone_bs (-1) (-1) lone_good) as (s & E & H); [lia|lia|done|by repeat constructor|].
  exists s. split; [apply lone_good|]. split; [done|]. split; [|done].
  destruct (C44_blocks_read_back lone_u (ideal_stores lone_bs) lone_bs (-1) (-1) lone_good) as (s' & E' & H'); [done|lia|lia|].
  rewrite E in E'. apply (inj Some) in E' as <-. apply (H' Reopened (length lone_bs)). lia.
Qed.

Example C83_example : exists a b, wf_open 5 [7;0;0;0;0;1;1;0;0;0] = Some a /\ mm_open 5 [7;0;0;0;0;1;1;0;0;0] = Some b /\
  reads os_read a [1; 2; 0] = [RVal 257; RErr; RVal 7] /\ reads mm_read b [1; 2; 0] = [RVal 257; RErr; RVal 7].
Proof. eexists _, _. split; [reflexivity|]. split; [reflexivity|]. split; vm_compute; reflexivity. Qed.
Example C84_example : has_input ex_u ex_bs /\ has_output ex_bs.
Proof. split; [|vm_compute; discriminate]. eexists 1%nat, _, 1%nat, _. split; [reflexivity|]. split; [reflexivity|]. vm_compute. discriminate. Qed.

Print Assumptions C83_same_answers_partial.
Print Assumptions C83_words_read_back_partial.
Print Assumptions C83_empty_file_refuted.
Print Assumptions C83_negative_offset_panics.
Print Assumptions C83_negative_offset_refuted.
Print Assumptions C83_far_offset_refuted.
Print Assumptions C84_in_ram_partial.
Print Assumptions C84_coinbases_only.
Print Assumptions C84_opens_in_ram_refuted.
