(** Proofs about the binary parser. *)
From Verif Require Import Base Model_Parse Spec_Parse.
From Coq Require Import ZifyBool ZifyNat.

Notation len l := (Z.of_nat (length l)).

(** [bin] continues with [rest] at position [i]. *)
Definition At (bin : list Z) (i : Z) (rest : list Z) : Prop :=
  exists pre, bin = pre ++ rest /\ i = len pre.

Lemma At_app bin i x rest : At bin i (x ++ rest) -> At bin (i + len x) rest.
Proof. intros (pre & -> & ->). exists (pre ++ x). rewrite app_length, <- app_assoc. split; [done|lia]. Qed.

Lemma sub_at bin i x rest n : At bin i (x ++ rest) -> length x = n -> sub bin i n = Some x.
Proof.
  intros (pre & -> & ->) <-. unfold sub. rewrite !app_length.
  destruct (Z.leb_spec 0 (len pre)); [|lia].
  destruct (Z.leb_spec (len pre + len x) (Z.of_nat (length pre + (length x + length rest)))); [|lia]. cbn [andb].
  rewrite Nat2Z.id, drop_app, take_app. done.
Qed.

Lemma byte_at_at bin i b rest : At bin i (b :: rest) -> byte_at bin i = Some b.
Proof.
  intros (pre & -> & ->). unfold byte_at. destruct (Z.leb_spec 0 (len pre)); [|lia].
  rewrite Nat2Z.id, lookup_app_r, Nat.sub_diag by lia. done.
Qed.

Lemma slice_at bin i j x rest : At bin i (x ++ rest) -> j = i + len x -> slice bin i j = Some x.
Proof.
  intros H ->. unfold slice. destruct (Z.ltb_spec (i + len x) i); [lia|].
  eapply sub_at; [done|]. lia.
Qed.

Lemma compact_pos n : 0 < len (compact n).
Proof. unfold compact. repeat case_match; cbn [length]; lia. Qed.

Lemma compact_at bin i n rest : At bin i (compact n ++ rest) -> 0 <= n < 2^64 ->
  read_compact bin i = Some (n, len (compact n)).
Proof.
  intros H Hn. unfold read_compact. unfold compact in *.
  destruct (Z.ltb_spec n 253).
  { rewrite (byte_at_at _ _ _ _ H). cbn [mbind option_bind]. destruct (Z.ltb_spec n 253); [done|lia]. }
  assert (forall (k : Z) (m : nat), 253 <= k -> 0 <= n < pow256 m ->
    At bin i ((k :: le_enc m n) ++ rest) ->
    byte_at bin i = Some k /\ sub bin (i + 1) m = Some (le_enc m n) /\ le_dec (le_enc m n) = n /\
    len (k :: le_enc m n) = Z.of_nat m + 1) as Hgen.
  { intros k m Hk Hm HA. split_and!.
    - eapply byte_at_at. exact HA.
    - eapply sub_at; [|apply le_enc_length]. apply (At_app bin i [k] _) in HA. exact HA.
    - apply le_dec_enc_small, Hm.
    - cbn [length]. rewrite le_enc_length. lia. }
  destruct (Z.leb_spec n 65535).
  { destruct (Hgen 253 2%nat) as (-> & E & E2 & E3); [lia|change (pow256 2) with 65536; lia|done|].
    cbn [mbind option_bind]. change (253 <? 253) with false. change (253 =? 253) with true. cbv iota.
    rewrite E. cbn [mbind option_bind]. rewrite E2, E3. done. }
  destruct (Z.leb_spec n 4294967295).
  { destruct (Hgen 254 4%nat) as (-> & E & E2 & E3); [lia|change (pow256 4) with 4294967296; lia|done|].
    cbn [mbind option_bind]. change (254 <? 253) with false. change (254 =? 253) with false.
    change (254 =? 254) with true. cbv iota.
    rewrite E. cbn [mbind option_bind]. rewrite E2, E3. done. }
  destruct (Hgen 255 8%nat) as (-> & E & E2 & E3); [lia|rewrite pow256_8; lia|done|].
  cbn [mbind option_bind]. change (255 <? 253) with false. change (255 =? 253) with false.
  change (255 =? 254) with false. cbv iota.
  rewrite E. cbn [mbind option_bind]. rewrite E2, E3. done.
Qed.

Lemma small_compact {A} (l : list A) bin i rest : small l -> At bin i (compact_len l ++ rest) ->
  read_compact bin i = Some (len l, len (compact_len l)).
Proof. intros Hs H. apply (compact_at _ _ _ rest); [done|]. unfold small in Hs. lia. Qed.

Lemma small_i64 {A} (l : list A) : small l -> to_i64 (len l) = len l.
Proof. intros H. apply to_i64_small. unfold small in H. lia. Qed.

Lemma u32_dec v : u32 v -> le_dec (le_enc 4 v) = v.
Proof. intros H. apply le_dec_enc_small. change (pow256 4) with (2^32). exact H. Qed.

Definition to_txi (i : winput) : txi := mk_txi (wi_txid i) (wi_vout i).

Lemma parse_txis_at bin ins i rest acc :
  Forall wf_input ins -> At bin i (concat (map ser_input ins) ++ rest) ->
  parse_txis bin (length ins) i acc = Some (i + len (concat (map ser_input ins)), acc ++ map to_txi ins).
Proof.
  intros Hwf. revert i acc. induction Hwf as [|x ins Hx Hwf IH]; intros i acc H; cbn [length map concat parse_txis].
  - rewrite app_nil_r. f_equal. f_equal. cbn [length]. lia.
  - destruct Hx as (H1 & H2 & H3 & H4 & _). cbn [map concat] in H. unfold ser_input in H.
    unfold var_bytes in H. rewrite <- !app_assoc in H.
    rewrite (sub_at _ _ _ _ 32 H) by done. cbn [mbind option_bind].
    apply At_app in H. rewrite H1 in H. change (Z.of_nat 32) with 32 in H.
    rewrite (sub_at _ _ _ _ 4 H) by apply le_enc_length. cbn [mbind option_bind].
    apply At_app in H. rewrite le_enc_length in H. replace (i + 32 + Z.of_nat 4) with (i + 36) in H by lia.
    rewrite (small_compact _ _ _ _ H3 H). cbn [mbind option_bind].
    apply At_app in H. apply At_app in H. apply At_app in H. rewrite le_enc_length in H.
    rewrite small_i64 by done. change (Z.of_nat 4) with 4 in H. rewrite u32_dec by done.
    rewrite (IH _ _ H). f_equal. f_equal.
    + rewrite app_length. unfold ser_input, var_bytes. rewrite !app_length, !le_enc_length, H1. lia.
    + rewrite <- app_assoc. done.
Qed.

Fixpoint to_txos (base : Z) (outs : list woutput) : list txo :=
  match outs with
  | [] => []
  | o :: outs' => mk_txo (wo_value o) base (len (wo_script o)) :: to_txos (base + len (wo_script o)) outs'
  end.

Lemma to_i32_small v : 0 <= v < 2^31 -> to_i32 v = v.
Proof.
  intros H. unfold to_i32. rewrite Z.mod_small by lia. destruct (Z.ltb_spec v (2^31)); lia.
Qed.

Lemma i64_dec v : is_i64 v -> to_i64 (le_dec (le_enc 8 v)) = v.
Proof. intros H. rewrite le_dec_enc, pow256_8. apply to_i64_to_u64, H. Qed.

Lemma parse_txos_at bin outs i rest acc scripts :
  Forall wf_output outs -> At bin i (concat (map ser_output outs) ++ rest) ->
  len scripts + len (concat (map wo_script outs)) < 2^31 ->
  parse_txos bin (length outs) i acc scripts =
  Some (i + len (concat (map ser_output outs)), acc ++ to_txos (len scripts) outs,
        scripts ++ concat (map wo_script outs)).
Proof.
  intros Hwf. revert i acc scripts.
  induction Hwf as [|x outs Hx Hwf IH]; intros i acc scripts H Hs; cbn [length map concat parse_txos to_txos].
  - rewrite !app_nil_r. do 3 f_equal. cbn [length]. lia.
  - destruct Hx as (H1 & H2). cbn [map concat] in H, Hs. unfold ser_output in H.
    unfold var_bytes in H. rewrite <- !app_assoc in H. rewrite app_length in Hs.
    rewrite (sub_at _ _ _ _ 8 H) by apply le_enc_length. cbn [mbind option_bind].
    apply At_app in H. rewrite le_enc_length in H. change (Z.of_nat 8) with 8 in H.
    rewrite (small_compact _ _ _ _ H2 H). cbn [mbind option_bind].
    apply At_app in H. rewrite small_i64 by done.
    destruct (Z.ltb_spec (len (wo_script x)) 0); [lia|].
    rewrite Nat2Z.id. rewrite (sub_at _ _ _ _ _ H eq_refl). cbn [mbind option_bind].
    apply At_app in H. rewrite (IH _ _ _ H).
    + rewrite i64_dec by done. rewrite !to_i32_small by lia. rewrite <- !app_assoc. cbn [app].
      rewrite app_length, Nat2Z.inj_add. do 3 f_equal.
      rewrite app_length. unfold ser_output, var_bytes. rewrite !app_length, le_enc_length. lia.
    + rewrite app_length. lia.
Qed.

Lemma skip_items_at bin ws i rest : Forall small ws -> At bin i (concat (map var_bytes ws) ++ rest) ->
  skip_items bin (length ws) i = Some (i + len (concat (map var_bytes ws))).
Proof.
  intros Hwf. revert i. induction Hwf as [|x ws Hx Hwf IH]; intros i H; cbn [length map concat skip_items].
  - f_equal. cbn [length]. lia.
  - cbn [map concat] in H. unfold var_bytes at 1 in H. rewrite <- !app_assoc in H.
    rewrite (small_compact _ _ _ _ Hx H). cbn [mbind option_bind].
    apply At_app in H. apply At_app in H. rewrite small_i64 by done. rewrite (IH _ H). f_equal.
    rewrite app_length. unfold var_bytes at 2. rewrite app_length. lia.
Qed.

Lemma skip_witness_at bin ins i rest : Forall wf_input ins -> At bin i (concat (map ser_stack ins) ++ rest) ->
  skip_witness bin (length ins) i = Some (i + len (concat (map ser_stack ins))).
Proof.
  intros Hwf. revert i. induction Hwf as [|x ins Hx Hwf IH]; intros i H; cbn [length map concat skip_witness].
  - f_equal. cbn [length]. lia.
  - destruct Hx as (_ & _ & _ & _ & H5 & H6). cbn [map concat] in H. unfold ser_stack at 1 in H.
    rewrite <- !app_assoc in H.
    rewrite (small_compact _ _ _ _ H5 H). cbn [mbind option_bind].
    apply At_app in H. rewrite Nat2Z.id. rewrite (skip_items_at _ _ _ _ H6 H). cbn [mbind option_bind].
    apply At_app in H. rewrite (IH _ H). f_equal.
    rewrite app_length. unfold ser_stack at 2. rewrite app_length. lia.
Qed.

Definition trans_of (sha : list Z -> list Z) (st : storage) (t : wtrans) : trans :=
  let size := len (ser_trans t) in
  let stripped := len (ser_stripped t) in
  mk_trans (sha (sha (ser_stripped t))) (wt_version t) (wt_segwit t)
    (len (st_txis st)) (len (wt_ins t)) (len (st_txos st)) (len (wt_outs t))
    size (stripped * 3 + size) ((stripped * 3 + size + 3) `quot` 4) stripped.
Definition extend (st : storage) (t : wtrans) : storage :=
  mk_storage (st_txis st ++ map to_txi (wt_ins t))
    (st_txos st ++ to_txos (len (st_scripts st)) (wt_outs t)) (st_scripts st ++ scripts_of t).

Lemma compact_first n rest : 0 < n -> exists b r, compact n ++ rest = b :: r /\ b <> 0.
Proof.
  intros Hn. unfold compact. repeat case_match; eexists _, _; (split; [reflexivity|lia]).
Qed.

Lemma parse_trans_at sha bin start t rest st : wf_trans t ->
  At bin start (ser_trans t ++ rest) -> len (st_scripts st) + len (scripts_of t) < 2^31 ->
  parse_trans sha bin start st = Some (trans_of sha st t, extend st t, len (ser_trans t)).
Proof.
  intros (W1 & W2 & W3 & W4 & W5 & W6 & W7) H Hs.
  assert (At bin start (ser_trans t ++ rest)) as H0 by done.
  unfold ser_trans, ser_body in H. rewrite <- !app_assoc in H.
  unfold parse_trans. rewrite (sub_at _ _ _ _ 4 H) by apply le_enc_length. cbn [mbind option_bind].
  apply At_app in H. rewrite le_enc_length in H. change (Z.of_nat 4) with 4 in H.
  (* the marker *)
  assert (exists b0, byte_at bin (start + 4) = Some b0 /\
    (if b0 =? 0 then b1 ← byte_at bin (start + 4 + 1); Some (negb (b1 =? 0)) else Some false)
      = Some (wt_segwit t)) as (b0 & Eb0 & Eseg).
  { destruct (wt_segwit t) eqn:Esw.
    - exists 0. cbn [app] in H. split; [eapply byte_at_at; exact H|]. change (0 =? 0) with true. cbv iota.
      assert (At bin (start + 4 + 1) (1 :: compact_len (wt_ins t) ++ concat (map ser_input (wt_ins t)) ++
        compact_len (wt_outs t) ++ concat (map ser_output (wt_outs t)) ++
        concat (map ser_stack (wt_ins t)) ++ le_enc 4 (wt_lock t) ++ rest)) as H1.
      { change 1 with (len [0]) at 1. apply At_app. exact H. }
      rewrite (byte_at_at _ _ _ _ H1). done.
    - cbn [app] in H. destruct (decide (wt_ins t = [])) as [E|Hne].
      + specialize (W7 eq_refl E). rewrite E, W7 in H. cbn [map concat app] in H.
        unfold compact_len in H. cbn [length] in H. change (compact (Z.of_nat 0)) with [0] in H. cbn [app] in H.
        exists 0. split; [eapply byte_at_at; exact H|]. change (0 =? 0) with true. cbv iota.
        assert (At bin (start + 4 + 1) (0 :: le_enc 4 (wt_lock t) ++ rest)) as H1.
        { change 1 with (len [0]) at 1. apply At_app. exact H. }
        rewrite (byte_at_at _ _ _ _ H1). done.
      + destruct (compact_first (len (wt_ins t)) (concat (map ser_input (wt_ins t)) ++
          compact_len (wt_outs t) ++ concat (map ser_output (wt_outs t)) ++ le_enc 4 (wt_lock t) ++ rest))
          as (b & r & E & Hb); [destruct (wt_ins t); [done|cbn [length]; lia]|].
        unfold compact_len in H at 1. rewrite E in H. exists b. split; [eapply byte_at_at; exact H|].
        destruct (Z.eqb_spec b 0); [done|]. done. }
  rewrite Eb0. cbn [mbind option_bind].
  rewrite Eseg. cbn [mbind option_bind].
  apply At_app in H.
  assert (start + 4 + len (if wt_segwit t then [0; 1] else []) = if wt_segwit t then start + 4 + 2 else start + 4) as Ei.
  { destruct (wt_segwit t); cbn [length]; lia. }
  rewrite Ei in H. set (i1 := if wt_segwit t then start + 4 + 2 else start + 4) in *.
  assert (At bin i1 (ser_body t ++ (if wt_segwit t then concat (map ser_stack (wt_ins t)) else []) ++
    le_enc 4 (wt_lock t) ++ rest)) as Hbody.
  { unfold ser_body. rewrite <- !app_assoc. exact H. }
  rewrite (small_compact _ _ _ _ W3 H). cbn [mbind option_bind].
  apply At_app in H. rewrite Nat2Z.id, (parse_txis_at _ _ _ _ _ W5 H). cbn [mbind option_bind].
  apply At_app in H. rewrite (small_compact _ _ _ _ W4 H). cbn [mbind option_bind].
  apply At_app in H. rewrite Nat2Z.id, (parse_txos_at _ _ _ _ _ _ W6 H Hs). cbn [mbind option_bind].
  apply At_app in H.
  match goal with |- context [skip_witness _ _ ?i] => set (i3 := i) end.
  assert (i3 = i1 + len (ser_body t)) as Ei3.
  { unfold i3, ser_body. rewrite !app_length. lia. }
  set (W := if wt_segwit t then concat (map ser_stack (wt_ins t)) else []) in *.
  fold i3 in H.
  assert ((if wt_segwit t then skip_witness bin (length (wt_ins t)) i3 else Some i3) = Some (i3 + len W)) as EW.
  { unfold W. destruct (wt_segwit t).
    - eapply skip_witness_at; [done|]. exact H.
    - f_equal. cbn [length]. lia. }
  rewrite EW. cbn [mbind option_bind].
  rewrite (slice_at bin i1 i3 (ser_body t) _ Hbody Ei3). cbn [mbind option_bind].
  apply At_app in H. rewrite (sub_at _ _ _ _ 4 H) by apply le_enc_length. cbn [mbind option_bind].
  assert (len (ser_trans t) = i3 + len W + 4 - start) as Esize.
  { rewrite Ei3, <- Ei. unfold ser_trans. fold W. rewrite !app_length, !le_enc_length. lia. }
  assert (len (ser_stripped t) = i3 + len W + 4 - start - ((if wt_segwit t then 2 else 0) + (i3 + len W - i3))) as Estr.
  { rewrite Ei3. unfold i1, ser_stripped. rewrite !app_length, !le_enc_length. destruct (wt_segwit t); lia. }
  unfold trans_of, extend. rewrite Esize, Estr, !u32_dec, !small_i64 by done. unfold ser_stripped. done.
Qed.

(** ** Retrieval *)
Definition grows (st st' : storage) : Prop :=
  st_txis st `prefix_of` st_txis st' /\ st_txos st `prefix_of` st_txos st' /\ st_scripts st `prefix_of` st_scripts st'.

Lemma grows_refl st : grows st st.
Proof. split_and!; reflexivity. Qed.
Lemma grows_trans a b c : grows a b -> grows b c -> grows a c.
Proof. intros (? & ? & ?) (? & ? & ?). split_and!; etrans; eauto. Qed.
Lemma grows_extend st t : grows st (extend st t).
Proof. unfold grows, extend. cbn. split_and!; apply prefix_app_r; done. Qed.

Lemma to_txos_lookup base outs j o : outs !! j = Some o ->
  to_txos base outs !! j = Some (mk_txo (wo_value o) (base + len (concat (map wo_script (take j outs)))) (len (wo_script o))).
Proof.
  revert base j. induction outs as [|x outs IH]; intros base j E; [done|].
  destruct j as [|j]; cbn in E.
  - injection E as ->. cbn. f_equal. f_equal. lia.
  - cbn [to_txos]. cbn [lookup list_lookup]. rewrite (IH _ _ E). cbn [take map concat].
    rewrite app_length. do 2 f_equal. lia.
Qed.

Lemma to_txos_length base outs : length (to_txos base outs) = length outs.
Proof. revert base. induction outs as [|x outs IH]; intros base; cbn [to_txos length]; [done|]. rewrite IH. done. Qed.

Lemma prefix_slice (l l' : list Z) a x : l `prefix_of` l' -> slice l a (a + len x) = Some x ->
  slice l' a (a + len x) = Some x.
Proof.
  intros [k ->]. unfold slice. destruct (Z.ltb_spec (a + len x) a); [done|].
  unfold sub. rewrite app_length. intros Hx.
  destruct (Z.leb_spec 0 a); [|done].
  destruct (Z.leb_spec (a + Z.of_nat (Z.to_nat (a + len x - a))) (len l)); cbn [andb] in Hx; [|done].
  destruct (Z.leb_spec (a + Z.of_nat (Z.to_nat (a + len x - a))) (Z.of_nat (length l + length k))); [|lia].
  cbn [andb]. rewrite <- Hx. f_equal. rewrite drop_app_le by lia. rewrite take_app_le; [done|].
  rewrite drop_length. lia.
Qed.

Lemma prefix_lookup {A} (l l' : list A) i x : l !! i = Some x -> l `prefix_of` l' -> l' !! i = Some x.
Proof. intros H [k ->]. apply lookup_app_l_Some, H. Qed.

Lemma retrieve_txi sha st t st' j i : grows (extend st t) st' -> wt_ins t !! j = Some i ->
  get_txi st' (trans_of sha st t) j = Some (to_txi i).
Proof.
  intros (H & _) E. unfold get_txi, trans_of. cbn [tr_txis_start].
  eapply prefix_lookup; [|exact H]. cbn [extend st_txis].
  rewrite lookup_app_r by lia. replace (_ - _)%nat with j by lia.
  change (map to_txi (wt_ins t)) with (to_txi <$> wt_ins t). rewrite list_lookup_fmap, E. done.
Qed.

Lemma retrieve_txo sha st t st' j o : grows (extend st t) st' -> wt_outs t !! j = Some o ->
  exists x, get_txo st' (trans_of sha st t) j = Some x /\ txo_value x = wo_value o /\
  get_script st' x = Some (wo_script o).
Proof.
  intros (_ & H & Hsc) E. unfold get_txo, trans_of. cbn [tr_txos_start].
  eexists. split.
  - eapply prefix_lookup; [|exact H]. cbn [extend st_txos].
    rewrite lookup_app_r by lia. replace (_ - _)%nat with j by lia.
    apply to_txos_lookup, E.
  - split; [done|]. unfold get_script. cbn [txo_start txo_len].
    eapply prefix_slice; [exact Hsc|]. cbn [extend st_scripts].
    unfold scripts_of. rewrite <- (take_drop j (wt_outs t)) at 1. rewrite (drop_S _ _ _ E).
    rewrite map_app, concat_app. cbn [map concat].
    set (a := concat (map wo_script (take j (wt_outs t)))).
    eapply (slice_at _ _ _ (wo_script o) (concat (map wo_script (drop (S j) (wt_outs t))))); [|done].
    exists (st_scripts st ++ a). rewrite app_length, <- !app_assoc. split; [done|lia].
Qed.

(** ** Blocks *)
Fixpoint all_of (sha : list Z -> list Z) (st : storage) (ts : list wtrans) : list trans :=
  match ts with [] => [] | t :: ts' => trans_of sha st t :: all_of sha (extend st t) ts' end.
Fixpoint extend_all (st : storage) (ts : list wtrans) : storage :=
  match ts with [] => st | t :: ts' => extend_all (extend st t) ts' end.

Lemma extend_all_grows ts : forall st, grows st (extend_all st ts).
Proof.
  induction ts as [|t ts IH]; intros st; cbn [extend_all]; [apply grows_refl|].
  eapply grows_trans; [apply grows_extend|apply IH].
Qed.

Lemma parse_all_at sha bin ts : forall i rest st acc weight stripped,
  Forall wf_trans ts -> At bin i (concat (map ser_trans ts) ++ rest) ->
  len (st_scripts st) + len (concat (map scripts_of ts)) < 2^31 ->
  parse_all sha bin (length ts) i st acc weight stripped =
  Some (extend_all st ts, acc ++ all_of sha st ts,
        weight + 3 * len (concat (map ser_stripped ts)) + len (concat (map ser_trans ts)),
        stripped + len (concat (map ser_stripped ts))).
Proof.
  induction ts as [|t ts IH]; intros i rest st acc weight stripped Hwf H Hs;
    cbn [length map concat parse_all extend_all all_of].
  - rewrite app_nil_r. cbn [length]. do 2 f_equal; [f_equal|]; lia.
  - apply Forall_cons in Hwf as [Ht Hwf]. cbn [map concat] in H, Hs. rewrite <- app_assoc in H.
    rewrite app_length in Hs.
    rewrite (parse_trans_at _ _ _ _ _ _ Ht H) by lia. cbn [mbind option_bind].
    apply At_app in H. rewrite (IH _ _ _ _ _ _ Hwf H).
    + rewrite <- app_assoc. cbn [app]. rewrite !app_length. unfold trans_of. cbn [tr_weight tr_stripped].
      do 2 f_equal; [f_equal|]; lia.
    + cbn [extend st_scripts]. rewrite app_length. lia.
Qed.

Lemma header_length h : wf_header h -> length (ser_header h) = 80%nat.
Proof.
  intros (H1 & H2 & H3 & H4 & H5 & H6). unfold ser_header. rewrite !app_length, !le_enc_length, H2, H3. done.
Qed.

Lemma parse_block_ser sha h ts : wf_header h -> Forall wf_trans ts -> small ts ->
  len (concat (map scripts_of ts)) < 2^31 ->
  parse_block sha (ser_block h ts) =
  Some (mk_block (sha (sha (ser_header h))) (wh_version h) (wh_prev h) (wh_merkle h) (wh_time h) (wh_bits h)
    (wh_nonce h) (all_of sha st_empty ts) (len (ser_block h ts))
    (3 * len (ser_block_stripped h ts) + len (ser_block h ts)) (len (ser_block_stripped h ts))
    (extend_all st_empty ts)).
Proof.
  intros Hh Hts Hsm Hs.
  assert (At (ser_block h ts) 0 (ser_header h ++ compact_len ts ++ concat (map ser_trans ts) ++ [])) as H.
  { exists []. rewrite app_nil_r. done. }
  unfold parse_block. rewrite (sub_at _ _ _ _ 80 H) by (apply header_length, Hh). cbn [mbind option_bind].
  pose proof (header_length h Hh) as Hl.
  apply At_app in H. rewrite Hl in H. change (0 + Z.of_nat 80) with 80 in H.
  rewrite (small_compact _ _ _ _ Hsm H). cbn [mbind option_bind].
  apply At_app in H. rewrite Nat2Z.id.
  rewrite (parse_all_at sha _ ts _ _ st_empty [] _ _ Hts H) by (cbn; lia). cbn [mbind option_bind app].
  destruct Hh as (H1 & H2 & H3 & H4 & H5 & H6).
  assert (len (ser_block h ts) = 80 + len (compact_len ts) + len (concat (map ser_trans ts))) as EL1.
  { unfold ser_block, ser_block_with. rewrite !app_length, Hl. lia. }
  assert (len (ser_block_stripped h ts) = 80 + len (compact_len ts) + len (concat (map ser_stripped ts))) as EL2.
  { unfold ser_block_stripped, ser_block_with. rewrite !app_length, Hl. lia. }
  f_equal.
  assert (take 4 (ser_header h) = le_enc 4 (wh_version h)) as ->.
  { unfold ser_header. rewrite take_app_alt by (rewrite le_enc_length; done). done. }
  assert (drop 4 (ser_header h) = wh_prev h ++ wh_merkle h ++ le_enc 4 (wh_time h) ++ le_enc 4 (wh_bits h) ++ le_enc 4 (wh_nonce h)) as E4.
  { unfold ser_header. rewrite drop_app_alt by (rewrite le_enc_length; done). done. }
  assert (drop 36 (ser_header h) = wh_merkle h ++ le_enc 4 (wh_time h) ++ le_enc 4 (wh_bits h) ++ le_enc 4 (wh_nonce h)) as E36.
  { change 36%nat with (4 + 32)%nat. rewrite <- drop_drop, E4, drop_app_alt by done. done. }
  assert (drop 68 (ser_header h) = le_enc 4 (wh_time h) ++ le_enc 4 (wh_bits h) ++ le_enc 4 (wh_nonce h)) as E68.
  { change 68%nat with (36 + 32)%nat. rewrite <- drop_drop, E36, drop_app_alt by done. done. }
  assert (drop 72 (ser_header h) = le_enc 4 (wh_bits h) ++ le_enc 4 (wh_nonce h)) as E72.
  { change 72%nat with (68 + 4)%nat. rewrite <- drop_drop, E68, drop_app_alt by (rewrite le_enc_length; done). done. }
  assert (drop 76 (ser_header h) = le_enc 4 (wh_nonce h)) as E76.
  { change 76%nat with (72 + 4)%nat. rewrite <- drop_drop, E72, drop_app_alt by (rewrite le_enc_length; done). done. }
  rewrite E4, E36, E68, E72, E76.
  rewrite !take_app_alt by (rewrite ?le_enc_length; done).
  rewrite take_ge by (rewrite le_enc_length; done).
  rewrite !u32_dec by done. f_equal; lia.
Qed.
