(** Properties of the binary parser. *)
From Verif Require Import Base Model_Parse Spec_Parse Proof_Parse.

(** What the parsed transaction [t] in storage [st] says, compared with the wire transaction [w]. *)
Definition describes (st : storage) (t : trans) (w : wtrans) : Prop :=
  tr_version t = wt_version w /\ tr_segwit t = wt_segwit w /\
  tr_txis_count t = Z.of_nat (length (wt_ins w)) /\ tr_txos_count t = Z.of_nat (length (wt_outs w)) /\
  (forall j i, wt_ins w !! j = Some i -> get_txi st t j = Some (mk_txi (wi_txid i) (wi_vout i))) /\
  (forall j o, wt_outs w !! j = Some o -> exists x, get_txo st t j = Some x /\
     txo_value x = wo_value o /\ get_script st x = Some (wo_script o)).
(** Identifier and sizes. *)
Definition measures (sha : list Z -> list Z) (t : trans) (w : wtrans) : Prop :=
  tr_txid t = sha (sha (ser_stripped w)) /\
  tr_size t = Z.of_nat (length (ser_trans w)) /\
  tr_stripped t = Z.of_nat (length (ser_stripped w)) /\
  tr_weight t = 3 * tr_stripped t + tr_size t /\
  4 * (tr_vsize t - 1) < tr_weight t <= 4 * tr_vsize t.

Lemma trans_of_describes sha st t st' : grows (extend st t) st' -> describes st' (trans_of sha st t) t.
Proof.
  intros H. unfold describes. split_and!; try done.
  - intros j i E. rewrite (retrieve_txi sha st t st' j i H E). done.
  - intros j o E. exact (retrieve_txo sha st t st' j o H E).
Qed.

Lemma trans_of_measures sha st t : measures sha (trans_of sha st t) t.
Proof.
  unfold measures, trans_of. cbn [tr_txid tr_size tr_stripped tr_weight tr_vsize]. split_and!; try done; try lia.
  all: rewrite Z.quot_div_nonneg by lia;
    pose proof (Z.div_mod (len (ser_stripped t) * 3 + len (ser_trans t) + 3) 4 ltac:(lia));
    pose proof (Z.mod_pos_bound (len (ser_stripped t) * 3 + len (ser_trans t) + 3) 4 ltac:(lia)); lia.
Qed.

(** ** C42 *)
Theorem C42_transaction_is_read_back sha pre t post st :
  wf_trans t -> Z.of_nat (length (st_scripts st) + length (scripts_of t)) < 2^31 ->
  exists t' st', parse_trans sha (pre ++ ser_trans t ++ post) (Z.of_nat (length pre)) st
                 = Some (t', st', Z.of_nat (length (ser_trans t))) /\
  describes st' t' t /\ measures sha t' t /\
  st_txis st `prefix_of` st_txis st' /\ st_txos st `prefix_of` st_txos st' /\
  st_scripts st `prefix_of` st_scripts st'.
Proof.
  intros Ht Hs. exists (trans_of sha st t), (extend st t). split.
  - apply parse_trans_at with (rest := post); [done| |lia]. exists pre. done.
  - split; [apply trans_of_describes, grows_refl|]. split; [apply trans_of_measures|apply grows_extend].
Qed.

Theorem C42_block_is_read_back sha h ts :
  wf_header h -> Forall wf_trans ts -> Z.of_nat (length ts) < 2^63 ->
  Z.of_nat (length (concat (map scripts_of ts))) < 2^31 ->
  exists b, parse_block sha (ser_block h ts) = Some b /\
  bk_version b = wh_version h /\ bk_prev b = wh_prev h /\ bk_merkle b = wh_merkle h /\
  bk_time b = wh_time h /\ bk_nbits b = wh_bits h /\ bk_nonce b = wh_nonce h /\
  Forall2 (describes (bk_storage b)) (bk_trans b) ts.
Proof.
  intros Hh Hts Hsm Hs. eexists. split; [apply parse_block_ser; done|]. cbn. split_and!; try done.
  assert (forall st st', grows (extend_all st ts) st' -> Forall2 (describes st') (all_of sha st ts) ts) as HF.
  { clear. induction ts as [|t ts IH]; intros st st' H; cbn [all_of extend_all] in *; [constructor|].
    constructor; [|apply IH, H]. apply trans_of_describes. eapply grows_trans; [|exact H]. apply extend_all_grows. }
  apply HF, grows_refl.
Qed.

(** ** C43 *)
Theorem C43_identifiers_and_sizes sha h ts b :
  wf_header h -> Forall wf_trans ts -> Z.of_nat (length ts) < 2^63 ->
  Z.of_nat (length (concat (map scripts_of ts))) < 2^31 ->
  parse_block sha (ser_block h ts) = Some b ->
  bk_hash b = sha (sha (ser_header h)) /\
  bk_size b = Z.of_nat (length (ser_block h ts)) /\
  bk_stripped b = Z.of_nat (length (ser_block_stripped h ts)) /\
  bk_weight b = 3 * bk_stripped b + bk_size b /\
  Forall2 (measures sha) (bk_trans b) ts.
Proof.
  intros Hh Hts Hsm Hs E. rewrite parse_block_ser in E by done. injection E as <-. cbn.
  split_and!; try done.
  generalize st_empty. clear. induction ts as [|t ts IH]; intros st; cbn [all_of]; constructor; [|apply IH].
  apply trans_of_measures.
Qed.

(** The extra bytes of a segwit transaction are exactly its marker, flag and witness stacks. *)
Theorem C43_stripped_drops_exactly_the_witness t :
  (length (ser_trans t) = length (ser_stripped t) +
   (if wt_segwit t then 2 + length (concat (map ser_stack (wt_ins t))) else 0))%nat.
Proof.
  unfold ser_trans, ser_stripped. destruct (wt_segwit t); rewrite !app_length, !le_enc_length; cbn [length]; lia.
Qed.

(** ** A concrete block: a legacy transaction and a segwit one with two witness stacks. *)
Definition ex_t1 : wtrans :=
  mk_wtrans 1 false [mk_win (replicate 32 7) 4294967295 [1; 2; 3] 9 []]
    [mk_wout 5000000000 [118; 169]; mk_wout 1 (replicate 253 6)] 0.
Definition ex_t2 : wtrans :=
  mk_wtrans 2 true [mk_win (replicate 32 8) 0 [] 5 [[4; 5]; []]; mk_win (replicate 32 9) 1 [] 6 [[1]]]
    [mk_wout 77 [1]] 500.
Definition ex_h : wheader := mk_whead 4 (replicate 32 1) (replicate 32 2) 1231006505 486604799 2083236893.
Example C42_example :
  wf_header ex_h /\ Forall wf_trans [ex_t1; ex_t2] /\
  option_map (fun b => (length (bk_trans b), bk_size b, bk_stripped b, bk_weight b,
                        map tr_vsize (bk_trans b), map txo_start (st_txos (bk_storage b))))
    (parse_block (fun l => l) (ser_block ex_h [ex_t1; ex_t2])) = Some (2%nat, 522, 512, 2058, [329; 105], [0; 2; 255]).
Proof.
  split; [unfold wf_header, u32; cbn; lia|]. split.
  { repeat (apply Forall_cons_2 || apply Forall_nil_2);
    (unfold wf_trans, u32, small; cbn; split_and!; try lia; try done;
     repeat (apply Forall_cons_2 || apply Forall_nil_2);
     unfold wf_input, wf_output, u32, small, is_i64; cbn; split_and!; try lia; try done;
     repeat (apply Forall_cons_2 || apply Forall_nil_2); cbn; lia). }
  vm_compute. done.
Qed.

(** The guard of [wf_trans] is needed: a pre-segwit transaction without inputs but with an output is
    not read back. *)
Example C42_guard_needed :
  let t := mk_wtrans 1 false [] [mk_wout 1 []] 0 in
  option_map (fun '(t', _, n) => (tr_segwit t', n)) (parse_trans (fun l => l) (ser_trans t) 0 st_empty)
  <> Some (false, Z.of_nat (length (ser_trans t))).
Proof. vm_compute. discriminate. Qed.

Print Assumptions C42_transaction_is_read_back.
Print Assumptions C42_block_is_read_back.
Print Assumptions C43_identifiers_and_sizes.
Print Assumptions C43_stripped_drops_exactly_the_witness.
