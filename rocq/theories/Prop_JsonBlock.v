(** The JSON block parser agrees with the binary block parser. *)
From Verif Require Import Base Model_Codec Spec_Codec Proof_Codec Model_Parse Spec_Parse Proof_Parse Model_Json Prop_Json Model_JsonBlock.

(** ** What Bitcoin Core reports in JSON about a wire block *)
(** The input of a coinbase transaction refers to no output: it is printed without txid and output number. *)
Definition null_input (i : winput) : Prop := wi_txid i = replicate 32 0 /\ wi_vout i = 2^32 - 1.
Global Instance null_input_dec i : Decision (null_input i).
Proof. unfold null_input. apply _. Defined.
Definition is_coinbase (t : wtrans) : Prop := exists i, wt_ins t = [i] /\ null_input i.
Global Instance is_coinbase_dec t : Decision (is_coinbase t).
Proof.
  destruct (wt_ins t) as [|i [|]] eqn:E; unfold is_coinbase.
  - right. rewrite E. intros (? & ? & _). done.
  - destruct (decide (null_input i)); [left; exists i; done|right]. rewrite E. intros (? & [= <-] & ?). done.
  - right. rewrite E. intros (? & ? & _). done.
Defined.
Definition core_trans {V} (val : Z -> V) (sha : list Z -> list Z) (t : wtrans) : json_trans V :=
  let j := core_json val sha t in
  if decide (is_coinbase t) then
    mk_jt (jt_txid j) [mk_jti [] 0] (jt_vout j) (jt_version j) (jt_size j) (jt_vsize j) (jt_weight j)
  else j.
(** The eight hexadecimal digits of the difficulty bits, most significant first *)
Definition core_bits (n : Z) : list Z := hex_encode (reverse (le_enc 4 n)).
Definition core_block {V} (val : Z -> V) (sha : list Z -> list Z) (h : wheader) (ts : list wtrans) : json_block V :=
  mk_jb (hex_of_hash (sha (sha (ser_header h))))
    (if decide (wh_prev h = replicate 32 0) then [] else hex_of_hash (wh_prev h))
    (map (core_trans val sha) ts) (hex_of_hash (wh_merkle h))
    (if wh_version h <? 2^31 then wh_version h else wh_version h - 2^32) (wh_time h) (wh_nonce h)
    (Z.of_nat (length (ser_block_stripped h ts))) (Z.of_nat (length (ser_block h ts)))
    (3 * Z.of_nat (length (ser_block_stripped h ts)) + Z.of_nat (length (ser_block h ts)))
    (core_bits (wh_bits h)).

(** The same block up to the output number of inputs that refer to no output *)
Definition forget_null (i : txi) : txi :=
  if decide (txi_txid i = replicate 32 0 /\ txi_vout i = 2^32 - 1) then mk_txi (txi_txid i) 0 else i.
Definition same_storage (a b : storage) : Prop :=
  st_txis a = map forget_null (st_txis b) /\ st_txos a = st_txos b /\ st_scripts a = st_scripts b.
Definition same_block (a b : block) : Prop :=
  bk_hash a = bk_hash b /\ bk_version a = bk_version b /\ bk_prev a = bk_prev b /\ bk_merkle a = bk_merkle b /\
  bk_time a = bk_time b /\ bk_nbits a = bk_nbits b /\ bk_nonce a = bk_nonce b /\ bk_trans a = bk_trans b /\
  bk_size a = bk_size b /\ bk_weight a = bk_weight b /\ bk_stripped a = bk_stripped b /\
  same_storage (bk_storage a) (bk_storage b).

(** A transaction of a valid block: only a coinbase has an input that refers to no output. *)
Definition null_only_in_coinbase (t : wtrans) : Prop := is_coinbase t \/ Forall (fun i => ~ null_input i) (wt_ins t).

(** ** Proofs *)
Lemma hex_number_digits l : forall acc, bytes l -> 0 <= acc -> (acc + 1) * pow256 (length l) <= 2^32 ->
  hex_number (hex_encode l) acc = Some (acc * pow256 (length l) + le_dec (reverse l)).
Proof.
  induction l as [|b l IH]; intros acc Hl Ha Hb.
  - cbn [hex_encode map concat hex_number length]. rewrite reverse_nil. cbn [le_dec]. f_equal. change (pow256 0) with 1. lia.
  - apply Forall_cons in Hl as [Hbb Hl]. unfold is_byte in Hbb.
    change (hex_encode (b :: l)) with (hex_digit (b / 16) :: hex_digit (b mod 16) :: hex_encode l).
    cbn [hex_number].
    rewrite !hex_value_digit by (split; try apply Z.mod_pos_bound; try apply Z.div_pos; try apply Z.div_lt_upper_bound; lia).
    cbn [mbind option_bind]. cbn [length] in *.
    assert (EP : pow256 (S (length l)) = 256 * pow256 (length l)) by apply pow256_S.
    pose proof (pow256_pos (length l)) as P. pose proof (Z.div_mod b 16 ltac:(lia)) as D.
    pose proof (Z.mod_pos_bound b 16 ltac:(lia)). pose proof (Z.div_pos b 16 ltac:(lia) ltac:(lia)).
    assert (Z.div b 16 < 16) by (apply Z.div_lt_upper_bound; lia).
    assert (B2 : (256 * acc + 256) * pow256 (length l) <= 2^32) by (rewrite EP in Hb; lia).
    assert (256 * acc + 256 <= 2^32).
    { assert ((256 * acc + 256) * 1 <= (256 * acc + 256) * pow256 (length l)) by (apply Z.mul_le_mono_nonneg_l; lia). lia. }
    destruct (Z.ltb_spec (16 * acc + b / 16) (2^32)); [|lia].
    replace (16 * (16 * acc + b / 16) + b mod 16) with (256 * acc + b) by lia.
    destruct (Z.ltb_spec (256 * acc + b) (2^32)); [|lia].
    rewrite IH; [|done|lia|].
    + f_equal. rewrite reverse_cons, le_dec_app, reverse_length. cbn [le_dec]. rewrite EP. lia.
    + assert ((256 * acc + b + 1) * pow256 (length l) <= (256 * acc + 256) * pow256 (length l)) by (apply Z.mul_le_mono_nonneg_r; lia). lia.
Qed.

Lemma parse_core_bits n : u32 n -> parse_hex32 (core_bits n) = Some n.
Proof.
  intros H. unfold core_bits.
  assert (L : length (reverse (le_enc 4 n)) = 4%nat) by (by rewrite reverse_length, le_enc_length).
  assert (E : hex_number (hex_encode (reverse (le_enc 4 n))) 0 = Some n).
  { rewrite hex_number_digits.
    - rewrite reverse_involutive, L. rewrite u32_dec by done. f_equal.
    - apply Forall_reverse, le_enc_bytes.
    - lia.
    - rewrite L. change (pow256 4) with (2^32). lia. }
  unfold parse_hex32. destruct (hex_encode (reverse (le_enc 4 n))) eqn:X; [|done].
  destruct (reverse (le_enc 4 n)); [done|]. discriminate X.
Qed.

Section JsonBlock.
  Context {V : Type} (sats : V -> Z) (val : Z -> V) (sha : list Z -> list Z).
  Hypothesis Hsha : forall l, length (sha l) = 32%nat /\ bytes (sha l).

  Definition good (t : wtrans) : Prop :=
    wf_trans t /\ Forall (fun i => bytes (wi_txid i)) (wt_ins t) /\
    Forall (fun o => bytes (wo_script o) /\ sats (val (wo_value o)) = wo_value o) (wt_outs t) /\
    null_only_in_coinbase t.

  Lemma same_lengths a b : same_storage a b -> length (st_txis a) = length (st_txis b).
  Proof. intros (-> & _ & _). by rewrite map_length. Qed.

  Lemma trans_of_same a b t : same_storage a b -> trans_of sha a t = trans_of sha b t.
  Proof. intros H. unfold trans_of. rewrite (same_lengths _ _ H). by destruct H as (_ & -> & _). Qed.

  Lemma parse_json_vin (j : json_trans V) st t st' v txis :
    parse_json sats j st = Some (t, st') -> length v = length (jt_vin j) -> json_txis v (st_txis st) = Some txis ->
    parse_json sats (mk_jt (jt_txid j) v (jt_vout j) (jt_version j) (jt_size j) (jt_vsize j) (jt_weight j)) st
    = Some (t, mk_storage txis (st_txos st') (st_scripts st')).
  Proof.
    intros E L Hv. unfold parse_json in *. cbn [jt_txid jt_vin jt_vout jt_version jt_size jt_vsize jt_weight].
    destruct (hash_of_hex (jt_txid j)) as [tx|]; [|done]. cbn [mbind option_bind] in *. rewrite Hv, L.
    destruct (json_txis (jt_vin j) (st_txis st)) as [x|]; [|done]. cbn [mbind option_bind] in *.
    destruct (json_txos sats (jt_vout j) (st_txos st) (st_scripts st)) as [[txos scripts]|]; [|done].
    cbn [mbind option_bind] in *. apply (inj Some) in E. apply pair_equal_spec in E as [<- <-]. reflexivity.
  Qed.

  Lemma core_trans_parse a b t : good t -> same_storage a b ->
    Z.of_nat (length (st_scripts b) + length (scripts_of t)) < 2^31 ->
    exists a', parse_json sats (core_trans val sha t) a = Some (trans_of sha b t, a') /\ same_storage a' (extend b t).
  Proof.
    intros (Ht & Hi & Ho & Hn) S Hs. pose proof S as (S1 & S2 & S3).
    destruct (C57_json_and_binary_agree sats val sha [] t [] a Hsha Ht Hi Ho) as (t' & st' & E1 & E2);
      [rewrite S3; done|].
    rewrite (parse_trans_at sha _ _ t [] a) in E2; [|done|exists []; done|rewrite S3; lia].
    injection E2 as <- <-. rewrite (trans_of_same a b t S) in E1.
    unfold core_trans. case_decide as C.
    - destruct C as (i & Ei & Ni1 & Ni2).
      eexists. split.
      { cbv zeta. eapply parse_json_vin; [exact E1| |].
        - unfold core_json. cbn [jt_vin]. by rewrite map_length, Ei.
        - cbn [json_txis ji_txid ji_vout]. rewrite decide_True by done. cbn [mbind option_bind]. reflexivity. }
      unfold same_storage, extend. cbn [st_txis st_txos st_scripts]. rewrite S2, S3. split; [|done].
      rewrite map_app, S1. f_equal. rewrite Ei. cbn [map]. unfold forget_null, to_txi. cbn [txi_txid txi_vout].
      rewrite Ni1, Ni2. by rewrite decide_True.
    - exists (extend a t). split; [exact E1|]. destruct Hn as [|Hn]; [done|].
      unfold same_storage, extend. cbn [st_txis st_txos st_scripts]. rewrite S2, S3. split; [|done].
      rewrite map_app, S1. f_equal. rewrite map_map. apply map_ext_in. intros i Hin%elem_of_list_In.
      rewrite Forall_forall in Hn. specialize (Hn i Hin). unfold forget_null, to_txi. cbn [txi_txid txi_vout].
      by rewrite decide_False.
  Qed.

  Lemma json_all_parse ts : forall a b acc, Forall good ts -> same_storage a b ->
    Z.of_nat (length (st_scripts b) + length (concat (map scripts_of ts))) < 2^31 ->
    exists a', json_all sats (map (core_trans val sha) ts) a acc = Some (acc ++ all_of sha b ts, a') /\
      same_storage a' (extend_all b ts).
  Proof.
    induction ts as [|t ts IH]; intros a b acc G S Hs; cbn [map json_all all_of extend_all].
    - exists a. by rewrite app_nil_r.
    - apply Forall_cons in G as [Gt G]. cbn [map concat] in Hs. rewrite app_length in Hs.
      destruct (core_trans_parse a b t Gt S) as (a1 & E1 & S1); [lia|]. rewrite E1. cbn [mbind option_bind].
      destruct (IH a1 (extend b t) (acc ++ [trans_of sha b t]) G S1) as (a2 & E2 & S2).
      { cbn [extend st_scripts]. rewrite app_length. lia. }
      exists a2. rewrite E2, <- app_assoc. done.
  Qed.

  (** ** C78 *)
  Theorem C78_json_and_binary_blocks_agree h ts :
    wf_header h -> bytes (wh_prev h) -> bytes (wh_merkle h) -> Forall good ts -> Z.of_nat (length ts) < 2^63 ->
    Z.of_nat (length (concat (map scripts_of ts))) < 2^31 ->
    exists bj bb, parse_json_block sats (core_block val sha h ts) = Some bj /\
      parse_block sha (ser_block h ts) = Some bb /\ same_block bj bb.
  Proof.
    intros Hh Hp Hm G Hl Hs.
    assert (Hw : Forall wf_trans ts) by (eapply Forall_impl; [exact G|]; intros t Ht; apply Ht).
    assert (S0 : same_storage st_empty st_empty) by done.
    destruct (json_all_parse ts st_empty st_empty [] G S0) as (st & E & S); [cbn [st_empty st_scripts length]; lia|].
    eexists _, _. split; [|split; [apply parse_block_ser; done|]].
    - unfold parse_json_block, core_block.
      cbn [jb_hash jb_prev jb_tx jb_merkle jb_version jb_time jb_nonce jb_strippedsize jb_size jb_weight jb_bits].
      rewrite (hash_hex_roundtrip (sha _)) by apply Hsha. cbn [mbind option_bind].
      assert ((if decide ((if decide (wh_prev h = replicate 32 0) then [] else hex_of_hash (wh_prev h)) = [])
               then Some (replicate 32 0)
               else hash_of_hex (if decide (wh_prev h = replicate 32 0) then [] else hex_of_hash (wh_prev h)))
              = Some (wh_prev h)) as ->.
      { destruct (decide (wh_prev h = replicate 32 0)) as [->|Hne].
        - by rewrite decide_True.
        - rewrite decide_False by apply hex_of_hash_nonempty. apply hash_hex_roundtrip; [apply Hh|done]. }
      cbn [mbind option_bind]. rewrite (hash_hex_roundtrip (wh_merkle h)) by (apply Hh || done). cbn [mbind option_bind].
      rewrite parse_core_bits by apply Hh. cbn [mbind option_bind]. rewrite E. cbn [mbind option_bind]. reflexivity.
    - destruct Hh as (W1 & _ & _ & W4 & _ & W6). unfold u32 in *.
      assert ((if wh_version h <? 2^31 then wh_version h else wh_version h - 2^32) mod 2^32 = wh_version h) as ->.
      { destruct (Z.ltb_spec (wh_version h) (2^31)); [apply Z.mod_small; lia|].
        replace (wh_version h - 2^32) with (wh_version h + (-1) * 2^32) by lia.
        rewrite Z_mod_plus_full. apply Z.mod_small. lia. }
      rewrite !Z.mod_small by lia. unfold same_block. cbn. done.
  Qed.
End JsonBlock.

(** Difficulty bits that are no 32-bit hexadecimal number are refused, and so is a hash of wrong length. *)
Theorem C78_bad_bits_refused {V} (sats : V -> Z) (j : json_block V) :
  parse_hex32 (jb_bits j) = None \/ length (jb_hash j) <> 64%nat \/ length (jb_merkle j) <> 64%nat ->
  parse_json_block sats j = None.
Proof.
  intros H. unfold parse_json_block.
  destruct (hash_of_hex (jb_hash j)) as [x|] eqn:E1; [|done]. cbn [mbind option_bind].
  destruct (if decide _ then _ else _) as [y|]; [|done]. cbn [mbind option_bind].
  destruct (hash_of_hex (jb_merkle j)) as [z|] eqn:E2; [|done]. cbn [mbind option_bind].
  destruct H as [->|[H|H]]; [done|..]; unfold hash_of_hex in E1, E2; repeat case_decide; done.
Qed.
Theorem C78_bits_read_exactly s n : parse_hex32 s = Some n -> s <> [] /\ 0 <= n < 2^32 /\
  Forall (fun c => is_Some (hex_value c)) s.
Proof.
  unfold parse_hex32. destruct s as [|c s]; [done|]. intros H. split; [done|]. revert H.
  assert (G : forall l acc, 0 <= acc < 2^32 -> hex_number l acc = Some n -> 0 <= n < 2^32 /\ Forall (fun c => is_Some (hex_value c)) l).
  { induction l as [|d l IH]; intros acc Ha H; cbn [hex_number] in H; [injection H as <-; done|].
    destruct (hex_value d) as [v|] eqn:Ev; [|done]. cbn [mbind option_bind] in H.
    assert (0 <= v < 16).
    { unfold hex_value in Ev. repeat case_match; try done; injection Ev as <-; lia. }
    destruct (Z.ltb_spec (16 * acc + v) (2^32)); [|done].
    assert (R : 0 <= 16 * acc + v < 2^32) by lia.
    destruct (IH _ R H). split; [done|]. constructor; [by eexists|done]. }
  apply G. lia.
Qed.

(** The genesis block's header (no previous hash) with a coinbase, and a second block. *)
Example C78_example :
  let cb := mk_wtrans 1 false [mk_win (replicate 32 0) 4294967295 [4; 255] 4294967295 []] [mk_wout 5000000000 [65; 172]] 0 in
  let t := mk_wtrans 2 true [mk_win (replicate 32 8) 0 [] 5 [[4; 5]; []]] [mk_wout 77 [1; 171]] 500 in
  let h := mk_whead 4294967295 (replicate 32 0) (replicate 32 2) 1231006505 486604799 2083236893 in
  good (fun x => x) (fun x => x) cb /\ good (fun x => x) (fun x => x) t /\ is_coinbase cb /\
  option_map (fun b => (bk_version b, bk_nbits b, bk_prev b, map txi_vout (st_txis (bk_storage b))))
    (parse_json_block (fun x => x) (core_block (fun x => x) (fun _ => replicate 32 3) h [cb; t]))
  = Some (4294967295, 486604799, replicate 32 0, [0; 0]) /\
  option_map (fun b => map txi_vout (st_txis (bk_storage b)))
    (parse_block (fun _ => replicate 32 3) (ser_block h [cb; t])) = Some [4294967295; 0].
Proof.
  assert (B : forall n x, is_byte x -> bytes (replicate n x)) by (intros; by apply Forall_replicate).
  cbv zeta. split; [|split; [|split; [|split]]].
  - split; [|split; [|split]].
    + unfold wf_trans, u32, small; cbn; split_and!; try lia; try done;
       repeat (apply Forall_cons_2 || apply Forall_nil_2);
       unfold wf_input, wf_output, u32, small, is_i64; cbn; split_and!; try lia; try done;
       repeat (apply Forall_cons_2 || apply Forall_nil_2); cbn; lia.
    + repeat constructor; unfold is_byte; lia.
    + repeat constructor; unfold is_byte; lia.
    + left. eexists. split; [reflexivity|]. split; reflexivity.
  - split; [|split; [|split]].
    + unfold wf_trans, u32, small; cbn; split_and!; try lia; try done;
       repeat (apply Forall_cons_2 || apply Forall_nil_2);
       unfold wf_input, wf_output, u32, small, is_i64; cbn; split_and!; try lia; try done;
       repeat (apply Forall_cons_2 || apply Forall_nil_2); cbn; lia.
    + repeat constructor; unfold is_byte; lia.
    + repeat constructor; unfold is_byte; lia.
    + right. repeat constructor. intros [X _]. discriminate X.
  - eexists. split; [reflexivity|]. split; reflexivity.
  - vm_compute. reflexivity.
  - vm_compute. reflexivity.
Qed.

Print Assumptions C78_json_and_binary_blocks_agree.
Print Assumptions C78_bad_bits_refused.
Print Assumptions C78_bits_read_exactly.
