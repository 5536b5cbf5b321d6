(** The JSON parser agrees with the binary parser. *)
From Verif Require Import Base Model_Codec Spec_Codec Proof_Codec Model_Parse Spec_Parse Proof_Parse Model_Json.
From Coq Require Import ZifyBool ZifyNat.

(** What Bitcoin Core reports in JSON about a wire transaction: identifiers in its reversed hexadecimal
    text, the version as a signed 32-bit number, virtual size rounded up. [val] is the JSON number printed
    for an amount in satoshis. *)
Definition core_json {V} (val : Z -> V) (sha : list Z -> list Z) (t : wtrans) : json_trans V :=
  let size := Z.of_nat (length (ser_trans t)) in
  let weight := 3 * Z.of_nat (length (ser_stripped t)) + size in
  mk_jt (hex_of_hash (sha (sha (ser_stripped t))))
    (map (fun i => mk_jti (hex_of_hash (wi_txid i)) (wi_vout i)) (wt_ins t))
    (map (fun o => mk_jto (val (wo_value o)) (hex_encode (wo_script o))) (wt_outs t))
    (if wt_version t <? 2^31 then wt_version t else wt_version t - 2^32)
    size ((weight + 3) / 4) weight.

Lemma hex_value_digit n : 0 <= n < 16 -> hex_value (hex_digit n) = Some n.
Proof.
  intros H. unfold hex_value, hex_digit.
  destruct (Z.ltb_spec n 10).
  - destruct (Z.leb_spec 0x30 (0x30 + n)), (Z.leb_spec (0x30 + n) 0x39); cbn [andb]; try lia. f_equal. lia.
  - destruct (Z.leb_spec 0x30 (0x61 + (n - 10))), (Z.leb_spec (0x61 + (n - 10)) 0x39); cbn [andb]; try lia.
    destruct (Z.leb_spec 0x61 (0x61 + (n - 10))), (Z.leb_spec (0x61 + (n - 10)) 0x66); cbn [andb]; try lia. f_equal. lia.
Qed.

Lemma hex_decode_encode l : bytes l -> hex_decode (hex_encode l) = Some l.
Proof.
  induction 1 as [|b l Hb Hl IH]; [done|]. unfold is_byte in Hb.
  change (hex_encode (b :: l)) with (hex_digit (b / 16) :: hex_digit (b mod 16) :: hex_encode l).
  cbn [hex_decode].
  rewrite !hex_value_digit by (split; try apply Z.mod_pos_bound; try apply Z.div_pos; try apply Z.div_lt_upper_bound; lia).
  cbn [mbind option_bind]. rewrite IH. cbn [mbind option_bind]. do 2 f_equal. pose proof (Z.div_mod b 16). lia.
Qed.

Lemma hex_of_hash_nonempty h : hex_of_hash h <> [].
Proof. unfold hex_of_hash. cbn. discriminate. Qed.

Section Json.
  Context {V : Type} (sats : V -> Z) (val : Z -> V).

  Lemma json_txis_core ins acc :
    Forall (fun i => length (wi_txid i) = 32%nat /\ bytes (wi_txid i)) ins ->
    json_txis (map (fun i => mk_jti (hex_of_hash (wi_txid i)) (wi_vout i)) ins) acc
    = Some (acc ++ map to_txi ins).
  Proof.
    intros H. revert acc. induction H as [|i ins [H1 H2] H IH]; intros acc; cbn [map json_txis].
    - rewrite app_nil_r. done.
    - cbn [ji_txid ji_vout]. destruct (decide _) as [E|_]; [exfalso; eapply hex_of_hash_nonempty, E|].
      rewrite hash_hex_roundtrip by done. cbn [mbind option_bind]. rewrite IH, <- app_assoc. done.
  Qed.

  Lemma json_txos_core outs acc scripts :
    Forall (fun o => sats (val (wo_value o)) = wo_value o /\ bytes (wo_script o)) outs ->
    len scripts + len (concat (map wo_script outs)) < 2^31 ->
    json_txos sats (map (fun o => mk_jto (val (wo_value o)) (hex_encode (wo_script o))) outs) acc scripts
    = Some (acc ++ to_txos (len scripts) outs, scripts ++ concat (map wo_script outs)).
  Proof.
    intros H. revert acc scripts. induction H as [|o outs [H1 H2] H IH]; intros acc scripts Hs;
      cbn [map json_txos concat to_txos].
    - rewrite !app_nil_r. done.
    - cbn [jo_hex jo_value]. cbn [map concat] in Hs. rewrite app_length in Hs.
      rewrite hex_decode_encode by done. cbn [mbind option_bind].
      rewrite IH by (rewrite app_length; lia).
      rewrite H1, !to_i32_small by lia. rewrite <- !app_assoc, app_length, Nat2Z.inj_add. done.
  Qed.

  (** ** C57 *)
  Theorem C57_json_and_binary_agree sha pre t post st :
    (forall l, length (sha l) = 32%nat /\ bytes (sha l)) ->
    wf_trans t -> Forall (fun i => bytes (wi_txid i)) (wt_ins t) ->
    Forall (fun o => bytes (wo_script o) /\ sats (val (wo_value o)) = wo_value o) (wt_outs t) ->
    Z.of_nat (length (st_scripts st) + length (scripts_of t)) < 2^31 ->
    exists t' st', parse_json sats (core_json val sha t) st = Some (t', st') /\
      parse_trans sha (pre ++ ser_trans t ++ post) (Z.of_nat (length pre)) st
        = Some (t', st', Z.of_nat (length (ser_trans t))).
  Proof.
    intros Hsha Ht Hi Ho Hs. exists (trans_of sha st t), (extend st t).
    split; [|apply parse_trans_at with (rest := post); [done|exists pre; done|lia]].
    destruct Ht as (W1 & W2 & W3 & W4 & W5 & W6 & W7).
    unfold parse_json, core_json. cbn [jt_txid jt_vin jt_vout jt_version jt_size jt_vsize jt_weight].
    rewrite hash_hex_roundtrip by apply Hsha. cbn [mbind option_bind].
    rewrite json_txis_core.
    2:{ apply Forall_forall. intros i Hin. rewrite Forall_forall in W5, Hi. split; [apply W5|apply Hi]; done. }
    cbn [mbind option_bind]. rewrite json_txos_core.
    2:{ eapply Forall_impl; [exact Ho|]. intros o [? ?]. done. }
    2:{ unfold scripts_of in Hs. lia. }
    cbn [mbind option_bind]. rewrite !map_length. unfold trans_of, extend, scripts_of.
    assert (exists w, len (ser_trans t) = len (ser_stripped t) + w /\
       (wt_segwit t = false /\ w = 0 \/ wt_segwit t = true /\ 2 <= w)) as (w & Ew & Hw).
    { unfold ser_trans, ser_stripped. destruct (wt_segwit t).
      - exists (2 + len (concat (map ser_stack (wt_ins t)))). split; [|right; lia].
        rewrite !app_length, !le_enc_length. cbn [length]. lia.
      - exists 0. split; [|left; done]. rewrite !app_length. cbn [length]. lia. }
    assert (8 <= len (ser_stripped t)) as Hpos.
    { unfold ser_stripped. rewrite !app_length, !le_enc_length. lia. }
    set (s := len (ser_stripped t)) in *. rewrite Ew.
    assert ((3 * s + (s + w) - (s + w)) `quot` 3 = s) as ->.
    { replace (3 * s + (s + w) - (s + w)) with (s * 3) by lia. apply Z.quot_mul. lia. }
    destruct (Z.eqb_spec (3 * s + (s + w)) 0); [lia|]. destruct (Z.eqb_spec s 0); [lia|]. cbn [orb].
    assert ((if wt_version t <? 2^31 then wt_version t else wt_version t - 2^32) mod 2^32 = wt_version t) as ->.
    { unfold u32 in W1. destruct (Z.ltb_spec (wt_version t) (2^31)).
      - apply Z.mod_small. lia.
      - replace (wt_version t - 2^32) with (wt_version t + (-1) * 2^32) by lia.
        rewrite Z_mod_plus_full. apply Z.mod_small. lia. }
    assert (((3 * s + (s + w) + 3) / 4 <? s + w) = wt_segwit t) as ->.
    { pose proof (Z.div_mod (3 * s + (s + w) + 3) 4 ltac:(lia)).
      pose proof (Z.mod_pos_bound (3 * s + (s + w) + 3) 4 ltac:(lia)).
      destruct Hw as [[-> ->]|[-> Hw]].
      - apply Z.ltb_ge. lia.
      - apply Z.ltb_lt. lia. }
    rewrite Z.quot_div_nonneg by lia. do 3 f_equal; [lia|]. f_equal. lia.
  Qed.
End Json.

(** The coinbase input has no txid in JSON and is read with output number 0, where the binary form says
    4294967295: agreement is for inputs with a txid. *)
Example C57_coinbase_differs :
  json_txis [mk_jti [] 0] [] = Some [mk_txi (replicate 32 0) 0].
Proof. vm_compute. done. Qed.
Example C57_example :
  let t := mk_wtrans 4294967295 true [mk_win (replicate 32 8) 0 [] 5 [[4; 5]; []]] [mk_wout 77 [1; 171]] 500 in
  wf_trans t /\ Forall (fun i => bytes (wi_txid i)) (wt_ins t) /\
  option_map (fun '(t', st') => (tr_segwit t', tr_version t', tr_stripped t', st_scripts st'))
    (parse_json (fun x => x) (core_json (fun x => x) (fun _ => replicate 32 3) t) st_empty)
  = Some (true, 4294967295, 62, [1; 171]).
Proof.
  split.
  { unfold wf_trans, u32, small; cbn; split_and!; try lia; try done;
     repeat (apply Forall_cons_2 || apply Forall_nil_2);
     unfold wf_input, wf_output, u32, small, is_i64; cbn; split_and!; try lia; try done;
     repeat (apply Forall_cons_2 || apply Forall_nil_2); cbn; lia. }
  split; [|vm_compute; done]. repeat constructor; unfold is_byte; lia.
Qed.

Print Assumptions C57_json_and_binary_agree.
