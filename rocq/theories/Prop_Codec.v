(** Properties C07 (varint), C08 (array files), C12 and C55 (hash text). *)
From Verif Require Import Base Model_Codec Spec_Codec Proof_Codec.

(** C07. Decoding inverts encoding and consumes exactly the encoding, whatever follows. *)
Theorem C07_varint_round_trip :
  forall (v : Z) (rest : list Z), 0 <= v < 2^63 ->
    varint_dec (varint_enc v ++ rest) = Some (v, length (varint_enc v)).
Proof. exact varint_dec_enc. Qed.

(** C07. A strict prefix of an encoding is rejected (the Go code panics). *)
Theorem C07_varint_strict_prefix_rejected :
  forall (v : Z) (p : list Z), 0 <= v < 2^63 -> strict_prefix p (varint_enc v) -> varint_dec p = None.
Proof. exact varint_strict_prefix. Qed.

(** C07. A concatenation of encodings decodes to exactly the encoded sequence. *)
Fixpoint decode_n (n : nat) (l : list Z) : option (list Z * list Z) :=
  match n with
  | O => Some ([], l)
  | S n' => match varint_dec l with
            | Some (v, k) => match decode_n n' (drop k l) with Some (vs, r) => Some (v :: vs, r) | None => None end
            | None => None
            end
  end.
Theorem C07_varint_sequence :
  forall (vs : list Z) (rest : list Z), Forall (fun v => 0 <= v < 2^63) vs ->
    decode_n (length vs) (concat (map varint_enc vs) ++ rest) = Some (vs, rest).
Proof.
  intros vs rest H. induction H as [|v vs Hv H IH]; [reflexivity|].
  cbn [length decode_n map concat]. rewrite <- app_assoc, varint_dec_enc by exact Hv.
  rewrite drop_app, IH. reflexivity.
Qed.

Example C07_example :
  map varint_enc [0; 252; 253; 65535; 65536; 4294967295; 4294967296] =
  [[0]; [252]; [253; 253; 0]; [253; 255; 255]; [254; 0; 0; 1; 0]; [254; 255; 255; 255; 255];
   [255; 0; 0; 0; 0; 1; 0; 0; 0]] /\
  strict_prefix [253; 255] (varint_enc 65535).
Proof. split; [vm_compute; reflexivity|]. exists [255]. split; [discriminate|reflexivity]. Qed.

(** C08. Loading a saved file gives back every array, each element as its field stores it. *)
Theorem C08_array_file_round_trip :
  forall (a b : iaa),
    (iaa_esize a <= 8)%nat ->
    iaa_esize b = iaa_esize a -> iaa_count b = iaa_count a ->
    (forall k, Z.of_nat (length (iaa_get a k)) < 2^63) ->
    exists c, iaa_load b (iaa_save a) = Some c /\
      forall k, (k < iaa_count a)%nat -> iaa_get c k = map (stored_as (iaa_esize a)) (iaa_get a k).
Proof.
  intros a b Hes He Hc Hlen. unfold iaa_load, iaa_save. rewrite He, Hc.
  destruct (load_arrays_save (iaa_esize a) (iaa_get a) 0 (iaa_count a) [] ∅ 0 Hes) as (m & E & H1 & _).
  { intros k _. apply Hlen. }
  rewrite app_nil_r in E. rewrite E. eexists. split; [reflexivity|].
  intros k Hk. unfold iaa_get at 1. cbn [iaa_map]. rewrite H1 by lia. reflexivity.
Qed.

(** C08. Elements that fit the configured size are stored unchanged. *)
Theorem C08_fitting_elements_unchanged :
  forall (es : nat) (v : Z), (es < 8)%nat -> 0 <= v < pow256 es -> stored_as es v = v.
Proof.
  intros es v Hes Hv. unfold stored_as. rewrite Z.mod_small by exact Hv. apply to_i64_small.
  assert (pow256 es <= pow256 7) by (apply pow256_le; lia).
  assert (pow256 7 <= 2^63) by (vm_compute; discriminate). lia.
Qed.
Theorem C08_eight_byte_elements_unchanged :
  forall (v : Z), is_i64 v -> stored_as 8 v = v.
Proof. intros v Hv. exact (to_i64_to_u64 v Hv). Qed.

(** C08. An array is the sequence of values appended under its key. *)
Theorem C08_arrays_are_append_histories :
  forall (count es : nat) (hist : list (nat * Z)) (k : nat),
    iaa_get (fold_left (fun a kv => iaa_append a kv.1 kv.2) hist (iaa_new count es)) k
    = map snd (filter (fun kv => kv.1 = k) hist).
Proof.
  intros count es hist k.
  induction hist as [|[key v] hist IH] using rev_ind; [reflexivity|].
  rewrite fold_left_app. cbn [fold_left fst snd]. rewrite iaa_append_get, filter_app.
  rewrite map_app. destruct (decide (k = key)) as [->|Hne].
  - rewrite filter_cons_True by reflexivity. rewrite filter_nil. cbn [map snd]. rewrite <- IH. reflexivity.
  - rewrite filter_cons_False by (cbn; congruence). rewrite filter_nil. cbn [map]. rewrite app_nil_r. exact IH.
Qed.

Example C08_example :
  let a := iaa_append (iaa_append (iaa_append (iaa_new 3 2) 1 70000) 1 5) 0 9 in
  (iaa_esize a <= 8)%nat /\ (forall k, Z.of_nat (length (iaa_get a k)) < 2^63) /\
  iaa_save a = [1; 9; 0; 2; 112; 17; 5; 0; 0].
Proof.
  cbv zeta. split_and!.
  - vm_compute. lia.
  - intros k. rewrite !iaa_append_get. repeat (destruct (decide _)); vm_compute; reflexivity.
  - vm_compute. reflexivity.
Qed.

(** C12. Hash -> text -> hash. *)
Theorem C12_hash_text_hash :
  forall h, length h = 32%nat -> bytes h -> hash_of_hex (hex_of_hash h) = Some h.
Proof. exact hash_hex_roundtrip. Qed.

(** C12. Text -> hash -> text gives the text in lower case. *)
Theorem C12_text_hash_text :
  forall t, length t = 64%nat -> Forall is_hex_char t ->
    exists h, hash_of_hex t = Some h /\ hex_of_hash h = map lower t.
Proof. exact hex_hash_roundtrip. Qed.

(** C12. Other lengths are rejected. *)
Theorem C12_other_lengths_rejected :
  forall t, length t <> 64%nat -> hash_of_hex t = None.
Proof. intros t H. unfold hash_of_hex. destruct (decide _); [contradiction|reflexivity]. Qed.

(** The display text is byte-reversed: the last byte of the hash comes first. *)
Theorem C12_display_is_reversed :
  forall h, length h = 32%nat -> hex_of_hash h = hex_encode (reverse h).
Proof. intros h H. unfold hex_of_hash. rewrite rev32 by exact H. reflexivity. Qed.

Example C12_example :
  let h := map Z.of_nat (seq 200 32) in
  length h = 32%nat /\ bytes h /\ take 4 (hex_of_hash h) = [101; 55; 101; 54] /\
  Forall is_hex_char (hex_of_hash h).
Proof.
  cbv zeta. split_and!; [reflexivity| |vm_compute; reflexivity|].
  - apply Forall_forall. intros x Hx. unfold is_byte.
    apply elem_of_list_fmap in Hx as (n & -> & Hn). apply elem_of_seq in Hn. lia.
  - vm_compute hex_of_hash. repeat (apply Forall_cons; split; [unfold is_hex_char; lia|]). apply Forall_nil_2.
Qed.

(** C55. Texts containing non-hexadecimal characters are not rejected: they are read as zero digits. *)
Theorem C55_non_hex_text_rejected_refuted :
  exists t, length t = 64%nat /\ ~ Forall is_hex_char t /\ hash_of_hex t = Some (replicate 32 0).
Proof.
  exists (replicate 64 122). split_and!; [reflexivity| |vm_compute; reflexivity].
  intros H. apply Forall_cons in H as [H _]. unfold is_hex_char in H. lia.
Qed.

Print Assumptions C07_varint_round_trip.
Print Assumptions C07_varint_strict_prefix_rejected.
Print Assumptions C07_varint_sequence.
Print Assumptions C08_array_file_round_trip.
Print Assumptions C08_fitting_elements_unchanged.
Print Assumptions C08_eight_byte_elements_unchanged.
Print Assumptions C08_arrays_are_append_histories.
Print Assumptions C12_hash_text_hash.
Print Assumptions C12_text_hash_text.
Print Assumptions C12_other_lengths_rejected.
Print Assumptions C12_display_is_reversed.
Print Assumptions C55_non_hex_text_rejected_refuted.
