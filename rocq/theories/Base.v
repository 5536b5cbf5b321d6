(** Shared basics: bytes, little-endian coding, byte files. *)
From stdpp Require Export prelude gmap.
From Coq Require Export ZArith Lia.
From Coq Require Import ZifyBool ZifyNat ZifyN.
Open Scope Z_scope.

(** ** Bytes *)
Definition is_byte (b : Z) : Prop := 0 <= b < 256.
Definition bytes (l : list Z) : Prop := Forall is_byte l.

(** ** Little endian.
    [le_enc n v] is the first [n] bytes of [binary.LittleEndian.PutUint64(_, uint64(v))]
    (Go two's complement conversion; [v] may be negative).
    [le_dec l] is the unsigned number whose little-endian bytes are [l]. *)
Fixpoint le_enc (n : nat) (v : Z) : list Z :=
  match n with
  | O => []
  | S n' => (v mod 256) :: le_enc n' (v / 256)
  end.

Fixpoint le_dec (l : list Z) : Z :=
  match l with
  | [] => 0
  | b :: l' => b + 256 * le_dec l'
  end.

(** Go [int64(u)] of an unsigned 64-bit value. *)
Definition to_i64 (u : Z) : Z := if u <? 2^63 then u else u - 2^64.
(** Go [uint64(v)] *)
Definition to_u64 (v : Z) : Z := v mod 2^64.
Definition is_i64 (v : Z) : Prop := - 2^63 <= v < 2^63.
Definition is_u64 (v : Z) : Prop := 0 <= v < 2^64.

Definition pow256 (n : nat) : Z := 256 ^ Z.of_nat n.

Lemma pow256_0 : pow256 0 = 1.
Proof. reflexivity. Qed.
Lemma pow256_S n : pow256 (S n) = 256 * pow256 n.
Proof. unfold pow256. rewrite Nat2Z.inj_succ, Z.pow_succ_r by lia. reflexivity. Qed.
Lemma pow256_pos n : 0 < pow256 n.
Proof. unfold pow256. apply Z.pow_pos_nonneg; lia. Qed.
Lemma pow256_add n m : pow256 (n + m) = pow256 n * pow256 m.
Proof. unfold pow256. rewrite Nat2Z.inj_add, Z.pow_add_r by lia. reflexivity. Qed.
Lemma pow256_le n m : (n <= m)%nat -> pow256 n <= pow256 m.
Proof. intros H. unfold pow256. apply Z.pow_le_mono_r; lia. Qed.
Lemma pow256_8 : pow256 8 = 2^64.
Proof. reflexivity. Qed.

Lemma le_enc_length n v : length (le_enc n v) = n.
Proof. revert v; induction n as [|n IH]; intros v; cbn; [reflexivity|]. rewrite IH. reflexivity. Qed.

Lemma le_enc_bytes n v : bytes (le_enc n v).
Proof.
  revert v; induction n as [|n IH]; intros v; cbn; constructor; [|apply IH].
  unfold is_byte. apply Z.mod_pos_bound. lia.
Qed.

Lemma le_dec_range l : bytes l -> 0 <= le_dec l < pow256 (length l).
Proof.
  induction 1 as [|b l Hb Hl IH].
  - cbn [le_dec length]. rewrite pow256_0. lia.
  - cbn [le_dec length]. rewrite pow256_S. unfold is_byte in Hb. lia.
Qed.

Lemma le_dec_enc n v : le_dec (le_enc n v) = v mod pow256 n.
Proof.
  revert v; induction n as [|n IH]; intros v; cbn [le_dec le_enc].
  - rewrite pow256_0, Z.mod_1_r. reflexivity.
  - rewrite IH, pow256_S. pose proof (pow256_pos n).
    rewrite Z.rem_mul_r by lia. reflexivity.
Qed.

Lemma le_dec_enc_small n v : 0 <= v < pow256 n -> le_dec (le_enc n v) = v.
Proof. intros H. rewrite le_dec_enc. apply Z.mod_small, H. Qed.

Lemma le_enc_dec l : bytes l -> le_enc (length l) (le_dec l) = l.
Proof.
  induction 1 as [|b l Hb Hl IH]; cbn [le_enc le_dec length]; [reflexivity|].
  unfold is_byte in Hb. f_equal.
  - rewrite Z.mul_comm, Z_mod_plus_full. apply Z.mod_small. lia.
  - rewrite Z.mul_comm, Z_div_plus_full by lia. rewrite Z.div_small by lia. rewrite Z.add_0_l. exact IH.
Qed.

Lemma le_enc_mod n v : le_enc n (v mod pow256 n) = le_enc n v.
Proof.
  pose proof (le_enc_dec (le_enc n v) (le_enc_bytes n v)) as H.
  rewrite le_enc_length, le_dec_enc in H. exact H.
Qed.

Lemma le_enc_inj n v w : le_enc n v = le_enc n w -> v mod pow256 n = w mod pow256 n.
Proof. intros H. rewrite <- !le_dec_enc, H. reflexivity. Qed.

Lemma le_enc_app n m v : le_enc (n + m) v = le_enc n v ++ le_enc m (v / pow256 n).
Proof.
  revert v; induction n as [|n IH]; intros v; cbn [le_enc Nat.add app].
  - rewrite pow256_0, Z.div_1_r. reflexivity.
  - f_equal. rewrite IH, pow256_S. pose proof (pow256_pos n). rewrite Z.div_div by lia. reflexivity.
Qed.

Lemma le_dec_app l k : le_dec (l ++ k) = le_dec l + pow256 (length l) * le_dec k.
Proof.
  induction l as [|b l IH]; cbn [le_dec app length].
  - rewrite pow256_0. lia.
  - rewrite IH, pow256_S. lia.
Qed.

Lemma le_dec_replicate0 n : le_dec (replicate n 0) = 0.
Proof. induction n as [|n IH]; cbn [replicate le_dec]; lia. Qed.

Lemma le_dec_inj l k : bytes l -> bytes k -> length l = length k -> le_dec l = le_dec k -> l = k.
Proof.
  intros Hl Hk Hlen Heq.
  rewrite <- (le_enc_dec l Hl), <- (le_enc_dec k Hk), Hlen, Heq. reflexivity.
Qed.

Lemma to_i64_small u : 0 <= u < 2^63 -> to_i64 u = u.
Proof. intros H. unfold to_i64. destruct (Z.ltb_spec u (2^63)); lia. Qed.

Lemma to_i64_to_u64 v : is_i64 v -> to_i64 (to_u64 v) = v.
Proof.
  intros H. unfold is_i64 in H. unfold to_i64, to_u64.
  destruct (Z.ltb_spec v 0).
  - rewrite <- (Z_mod_plus_full v 1 (2^64)), Z.mod_small by lia.
    destruct (Z.ltb_spec (v + 1 * 2^64) (2^63)); lia.
  - rewrite Z.mod_small by lia. destruct (Z.ltb_spec v (2^63)); lia.
Qed.

(** ** Byte files (os.File).
    [file_write f off d] : [f.WriteAt(d, off)]; a gap past the end is zero filled; writing nothing
    changes nothing.  [file_read f off n] : [f.ReadAt(p[0:n], off)], [None] = io.EOF (short read). *)
Definition file_write (f : list Z) (off : nat) (d : list Z) : list Z :=
  match d with
  | [] => f
  | _ => take off (f ++ replicate (off - length f) 0) ++ d ++ drop (off + length d) f
  end.

Definition file_read (f : list Z) (off n : nat) : option (list Z) :=
  if decide (off + n <= length f)%nat then Some (take n (drop off f)) else None.

Lemma file_write_length f off d :
  d <> [] -> length (file_write f off d) = (length f `max` (off + length d))%nat.
Proof.
  intros Hd. unfold file_write. destruct d as [|b d']; [done|].
  rewrite !app_length, take_length, app_length, replicate_length, drop_length. cbn [length]. lia.
Qed.

Lemma file_write_length_le f off d : (length f <= length (file_write f off d))%nat.
Proof.
  destruct d as [|b d]; [reflexivity|]. rewrite file_write_length by done. lia.
Qed.

Lemma file_write_in f off d i :
  (i < length d)%nat -> file_write f off d !! (off + i)%nat = d !! i.
Proof.
  intros Hi. unfold file_write. destruct d as [|b d']; [cbn in Hi; lia|].
  rewrite lookup_app_r.
  2:{ rewrite take_length, app_length, replicate_length. lia. }
  rewrite take_length, app_length, replicate_length.
  rewrite lookup_app_l by lia. f_equal. lia.
Qed.

Lemma file_write_before f off d i :
  (i < length f)%nat -> (i < off)%nat -> file_write f off d !! i = f !! i.
Proof.
  intros Hf Hi. unfold file_write. destruct d as [|b d']; [done|].
  rewrite lookup_app_l.
  2:{ rewrite take_length, app_length, replicate_length. lia. }
  rewrite lookup_take by lia. rewrite lookup_app_l by lia. done.
Qed.

Lemma file_write_gap f off d i :
  d <> [] -> (length f <= i)%nat -> (i < off)%nat -> file_write f off d !! i = Some 0.
Proof.
  intros Hd Hf Hi. unfold file_write. destruct d as [|b d']; [done|].
  rewrite lookup_app_l.
  2:{ rewrite take_length, app_length, replicate_length. lia. }
  rewrite lookup_take by lia. rewrite lookup_app_r by lia.
  rewrite lookup_replicate_2 by lia. done.
Qed.

Lemma file_write_after f off d i :
  (off + length d <= i)%nat -> file_write f off d !! i = f !! i.
Proof.
  intros Hi. unfold file_write. destruct d as [|b d']; [done|].
  rewrite lookup_app_r.
  2:{ rewrite take_length, app_length, replicate_length. lia. }
  rewrite take_length, app_length, replicate_length.
  destruct (decide (length f <= i)%nat) as [Hge|Hlt].
  - rewrite (lookup_ge_None_2 f i Hge). apply lookup_ge_None_2.
    rewrite app_length, drop_length. lia.
  - rewrite lookup_app_r by lia. rewrite lookup_drop. f_equal. lia.
Qed.

Lemma file_write_append f d : file_write f (length f) d = f ++ d.
Proof.
  unfold file_write. destruct d as [|b d']; [rewrite app_nil_r; done|].
  rewrite Nat.sub_diag. cbn [replicate]. rewrite app_nil_r, firstn_all.
  rewrite drop_ge by lia. rewrite app_nil_r. done.
Qed.

Lemma file_write_bytes f off d : bytes f -> bytes d -> bytes (file_write f off d).
Proof.
  intros Hf Hd. unfold file_write. destruct d as [|b d']; [done|].
  apply Forall_app_2; [|apply Forall_app_2; [done|apply Forall_drop, Hf]].
  apply Forall_take, Forall_app_2; [done|].
  apply Forall_replicate. unfold is_byte. lia.
Qed.

Lemma file_read_length f off n d : file_read f off n = Some d -> length d = n.
Proof.
  unfold file_read. destruct (decide _) as [Hle|]; [|done].
  intros [= <-]. rewrite take_length, drop_length. lia.
Qed.

(** ** Files made of fixed size records *)
Definition chunks (w : nat) (ls : list (list Z)) : Prop := Forall (fun l => length l = w) ls.

(** Update of record [off] in a list, filling a gap with [dflt]. *)
Definition rec_write {A} (dflt : A) (l : list A) (off : nat) (v : A) : list A :=
  take off (l ++ replicate (off - length l) dflt) ++ v :: drop (S off) l.

Lemma rec_write_length {A} (dflt : A) l off v :
  length (rec_write dflt l off v) = (length l `max` S off)%nat.
Proof.
  unfold rec_write. rewrite app_length, take_length, app_length, replicate_length. cbn [length].
  rewrite drop_length. lia.
Qed.

Lemma rec_write_eq {A} (dflt : A) l off v : rec_write dflt l off v !! off = Some v.
Proof.
  unfold rec_write. rewrite lookup_app_r; rewrite take_length, app_length, replicate_length; [|lia].
  replace (off - _)%nat with 0%nat by lia. done.
Qed.

Lemma rec_write_gap {A} (dflt : A) l off v i :
  (length l <= i)%nat -> (i < off)%nat -> rec_write dflt l off v !! i = Some dflt.
Proof.
  intros H1 H2. unfold rec_write. rewrite lookup_app_l.
  2:{ rewrite take_length, app_length, replicate_length. lia. }
  rewrite lookup_take by lia. rewrite lookup_app_r by lia. rewrite lookup_replicate_2 by lia. done.
Qed.

Lemma rec_write_ne {A} (dflt : A) l off v i :
  i <> off -> ((i < length l)%nat \/ (off < i)%nat) -> rec_write dflt l off v !! i = l !! i.
Proof.
  intros H1 H2. unfold rec_write.
  destruct (decide (i < off)%nat) as [Hlt|Hge].
  - rewrite lookup_app_l.
    2:{ rewrite take_length, app_length, replicate_length. lia. }
    rewrite lookup_take by lia. rewrite lookup_app_l by lia. done.
  - rewrite lookup_app_r; rewrite take_length, app_length, replicate_length; [|lia].
    replace (off `min` (length l + (off - length l)))%nat with off by lia.
    rewrite lookup_cons_ne_0 by lia. rewrite lookup_drop. f_equal. lia.
Qed.

Lemma rec_write_append {A} (dflt : A) l v : rec_write dflt l (length l) v = l ++ [v].
Proof.
  unfold rec_write. rewrite Nat.sub_diag. cbn [replicate]. rewrite app_nil_r, firstn_all.
  rewrite drop_ge by lia. done.
Qed.

Lemma chunks_concat_length w ls : chunks w ls -> length (concat ls) = (length ls * w)%nat.
Proof. induction 1 as [|l ls Hl H IH]; cbn; [done|]. rewrite app_length, IH, Hl. lia. Qed.

Lemma chunks_take w ls i : chunks w ls -> take (i * w) (concat ls) = concat (take i ls).
Proof.
  intros H. revert i. induction H as [|l ls Hl H IH]; intros i.
  - cbn. rewrite !take_nil. done.
  - destruct i as [|i]; [done|]. cbn. rewrite <- IH, <- Hl, firstn_app_2. done.
Qed.

Lemma chunks_drop w ls i : chunks w ls -> drop (i * w) (concat ls) = concat (drop i ls).
Proof.
  intros H. revert i. induction H as [|l ls Hl H IH]; intros i.
  - cbn. rewrite !drop_nil. done.
  - destruct i as [|i]; [done|]. cbn. rewrite <- IH, <- Hl.
    rewrite <- drop_drop, drop_app. done.
Qed.

Lemma chunks_read w ls i : chunks w ls ->
  take w (drop (i * w) (concat ls)) = default [] (ls !! i).
Proof.
  intros H. rewrite chunks_drop by done.
  destruct (ls !! i) as [l|] eqn:E.
  - rewrite (drop_S _ _ _ E). cbn.
    assert (length l = w) as Hl by (eapply Forall_lookup_1 in H; eauto).
    rewrite take_app_alt by done. done.
  - rewrite drop_ge by (apply lookup_ge_None_1, E). cbn [concat]. rewrite take_nil. done.
Qed.

Lemma chunks_write w ls off d : (0 < w)%nat -> chunks w ls -> length d = w ->
  file_write (concat ls) (off * w) d = concat (rec_write (replicate w 0) ls off d).
Proof.
  intros Hw H Hd. unfold file_write, rec_write. destruct d as [|b d]; [cbn in Hd; lia|].
  remember (b :: d) as dd. rewrite Hd.
  replace (off * w + w)%nat with (S off * w)%nat by (cbn; lia).
  rewrite chunks_drop by done. rewrite concat_app. cbn [concat]. f_equal.
  rewrite (chunks_concat_length w) by done.
  rewrite <- Nat.mul_sub_distr_r.
  assert (replicate ((off - length ls) * w) 0 = concat (replicate (off - length ls) (replicate w 0))) as ->.
  { clear. induction (off - length ls)%nat as [|n IH]; cbn; [done|]. rewrite <- IH, replicate_add. done. }
  rewrite <- concat_app, chunks_take; [done|].
  apply Forall_app_2; [done|]. apply Forall_replicate. apply replicate_length.
Qed.

Lemma rec_write_chunks w ls off d : chunks w ls -> length d = w ->
  chunks w (rec_write (replicate w 0) ls off d).
Proof.
  intros H Hd. unfold chunks, rec_write. apply Forall_app_2.
  - apply Forall_take, Forall_app_2; [done|]. apply Forall_replicate, replicate_length.
  - constructor; [done|]. apply Forall_drop, H.
Qed.

Lemma rec_write_fmap {A B} (g : A -> B) (dflt : A) l off v :
  g <$> rec_write dflt l off v = rec_write (g dflt) (g <$> l) off (g v).
Proof.
  unfold rec_write. rewrite fmap_app, fmap_cons, fmap_take, fmap_drop, fmap_app, fmap_replicate, fmap_length. done.
Qed.

Lemma le_enc_0 n : le_enc n 0 = replicate n 0.
Proof. induction n as [|n IH]; cbn [le_enc replicate]; [done|]. rewrite Z.mod_0_l, Z.div_0_l, IH by lia. done. Qed.

Lemma take_le_enc n m v : (n <= m)%nat -> take n (le_enc m v) = le_enc n v.
Proof.
  intros H. replace m with (n + (m - n))%nat by lia. rewrite le_enc_app.
  rewrite take_app_alt by (rewrite le_enc_length; done). done.
Qed.

Lemma drop_le_enc n m v : (n <= m)%nat -> drop n (le_enc m v) = le_enc (m - n) (v / pow256 n).
Proof.
  intros H. replace m with (n + (m - n))%nat at 1 by lia. rewrite le_enc_app.
  rewrite drop_app_alt by (rewrite le_enc_length; done). done.
Qed.
