(** Lemmas about the fixed-size nodes. *)
From Coq Require Import Sorting.Sorted.
From Verif Require Import Base Model_Tree Spec_Tree Proof_Tree Model_Pool Spec_Pool Proof_Pool Model_Fixed.

(** ** Choosing a spec *)
Lemma suitable_in cp lv slots s : suitable cp lv slots = Some s -> s ∈ cp /\ (slots <= s_size s)%nat /\ s_fmt s <> Duplicate /\ s_level s = lv.
Proof.
  unfold suitable. assert (H : forall (P : spec -> Prop) best, (forall b, best = Some b -> P b /\ (slots <= s_size b)%nat /\ s_fmt b <> Duplicate /\ s_level b = lv) -> (forall x, x ∈ cp -> P x) ->
    foldl (fun best s => if (slots <=? s_size s)%nat && negb (bool_decide (s_fmt s = Duplicate)) && Nat.eqb (s_level s) lv then
      match best with None => Some s | Some b => if (byte_size s <? byte_size b)%nat then Some s else best end else best) best cp = Some s ->
    P s /\ (slots <= s_size s)%nat /\ s_fmt s <> Duplicate /\ s_level s = lv).
  { intros P. induction cp as [|a cp IH]; intros best Hb HP E; cbn [foldl] in E; [by apply Hb|].
    revert E. apply IH; [|intros x Hx; apply HP; by right].
    intros b. destruct ((slots <=? s_size a)%nat && negb (bool_decide (s_fmt a = Duplicate)) && Nat.eqb (s_level a) lv) eqn:Ea; [|apply Hb].
    apply andb_true_iff in Ea as [Ea E3]. apply andb_true_iff in Ea as [E1 E2]. apply Nat.leb_le in E1. apply negb_true_iff, bool_decide_eq_false in E2. apply Nat.eqb_eq in E3.
    destruct best as [b0|].
    - destruct (byte_size a <? byte_size b0)%nat; [|apply Hb]. intros [= <-]. split_and!; [apply HP; left|done|done|done].
    - intros [= <-]. split_and!; [apply HP; left|done|done|done]. }
  intros E. apply (H (fun x => x ∈ cp) None); [done|done|exact E].
Qed.
Lemma suitable_some cp lv slots s : s ∈ cp -> (slots <= s_size s)%nat -> s_fmt s <> Duplicate -> s_level s = lv -> exists s', suitable cp lv slots = Some s'.
Proof.
  unfold suitable. intros Hs H1 H2 H3.
  set (step := fun (best : option spec) (s : spec) => if (slots <=? s_size s)%nat && negb (bool_decide (s_fmt s = Duplicate)) && Nat.eqb (s_level s) lv then
      match best with None => Some s | Some b => if (byte_size s <? byte_size b)%nat then Some s else best end else best).
  assert (K : forall l b, exists b', foldl step (Some b) l = Some b').
  { induction l as [|a l IH]; intros b; cbn [foldl]; [by eexists|]. unfold step at 2. destruct (_ && _); [destruct (_ <? _)%nat|]; apply IH. }
  generalize (@None spec) as best. induction cp as [|a cp IH]; intros best; [by apply elem_of_nil in Hs|]. cbn [foldl]. apply elem_of_cons in Hs as [<-|Hs]; [|by apply IH].
  unfold step at 2. rewrite (proj2 (Nat.leb_le _ _)) by done. rewrite bool_decide_false by done. rewrite (proj2 (Nat.eqb_eq _ _)) by done. cbn [andb negb].
  destruct best as [b|]; [destruct (_ <? _)%nat|]; apply K.
Qed.
Lemma suitable_dup_in cp lv s : suitable_duplicate cp lv = Some s -> s ∈ cp /\ s_fmt s = Duplicate /\ s_level s = lv.
Proof.
  unfold suitable_duplicate. assert (H : forall (P : spec -> Prop) best, (forall b, best = Some b -> P b /\ s_fmt b = Duplicate /\ s_level b = lv) -> (forall x, x ∈ cp -> P x) ->
    foldl (fun best s => if bool_decide (s_fmt s = Duplicate) && Nat.eqb (s_level s) lv then Some s else best) best cp = Some s -> P s /\ s_fmt s = Duplicate /\ s_level s = lv).
  { intros P. induction cp as [|a cp IH]; intros best Hb HP E; cbn [foldl] in E; [by apply Hb|]. revert E. apply IH; [|intros x Hx; apply HP; by right].
    intros b. destruct (_ && _) eqn:Ea; [|apply Hb]. apply andb_true_iff in Ea as [E1 E2]. apply bool_decide_eq_true in E1. apply Nat.eqb_eq in E2. intros [= <-]. split_and!; [apply HP; left|done|done]. }
  intros E. apply (H (fun x => x ∈ cp) None); [done|done|exact E].
Qed.
Lemma suitable_dup_some cp lv s : s ∈ cp -> s_fmt s = Duplicate -> s_level s = lv -> exists s', suitable_duplicate cp lv = Some s'.
Proof.
  unfold suitable_duplicate. intros Hs H2 H3.
  set (step := fun (best : option spec) (s : spec) => if bool_decide (s_fmt s = Duplicate) && Nat.eqb (s_level s) lv then Some s else best).
  assert (K : forall l b, exists b', foldl step (Some b) l = Some b').
  { induction l as [|a l IH]; intros b; cbn [foldl]; [by eexists|]. unfold step at 2. destruct (_ && _); apply IH. }
  generalize (@None spec) as best. induction cp as [|a cp IH]; intros best; [by apply elem_of_nil in Hs|]. cbn [foldl]. apply elem_of_cons in Hs as [<-|Hs]; [|by apply IH].
  unfold step at 2. rewrite bool_decide_true by done. rewrite (proj2 (Nat.eqb_eq _ _)) by done. apply K.
Qed.

(** ** The order of the nodes *)
Definition cp_sorted (cp : list spec) : Prop := StronglySorted (fun a b => less a b = true) cp.
Definition sorted_rs (rs : list reconf) : Prop := forall i j a b, (i < j)%nat -> rs !! i = Some a -> rs !! j = Some b -> less (r_spec b) (r_spec a) = false.
Definition sizes (rs : list reconf) : nat := sum_list_with (fun r => byte_size (r_spec r)) rs.

Lemma less_irrefl s : less s s = false.
Proof. unfold less. rewrite !Nat.eqb_refl. cbn [negb]. apply Nat.ltb_irrefl. Qed.
Lemma sorted_drop k rs : sorted_rs rs -> sorted_rs (drop k rs).
Proof. intros H i j a b Hij Ha Hb. rewrite lookup_drop in Ha, Hb. apply (H (k + i)%nat (k + j)%nat); [lia|done|done]. Qed.

Lemma front_ok s cp rs : cp_sorted (s :: cp) -> sorted_rs rs -> Forall (fun r => r_spec r ∈ s :: cp) rs ->
  (front s rs <= length rs)%nat /\ Forall (fun r => r_spec r = s) (take (front s rs) rs) /\ Forall (fun r => r_spec r ∈ cp) (drop (front s rs) rs).
Proof.
  intros Hc Hs Hin. apply StronglySorted_inv in Hc as [_ Hc]. induction rs as [|r rs IH]; cbn [front].
  - split_and!; [done|constructor|constructor].
  - apply Forall_cons in Hin as [Hr Hin]. case_bool_decide as Er.
    + destruct IH as (I1 & I2 & I3).
      { intros i j a b Hij Ha Hb. by apply (Hs (S i) (S j) a b); [lia|..]. }
      { done. }
      cbn [length take drop]. split_and!; [lia|by constructor|done].
    + cbn [length take drop]. split_and!; [lia|constructor|]. apply elem_of_cons in Hr as [Hr|Hr]; [done|]. constructor; [done|].
      apply Forall_forall. intros x Hx. rewrite Forall_forall in Hin. pose proof (Hin x Hx) as Hx'. apply elem_of_cons in Hx' as [Ex|Hx']; [|done]. exfalso.
      apply elem_of_list_lookup in Hx as (j & Hj). pose proof (Hs 0%nat (S j) r x ltac:(lia) eq_refl Hj) as Hl. rewrite Ex in Hl.
      rewrite Forall_forall in Hc. rewrite (Hc _ Hr) in Hl. done.
Qed.

Lemma sizes_same s rs : Forall (fun r => r_spec r = s) rs -> sizes rs = (length rs * byte_size s)%nat.
Proof. induction rs as [|r rs IH]; [done|]. intros H. apply Forall_cons in H as [Hr H]. unfold sizes in *. cbn [sum_list_with length]. rewrite IH by done. rewrite Hr. lia. Qed.
Lemma sizes_app a b : sizes (a ++ b) = (sizes a + sizes b)%nat.
Proof. apply sum_list_with_app. Qed.

Lemma locate_ok cp : forall s0 fid0 off0 rs next off i r, cp_sorted cp -> sorted_rs rs -> Forall (fun r => r_spec r ∈ cp) rs -> rs !! i = Some r ->
  locate_from s0 fid0 off0 (zip cp (layout cp rs next off)) (next + 1 + i) = (r_spec r, (off + sizes (take i rs))%nat).
Proof.
  induction cp as [|s cp IH]; intros s0 fid0 off0 rs next off i r Hc Hs Hin Hi.
  { exfalso. apply elem_of_list_lookup_2 in Hi. rewrite Forall_forall in Hin. specialize (Hin _ Hi). by apply elem_of_nil in Hin. }
  destruct (front_ok s cp rs Hc Hs Hin) as (F1 & F2 & F3). apply StronglySorted_inv in Hc as [Hc' _]. cbn [layout zip zip_with locate_from]. set (k := front s rs) in *.
  rewrite (proj2 (Nat.ltb_ge _ _)) by lia. fold (zip cp (layout cp (drop k rs) (next + k) (off + k * byte_size s))). destruct (decide (i < k)%nat) as [Hik|Hik].
  - assert (Hres : (s, (off + (next + 1 + i - (next + 1)) * byte_size s)%nat) = (r_spec r, (off + sizes (take i rs))%nat)).
    { assert (Hr : r_spec r = s). { rewrite Forall_forall in F2. apply F2. apply elem_of_list_lookup_2 with i. by rewrite lookup_take. }
      rewrite Hr. f_equal. rewrite (sizes_same s).
      - rewrite take_length. apply lookup_lt_Some in Hi. replace (i `min` length rs)%nat with i by lia. f_equal. f_equal. lia.
      - replace (take i rs) with (take i (take k rs)) by (rewrite take_take; f_equal; lia). by apply Forall_take. }
    destruct cp as [|s' cp']; cbn [layout zip zip_with locate_from]; [exact Hres|]. rewrite (proj2 (Nat.ltb_lt _ _)) by lia. exact Hres.
  - replace (next + 1 + i)%nat with ((next + k) + 1 + (i - k))%nat by lia. rewrite (IH _ _ _ (drop k rs) _ _ (i - k)%nat r).
    + f_equal. replace (take i rs) with (take k rs ++ take (i - k) (drop k rs)).
      * rewrite sizes_app, (sizes_same s (take k rs)) by done. rewrite take_length. replace (k `min` length rs)%nat with k by lia. lia.
      * rewrite take_drop_commute. replace (k + (i - k))%nat with i by lia. rewrite <- (take_drop k (take i rs)) at 2. rewrite take_take. by replace (k `min` i)%nat with k by lia.
    + done.
    + by apply sorted_drop.
    + done.
    + rewrite lookup_drop. by replace (k + (i - k))%nat with i by lia.
Qed.

Lemma concat_fmap_length {A} (f : A -> list Z) n l : (forall x, x ∈ l -> length (f x) = n) -> length (concat (f <$> l)) = (length l * n)%nat.
Proof.
  induction l as [|x l IH]; [done|]. intros H. rewrite fmap_cons. cbn [concat length]. rewrite app_length, (H x) by left. rewrite IH; [lia|].
  intros y Hy. apply H. by right.
Qed.
Lemma flag_bytes_length vs : length (flag_bytes vs) = 32%nat.
Proof.
  unfold flag_bytes. assert (H : forall bb : list Z, length bb = 32%nat ->
    length (foldl (fun bb v => <[(v / 8)%nat := Z.lor (bb !!! (v / 8)%nat) (Z.shiftl 1 (Z.of_nat (v mod 8)))]> bb) bb vs) = 32%nat).
  { induction vs as [|v vs IH]; intros bb Hb; cbn [foldl]; [done|]. apply IH. by rewrite insert_length. }
  by apply H.
Qed.
Lemma node_bytes_length count rs r : length (node_bytes count rs r) = byte_size (r_spec r).
Proof.
  unfold node_bytes, byte_size. destruct (s_fmt (r_spec r)).
  - cbn [length]. rewrite (concat_fmap_length _ 3); [by rewrite seq_length|]. intros i _. by destruct (_ !! i).
  - cbn [length]. rewrite app_length, flag_bytes_length. rewrite (concat_fmap_length _ 2); [rewrite seq_length; lia|]. intros i _. by destruct (_ !! i).
  - cbn [length]. rewrite (concat_fmap_length _ 2); [by rewrite seq_length|]. done.
  - done.
Qed.
Lemma all_bytes_length count all rs : length (concat (node_bytes count all <$> rs)) = sizes rs.
Proof. induction rs as [|r rs IH]; [done|]. rewrite fmap_cons. cbn [concat]. rewrite app_length, node_bytes_length, IH. done. Qed.

Lemma emit_ok count all cp : forall rs bs next, cp_sorted cp -> sorted_rs rs -> Forall (fun r => r_spec r ∈ cp) rs ->
  emit count all cp (layout cp rs next (length bs)) rs bs next = Some (bs ++ concat (node_bytes count all <$> rs)).
Proof.
  induction cp as [|s cp IH]; intros rs bs next Hc Hs Hin.
  { cbn [emit]. destruct rs as [|r rs]; [by rewrite app_nil_r|]. apply Forall_cons in Hin as [Hr _]. by apply elem_of_nil in Hr. }
  destruct (front_ok s cp rs Hc Hs Hin) as (F1 & F2 & F3). apply StronglySorted_inv in Hc as [Hc' _]. cbn [layout emit]. set (k := front s rs) in *.
  rewrite !Nat.eqb_refl. cbn [andb].
  replace (length bs + k * byte_size s)%nat with (length (bs ++ concat (node_bytes count all <$> take k rs))).
  - rewrite IH; [|done|by apply sorted_drop|done]. f_equal. rewrite <- app_assoc. f_equal. rewrite <- concat_app, <- fmap_app, take_drop. done.
  - rewrite app_length, all_bytes_length, (sizes_same s) by done. rewrite take_length. by replace (k `min` length rs)%nat with k by lia.
Qed.

Lemma node_at count all rs i r : rs !! i = Some r ->
  exists pre post, concat (node_bytes count all <$> rs) = pre ++ node_bytes count all r ++ post /\ length pre = sizes (take i rs).
Proof.
  intros H. exists (concat (node_bytes count all <$> take i rs)), (concat (node_bytes count all <$> drop (S i) rs)). split; [|apply all_bytes_length].
  rewrite <- (take_drop_middle rs i r H) at 1. by rewrite fmap_app, concat_app.
Qed.

(** ** Reading a node back *)
Definition u16_ok (z : Z) : Prop := 0 <= z < 65536.
Lemma le2_value z : u16_ok z -> z mod 256 + (z / 256) mod 256 * 256 = z.
Proof.
  unfold u16_ok. intros H. rewrite (Z.mod_small (z / 256)).
  - pose proof (Z.div_mod z 256 ltac:(lia)). lia.
  - split; [apply Z.div_pos; lia|apply Z.div_lt_upper_bound; lia].
Qed.
(** [x] stands in [bs] at offset [o] *)
Definition seg (bs : list Z) (o : nat) (x : list Z) : Prop := forall k b, x !! k = Some b -> bs !! (o + k)%nat = Some b.
Lemma seg_app bs o a b : seg bs o (a ++ b) -> seg bs o a /\ seg bs (o + length a) b.
Proof.
  intros H. split; intros k x Hk.
  - apply H. by apply lookup_app_l_Some.
  - replace (o + length a + k)%nat with (o + (length a + k))%nat by lia. apply H. rewrite lookup_app_r by lia. by replace (length a + k - length a)%nat with k by lia.
Qed.
Lemma seg_cons bs o a b : seg bs o (a :: b) -> bs !! o = Some a /\ seg bs (S o) b.
Proof.
  intros H. split.
  - rewrite <- (H 0%nat a eq_refl). f_equal. lia.
  - intros k x Hk. replace (S o + k)%nat with (o + S k)%nat by lia. by apply H.
Qed.
Lemma seg_here pre x post : seg (pre ++ x ++ post) (length pre) x.
Proof. intros k b Hk. rewrite lookup_app_r by lia. replace (length pre + k - length pre)%nat with k by lia. by apply lookup_app_l_Some. Qed.
Lemma read2_ok bs o z : seg bs o (le2 z) -> u16_ok z -> read2 bs o = Some z.
Proof.
  intros H Hz. unfold read2. apply seg_cons in H as [H0 H]. apply seg_cons in H as [H1 _]. rewrite H0, H1. cbn [mbind option_bind]. by rewrite le2_value.
Qed.

Definition puts (look : Z -> Z) (ps : list (Z * Z)) : Z -> Z := foldl (fun lk p => put lk p.1 p.2) look ps.
Lemma puts_value ps : forall look w e, (forall p, p ∈ ps -> p.1 = w -> p.2 = e) -> ((exists p, p ∈ ps /\ p.1 = w) \/ look w = e) -> puts look ps w = e.
Proof.
  induction ps as [|p ps IH]; intros look w e H1 H2; unfold puts in *; cbn [foldl].
  - destruct H2 as [(p & Hp & _)|H2]; [by apply elem_of_nil in Hp|done].
  - apply IH; [intros p' Hp'; apply H1; by right|]. destruct (decide (p.1 = w)) as [E|E].
    + right. rewrite E, put_same. apply H1; [left|done].
    + destruct H2 as [(p' & Hp' & E')|H2].
      * apply elem_of_cons in Hp' as [->|Hp']; [done|]. left. by exists p'.
      * right. rewrite put_other by done. done.
Qed.

Lemma read_tiny_ok bs ps : forall o look, seg bs o (concat ((fun p : Z * Z => p.1 :: le2 p.2) <$> ps)) -> Forall (fun p : Z * Z => u16_ok p.2) ps ->
  read_tiny bs o (length ps) look = Some (puts look ps).
Proof.
  induction ps as [|p ps IH]; intros o look Hs H; [done|]. apply Forall_cons in H as [Hp H]. rewrite fmap_cons in Hs. cbn [concat length read_tiny] in *.
  apply seg_app in Hs as [Hs Hs']. apply seg_cons in Hs as [H0 Hs]. rewrite H0. cbn [mbind option_bind]. rewrite (read2_ok _ _ _ Hs Hp). cbn [mbind option_bind]. by apply IH.
Qed.
Lemma read_full_ok bs g vs : forall o look, seg bs o (concat ((fun v : nat => le2 (g v)) <$> vs)) -> (forall v, v ∈ vs -> u16_ok (g v)) ->
  read_full bs o vs look = Some (puts look ((fun v => (Z.of_nat v, g v)) <$> vs)).
Proof.
  induction vs as [|v vs IH]; intros o look Hs H; [done|]. rewrite fmap_cons in Hs. cbn [concat read_full] in *. apply seg_app in Hs as [Hs Hs'].
  rewrite (read2_ok _ _ _ Hs) by (apply H; left). cbn [mbind option_bind]. rewrite IH; [done|done|]. intros u Hu. apply H. by right.
Qed.
Lemma read_medium_ok bs fo (P : nat -> Prop) `{HD : !forall v, Decision (P v)} g vs : forall o look,
  (forall v, v ∈ vs -> exists f, bs !! (fo + v / 8)%nat = Some f /\ Z.testbit f (Z.of_nat (v mod 8)) = bool_decide (P v)) ->
  seg bs o (concat ((fun v : nat => le2 (g v)) <$> filter P vs)) -> (forall v, v ∈ vs -> u16_ok (g v)) ->
  read_medium bs fo o vs look = Some (puts look ((fun v => (Z.of_nat v, g v)) <$> filter P vs)).
Proof.
  induction vs as [|v vs IH]; intros o look Hf Hs H; [done|]. destruct (Hf v ltac:(left)) as (f & F1 & F2). cbn [read_medium]. rewrite F1. cbn [mbind option_bind]. rewrite F2.
  assert (Hf' : forall u, u ∈ vs -> exists f, bs !! (fo + u / 8)%nat = Some f /\ Z.testbit f (Z.of_nat (u mod 8)) = bool_decide (P u)) by (intros u Hu; apply Hf; by right).
  assert (H' : forall u, u ∈ vs -> u16_ok (g u)) by (intros u Hu; apply H; by right).
  case_bool_decide as Hv.
  - rewrite (filter_cons_True P) in * by done. rewrite fmap_cons in Hs. cbn [concat] in Hs. apply seg_app in Hs as [Hs Hs']. rewrite (read2_ok _ _ _ Hs) by (apply H; left). cbn [mbind option_bind].
    rewrite IH; done.
  - rewrite (filter_cons_False P) in * by done. by apply IH.
Qed.

(** the bit flags *)
Lemma flag_bytes_bit vs v : Forall (fun u => (u < 256)%nat) vs -> (v < 256)%nat -> exists f, flag_bytes vs !! (v / 8)%nat = Some f /\ Z.testbit f (Z.of_nat (v mod 8)) = bool_decide (v ∈ vs).
Proof.
  intros Hvs Hv. unfold flag_bytes.
  assert (H : forall (bb : list Z) (S : nat -> Prop), length bb = 32%nat -> (exists f, bb !! (v / 8)%nat = Some f /\ (Z.testbit f (Z.of_nat (v mod 8)) = true <-> S v)) ->
    exists f, foldl (fun bb v => <[(v / 8)%nat := Z.lor (bb !!! (v / 8)%nat) (Z.shiftl 1 (Z.of_nat (v mod 8)))]> bb) bb vs !! (v / 8)%nat = Some f /\
      (Z.testbit f (Z.of_nat (v mod 8)) = true <-> S v \/ v ∈ vs)).
  { induction vs as [|u vs IH]; intros bb S Hb (f & F1 & F2); cbn [foldl].
    - exists f. split; [done|]. rewrite F2. split; [by left|]. intros [?|Hn]; [done|by apply elem_of_nil in Hn].
    - apply Forall_cons in Hvs as [Hu Hvs]. destruct (IH Hvs (<[(u / 8)%nat := Z.lor (bb !!! (u / 8)%nat) (Z.shiftl 1 (Z.of_nat (u mod 8)))]> bb) (fun w => S w \/ w = u)) as (f' & F1' & F2').
      + by rewrite insert_length.
      + assert (Hu8 : (u / 8 < 32)%nat) by (apply Nat.div_lt_upper_bound; lia).
        destruct (decide (u / 8 = v / 8)%nat) as [E|E].
        * rewrite E in *. exists (Z.lor (bb !!! (v / 8)%nat) (Z.shiftl 1 (Z.of_nat (u mod 8)))). split; [apply list_lookup_insert; lia|].
          rewrite (list_lookup_total_correct _ _ _ F1). rewrite Z.lor_spec, orb_true_iff, F2. rewrite Z.shiftl_1_l. rewrite Z.pow2_bits_eqb by lia. rewrite Z.eqb_eq.
          split; [intros [?|Em]; [by left|right]|intros [?|Em]; [by left|right]].
          -- rewrite (Nat.div_mod v 8), (Nat.div_mod u 8) by lia. rewrite E. lia.
          -- by rewrite Em.
        * exists f. split; [by rewrite list_lookup_insert_ne by done|]. rewrite F2. split; [by left|]. intros [?|Em]; [done|]. by rewrite Em in E.
      + exists f'. split; [done|]. rewrite F2', elem_of_cons. naive_solver. }
  destruct (H (replicate 32 0) (fun _ => False)) as (f & F1 & F2).
  - apply replicate_length.
  - exists 0. split; [apply lookup_replicate_2; apply Nat.div_lt_upper_bound; lia|]. by rewrite Z.testbit_0_l.
  - exists f. split; [done|]. case_bool_decide as E; [apply F2; by right|]. destruct (Z.testbit f _); [|done]. destruct (proj1 F2 eq_refl); done.
Qed.

Lemma items_split {B} (f : nat -> list B) (pad : list B) (vs : list nat) n : (length vs <= n)%nat ->
  concat ((fun i => match vs !! i with Some v => f v | None => pad end) <$> seq 0 n) = concat (f <$> vs) ++ concat (replicate (n - length vs) pad).
Proof.
  intros H. replace n with (length vs + (n - length vs))%nat at 1 by lia. rewrite seq_app, fmap_app, concat_app. f_equal.
  - f_equal. apply list_eq. intros i. rewrite !list_lookup_fmap. destruct (decide (i < length vs)%nat) as [Hi|Hi].
    + rewrite lookup_seq_lt by done. cbn [fmap option_fmap option_map Nat.add]. destruct (lookup_lt_is_Some_2 vs i Hi) as [v Hv]. by rewrite Hv.
    + rewrite lookup_seq_ge by lia. by rewrite (lookup_ge_None_2 vs i) by lia.
  - f_equal. apply list_eq. intros i. rewrite list_lookup_fmap. destruct (decide (i < n - length vs)%nat) as [Hi|Hi].
    + rewrite lookup_seq_lt by done. cbn [fmap option_fmap option_map]. rewrite (lookup_ge_None_2 vs) by lia. by rewrite lookup_replicate_2.
    + rewrite lookup_seq_ge by lia. cbn [fmap option_fmap option_map]. symmetry. apply lookup_ge_None_2. rewrite replicate_length. lia.
Qed.

Lemma used_elem look v : v ∈ used look <-> (v < 256)%nat /\ look (Z.of_nat v) <> 0.
Proof. unfold used. rewrite elem_of_list_filter, elem_of_seq. naive_solver lia. Qed.

(** what the reader needs of the spec *)
Definition roomy (s : spec) (look : Z -> Z) : Prop :=
  match s_fmt s with
  | Tiny => (length (used look) <= s_size s)%nat /\ ((length (used look) = s_size s)%nat \/ look 0 = 0)
  | Medium => (length (used look) <= s_size s)%nat
  | Full => True
  | Duplicate => False
  end.

Lemma read_node_ok count rs r bs o : seg bs o (node_bytes count rs r) -> roomy (r_spec r) (n_look (r_node r)) ->
  (forall v, 0 <= v < 256 -> u16_ok (relink count rs (n_look (r_node r) v))) ->
  s_fmt (r_spec r) <> Duplicate /\ bs !! o = Some (Z.of_nat (n_byte (r_node r))) /\
  exists lk, read_node bs (r_spec r) o = Some lk /\ forall v, 0 <= v < 256 -> lk v = relink count rs (n_look (r_node r) v).
Proof.
  intros Hs Hr Hu. set (look := n_look (r_node r)) in *. set (g := fun v => relink count rs (look v)) in *.
  assert (Hg0 : forall v, look v = 0 -> g v = 0) by (intros v Hv; unfold g, relink; by rewrite Hv).
  assert (Hval : forall ps v, 0 <= v < 256 -> (forall p, p ∈ ps -> p.2 = g (p.1)) -> (look v <> 0 -> exists p, p ∈ ps /\ p.1 = v) -> puts blank ps v = g v).
  { intros ps v Hv H1 H2. apply puts_value; [intros p Hp <-; by apply H1|]. destruct (decide (look v = 0)) as [E|E]; [right; unfold blank; by rewrite Hg0|left; by apply H2]. }
  assert (Hus : forall v, 0 <= v < 256 -> look v <> 0 -> Z.to_nat v ∈ used look) by (intros v Hv E; apply used_elem; split; [lia|by rewrite Z2Nat.id by lia]).
  unfold node_bytes in Hs. fold look in Hs. change (fun v => relink count rs (look v)) with g in Hs. unfold roomy in Hr. unfold read_node. destruct (s_fmt (r_spec r)) eqn:Ef; [| | |done].
  - destruct Hr as [Hr1 Hr2]. apply seg_cons in Hs as [H0 Hs]. split; [done|]. split; [done|].
    rewrite (items_split (fun v => Z.of_nat v :: le2 (relink count rs (look (Z.of_nat v))))) in Hs by done.
    set (ps := ((fun v => (Z.of_nat v, g (Z.of_nat v))) <$> used look) ++ replicate (s_size (r_spec r) - length (used look)) (0, 0)).
    assert (Hps : length ps = s_size (r_spec r)) by (unfold ps; rewrite app_length, fmap_length, replicate_length; lia).
    exists (puts blank ps). rewrite <- Hps at 1. split.
    + apply read_tiny_ok.
      * unfold ps. rewrite fmap_app, concat_app, <- list_fmap_compose, fmap_replicate. exact Hs.
      * unfold ps. apply Forall_app. split; [|apply Forall_replicate; cbn [snd]; unfold u16_ok; lia]. apply Forall_fmap, Forall_forall. intros v Hv. apply used_elem in Hv as [Hv _]. apply Hu. lia.
    + intros v Hv. apply Hval; [done| |].
      * intros p Hp. unfold ps in Hp. apply elem_of_app in Hp as [Hp|Hp].
        -- apply elem_of_list_fmap in Hp as (u & -> & _). done.
        -- apply elem_of_replicate in Hp as [-> Hn]. cbn [fst snd]. destruct Hr2 as [Hr2|Hr2]; [lia|]. by rewrite Hg0.
      * intros E. exists (v, g v). split; [|done]. unfold ps. apply elem_of_app. left. apply elem_of_list_fmap. exists (Z.to_nat v). rewrite Z2Nat.id by lia. split; [done|by apply Hus].
  - apply seg_cons in Hs as [H0 Hs]. split; [done|]. split; [done|]. apply seg_app in Hs as [Hs1 Hs2]. rewrite flag_bytes_length in Hs2.
    rewrite (items_split (fun v => le2 (relink count rs (look (Z.of_nat v))))) in Hs2 by done. apply seg_app in Hs2 as [Hs2 _].
    exists (puts blank ((fun v => (Z.of_nat v, g (Z.of_nat v))) <$> used look)). split.
    + replace (o + 33)%nat with (S o + 32)%nat by lia. apply (read_medium_ok bs (S o) (fun v : nat => look (Z.of_nat v) <> 0) (fun v => g (Z.of_nat v))).
      * intros v Hv. apply elem_of_seq in Hv. destruct (flag_bytes_bit (used look) v) as (f & F1 & F2); [|lia|].
        { apply Forall_forall. intros u Hu'. apply used_elem in Hu'. lia. }
        exists f. split; [by apply Hs1|]. rewrite F2. apply bool_decide_ext. rewrite used_elem. naive_solver lia.
      * exact Hs2.
      * intros v Hv. apply elem_of_seq in Hv. apply Hu. lia.
    + intros v Hv. apply Hval; [done| |].
      * intros p Hp. apply elem_of_list_fmap in Hp as (u & -> & _). done.
      * intros E. exists (v, g v). split; [|done]. apply elem_of_list_fmap. exists (Z.to_nat v). rewrite Z2Nat.id by lia. split; [done|by apply Hus].
  - apply seg_cons in Hs as [H0 Hs]. split; [done|]. split; [done|]. exists (puts blank ((fun v => (Z.of_nat v, g (Z.of_nat v))) <$> seq 0 256)). split.
    + apply (read_full_ok bs (fun v => g (Z.of_nat v))); [exact Hs|]. intros v Hv. apply elem_of_seq in Hv. apply Hu. lia.
    + intros v Hv. apply Hval; [done| |].
      * intros p Hp. apply elem_of_list_fmap in Hp as (u & -> & _). done.
      * intros E. exists (v, g v). split; [|done]. apply elem_of_list_fmap. exists (Z.to_nat v). rewrite Z2Nat.id by lia. split; [done|]. apply elem_of_seq. lia.
Qed.

(** ** The bytes examined *)
Definition marks (bits : Z) (fl : list bool) : Prop :=
  0 <= bits /\ (forall j, (j < 32)%nat -> fl !! j = Some (negb (Z.testbit bits (Z.of_nat j)))) /\ forall j, (32 <= j)%nat -> Z.testbit bits (Z.of_nat j) = false.
Lemma marks_init : marks 0 (flags_init 32 0).
Proof. split_and!; [lia| |]; intros j Hj; rewrite Z.testbit_0_l; [|done]. rewrite flags_init_lookup by lia. done. Qed.
Lemma marks_step bits fl bi : marks bits fl -> length fl = 32%nat -> fl !! bi = Some true -> marks (Z.lor bits (Z.shiftl 1 (Z.of_nat bi))) (flip bi fl).
Proof.
  intros (M1 & M2 & M3) Hl Hbi. pose proof (lookup_lt_Some _ _ _ Hbi) as Hlt. rewrite Z.shiftl_1_l. split_and!.
  - apply Z.lor_nonneg. split; [done|apply Z.pow_nonneg; lia].
  - intros j Hj. rewrite Z.lor_spec, Z.pow2_bits_eqb by lia. destruct (decide (bi = j)) as [<-|Hne].
    + rewrite flip_same by done. by rewrite Z.eqb_refl, orb_true_r.
    + rewrite flip_other by done. rewrite (proj2 (Z.eqb_neq _ _)) by lia. rewrite orb_false_r. by apply M2.
  - intros j Hj. rewrite Z.lor_spec, Z.pow2_bits_eqb, M3 by lia. rewrite (proj2 (Z.eqb_neq _ _)) by lia. done.
Qed.
Lemma marks_full bits fl : marks bits fl -> length fl = 32%nat -> (bits = 4294967295 <-> set_count fl = 0%nat).
Proof.
  intros (M1 & M2 & M3) Hl. split.
  - intros ->. unfold set_count. destruct (filter _ fl) as [|u r] eqn:Ef; [done|]. exfalso. assert (Hu : u ∈ u :: r) by left. rewrite <- Ef in Hu. apply elem_of_list_filter in Hu as [-> Hu].
    apply elem_of_list_lookup in Hu as (j & Hj). pose proof (lookup_lt_Some _ _ _ Hj) as Hlt. rewrite M2 in Hj by lia. apply (inj Some) in Hj.
    change 4294967295 with (Z.ones 32) in Hj. rewrite Z.ones_spec_low in Hj by lia. done.
  - intros H0. change 4294967295 with (Z.ones 32). apply Z.bits_inj'. intros n Hn. destruct (decide (n < 32)) as [Hlt|Hge].
    + rewrite Z.ones_spec_low by lia. pose proof (M2 (Z.to_nat n) ltac:(lia)) as Hj. rewrite Z2Nat.id in Hj by lia. destruct (Z.testbit bits n); [done|]. cbn [negb] in Hj.
      pose proof (flip_count _ _ Hj). lia.
    + rewrite Z.ones_spec_high by lia. pose proof (M3 (Z.to_nat n) ltac:(lia)) as Hj. by rewrite Z2Nat.id in Hj by lia.
Qed.

(** ** New numbers *)
Lemma new_id_ok rs i r : NoDup (r_old <$> rs) -> rs !! i = Some r -> new_id rs (r_old r) = S i.
Proof.
  intros Hd Hi. unfold new_id. rewrite (proj2 (list_find_Some (fun x => r_old x = r_old r) rs i r)); [done|].
  split_and!; [done|done|]. intros j y Hy Hj Ey. assert (j = i) as ->; [|lia].
  apply (NoDup_lookup _ _ _ (r_old r) Hd); rewrite list_lookup_fmap; [rewrite Hy; cbn [fmap option_fmap option_map]; by rewrite Ey|by rewrite Hi].
Qed.

Lemma reconfs_ok cp t rs0 : reconfs cp t = Some rs0 ->
  (r_old <$> rs0) = seq 0 (length (t_nodes t)) /\ length rs0 = length (t_nodes t) /\
  (forall i nd, t_nodes t !! i = Some nd -> exists r, rs0 !! i = Some r /\ reconf_of cp i nd = Some r) /\ Forall (fun r => r_spec r ∈ cp) rs0.
Proof.
  intros E. unfold reconfs in E. apply mapM_Some in E.
  assert (Hlen : length rs0 = length (t_nodes t)). { apply Forall2_length in E. by rewrite imap_length in E. }
  assert (Hget : forall i nd, t_nodes t !! i = Some nd -> exists r, rs0 !! i = Some r /\ reconf_of cp i nd = Some r).
  { intros i nd Hi. assert (Hp : imap pair (t_nodes t) !! i = Some (i, nd)) by (rewrite list_lookup_imap, Hi; done).
    destruct (Forall2_lookup_l _ _ _ _ _ E Hp) as (r & Hr & Er). by exists r. }
  split_and!; [|done|exact Hget|].
  - apply list_eq. intros i. rewrite list_lookup_fmap. destruct (t_nodes t !! i) as [nd|] eqn:Ei.
    + destruct (Hget i nd Ei) as (r & Hr & Er). rewrite Hr. apply lookup_lt_Some in Ei. rewrite lookup_seq_lt by done. cbn [fmap option_fmap option_map].
      unfold reconf_of in Er. destruct (if Nat.eqb _ _ then _ else _); [|done]. by apply (inj Some) in Er as <-.
    + apply lookup_ge_None in Ei. rewrite lookup_ge_None_2 by lia. by rewrite lookup_seq_ge by lia.
  - apply Forall_forall. intros r Hr. apply elem_of_list_lookup in Hr as (i & Hi). pose proof (lookup_lt_Some _ _ _ Hi) as Hlt.
    destruct (lookup_lt_is_Some_2 (t_nodes t) i ltac:(lia)) as [nd Hnd]. destruct (Hget i nd Hnd) as (r' & Hr' & Er). rewrite Hi in Hr'. apply (inj Some) in Hr' as <-.
    unfold reconf_of in Er. destruct (Nat.eqb (n_byte nd) 32).
    + destruct (suitable_duplicate cp (n_level nd)) as [s|] eqn:Es; [|done]. apply (inj Some) in Er as <-. apply suitable_dup_in in Es as [Es _]. done.
    + destruct (suitable cp (n_level nd) _) as [s|] eqn:Es; [|done]. apply (inj Some) in Er as <-. apply suitable_in in Es as [Es _]. done.
Qed.

Lemma byte_size_pos s : (0 < byte_size s)%nat.
Proof. unfold byte_size. destruct (s_fmt s); lia. Qed.
Lemma sizes_lt rs i m : (i < m)%nat -> (i < length rs)%nat -> (sizes (take i rs) < sizes (take m rs))%nat.
Proof.
  intros H Hi. replace (take m rs) with (take i rs ++ drop i (take m rs)) by (rewrite <- (take_drop i (take m rs)) at 2; rewrite take_take; f_equal; f_equal; lia).
  rewrite sizes_app. assert (exists r l, drop i (take m rs) = r :: l) as (r & l & E).
  { destruct (drop i (take m rs)) as [|r l] eqn:E; [|by exists r, l]. apply (f_equal length) in E. rewrite drop_length, take_length in E. cbn [length] in E. lia. }
  rewrite E. unfold sizes at 3. cbn [sum_list_with]. pose proof (byte_size_pos (r_spec r)). lia.
Qed.
Lemma sizes_le rs i m : (m <= i)%nat -> (sizes (take m rs) <= sizes (take i rs))%nat.
Proof. intros H. replace (take i rs) with (take m rs ++ drop m (take i rs)) by (rewrite <- (take_drop m (take i rs)) at 2; rewrite take_take; f_equal; f_equal; lia). rewrite sizes_app. lia. Qed.

(** ** Same answers *)
Lemma rep_step ent srt first count n ns idx level l fl : rep ent srt first count (S n) ns idx level l fl =
  match choose ent l fl with
  | None => ns !! idx = Some (dead_end first l level)
  | Some bi =>
      exists look, ns !! idx = Some (mk_pnode level bi look) /\
        (forall v, 0 <= v < 256 -> Proof_Tree.group srt bi v l = [] -> look v = 0) /\
        (forall v x, 0 <= v < 256 -> Proof_Tree.group srt bi v l = [x] -> look v = u16 (th_pi x - first + 1)) /\
        (forall v, 0 <= v < 256 -> (2 <= length (Proof_Tree.group srt bi v l))%nat ->
           exists c, (idx < c)%nat /\ Z.of_nat c + count < 65536 /\ look v = 65536 - Z.of_nat c /\ rep ent srt first count n ns c (S level) (Proof_Tree.group srt bi v l) (flip bi fl))
  end.
Proof. reflexivity. Qed.
Definition tiny_exact (cp : list spec) : Prop := forall lv slots s, suitable cp lv slots = Some s -> s_fmt s = Tiny -> (2 <= slots)%nat -> s_size s = slots.

Section Sim.
  Context (ent : list thash -> nat -> Z) (Hent : entropy_ok ent) (srt : nat -> list thash -> list thash) (Hsrt : sort_ok srt).
  Context (cp : list spec) (Hcp : cp_sorted cp) (Htiny : tiny_exact cp).
  Context (first count : Z) (ns : list pnode) (rs : list reconf) (m : nat).
  Context (Hrs : sorted_rs rs) (Hin : Forall (fun r => r_spec r ∈ cp) rs) (Hlen : length rs = length ns).
  Context (Hnode : forall idx nd, ns !! idx = Some nd -> exists i r, rs !! i = Some r /\ new_id rs idx = S i /\ r_node r = nd /\ reconf_of cp idx nd = Some r).

  (** the first [m] nodes are loaded *)
  Definition loaded : container :=
    mk_container first count (new_id rs 0) (layout cp rs 0 0) (take (sizes (take m rs)) (concat (node_bytes count rs <$> rs))).

  Lemma locate_loaded i r : rs !! i = Some r ->
    locate cp loaded (S i) = Some (r_spec r, if (m <=? i)%nat then None else Some (sizes (take i rs))) /\
    ((i < m)%nat -> seg (c_bytes loaded) (sizes (take i rs)) (node_bytes count rs r)).
  Proof using All.
    intros Hi. pose proof (lookup_lt_Some _ _ _ Hi) as Hlt. split.
    - pose proof (locate_ok cp (r_spec r) 0 0 rs 0 0 i r Hcp Hrs Hin Hi) as H. unfold locate. cbn [c_layout loaded c_bytes].
      destruct cp as [|s cp'] eqn:Ec.
      { exfalso. apply elem_of_list_lookup_2 in Hi. rewrite Forall_forall in Hin. specialize (Hin _ Hi). by apply elem_of_nil in Hin. }
      cbn [layout zip zip_with] in *. cbn [locate_from] in H. rewrite (proj2 (Nat.ltb_ge _ _)) in H by lia. cbn [Nat.add] in *. rewrite H. f_equal. f_equal.
      rewrite take_length, all_bytes_length. destruct (Nat.leb_spec m i) as [Hm|Hm].
      + rewrite (proj2 (Nat.leb_le _ _)); [done|]. pose proof (sizes_le rs i m Hm). lia.
      + rewrite (proj2 (Nat.leb_gt _ _)); [done|]. pose proof (sizes_lt rs i m Hm Hlt). pose proof (sizes_lt rs i (length rs) Hlt Hlt) as H2. rewrite (take_ge rs (length rs)) in H2 by lia. lia.
    - intros Hm. destruct (node_at count rs rs i r Hi) as (pre & post & E & Hp). cbn [c_bytes loaded]. rewrite E, <- Hp. intros k b Hk.
      pose proof (lookup_lt_Some _ _ _ Hk) as Hkl. rewrite node_bytes_length in Hkl. rewrite lookup_take; [by apply seg_here|].
      pose proof (sizes_le rs m (S i) Hm) as H2. rewrite (take_S_r _ _ _ Hi), sizes_app in H2. unfold sizes at 2 in H2. cbn [sum_list_with] in H2. lia.
  Qed.

  Lemma relink_leaf e : 0 < e <= count -> relink count rs e = e.
  Proof using All. intros H. unfold relink. rewrite (proj2 (Z.eqb_neq _ _)), (proj2 (Z.leb_le _ _)) by lia. done. Qed.
  Context (Hroom : 0 < count /\ Z.of_nat (length ns) + count < 65536).
  Lemma relink_link c i r : (c < length ns)%nat -> rs !! i = Some r -> new_id rs c = S i -> 0 < Z.of_nat c -> relink count rs (65536 - Z.of_nat c) = 65536 - Z.of_nat (S i).
  Proof using All.
    intros Hc Hi Hn Hp. apply lookup_lt_Some in Hi. unfold relink. rewrite (proj2 (Z.eqb_neq _ _)), (proj2 (Z.leb_gt _ _)) by lia.
    replace (Z.to_nat (65536 - (65536 - Z.of_nat c))) with c by lia. rewrite Hn. apply u16_small. lia.
  Qed.

  Definition same_or_unloaded (r : option (Z * bool * Z)) (w : option (Z * bool)) : Prop :=
    (exists pi b bits, r = Some (pi, b, bits) /\ w = Some (pi, b)) \/ (m < length rs)%nat /\ exists bits, r = Some (-2, false, bits).

  Lemma descend_walk n : forall fuel idx level l fl bits q,
    rep ent srt first count (S n) ns idx level l fl -> alike l fl -> fits first count l ->
    ((2 <= length l)%nat \/ exists x, l = [x] /\ level = 0%nat /\ th_hash x !!! 0%nat <> 0) ->
    length fl = 32%nat -> length q = 32%nat -> bytes q -> set_count fl = n -> (0 < n <= fuel)%nat -> marks bits fl ->
    same_or_unloaded (descend cp loaded fuel (new_id rs idx) bits q) (walk (mk_pool first count ns) n idx q).
  Proof using All.
    induction n as [|n IH]; intros fuel idx level l fl bits q R A Hf Hl H32 Hq Hqb Hn Hfu Hm; [lia|]. destruct fuel as [|fuel]; [lia|].
    assert (Hne : l <> []) by (destruct Hl as [Hl|(x & -> & _)]; [intros ->; cbn [length] in Hl; lia|done]).
    pose proof (rep_lookup ent srt first count _ _ _ _ _ _ R) as Hidx.
    destruct (lookup_lt_is_Some_2 ns idx Hidx) as [nd Hnd]. destruct (Hnode idx nd Hnd) as (i & r & Hi & Hid & Hrn & Hrec).
    destruct (locate_loaded i r Hi) as [L1 L2]. rewrite Hid. cbn [descend]. rewrite L1. cbn [mbind option_bind].
    destruct (Nat.leb_spec m i) as [Hmi|Hmi].
    { right. split; [apply lookup_lt_Some in Hi; lia|]. by eexists. }
    specialize (L2 Hmi). cbn [walk t_nodes]. rewrite Hnd. cbn [mbind option_bind t_count t_first]. revert R. rewrite rep_step.
    destruct (choose ent l fl) as [bi|] eqn:E.
    - intros (look & E1 & R0 & R1 & R2). rewrite Hnd in E1. apply (inj Some) in E1 as ->. cbn [n_byte n_look].
      destruct (choose_some ent Hent l fl bi Hne E) as (Hbi & xa & xb & Hxa & Hxb & Hab). pose proof (lookup_lt_Some _ _ _ Hbi) as Hlt. pose proof (al_ok _ _ A) as H1.
      assert (Hslot : forall v, 0 <= v < 256 -> Proof_Tree.group srt bi v l = [] /\ look v = 0 \/
        (exists x, Proof_Tree.group srt bi v l = [x] /\ x ∈ l /\ look v = th_pi x - first + 1 /\ 0 < look v <= count) \/
        (exists c, (2 <= length (Proof_Tree.group srt bi v l))%nat /\ (idx < c)%nat /\ (c < length ns)%nat /\ Z.of_nat c + count < 65536 /\ look v = 65536 - Z.of_nat c /\
           rep ent srt first count (S n) ns c (S level) (Proof_Tree.group srt bi v l) (flip bi fl))).
      { intros v Hv. destruct (Proof_Tree.group srt bi v l) as [|y [|z l']] eqn:Eg.
        - left. split; [done|by apply R0].
        - right. left. exists y. assert (Hy : y ∈ l). { assert (y ∈ Proof_Tree.group srt bi v l) as Hy by (rewrite Eg; left). apply (group_elem srt Hsrt bi v l _ y H1 Hlt) in Hy as [Hy _]; [done|lia]. }
          pose proof (Hf y Hy). rewrite (R1 v y Hv Eg). rewrite u16_small by lia. split_and!; [done|done|done|lia|lia].
        - right. right. destruct (R2 v Hv) as (c & C1 & C2 & C3 & C4); [rewrite Eg; cbn [length]; lia|]. exists c. rewrite Eg in C4. split_and!; [cbn [length]; lia|done| |done|done|done].
          exact (rep_lookup ent srt first count _ _ _ _ _ _ C4). }
      assert (Hnz : forall x, x ∈ l -> look (th_hash x !!! bi) <> 0).
      { intros x Hx. pose proof (byte_of x l _ bi H1 Hlt Hx) as Hv. destruct (Hslot _ Hv) as [[Eg _]|[(y & _ & _ & _ & ?)|(c & _ & _ & _ & ? & -> & _)]]; [|lia|lia].
        assert (Hg : x ∈ Proof_Tree.group srt bi (th_hash x !!! bi) l) by (apply (group_elem srt Hsrt bi _ l _ x H1 Hlt); [lia|done]). rewrite Eg in Hg. by apply elem_of_nil in Hg. }
      assert (Hused : (2 <= length (used look))%nat).
      { pose proof (byte_of xa l _ bi H1 Hlt Hxa) as Va. pose proof (byte_of xb l _ bi H1 Hlt Hxb) as Vb.
        assert (Ua : Z.to_nat (th_hash xa !!! bi) ∈ used look) by (apply used_elem; split; [lia|rewrite Z2Nat.id by lia; by apply Hnz]).
        assert (Ub : Z.to_nat (th_hash xb !!! bi) ∈ used look) by (apply used_elem; split; [lia|rewrite Z2Nat.id by lia; by apply Hnz]).
        destruct (used look) as [|u [|u' us]]; [by apply elem_of_nil in Ua| |cbn [length]; lia]. apply elem_of_list_singleton in Ua, Ub. exfalso. apply Hab. lia. }
      unfold reconf_of in Hrec. cbn [n_byte n_level n_look] in Hrec. rewrite (proj2 (Nat.eqb_neq bi 32)) in Hrec by lia.
      destruct (suitable cp level (length (used look))) as [s|] eqn:Es; [|done]. apply (inj Some) in Hrec as Er. assert (Hspec : r_spec r = s) by (by rewrite <- Er).
      destruct (suitable_in _ _ _ _ Es) as (S1 & S2 & S3 & S4).
      destruct (read_node_ok count rs r (c_bytes loaded) (sizes (take i rs)) L2) as (N1 & N2 & lk & N3 & N4).
      { rewrite Hspec, Hrn. cbn [n_look]. unfold roomy. destruct (s_fmt s) eqn:Ef; try done. split; [done|]. left. symmetry. by apply (Htiny level). }
      { intros v Hv. rewrite Hrn. cbn [n_look]. destruct (Hslot v Hv) as [[_ ->]|[(y & _ & _ & _ & ?)|(c & _ & C1 & C2 & C3 & -> & _)]].
        - unfold relink, u16_ok. cbn [Z.eqb]. lia.
        - rewrite relink_leaf by done. unfold u16_ok. lia.
        - destruct (lookup_lt_is_Some_2 ns c C2) as [ndc Hc]. destruct (Hnode c ndc Hc) as (ic & rc & Hic & Hidc & _). rewrite (relink_link c ic rc) by (done || lia).
          apply lookup_lt_Some in Hic. unfold u16_ok. lia. }
      rewrite bool_decide_false by done. rewrite N2. cbn [mbind option_bind]. rewrite N3. cbn [mbind option_bind]. rewrite Hrn in *. cbn [n_byte n_look] in *. rewrite Nat2Z.id.
      destruct (lookup_lt_is_Some_2 q bi ltac:(lia)) as [w Hw]. rewrite Hw. cbn [mbind option_bind]. rewrite (list_lookup_total_correct _ _ _ Hw).
      assert (Hwb : 0 <= w < 256) by exact (Forall_lookup_1 _ _ _ _ Hqb Hw). rewrite N4 by done.
      rewrite (proj2 (Nat.eqb_neq bi 32)) by lia. cbn [c_count c_first loaded].
      destruct (Hslot w Hwb) as [[_ ->]|[(y & _ & _ & Ey & Hy)|(c & Cl & C1 & C2 & C3 & Ec & C4)]].
      + left. eexists _, _, _. split; [unfold relink; rewrite Z.eqb_refl; cbn [Z.eqb]; reflexivity|]. done.
      + rewrite relink_leaf by done. rewrite (proj2 (Z.eqb_neq _ _)), (proj2 (Z.leb_le _ _)) by lia. left. eexists _, _, _. split; [reflexivity|]. done.
      + rewrite Ec. destruct (lookup_lt_is_Some_2 ns c C2) as [ndc Hc]. destruct (Hnode c ndc Hc) as (ic & rc & Hic & Hidc & _). rewrite (relink_link c ic rc) by (done || lia).
        pose proof (lookup_lt_Some _ _ _ Hic) as Hicl.
        rewrite (proj2 (Z.eqb_neq (65536 - Z.of_nat c) 0)), (proj2 (Z.leb_gt (65536 - Z.of_nat c) count)) by lia. rewrite (proj2 (Z.eqb_neq (65536 - Z.of_nat (S ic)) 0)), (proj2 (Z.leb_gt (65536 - Z.of_nat (S ic)) count)) by lia. rewrite (u16_small (65536 - (65536 - Z.of_nat c))) by lia. rewrite (u16_small (65536 - (65536 - Z.of_nat (S ic)))) by lia.
        replace (Z.to_nat (65536 - (65536 - Z.of_nat c))) with c by lia. replace (Z.to_nat (65536 - (65536 - Z.of_nat (S ic)))) with (new_id rs c) by lia.
        pose proof (marks_step bits fl bi Hm H32 Hbi) as Hm'. pose proof (flip_count bi fl Hbi) as Hfc.
        destruct (Z.eqb_spec (Z.lor bits (Z.shiftl 1 (Z.of_nat bi))) 4294967295) as [Ebits|Ebits].
        * apply (marks_full _ _ Hm') in Ebits; [|by rewrite flip_length]. assert (n = 0%nat) as -> by lia. left. eexists _, _, _. split; [reflexivity|]. done.
        * assert (Hn0 : (0 < n)%nat).
          { destruct n; [|lia]. exfalso. apply Ebits. apply (marks_full _ _ Hm'); [by rewrite flip_length|lia]. }
          apply (IH fuel c (S level) (Proof_Tree.group srt bi w l) (flip bi fl)); try done.
          -- apply (alike_group srt Hsrt l fl bi w A Hbi). lia.
          -- intros u Hu. apply Hf. apply (group_elem srt Hsrt bi w l _ u H1 Hlt) in Hu as [Hu _]; [done|lia].
          -- by left.
          -- by rewrite flip_length.
          -- lia.
          -- lia.
    - intros E1. rewrite Hnd in E1. apply (inj Some) in E1 as ->. pose proof (lowest_spec l Hne) as [(w & Hw & Ew) Hlow]. pose proof (Hf w Hw) as Hfw.
      assert (Hbig : dead_end first l level = mk_pnode level 32 (put blank 0 (u16 (lowest l - first + 1))) \/
          exists y, l = [y] /\ level = 0%nat /\ dead_end first l level = mk_pnode 0 0 (put blank (th_hash y !!! 0%nat) (u16 (th_pi y - first + 1)))).
      { unfold dead_end. destruct l as [|y [|z l']]; [done| |by left]. destruct level; [right; by exists y|by left]. }
      destruct Hbig as [Hd|(y & -> & -> & Hd)]; rewrite Hd in *; cbn [n_byte n_look n_level].
      + rewrite Nat.eqb_refl, put_same, u16_small by lia. rewrite (proj2 (Z.eqb_neq _ _)), (proj2 (Z.leb_le _ _)) by lia.
        unfold reconf_of in Hrec. cbn [n_byte n_level] in Hrec. rewrite Nat.eqb_refl in Hrec. destruct (suitable_duplicate cp level) as [s|] eqn:Es; [|done].
        apply (inj Some) in Hrec as Er. assert (Hspec : r_spec r = s) by (by rewrite <- Er). destruct (suitable_dup_in _ _ _ Es) as (S1 & S2 & S3).
        rewrite bool_decide_true by (by rewrite Hspec). unfold node_bytes in L2. rewrite Hspec, S2, Hrn in L2. cbn [n_look] in L2. rewrite put_same in L2. rewrite u16_small in L2 by lia.
        rewrite relink_leaf in L2 by lia. rewrite (read2_ok _ _ _ L2) by (unfold u16_ok; lia). cbn [mbind option_bind c_first loaded]. left. eexists _, _, _. split; [reflexivity|].
        rewrite u16_small by lia. done.
      + destruct Hl as [Hl|(y' & Ey & _ & H0)]; [cbn [length] in Hl; lia|]. apply (inj (fun x => [x])) in Ey as <-. pose proof (Hf y ltac:(left)) as Hfy. rewrite u16_small in * by lia.
        pose proof (al_ok _ _ A y ltac:(left)) as [Hyl Hyb]. rewrite H32 in Hyl. assert (Hy0 : 0 <= th_hash y !!! 0%nat < 256).
        { destruct (lookup_lt_is_Some_2 (th_hash y) 0%nat ltac:(lia)) as [w' Hw']. rewrite (list_lookup_total_correct _ _ _ Hw'). exact (Forall_lookup_1 _ _ _ _ Hyb Hw'). }
        set (look := put blank (th_hash y !!! 0%nat) (th_pi y - first + 1)) in *.
        assert (Hlk : forall v, look v = if v =? th_hash y !!! 0%nat then th_pi y - first + 1 else 0) by done.
        unfold reconf_of in Hrec. cbn [n_byte n_level n_look Nat.eqb] in Hrec. destruct (suitable cp 0 (length (used look))) as [s|] eqn:Es; [|done].
        apply (inj Some) in Hrec as Er. assert (Hspec : r_spec r = s) by (by rewrite <- Er). destruct (suitable_in _ _ _ _ Es) as (S1 & S2 & S3 & S4).
        assert (Hrel : forall v, relink count rs (look v) = look v).
        { intros v. rewrite Hlk. destruct (v =? th_hash y !!! 0%nat); [apply relink_leaf; lia|done]. }
        destruct (read_node_ok count rs r (c_bytes loaded) (sizes (take i rs)) L2) as (N1 & N2 & lk & N3 & N4).
        { rewrite Hspec, Hrn. cbn [n_look]. unfold roomy. destruct (s_fmt s) eqn:Ef; try done. split; [done|]. right. rewrite Hlk. by rewrite (proj2 (Z.eqb_neq _ _)) by done. }
        { intros v Hv. rewrite Hrn. cbn [n_look]. rewrite Hrel, Hlk. unfold u16_ok. destruct (v =? _); lia. }
        rewrite bool_decide_false by done. rewrite N2. cbn [mbind option_bind]. rewrite N3. cbn [mbind option_bind]. rewrite Hrn in *. cbn [n_byte n_look] in *.
        destruct (lookup_lt_is_Some_2 q 0%nat ltac:(lia)) as [w' Hw']. rewrite Nat2Z.id, Hw'. cbn [mbind option_bind Nat.eqb]. rewrite (list_lookup_total_correct _ _ _ Hw').
        assert (Hwb : 0 <= w' < 256) by exact (Forall_lookup_1 _ _ _ _ Hqb Hw'). rewrite N4, Hrel by done. cbn [c_count c_first loaded]. rewrite Hlk. destruct (w' =? th_hash y !!! 0%nat).
        * rewrite (proj2 (Z.eqb_neq _ _)), (proj2 (Z.leb_le _ _)) by lia. left. eexists _, _, _. split; [reflexivity|]. done.
        * rewrite Z.eqb_refl. left. eexists _, _, _. split; [reflexivity|]. done.
  Qed.
End Sim.

(** ** The whole *)
Definition writable (cp : list spec) (t : pool) (rs : list reconf) : Prop := sorted_rs rs /\ exists rs0, reconfs cp t = Some rs0 /\ rs ≡ₚ rs0.

Lemma writable_nodes cp t rs : writable cp t rs ->
  length rs = length (t_nodes t) /\ NoDup (r_old <$> rs) /\ Forall (fun r => r_spec r ∈ cp) rs /\
  forall idx nd, t_nodes t !! idx = Some nd -> exists i r, rs !! i = Some r /\ new_id rs idx = S i /\ r_node r = nd /\ reconf_of cp idx nd = Some r.
Proof.
  intros (_ & rs0 & E & Hp). destruct (reconfs_ok cp t rs0 E) as (Q1 & Q2 & Q3 & Q4).
  assert (Hd : NoDup (r_old <$> rs)) by (rewrite Hp, Q1; apply NoDup_seq). split_and!; [by rewrite Hp|done|by rewrite Hp|].
  intros idx nd Hnd. destruct (Q3 idx nd Hnd) as (r & Hr & Er). assert (Hin : r ∈ rs) by (rewrite Hp; by apply elem_of_list_lookup_2 with idx).
  apply elem_of_list_lookup in Hin as (i & Hi). exists i, r.
  assert (Hold : r_old r = idx /\ r_node r = nd).
  { unfold reconf_of in Er. destruct (if Nat.eqb _ _ then _ else _); [|done]. by apply (inj Some) in Er as <-. }
  destruct Hold as [Hold Hn]. split_and!; [done| |done|done]. rewrite <- Hold. by apply new_id_ok.
Qed.

Lemma serialize_ok cp t rs : cp_sorted cp -> writable cp t rs -> t_nodes t <> [] ->
  serialize cp rs t = Some (mk_container (t_first t) (t_count t) (new_id rs 0) (layout cp rs 0 0) (concat (node_bytes (t_count t) rs <$> rs))).
Proof.
  intros Hcp Hw Hne. destruct (writable_nodes cp t rs Hw) as (H1 & _ & H3 & _). destruct Hw as [Hs _]. unfold serialize.
  pose proof (emit_ok (t_count t) rs cp rs [] 0 Hcp Hs H3) as He. cbn [length app] in He. rewrite He. cbn [mbind option_bind].
  destruct rs as [|r rs]; [|done]. destruct (t_nodes t); [done|]. cbn [length] in H1. lia.
Qed.

Lemma truncated_lookup ent srt cp first input t rs q k : entropy_ok ent -> sort_ok srt -> cp_sorted cp -> tiny_exact cp ->
  hashes_ok 32 input -> numbered first input -> pool_generate ent srt input = Some t ->
  ((2 <= length input)%nat \/ exists x, input = [x] /\ th_hash x !!! 0%nat <> 0) -> Z.of_nat (length (t_nodes t)) + t_count t < 65536 -> writable cp t rs ->
  length q = 32%nat -> bytes q ->
  same_or_unloaded rs k (container_lookup cp (mk_container (t_first t) (t_count t) (new_id rs 0) (layout cp rs 0 0) (take (sizes (take k rs)) (concat (node_bytes (t_count t) rs <$> rs)))) q) (pool_lookup t q).
Proof.
  intros He Hs Hcp Htiny Hok Hnum E Hl Hroom Hw Hq Hqb.
  assert (Hne : input <> []) by (destruct Hl as [Hl|(x & -> & _)]; [intros ->; cbn [length] in Hl; lia|done]).
  destruct (generated ent srt first input t Hne Hnum E) as (G1 & <- & G3 & G4 & G5). destruct (writable_nodes cp t rs Hw) as (W1 & W2 & W3 & W4).
  rewrite lookup_walk by lia. unfold container_lookup. cbn [c_count c_root]. rewrite (proj2 (Z.eqb_neq _ _)) by lia.
  rewrite G3 in *.
  apply (descend_walk ent He srt Hs cp Hcp Htiny (t_first t) (Z.of_nat (length input)) (t_nodes t) rs k (proj1 Hw) W3 W1 W4 ltac:(lia) 32 33 0 0 input (flags_init 32 0) 0 q G5).
  - by apply alike_init.
  - by apply numbered_fits.
  - destruct Hl as [Hl|(x & Ex & Hx)]; [left; exact Hl|right]. exists x. split; [exact Ex|split; [reflexivity|exact Hx]].
  - exact init_length.
  - exact Hq.
  - exact Hqb.
  - exact init_count.
  - lia.
  - exact marks_init.
Qed.
Lemma full_lookup ent srt cp first input t rs q : entropy_ok ent -> sort_ok srt -> cp_sorted cp -> tiny_exact cp ->
  hashes_ok 32 input -> numbered first input -> pool_generate ent srt input = Some t ->
  ((2 <= length input)%nat \/ exists x, input = [x] /\ th_hash x !!! 0%nat <> 0) -> Z.of_nat (length (t_nodes t)) + t_count t < 65536 -> writable cp t rs ->
  length q = 32%nat -> bytes q ->
  exists pi b bits, container_lookup cp (mk_container (t_first t) (t_count t) (new_id rs 0) (layout cp rs 0 0) (concat (node_bytes (t_count t) rs <$> rs))) q = Some (pi, b, bits) /\
    pool_lookup t q = Some (pi, b).
Proof.
  intros He Hs Hcp Htiny Hok Hnum E Hl Hroom Hw Hq Hqb. pose proof (truncated_lookup ent srt cp first input t rs q (length rs) He Hs Hcp Htiny Hok Hnum E Hl Hroom Hw Hq Hqb) as [H|[H _]]; [|lia].
  rewrite (take_ge rs) in H by lia. rewrite (take_ge (concat _)) in H by (rewrite all_bytes_length; lia). exact H.
Qed.

(** *** Levels *)
Section Levels.
  Context (ent : list thash -> nat -> Z) (Hent : entropy_ok ent) (srt : nat -> list thash -> list thash) (Hsrt : sort_ok srt) (first count : Z).

  Lemma fill_forall (P : pnode -> Prop) child bi s : forall vs look ns look' ns',
    (forall v m m', v ∈ vs -> (2 <= length (run bi (Z.of_nat v) s))%nat -> child (run bi (Z.of_nat v) s) m = Some m' -> Forall P m -> Forall P m') ->
    fill first count child bi s vs look ns = Some (look', ns') -> Forall P ns -> Forall P ns'.
  Proof using.
    induction vs as [|v vs IH]; intros look ns look' ns' HC E HP; cbn [fill] in E; [by injection E as <- <-|].
    assert (HC' : forall u m m', u ∈ vs -> (2 <= length (run bi (Z.of_nat u) s))%nat -> child (run bi (Z.of_nat u) s) m = Some m' -> Forall P m -> Forall P m') by (intros u mm mm' Hu; apply HC; by right).
    pose proof (HC v) as HCv. clear HC. destruct (run bi (Z.of_nat v) s) as [|x [|y l']].
    - by apply (IH _ _ _ _ HC' E).
    - by apply (IH _ _ _ _ HC' E).
    - destruct (child (x :: y :: l') ns) as [ns1|] eqn:Ec; [|done]. destruct (_ <=? count); [done|]. apply (IH _ _ _ _ HC' E). apply (HCv ns ns1); [left|cbn [length]; lia|done|done].
  Qed.

  (** distinct, or too few to need all the bytes *)
  Definition shallow (l : list thash) (fl : list bool) : Prop := distinct l \/ (length l <= S (set_count fl))%nat.
  Lemma grow_levels fuel : forall l fl level ns ns', alike l fl -> l <> [] -> shallow l fl -> (level + set_count fl = 32)%nat -> ((2 <= length l)%nat \/ level = 0%nat) ->
    grow ent srt first count fuel l fl level ns = Some ns' -> Forall (fun nd => (n_level nd < 32)%nat) ns -> Forall (fun nd => (n_level nd < 32)%nat) ns'.
  Proof using Hent Hsrt.
    induction fuel as [|fuel IH]; intros l fl level ns ns' A Hne Hsh Hlv H2 E HP; [done|]. cbn [grow] in E.
    assert (Hlev : (level < 32)%nat).
    { destruct H2 as [H2| ->]; [|lia]. destruct (set_count fl) as [|k] eqn:Ek; [|lia]. exfalso. destruct Hsh as [Hd|Hd]; [|lia].
      destruct l as [|x [|y l]]; cbn [length] in H2; [lia|lia|]. assert (Exy : th_hash x = th_hash y).
      { apply (alike_eq (x :: y :: l) fl); [done|left|right; left|]. intros j Hj. apply flip_count in Hj. lia. }
      unfold distinct in Hd. rewrite !fmap_cons in Hd. apply NoDup_cons in Hd as [Hd _]. apply Hd. rewrite Exy. left. }
    destruct (choose ent l fl) as [bi|] eqn:Ech.
    - destruct (choose_some ent Hent l fl bi Hne Ech) as (Hbi & _). pose proof (lookup_lt_Some _ _ _ Hbi) as Hlt. pose proof (flip_count bi fl Hbi) as Hfc.
      destruct (fill _ _ _ _ _ _ _ _) as [[look ns1]|] eqn:Ef; [|done]. apply (inj Some) in E as <-. apply Forall_insert; [|done].
      eapply (fill_forall (fun nd => (n_level nd < 32)%nat)); [|exact Ef|apply Forall_app; split; [exact HP|constructor; [exact Hlev|constructor]]].
      intros v m0 m1 Hv Hg Em Hm. change (run bi (Z.of_nat v) (srt bi l)) with (Proof_Tree.group srt bi (Z.of_nat v) l) in *.
      refine (IH _ _ _ _ _ _ _ _ _ _ Em Hm).
      + by apply (alike_group srt Hsrt l fl bi (Z.of_nat v) A Hbi); lia.
      + intros Eg. rewrite Eg in Hg. cbn [length] in Hg. lia.
      + destruct Hsh as [Hd|Hd].
        * left. eapply (distinct_sub l _ (fun x => th_hash x !!! bi = Z.of_nat v)); [|exact Hd]. apply (group_spec srt Hsrt bi _ l _ (al_ok _ _ A) Hlt). lia.
        * right. pose proof (group_shorter ent Hent srt Hsrt l fl bi (Z.of_nat v) A Hne Ech ltac:(lia)). lia.
      + lia.
      + by left.
    - apply (inj Some) in E as <-. apply Forall_app. split; [exact HP|]. constructor; [|constructor]. unfold dead_end. destruct l as [|x [|y l]]; [done|destruct level; cbn [n_level]; lia|cbn [n_level]; lia].
  Qed.
End Levels.

Definition complete (cp : list spec) : Prop :=
  forall lv slots, (lv < 32)%nat -> (slots <= 256)%nat -> (exists s, suitable cp lv slots = Some s) /\ exists s, suitable_duplicate cp lv = Some s.

Lemma reconfs_some cp t : complete cp -> Forall (fun nd => (n_level nd < 32)%nat) (t_nodes t) -> exists rs0, reconfs cp t = Some rs0.
Proof.
  intros Hc H. unfold reconfs. apply mapM_is_Some. apply Forall_forall. intros [i nd] Hp. apply elem_of_list_lookup in Hp as (j & Hj). rewrite list_lookup_imap in Hj.
  destruct (t_nodes t !! j) as [nd'|] eqn:Ej; [|done]. cbn in Hj. injection Hj as <- ->. apply elem_of_list_lookup_2 in Ej. rewrite Forall_forall in H. specialize (H nd Ej).
  change (is_Some (reconf_of cp j nd)). unfold reconf_of. destruct (Hc (n_level nd) (length (used (n_look nd))) H) as [[s1 E1] [s2 E2]].
  { unfold used. etransitivity; [apply filter_length|]. by rewrite seq_length. }
  rewrite E1, E2. destruct (Nat.eqb (n_byte nd) 32); by eexists.
Qed.

Lemma generated_levels ent srt first input t : entropy_ok ent -> sort_ok srt -> hashes_ok 32 input -> numbered first input -> (distinct input \/ (length input < 34)%nat) ->
  pool_generate ent srt input = Some t -> Forall (fun nd => (n_level nd < 32)%nat) (t_nodes t).
Proof.
  intros He Hs Hok Hnum Hd E. unfold pool_generate in E. destruct input as [|x input]; [apply (inj Some) in E; rewrite <- E; constructor|].
  remember (x :: input) as l eqn:El. destruct (65536 <=? Z.of_nat (length l)); [done|].
  destruct (grow ent srt (th_pi x) (Z.of_nat (length l)) 33 l (flags_init 32 0) 0 []) as [ns|] eqn:Eg; [|done]. cbn [mbind option_bind] in E. apply (inj Some) in E as <-. cbn [t_nodes].
  refine (grow_levels ent He srt Hs _ _ 33 l (flags_init 32 0) 0 [] ns _ _ _ _ _ Eg _).
  - by apply alike_init.
  - by rewrite El.
  - unfold shallow. rewrite init_count. destruct Hd as [Hd|Hd]; [by left|right; lia].
  - by rewrite init_count.
  - by right.
  - constructor.
Qed.

(** ** The configuration in use *)
Fixpoint sorted_b (l : list spec) : bool := match l with [] => true | a :: l' => forallb (less a) l' && sorted_b l' end.
Lemma sorted_b_ok l : sorted_b l = true -> cp_sorted l.
Proof.
  induction l as [|a l IH]; cbn [sorted_b]; [constructor|]. intros H. apply andb_true_iff in H as [H1 H2]. constructor; [by apply IH|].
  apply Forall_forall. intros x Hx. rewrite forallb_forall in H1. apply H1. by apply elem_of_list_In.
Qed.
Lemma config_a_sorted : cp_sorted config_a.
Proof. apply sorted_b_ok. vm_compute. reflexivity. Qed.
Lemma config_a_small s : s ∈ config_a -> (s_level s < 32)%nat /\ (s_fmt s = Tiny -> (s_size s <= 5)%nat).
Proof.
  intros H. apply elem_of_list_In in H. revert s H. apply List.Forall_forall.
  assert (Hb : forallb (fun s => (s_level s <? 32)%nat && (negb (bool_decide (s_fmt s = Tiny)) || (s_size s <=? 5)%nat)) config_a = true) by (vm_compute; reflexivity).
  rewrite forallb_forall in Hb. apply List.Forall_forall. intros s Hs. specialize (Hb s Hs). apply andb_true_iff in Hb as [H1 H2]. apply Nat.ltb_lt in H1. split; [done|]. intros Ht.
  rewrite bool_decide_true in H2 by done. cbn [negb orb] in H2. by apply Nat.leb_le in H2.
Qed.
Lemma config_a_tiny : tiny_exact config_a.
Proof.
  intros lv slots s E Ht H2. destruct (suitable_in _ _ _ _ E) as (S1 & S2 & _ & S4). destruct (config_a_small s S1) as [L1 L2]. specialize (L2 Ht). rewrite S4 in L1.
  assert (Hb : forallb (fun lv => forallb (fun slots => match suitable config_a lv slots with Some s => negb (bool_decide (s_fmt s = Tiny)) || Nat.eqb (s_size s) slots | None => true end) (seq 2 4)) (seq 0 32) = true) by (vm_compute; reflexivity).
  rewrite forallb_forall in Hb. specialize (Hb lv ltac:(apply in_seq; lia)). rewrite forallb_forall in Hb. specialize (Hb slots ltac:(apply in_seq; lia)). cbv beta in Hb. rewrite E in Hb.
  rewrite bool_decide_true in Hb by done. cbn [negb orb] in Hb. by apply Nat.eqb_eq in Hb.
Qed.
Lemma config_a_has lv s : (lv < 32)%nat -> s ∈ level_specs lv -> s ∈ config_a.
Proof. intros H Hs. unfold config_a. apply elem_of_list_In, in_concat. exists (level_specs lv). split; [|by apply elem_of_list_In]. apply elem_of_list_In, elem_of_list_fmap_1. apply elem_of_seq. lia. Qed.
Lemma config_a_complete : complete config_a.
Proof.
  intros lv slots Hlv Hs. split.
  - apply (suitable_some config_a lv slots (mk_spec lv Full 256)); [|exact Hs|done|done]. apply (config_a_has lv); [done|]. unfold level_specs. right. apply elem_of_app. right. apply elem_of_app. right. left.
  - apply (suitable_dup_some config_a lv (mk_spec lv Duplicate 1)); [|done|done]. apply (config_a_has lv); [done|]. left.
Qed.
(** the list of the code, before and after its sort, is the same list in another order *)
Lemma config_a_code : config_a ≡ₚ config_code.
Proof.
  unfold config_a, config_code. assert (H : forall lv, level_specs lv ≡ₚ code_specs lv).
  { intros lv. unfold level_specs, code_specs. rewrite !app_assoc. apply Permutation_cons_append. }
  induction (seq 0 32) as [|lv l IH]; [done|]. rewrite !fmap_cons. cbn [concat]. by rewrite IH, H.
Qed.

(** ** Levels of the written bytes *)
Lemma less_level a b : less a b = false -> (s_level b <= s_level a)%nat.
Proof. unfold less. destruct (Nat.eqb_spec (s_level a) (s_level b)) as [->|Hne]; cbn [negb]; [lia|]. intros H. apply Nat.ltb_ge in H. lia. Qed.
Definition below (L : nat) (rs : list reconf) : nat := length (filter (fun r => (s_level (r_spec r) < L)%nat) rs).
Lemma level_offs_ok cp : forall rs off cur L, cp_sorted cp -> sorted_rs rs -> Forall (fun r => r_spec r ∈ cp) rs -> Forall (fun r => (cur <= s_level (r_spec r))%nat) rs ->
  Forall (fun s => (s_level s < 32)%nat) cp -> (cur < L <= 32)%nat -> (cur < 32)%nat ->
  level_offs cp rs off cur !! (L - cur - 1)%nat = Some (off + sizes (take (below L rs) rs))%nat.
Proof.
  induction cp as [|s cp IH]; intros rs off cur L Hc Hs Hin Hcur H32 HL Hc32.
  - destruct rs as [|r rs]; [|apply Forall_cons in Hin as [Hr _]; by apply elem_of_nil in Hr]. cbn [level_offs]. unfold below. cbn [filter list_filter length take]. unfold sizes. cbn [sum_list_with].
    rewrite Nat.add_0_r. apply lookup_replicate_2. lia.
  - destruct (front_ok s cp rs Hc Hs Hin) as (F1 & F2 & F3). apply StronglySorted_inv in Hc as [Hc' _]. cbn [level_offs]. set (k := front s rs) in *.
    pose proof H32 as H32'. apply Forall_cons in H32' as [_ H32'].
    destruct rs as [|r rs'] eqn:Ers.
    + rewrite Nat.sub_diag, Nat.max_id. cbn [replicate app]. change k with 0%nat. cbn [drop]. replace (off + 0 * byte_size s)%nat with off by lia. by apply IH.
    + set (nl := s_level (r_spec r)) in *. rewrite <- Ers in *.
      assert (Hmin : Forall (fun x => (nl <= s_level (r_spec x))%nat) rs).
      { apply Forall_forall. intros x Hx. apply elem_of_list_lookup in Hx as (j & Hj). destruct j as [|j]; [rewrite Ers in Hj; apply (inj Some) in Hj as <-; done|].
        apply less_level. apply (Hs 0%nat (S j)); [lia|by rewrite Ers|done]. }
      assert (Hnl : (cur <= nl < 32)%nat).
      { split; [rewrite Ers in Hcur; apply Forall_cons in Hcur as [Hcur _]; exact Hcur|]. rewrite Forall_forall in H32. apply H32. rewrite Ers in Hin. apply Forall_cons in Hin as [Hin _]. exact Hin. }
      destruct (decide (L <= nl)%nat) as [HLn|HLn].
      * rewrite lookup_app_l by (rewrite replicate_length; lia). rewrite lookup_replicate_2 by lia. f_equal.
        assert (below L rs = 0%nat) as ->; [|rewrite take_0; unfold sizes; cbn [sum_list_with]; lia].
        unfold below. apply length_zero_iff_nil. clear -Hmin HLn. induction rs as [|x rs IHx]; [done|]. apply Forall_cons in Hmin as [Hx Hmin]. rewrite filter_cons_False by lia. by apply IHx.
      * rewrite lookup_app_r by (rewrite replicate_length; lia). rewrite replicate_length. replace (Nat.max cur nl) with nl by lia.
        replace (L - cur - 1 - (nl - cur))%nat with (L - nl - 1)%nat by lia. rewrite IH.
        -- f_equal. assert (Hk : below L rs = (k + below L (drop k rs))%nat).
           { unfold below. rewrite <- (take_drop k rs) at 1. rewrite filter_app, app_length. f_equal.
             destruct (decide (k = 0)%nat) as [->|Hk0]; [by rewrite take_0|].
             assert (Hsl : s_level s = nl). { assert (Hr0 : take k rs !! 0%nat = Some r) by (rewrite lookup_take by lia; by rewrite Ers). rewrite Forall_forall in F2. unfold nl. rewrite (F2 r); [done|]. by apply elem_of_list_lookup_2 with 0%nat. }
             transitivity (length (take k rs)); [|rewrite take_length; lia].
             clear -F2 Hsl HLn. induction (take k rs) as [|x l IHx]; [done|]. apply Forall_cons in F2 as [Hx F2]. rewrite filter_cons_True by (rewrite Hx; lia). cbn [length]. by rewrite IHx. }
           rewrite Hk. replace (take (k + below L (drop k rs)) rs) with (take k rs ++ take (below L (drop k rs)) (drop k rs)).
           ++ rewrite sizes_app, (sizes_same s (take k rs)) by done. rewrite take_length. replace (k `min` length rs)%nat with k by lia. lia.
           ++ rewrite take_drop_commute. rewrite <- (take_drop k (take (k + below L (drop k rs)) rs)) at 2. rewrite take_take. by replace (k `min` (k + below L (drop k rs)))%nat with k by lia.
        -- done.
        -- by apply sorted_drop.
        -- done.
        -- by apply Forall_drop.
        -- done.
        -- lia.
        -- lia.
Qed.

(** ** The bytes examined, of any container *)
Lemma descend_bits cp c fuel : (forall o b, c_bytes c !! o = Some b -> 0 <= b) -> forall id bits q pi b B, 0 <= bits -> descend cp c fuel id bits q = Some (pi, b, B) ->
  (forall j, Z.testbit bits j = true -> Z.testbit B j = true) /\
  forall q' : list Z, length q' = length q -> (forall j, (j < length q)%nat -> Z.testbit B (Z.of_nat j) = true -> q' !! j = q !! j) -> descend cp c fuel id bits q' = Some (pi, b, B).
Proof.
  intros Hpos. induction fuel as [|fuel IH]; intros id bits q pi b B Hb E; [done|]. cbn [descend] in *. destruct (locate cp c id) as [[s oo]|]; [|done]. cbn [mbind option_bind] in *.
  destruct oo as [o|]; [|apply (inj Some) in E; injection E as <- <- <-; done]. destruct (bool_decide (s_fmt s = Duplicate)).
  { destruct (read2 (c_bytes c) o) as [e|]; [|done]. cbn [mbind option_bind] in *. apply (inj Some) in E; injection E as <- <- <-. done. }
  destruct (c_bytes c !! o) as [hb|] eqn:Ehb; [|done]. cbn [mbind option_bind] in *. destruct (read_node (c_bytes c) s o) as [lk|]; [|done]. cbn [mbind option_bind] in *.
  destruct (q !! Z.to_nat hb) as [h|] eqn:Eh; [|done]. cbn [mbind option_bind] in *.
  set (bits' := Z.lor bits (Z.shiftl 1 hb)) in *. pose proof (lookup_lt_Some _ _ _ Eh) as Hlt.
  assert (Hk : (forall j, Z.testbit bits j = true -> Z.testbit bits' j = true) /\ Z.testbit bits' (Z.of_nat (Z.to_nat hb)) = true \/ hb < 0).
  { destruct (Z_lt_le_dec hb 0) as [|Hh]; [by right|]. left. split.
    - intros j Hj. unfold bits'. by rewrite Z.lor_spec, Hj.
    - unfold bits'. rewrite Z2Nat.id by done. rewrite Z.lor_spec, Z.shiftl_1_l, Z.pow2_bits_true by done. by rewrite orb_true_r. }
  pose proof (Hpos _ _ Ehb) as Hhb. destruct Hk as [[K1 K2]|Hk]; [|lia].
  assert (Hb' : 0 <= bits') by (unfold bits'; rewrite Z.lor_nonneg, Z.shiftl_1_l; split; [done|apply Z.pow_nonneg; lia]).
  assert (Hgo : forall B0, (forall j, Z.testbit bits' j = true -> Z.testbit B0 j = true) -> forall q' : list Z, (forall j, (j < length q)%nat -> Z.testbit B0 (Z.of_nat j) = true -> q' !! j = q !! j) -> q' !! Z.to_nat hb = Some h).
  { intros B0 HB q' Hq. rewrite Hq; [done|done|]. by apply HB. }
  destruct (lk h =? 0) eqn:E0; [|destruct (lk h <=? c_count c) eqn:E1; [|destruct (bits' =? 4294967295) eqn:E2]].
  - apply (inj Some) in E. injection E as E' <- <-. split; [done|]. intros q' Hl Hq. rewrite (Hgo bits' (fun _ H => H) q' Hq). cbn [mbind option_bind]. by rewrite E0, <- E'.
  - apply (inj Some) in E. injection E as E' <- <-. split; [done|]. intros q' Hl Hq. rewrite (Hgo bits' (fun _ H => H) q' Hq). cbn [mbind option_bind]. by rewrite E0, E1, <- E'.
  - apply (inj Some) in E. injection E as E' <- <-. split; [done|]. intros q' Hl Hq. rewrite (Hgo bits' (fun _ H => H) q' Hq). cbn [mbind option_bind]. rewrite E0, E1. by rewrite <- E'.
  - destruct (IH _ _ _ _ _ _ Hb' E) as [I1 I2]. split; [intros j Hj; by apply I1, K1|]. intros q' Hl Hq. rewrite (Hgo B I1 q' Hq). cbn [mbind option_bind]. rewrite E0, E1. by apply I2.
Qed.

(** ** A node below the last level *)
Section Deep.
  Context (ent : list thash -> nat -> Z) (Hent : entropy_ok ent) (srt : nat -> list thash -> list thash) (Hsrt : sort_ok srt) (first count : Z).
  Lemma trap_level n : forall ns idx level l fl h, rep ent srt first count (S n) ns idx level l fl -> alike l fl -> length fl = 32%nat -> set_count fl = n -> (level + n = 32)%nat -> trap l fl h ->
    exists nd, nd ∈ ns /\ n_level nd = 32%nat /\ n_byte nd = 32%nat.
  Proof using Hent Hsrt.
    induction n as [|n IH]; intros ns idx level l fl h R A H32 Hn Hlv [T1 T2]; (destruct (copies_in l h ltac:(lia)) as (x & Hx & Ex)); (assert (Hne : l <> []) by (intros ->; by apply elem_of_nil in Hx));
      rewrite rep_step in R; destruct (choose ent l fl) as [bi|] eqn:E.
    - destruct (choose_some ent Hent l fl bi Hne E) as (Hbi & _). pose proof (flip_count bi fl Hbi). lia.
    - exists (dead_end first l level). split; [by apply elem_of_list_lookup_2 with idx|]. pose proof (copies_le l h). unfold dead_end.
      destruct l as [|y [|z l]]; [done|cbn [length] in *; lia|]. cbn [n_level n_byte]. lia.
    - destruct R as (look & E1 & R0 & R1 & R2). destruct (choose_some ent Hent l fl bi Hne E) as (Hbi & _). pose proof (lookup_lt_Some _ _ _ Hbi) as Hlt. pose proof (al_ok _ _ A) as H1.
      pose proof (byte_of x l _ bi H1 Hlt Hx) as Hv. pose proof (copies_eq_group srt Hsrt l fl bi x A Hbi Hx) as Hcp. rewrite Ex in Hv, Hcp.
      pose proof (copies_le (Proof_Tree.group srt bi (h !!! bi) l) h) as Hle. destruct (R2 (h !!! bi) Hv ltac:(lia)) as (c & _ & _ & _ & C4).
      apply (IH ns c (S level) (Proof_Tree.group srt bi (h !!! bi) l) (flip bi fl) h); try done.
      + apply alike_group; [done|done|done|lia].
      + by rewrite flip_length.
      + pose proof (flip_count bi fl Hbi). lia.
      + lia.
      + split; [lia|]. intros j Hj. destruct (decide (bi = j)) as [<-|Hd]; [rewrite flip_same in Hj by done; done|]. rewrite flip_other in Hj by done.
        destruct (T2 j Hj) as (y & Hy & Y1 & Y2). exists y. split_and!; [|done|done]. apply (group_elem srt Hsrt bi _ l _ y H1 Hlt); [lia|]. split; [done|by apply Y2].
    - exfalso. assert (exists j, fl !! j = Some true) as (j & Hj).
      { unfold set_count in Hn. destruct (filter _ fl) as [|u r] eqn:Ef; [done|]. assert (Hu : u ∈ u :: r) by left. rewrite <- Ef in Hu.
        apply elem_of_list_filter in Hu as [-> Hu]. by apply elem_of_list_lookup in Hu. }
      destruct (T2 j Hj) as (y & Hy & Y1 & _). apply Y1. rewrite <- Ex. by apply (choose_none ent Hent l fl Hne E j y x).
  Qed.
End Deep.
Lemma too_deep t nd : nd ∈ t_nodes t -> n_level nd = 32%nat -> n_byte nd = 32%nat -> reconfs config_a t = None.
Proof.
  intros Hnd Hlv Hb. destruct (reconfs config_a t) as [rs|] eqn:E; [|done]. exfalso. destruct (reconfs_ok config_a t rs E) as (_ & _ & H & _). apply elem_of_list_lookup in Hnd as (i & Hi).
  destruct (H i nd Hi) as (r & _ & Hr). unfold reconf_of in Hr. rewrite Hb, Hlv in Hr. cbn [Nat.eqb] in Hr.
  destruct (suitable_duplicate config_a 32) as [s|] eqn:Es; [|done]. destruct (suitable_dup_in _ _ _ Es) as (S1 & _ & S3). pose proof (config_a_small s S1). lia.
Qed.

(** ** Levels left out *)
Lemma first_levels_lookup ent srt first input t rs q c L : entropy_ok ent -> sort_ok srt ->
  hashes_ok 32 input -> numbered first input -> pool_generate ent srt input = Some t ->
  ((2 <= length input)%nat \/ exists x, input = [x] /\ th_hash x !!! 0%nat <> 0) -> Z.of_nat (length (t_nodes t)) + t_count t < 65536 -> writable config_a t rs ->
  serialize config_a rs t = Some c -> (L <= 32)%nat -> length q = 32%nat -> bytes q ->
  exists pi b bits, container_lookup config_a (first_levels config_a rs L c) q = Some (pi, b, bits) /\
    (pool_lookup t q = Some (pi, b) \/ (pi, b) = (-2, false) /\ exists nd, nd ∈ t_nodes t /\ (L <= n_level nd)%nat).
Proof.
  intros He Hs Hok Hnum E Hl Hroom Hw Hser HL Hq Hqb.
  assert (Hne : input <> []) by (destruct Hl as [Hl|(x & -> & _)]; [intros ->; cbn [length] in Hl; lia|done]).
  destruct (generated ent srt first input t Hne Hnum E) as (_ & _ & _ & _ & G5). pose proof (rep_lookup ent srt first _ _ _ _ _ _ _ G5) as Hn0.
  rewrite (serialize_ok config_a t rs config_a_sorted Hw) in Hser by (intros En; rewrite En in Hn0; cbn [length] in Hn0; lia). apply (inj Some) in Hser. subst c.
  destruct (writable_nodes config_a t rs Hw) as (W1 & W2 & W3 & W4). unfold first_levels. cbn [c_first c_count c_root c_layout c_bytes].
  assert (Ho : level_offset config_a rs L = sizes (take (below L rs) rs)).
  { unfold level_offset. destruct L as [|L].
    - assert (below 0 rs = 0%nat) as ->; [|done]. unfold below. apply length_zero_iff_nil. clear. induction rs as [|r rs IH]; [done|]. rewrite filter_cons_False by lia. done.
    - pose proof (level_offs_ok config_a rs 0 0 (S L) config_a_sorted (proj1 Hw) W3) as H. rewrite Nat.sub_0_r in H. replace (S L - 1)%nat with L in H by lia. apply list_lookup_total_correct. rewrite H; [done| | |lia|lia].
      + apply Forall_forall. intros r _. lia.
      + apply Forall_forall. intros s Hin. by apply config_a_small. }
  rewrite Ho. destruct (truncated_lookup ent srt config_a first input t rs q (below L rs) He Hs config_a_sorted config_a_tiny Hok Hnum E Hl Hroom Hw Hq Hqb) as [(pi & b & bits & H1 & H2)|[Hlt (bits & H1)]].
  - exists pi, b, bits. split; [exact H1|by left].
  - exists (-2), false, bits. split; [exact H1|]. right. split; [done|].
    assert (Hr : exists r, r ∈ rs /\ (L <= s_level (r_spec r))%nat).
    { clear -Hlt. unfold below in Hlt. induction rs as [|r rs IH]; [cbn [length filter list_filter] in Hlt; lia|]. destruct (decide (s_level (r_spec r) < L)%nat) as [Hd|Hd].
      - rewrite filter_cons_True in Hlt by done. cbn [length] in Hlt. destruct IH as (r' & H1 & H2); [lia|]. exists r'. split; [by right|done].
      - exists r. split; [left|lia]. }
    destruct Hr as (r & Hr & Hlv). destruct Hw as [_ (rs0 & Ers & Hp)]. rewrite Hp in Hr. apply elem_of_list_lookup in Hr as (i & Hi). destruct (reconfs_ok config_a t rs0 Ers) as (_ & O2 & O3 & _).
    pose proof (lookup_lt_Some _ _ _ Hi) as Hil. destruct (lookup_lt_is_Some_2 (t_nodes t) i) as [nd Hnd]; [lia|]. exists nd. split; [by apply elem_of_list_lookup_2 with i|].
    destruct (O3 i nd Hnd) as (r' & Hr' & Hrec). rewrite Hi in Hr'. apply (inj Some) in Hr'. subst r'. unfold reconf_of in Hrec.
    assert (s_level (r_spec r) = n_level nd); [|lia]. destruct (Nat.eqb (n_byte nd) 32).
    + destruct (suitable_duplicate config_a (n_level nd)) as [s|] eqn:Es; [|discriminate Hrec]. apply (inj Some) in Hrec as <-. exact (proj2 (proj2 (suitable_dup_in _ _ _ Es))).
    + destruct (suitable config_a (n_level nd) (length (used (n_look nd)))) as [s|] eqn:Es; [|discriminate Hrec]. apply (inj Some) in Hrec as <-. exact (proj2 (proj2 (proj2 (suitable_in _ _ _ _ Es)))).
Qed.
