(** Proofs about the uniform hash store. *)
From Coq Require Import ZifyBool ZifyNat.
From Verif Require Import Base Model_Folders Model_Word Model_HashStore Model_Uniform Spec_HashStore Spec_Word Proof_Word Proof_HashStore.

Lemma bin_size_val : Z.of_nat bin_size = 832.
Proof. reflexivity. Qed.
Lemma chunk_bytes_eq : chunk_bytes = (Z.to_nat 128 * 32)%nat.
Proof. reflexivity. Qed.
Lemma n128 : Z.of_nat (Z.to_nat 128) = 128.
Proof. reflexivity. Qed.
Global Opaque bin_size chunk_bytes.

(** ** What a bin holds *)
Definition first_at (hs : list (list Z)) (i : Z) (h : list Z) : Prop :=
  0 <= i /\ hs !! Z.to_nat i = Some h /\ forall j, (j < Z.to_nat i)%nat -> hs !! j <> Some h.

Definition bin_all (b : ubin) : list ent := ub_slots b ++ ub_over b.

Record bin_inv (d a : Z) (hs : list (list Z)) (b : ubin) : Prop := {
  bv_count : ub_count b = Z.of_nat (length (bin_all b));
  bv_slots : (length (ub_slots b) <= 102)%nat;
  bv_full : ub_over b <> [] -> length (ub_slots b) = 102%nat;
  bv_small : (length (bin_all b) <= length hs)%nat;
  bv_mem : forall e, e ∈ bin_all b <-> first_at hs (fst e) (snd e) /\ address d (snd e) = a;
}.

Lemma first_at_lt hs i h : first_at hs i h -> 0 <= i < Z.of_nat (length hs).
Proof. intros (H0 & H1 & _). apply lookup_lt_Some in H1. lia. Qed.

Lemma first_at_app hs i h g : first_at (hs ++ [g]) i h <->
  first_at hs i h \/ (i = Z.of_nat (length hs) /\ h = g /\ g ∉ hs).
Proof.
  split.
  - intros (H0 & H1 & H2). pose proof (lookup_lt_Some _ _ _ H1) as Hl. rewrite app_length in Hl. cbn in Hl.
    destruct (decide (Z.to_nat i < length hs)%nat) as [Hi|Hi].
    + left. rewrite lookup_app_l in H1 by done. split; [done|]. split; [done|].
      intros j Hj. specialize (H2 j Hj). rewrite lookup_app_l in H2 by lia. done.
    + right. assert (Z.to_nat i = length hs) as Ei by lia. rewrite Ei in *. split; [lia|].
      rewrite lookup_app_r in H1 by lia. rewrite Nat.sub_diag in H1. injection H1 as <-. split; [done|].
      intros Hin. apply elem_of_list_lookup in Hin as [j Hj]. pose proof (lookup_lt_Some _ _ _ Hj).
      apply (H2 j); [lia|]. rewrite lookup_app_l by lia. done.
  - intros [(H0 & H1 & H2)|(-> & -> & Hn)].
    + pose proof (lookup_lt_Some _ _ _ H1). split; [done|]. rewrite lookup_app_l by done. split; [done|].
      intros j Hj. rewrite lookup_app_l by lia. auto.
    + split; [lia|]. rewrite Nat2Z.id. rewrite lookup_app_r by lia. rewrite Nat.sub_diag. split; [done|].
      intros j Hj. rewrite lookup_app_l by lia. intros E. apply Hn. by eapply elem_of_list_lookup_2.
Qed.

Lemma first_at_exists (hs : list (list Z)) h : h ∈ hs -> exists i, first_at hs i h.
Proof.
  induction hs as [|x hs IH] using rev_ind; [by intros ?%elem_of_nil|].
  intros Hin. destruct (decide (h ∈ hs)) as [Hh|Hh].
  - destruct (IH Hh) as [i Hi]. exists i. apply first_at_app. by left.
  - apply elem_of_app in Hin as [Hin|Hin]; [done|]. apply elem_of_list_singleton in Hin as ->.
    exists (Z.of_nat (length hs)). apply first_at_app. right. done.
Qed.

Lemma first_at_unique hs i j h : first_at hs i h -> first_at hs j h -> i = j.
Proof.
  intros (A1 & A2 & A3) (B1 & B2 & B3).
  destruct (Nat.lt_trichotomy (Z.to_nat i) (Z.to_nat j)) as [H|[H|H]]; [by destruct (B3 _ H)|lia|by destruct (A3 _ H)].
Qed.

Lemma bin_empty_inv d a : bin_inv d a [] ub_empty.
Proof.
  constructor; cbn; [done|lia|done|lia|]. intros e. split; [by intros ?%elem_of_nil|].
  intros [(_ & H & _) _]. done.
Qed.

Lemma bin_has_spec b h : bin_has b h = true <-> exists i, (i, h) ∈ bin_all b.
Proof.
  unfold bin_has, bin_all.
  assert (E : forall l : list ent, existsb (fun e => bool_decide (snd e = h)) l = true <-> exists i, (i, h) ∈ l).
  { intros l. rewrite existsb_exists. split.
    - intros ([i x] & Hin & Hb). apply bool_decide_eq_true in Hb. cbn in Hb. subst x. exists i. by apply elem_of_list_In.
    - intros [i Hi]. exists (i, h). split; [by apply elem_of_list_In|]. by apply bool_decide_eq_true. }
  rewrite orb_true_iff, !E. split.
  - intros [[i H]|[i H]]; exists i; apply elem_of_app; auto.
  - intros [i [H|H]%elem_of_app]; eauto.
Qed.

Lemma bin_skip_inv d a hs b h : bin_inv d a hs b -> (address d h <> a \/ h ∈ hs) -> bin_inv d a (hs ++ [h]) b.
Proof.
  intros [B1 B2 B3 B4 B5] Hh. constructor; [done|done|done|rewrite app_length; cbn; lia|].
  intros e. rewrite B5, first_at_app. split; [tauto|].
  intros [[H|(H1 & H2 & H3)] H4]; [done|]. exfalso. destruct Hh as [Hh|Hh]; [congruence|done].
Qed.

Lemma bin_add_inv d a hs b h : bin_inv d a hs b -> address d h = a ->
  bin_inv d a (hs ++ [h]) (bin_add b (Z.of_nat (length hs), h)).
Proof.
  intros I Ha. unfold bin_add. cbn [snd].
  destruct (bin_has b h) eqn:E.
  { apply bin_skip_inv; [done|]. right. apply bin_has_spec in E as [i Hi].
    apply (bv_mem _ _ _ _ I) in Hi as [(_ & Hi & _) _]. by eapply elem_of_list_lookup_2. }
  assert (Hn : h ∉ hs).
  { intros Hin. destruct (first_at_exists _ _ Hin) as [i Hi].
    assert (bin_has b h = true) as E2; [|congruence]. apply bin_has_spec. exists i.
    apply (bv_mem _ _ _ _ I). done. }
  destruct I as [B1 B2 B3 B4 B5]. unfold bin_all in *.
  assert (M : forall e : ent, e ∈ ub_slots b ++ ub_over b \/ e = (Z.of_nat (length hs), h) <->
     first_at (hs ++ [h]) (fst e) (snd e) /\ address d (snd e) = a).
  { intros e. rewrite B5, first_at_app. split.
    - intros [H| ->]; [tauto|]. cbn. tauto.
    - intros [[H|(H1 & H2 & H3)] H4]; [tauto|]. right. destruct e; cbn in *. congruence. }
  destruct (ub_count b <? 102) eqn:Ec; constructor; unfold bin_all; cbn [ub_slots ub_over ub_count].
  - rewrite !app_length in *. cbn [length]. lia.
  - rewrite !app_length in *. cbn [length]. lia.
  - intros Ho. specialize (B3 Ho). rewrite !app_length in *. lia.
  - rewrite !app_length in *. cbn [length]. lia.
  - intros e. rewrite <-M. rewrite !elem_of_app, elem_of_list_singleton. tauto.
  - rewrite !app_length in *. cbn [length]. lia.
  - done.
  - intros _. destruct (ub_over b) as [|o os] eqn:Eo; [|by apply B3]. rewrite app_length in *. cbn [length] in *. lia.
  - rewrite !app_length in *. cbn [length]. lia.
  - intros e. rewrite <-M. rewrite !elem_of_app, elem_of_list_singleton. tauto.
Qed.

(** ** One pass *)
Definition bins_inv (d first : Z) (hs : list (list Z)) (bins : list ubin) : Prop :=
  forall i b, bins !! i = Some b -> bin_inv d (first + Z.of_nat i) hs b.

Lemma address_range d h : is_hash h -> 2 <= d -> 0 <= address d h < 2^63.
Proof.
  intros [Hl Hb] Hd. unfold address.
  pose proof (le_dec_range (take 8 h) (Forall_take _ 8 _ Hb)) as R. rewrite take_length, Hl in R.
  change (pow256 (8 `min` 32)) with (2^64) in R. split; [apply Z.div_pos; lia|].
  apply Z.div_lt_upper_bound; lia.
Qed.

Lemma deal_inv d first hs bins h : 2 <= d -> is_hash h -> bins_inv d first hs bins ->
  bins_inv d first (hs ++ [h]) (deal d first bins (Z.of_nat (length hs), h)) /\
  length (deal d first bins (Z.of_nat (length hs), h)) = length bins.
Proof.
  intros Hd Hh I. pose proof (address_range d h Hh Hd) as Ra. unfold deal. cbn [snd].
  rewrite to_i64_small by lia. set (a := address d h) in *.
  destruct ((a <? first) || (first + Z.of_nat (length bins) <=? a)) eqn:E.
  - split; [|done]. intros i b Hi. pose proof (lookup_lt_Some _ _ _ Hi). apply bin_skip_inv; [by apply I|].
    left. fold a. lia.
  - split; [|by rewrite alter_length]. intros i b Hi.
    destruct (decide (i = Z.to_nat (a - first))) as [->|Hne].
    + rewrite list_lookup_alter in Hi. destruct (bins !! _) as [b0|] eqn:E0; [|done]. injection Hi as <-.
      apply bin_add_inv; [by apply I|]. fold a. lia.
    + rewrite list_lookup_alter_ne in Hi by done. apply bin_skip_inv; [by apply I|]. left. fold a. lia.
Qed.

Lemma deal_all_inv d first l : forall hs bins, 2 <= d -> Forall is_hash l -> bins_inv d first hs bins ->
  let bins' := fold_left (deal d first) (imap (fun i h => (Z.of_nat (length hs) + Z.of_nat i, h)) l) bins in
  bins_inv d first (hs ++ l) bins' /\ length bins' = length bins.
Proof.
  induction l as [|h l IH]; intros hs bins Hd Hl I; cbn zeta.
  - cbn. rewrite app_nil_r. done.
  - apply Forall_cons in Hl as [Hh Hl]. rewrite imap_cons. cbn [fold_left].
    rewrite Z.add_0_r. destruct (deal_inv d first hs bins h Hd Hh I) as [I' L'].
    pose proof (IH (hs ++ [h]) (deal d first bins (Z.of_nat (length hs), h)) Hd Hl I') as [J1 J2].
    rewrite <-app_assoc in J1. cbn [app] in J1. rewrite L' in J2.
    rewrite app_length in *. cbn [length] in *.
    replace (imap ((fun (i : nat) (h0 : list Z) => (Z.of_nat (length hs) + Z.of_nat i, h0)) ∘ S) l)
      with (imap (fun (i : nat) (h0 : list Z) => (Z.of_nat (length hs + 1) + Z.of_nat i, h0)) l); [done|].
    apply imap_ext. intros i x _. cbn. f_equal. lia.
Qed.

Lemma split32_concat l : Forall (fun h => length h = 32%nat) l -> split32 (length l) (concat l) = l.
Proof.
  induction 1 as [|h l Hh Hl IH]; [done|]. cbn [length split32 concat].
  rewrite take_app_alt, drop_app_alt by done. by rewrite IH.
Qed.

Lemma is_hash_len l : Forall is_hash l -> Forall (fun h => length h = 32%nat) l.
Proof. intros H. eapply Forall_impl; [exact H|]. by intros h [? _]. Qed.

Lemma read_in_spec d first : forall fuel rest hs bins, 2 <= d -> Forall is_hash rest -> bins_inv d first hs bins ->
  (length (concat rest) < fuel)%nat ->
  exists bins', read_in fuel d first bins (Z.of_nat (length hs)) (concat rest) = UOk bins' /\
    bins_inv d first (hs ++ rest) bins' /\ length bins' = length bins.
Proof.
  induction fuel as [|fuel IH]; intros rest hs bins Hd Hr I Hf; [lia|]. cbn [read_in].
  pose proof (is_hash_len _ Hr) as Hl. rewrite chunk_bytes_eq.
  pose proof n128 as N.
  rewrite (chunks_take 32), (chunks_drop 32) by done.
  rewrite (chunks_concat_length 32) by (by apply Forall_take).
  rewrite (chunks_concat_length 32) in Hf by done.
  destruct (Nat.eqb_spec (length (take (Z.to_nat 128) rest) * 32) 0) as [E|E].
  - rewrite take_length in E. destruct rest as [|? ?]; [|cbn [length] in E; lia].
    exists bins. rewrite app_nil_r. done.
  - rewrite Nat.mod_mul by lia. cbn [Nat.eqb negb]. rewrite Nat.div_mul by lia.
    rewrite split32_concat by (by apply Forall_take).
    destruct (deal_all_inv d first (take (Z.to_nat 128) rest) hs bins Hd (Forall_take _ _ _ Hr) I) as [J1 J2].
    cbn zeta in *. set (bins' := fold_left _ _ _) in *.
    destruct (IH (drop (Z.to_nat 128) rest) (hs ++ take (Z.to_nat 128) rest) bins' Hd (Forall_drop _ _ _ Hr) J1)
      as (b2 & K1 & K2 & K3).
    { rewrite (chunks_concat_length 32) by (by apply Forall_drop). rewrite drop_length.
      rewrite take_length in E. lia. }
    exists b2. rewrite app_length, Nat2Z.inj_add in K1. rewrite K1. split; [done|].
    rewrite <-app_assoc, take_drop in K2. split; [done|lia].
Qed.

(** ** Writing the files of a pass *)
Lemma bin_bytes_length b : (length (ub_slots b) <= 102)%nat -> length (bin_bytes b) = bin_size.
Proof.
  intros H. unfold bin_bytes. rewrite !app_length, !le_enc_length, replicate_length.
  rewrite (chunks_concat_length 8).
  2:{ apply Forall_fmap, Forall_true. intros e. apply le_enc_length. }
  rewrite fmap_length. pose proof bin_size_val. lia.
Qed.

Lemma write_starts_spec first : forall bins (rows : list (list Z)) i0, 0 <= first -> chunks bin_size rows ->
  (forall b, b ∈ bins -> (length (ub_slots b) <= 102)%nat) ->
  (Z.to_nat first + i0 + length bins <= length rows)%nat ->
  exists rows', fold_left (fun f ib => file_write f (Z.to_nat (832 * (first + Z.of_nat (fst ib)))) (bin_bytes (snd ib)))
      (imap (fun i b => (i0 + i, b)%nat) bins) (concat rows) = concat rows' /\
    chunks bin_size rows' /\ length rows' = length rows /\
    (forall i b, bins !! i = Some b -> rows' !! (Z.to_nat first + i0 + i)%nat = Some (bin_bytes b)) /\
    (forall j, (j < Z.to_nat first + i0 \/ Z.to_nat first + i0 + length bins <= j)%nat -> rows' !! j = rows !! j).
Proof.
  induction bins as [|b bins IH]; intros rows i0 Hf Hc Hb Hlen.
  - exists rows. cbn. split; [done|]. split; [done|]. split; [done|]. split; [done|]. done.
  - rewrite imap_cons. cbn [fold_left fst snd]. rewrite Nat.add_0_r. pose proof bin_size_val as BS.
    replace (Z.to_nat (832 * (first + Z.of_nat i0))) with ((Z.to_nat first + i0) * bin_size)%nat by lia.
    assert (Hbl : length (bin_bytes b) = bin_size). { apply bin_bytes_length, Hb. by left. }
    rewrite (chunks_write bin_size) by (done || lia).
    set (rows1 := rec_write _ rows _ _). cbn [length] in Hlen.
    assert (C1 : chunks bin_size rows1) by (by apply rec_write_chunks).
    assert (L1 : length rows1 = length rows) by (unfold rows1; rewrite rec_write_length; lia).
    destruct (IH rows1 (S i0) Hf C1) as (rows' & E & C' & L' & W & U).
    { intros b' Hb'. apply Hb. by right. }
    { lia. }
    exists rows'. split.
    { rewrite <-E. f_equal. apply imap_ext. intros i x _. cbn. f_equal. lia. }
    split; [done|]. split; [lia|]. split.
    + intros [|i] b' Hi.
      * injection Hi as <-. rewrite U by lia. unfold rows1. rewrite Nat.add_0_r. apply rec_write_eq.
      * cbn in Hi. specialize (W i b' Hi). rewrite <-W. f_equal. lia.
    + intros j Hj. cbn [length] in Hj. rewrite U by lia. unfold rows1. rewrite rec_write_ne; [done|lia|].
      destruct (decide (j < length rows)%nat); [by left|right; lia].
Qed.

Definition over_bytes (es : list ent) : list Z := concat ((fun e : ent => le_enc 8 (fst e)) <$> es).

Lemma write_over_spec dd first : forall bins i0 over dirs,
  let r := fold_left (fun od ib =>
      let a := first + Z.of_nat (fst ib) in
      match ub_over (snd ib) with
      | [] => od
      | es => (<[a := concat ((fun e : ent => le_enc 8 (fst e)) <$> es)]> (fst od), {[folder_of dd a]} ∪ snd od)
      end) (imap (fun i b => (i0 + i, b)%nat) bins) (over, dirs) in
  (forall i b, bins !! i = Some b -> ub_over b <> [] ->
     (fst r : gmap Z (list Z)) !! (first + Z.of_nat (i0 + i)) = Some (over_bytes (ub_over b))) /\
  (forall a, (forall i b, bins !! i = Some b -> ub_over b <> [] -> a <> first + Z.of_nat (i0 + i)) ->
     (fst r : gmap Z (list Z)) !! a = over !! a) /\
  (forall f, f ∈ (snd r : gset (list Z)) <-> f ∈ dirs \/ exists i b, bins !! i = Some b /\ ub_over b <> [] /\ f = folder_of dd (first + Z.of_nat (i0 + i))).
Proof.
  induction bins as [|b bins IH]; intros i0 over dirs; cbn zeta.
  - cbn. split; [done|]. split; [done|]. intros f. split; [by left|]. intros [?|(i & b & ? & _)]; done.
  - rewrite imap_cons. cbn [fold_left fst snd]. rewrite Nat.add_0_r.
    assert (Ext : imap ((fun (i : nat) (b0 : ubin) => ((i0 + i)%nat, b0)) ∘ S) bins = imap (fun i b => (S i0 + i, b)%nat) bins).
    { apply imap_ext. intros i x _. cbn. f_equal. lia. }
    rewrite Ext. clear Ext.
    destruct (ub_over b) as [|o os] eqn:Eo.
    + destruct (IH (S i0) over dirs) as (A1 & A2 & A3). cbn zeta in *. split; [|split].
      * intros [|i] b' Hi Hne; [injection Hi as <-; congruence|]. cbn in Hi. rewrite <-(A1 i b' Hi Hne). f_equal. lia.
      * intros a Ha. apply A2. intros i b' Hi Hne. specialize (Ha (S i) b' Hi Hne). lia.
      * intros f. rewrite A3. split.
        -- intros [?|(i & b' & Hi & Hne & ->)]; [by left|]. right. exists (S i), b'. split; [done|]. split; [done|]. f_equal. lia.
        -- intros [?|([|i] & b' & Hi & Hne & ->)]; [by left|injection Hi as <-; congruence|]. right. exists i, b'. split; [done|]. split; [done|]. f_equal. lia.
    + set (over1 := <[_:=_]> over). set (dirs1 := _ ∪ dirs).
      destruct (IH (S i0) over1 dirs1) as (A1 & A2 & A3). cbn zeta in *. split; [|split].
      * intros [|i] b' Hi Hne.
        -- injection Hi as <-. rewrite A2 by (intros; lia). unfold over1. rewrite Nat.add_0_r, lookup_insert. rewrite Eo. done.
        -- cbn in Hi. rewrite <-(A1 i b' Hi Hne). f_equal. lia.
      * intros a Ha. rewrite A2.
        -- unfold over1. rewrite lookup_insert_ne; [done|]. specialize (Ha 0%nat b eq_refl). rewrite Eo in Ha. specialize (Ha ltac:(done)). lia.
        -- intros i b' Hi Hne. specialize (Ha (S i) b' Hi Hne). lia.
      * intros f. rewrite A3. unfold dirs1. rewrite elem_of_union, elem_of_singleton. split.
        -- intros [[->|?]|(i & b' & Hi & Hne & ->)]; [|by left|].
           ++ right. exists 0%nat, b. rewrite Nat.add_0_r, Eo. done.
           ++ right. exists (S i), b'. split; [done|]. split; [done|]. f_equal. lia.
        -- intros [?|([|i] & b' & Hi & Hne & ->)]; [by left; right| |].
           ++ left. left. rewrite Nat.add_0_r. done.
           ++ right. exists i, b'. split; [done|]. split; [done|]. f_equal. lia.
Qed.

(** ** All passes *)
(** The files are right for address [a] *)
Definition addr_ok (d a : Z) (hs : list (list Z)) (rows : list (list Z)) (over : gmap Z (list Z)) : Prop :=
  exists b, bin_inv d a hs b /\ rows !! Z.to_nat a = Some (bin_bytes b) /\
    (ub_over b <> [] -> over !! a = Some (over_bytes (ub_over b))).

Definition disk_ok (d n upto : Z) (hs : list (list Z)) (k : udisk) : Prop :=
  ud_hashes k = concat hs /\ exists rows, ud_starts k = concat rows /\ chunks bin_size rows /\ length rows = Z.to_nat n /\
  forall a, 0 <= a < upto -> a < n -> addr_ok d a hs rows (ud_over k).

Lemma imap_pair_eq (bins : list ubin) : imap pair bins = imap (fun i b => (0 + i, b)%nat) bins.
Proof. apply imap_ext. done. Qed.

Lemma one_pass_spec d dd n per pass hs k : 2 <= d -> Forall is_hash hs -> 0 < per -> 0 <= pass -> pass * per <= n ->
  disk_ok d n (pass * per) hs k ->
  exists k', one_pass d dd n per pass k = UOk k' /\ disk_ok d n ((pass + 1) * per) hs k' /\ ud_params k' = ud_params k.
Proof.
  intros Hd Hh Hper Hpass Hn (Hk & rows & Es & Cr & Lr & Ok). unfold one_pass. rewrite Hk.
  set (cnt := if n <? pass * per + per then n - pass * per else per).
  assert (Hc : 0 <= cnt /\ pass * per + cnt <= n /\ (pass * per + cnt = n \/ cnt = per)).
  { unfold cnt. destruct (Z.ltb_spec n (pass * per + per)); lia. }
  destruct (read_in_spec d (pass * per) (S (length (concat hs))) hs [] (replicate (Z.to_nat cnt) ub_empty) Hd Hh) as (bins & E & I & L).
  { intros i b Hi. apply lookup_replicate in Hi as [-> _]. apply bin_empty_inv. }
  { lia. }
  cbn [length app] in E, I. change (Z.of_nat 0) with 0 in E. rewrite E. rewrite replicate_length in L.
  unfold write_over, write_starts. rewrite imap_pair_eq.
  pose proof (write_over_spec dd (pass * per) bins 0 (ud_over k) (ud_dirs k)) as W. cbn zeta in W.
  destruct (fold_left _ _ (ud_over k, ud_dirs k)) as [over dirs]. cbn [fst snd] in W. destruct W as (W1 & W2 & _).
  rewrite Es.
  assert (Hp : 0 <= pass * per) by lia.
  destruct (write_starts_spec (pass * per) bins rows 0 Hp Cr) as (rows' & E' & C' & L' & S1 & S2).
  { intros b Hb. apply elem_of_list_lookup in Hb as [i Hi]. exact (bv_slots _ _ _ _ (I i b Hi)). }
  { lia. }
  rewrite E'. eexists. split; [done|]. split; [|done].
  split; [done|]. exists rows'. cbn [ud_starts ud_over]. split; [done|]. split; [done|]. split; [lia|].
  intros a Ha Han. destruct (decide (a < pass * per)) as [Hlo|Hhi].
  - destruct (Ok a ltac:(lia) Han) as (b & B1 & B2 & B3). exists b. split; [done|]. rewrite S2 by lia. split; [done|].
    intros Hne. rewrite W2; [by apply B3|]. intros i b' _ _. lia.
  - destruct (lookup_lt_is_Some_2 bins (Z.to_nat (a - pass * per))) as [b Hb]; [lia|].
    exists b. specialize (I _ _ Hb). replace (pass * per + Z.of_nat (Z.to_nat (a - pass * per))) with a in I by lia.
    split; [done|]. split.
    + rewrite <-(S1 _ _ Hb). f_equal. lia.
    + intros Hne. rewrite <-(W1 _ _ Hb Hne). f_equal. lia.
Qed.

Lemma run_passes_spec d dd n per hs : 2 <= d -> Forall is_hash hs -> 0 < per -> forall todo pass k, 0 <= pass ->
  (todo = 0%nat \/ (pass + Z.of_nat todo - 1) * per <= n) ->
  disk_ok d n (pass * per) hs k ->
  exists k', run_passes d dd n per pass todo k = UOk k' /\ disk_ok d n ((pass + Z.of_nat todo) * per) hs k' /\ ud_params k' = ud_params k.
Proof.
  intros Hd Hh Hper. induction todo as [|todo IH]; intros pass k Hp Hb Ok.
  - exists k. rewrite Z.add_0_r. done.
  - cbn [run_passes]. destruct (one_pass_spec d dd n per pass hs k Hd Hh Hper Hp) as (k1 & E & Ok1 & P1).
    { destruct Hb as [?|Hb]; [done|]. nia. }
    { done. }
    rewrite E. destruct (IH (pass + 1) k1 ltac:(lia)) as (k2 & E2 & Ok2 & P2).
    { destruct Hb as [?|Hb]; [done|]. right. replace (pass + 1 + Z.of_nat todo - 1) with (pass + Z.of_nat (S todo) - 1) by lia. done. }
    { done. }
    exists k2. rewrite E2. split; [done|]. replace (pass + Z.of_nat (S todo)) with (pass + 1 + Z.of_nat todo) by lia. split; [done|congruence].
Qed.

Lemma index_spec d dd bpp hs k : 2 <= d -> Forall is_hash hs -> 832 <= bpp -> 0 <= biggest_plus_one d ->
  ud_hashes k = concat hs ->
  exists k', index_the_hashes d dd bpp k = UOk k' /\ disk_ok d (biggest_plus_one d) (biggest_plus_one d) hs k' /\ ud_params k' = ud_params k.
Proof.
  intros Hd Hh Hb HN Hk. unfold index_the_hashes. set (n := biggest_plus_one d) in *.
  set (per := bpp / 832). assert (Hper : 0 < per) by (apply Z.div_str_pos; lia).
  destruct (Z.eqb_spec per 0); [lia|].
  pose proof (Z.div_pos n per HN Hper) as Hq. pose proof (Z.mul_div_le n per Hper) as Hm.
  pose proof (Z.mul_succ_div_gt n per Hper) as Hg.
  set (k0 := mk_ud _ _ _ _ _).
  destruct (run_passes_spec d dd n per hs Hd Hh Hper (Z.to_nat (1 + n / per)) 0 k0 ltac:(lia)) as (k' & E & Ok & P).
  { right. rewrite Z2Nat.id by lia. lia. }
  { split; [done|]. exists (replicate (Z.to_nat n) (replicate bin_size 0)). cbn [ud_starts k0]. pose proof bin_size_val as BS.
    split.
    { replace (Z.to_nat (832 * n)) with (Z.to_nat n * bin_size)%nat by lia.
      induction (Z.to_nat n) as [|m IH]; [done|]. cbn [replicate concat Nat.mul]. rewrite <-IH, replicate_add. done. }
    split; [apply Forall_replicate, replicate_length|]. split; [apply replicate_length|]. intros a Ha. lia. }
  exists k'. split; [done|]. split; [|done]. destruct Ok as (O1 & rows & O2 & O3 & O4 & O5).
  split; [done|]. exists rows. split; [done|]. split; [done|]. split; [done|]. intros a Ha Han. apply O5; [|done]. 
  rewrite Z2Nat.id by lia. lia.
Qed.

(** ** Lookup *)
Lemma u_get_open d dd k hs i : Forall is_hash hs -> ud_hashes k = concat hs ->
  u_get (u_open d dd k) i = if i <? 0 then None else hs !! Z.to_nat i.
Proof.
  intros Hh Hk. unfold u_get, u_open. cbn [us_file]. rewrite Hk.
  destruct (i <? 0); [done|]. apply (bhs_get_rep hs), bhs_open_rep, is_hash_len, Hh.
Qed.

Lemma scan_spec s q (es : list ent) pad : (forall e : ent, e ∈ es -> 0 <= fst e < 2^63 /\ u_get s (fst e) = Some (snd e)) -> forall n i, (i + n = length es)%nat ->
  u_scan s q (over_bytes es ++ pad) i n = (fun e : ent => RFound (Z.to_nat (fst e))) <$> List.find (fun e : ent => bool_decide (snd e = q)) (drop i es).
Proof.
  intros He. induction n as [|n IH]; intros i Hi; cbn [u_scan].
  - rewrite drop_ge by lia. done.
  - destruct (lookup_lt_is_Some_2 es i) as [e Ee]; [lia|]. rewrite (drop_S _ _ _ Ee). cbn [List.find].
    assert (C : chunks 8 ((fun e : ent => le_enc 8 (fst e)) <$> es)). { apply Forall_fmap, Forall_true. intros x. apply le_enc_length. }
    assert (R : file_read (over_bytes es ++ pad) (i * 8) 8 = Some (le_enc 8 (fst e))).
    { unfold file_read, over_bytes. rewrite app_length, (chunks_concat_length 8), fmap_length by done.
      rewrite decide_True by lia. f_equal.
      rewrite drop_app_le by (rewrite (chunks_concat_length 8), fmap_length by done; lia).
      rewrite take_app_le by (rewrite drop_length, (chunks_concat_length 8), fmap_length by done; lia).
      rewrite (chunks_read 8) by done. rewrite list_lookup_fmap, Ee. done. }
    rewrite R. destruct (He e) as [Re Ge]; [by eapply elem_of_list_lookup_2|].
    rewrite le_dec_enc_small by (rewrite pow256_8; lia). rewrite to_i64_small by lia. rewrite Ge.
    destruct (decide (snd e = q)) as [Eq|Nq].
    + rewrite bool_decide_true by done. done.
    + rewrite bool_decide_false by done. apply IH. lia.
Qed.

(** The files read by a lookup at address [a] *)
Definition addr_look (d a : Z) (hs : list (list Z)) (s : ustore) : Prop :=
  exists b pad, bin_inv d a hs b /\
    file_read (ud_starts (us_disk s)) (Z.to_nat (a * 832)) bin_size = Some (bin_bytes b) /\
    (ub_over b <> [] -> ud_over (us_disk s) !! a = Some (over_bytes (ub_over b) ++ pad)).

Lemma lookup_gen d hs ext s q : 1664 <= d -> us_div s = d -> is_hash q -> Z.of_nat (length hs) < 2^63 ->
  bhs_rep (hs ++ ext) (us_file s) -> addr_look d (address d q) hs s ->
  first_occurrence hs q (u_index_of s q).
Proof.
  intros Hd Hdiv Hq Hlen Hrep (b & pad & I & Rd & Ov).
  pose proof (address_range d q Hq ltac:(lia)) as Ra.
  unfold u_index_of. rewrite Hdiv.
  assert (Rq : address d q * 832 < 2^63).
  { destruct Hq as [Hl Hb]. unfold address.
    pose proof (le_dec_range (take 8 q) (Forall_take _ 8 _ Hb)) as R. rewrite take_length, Hl in R.
    change (pow256 (8 `min` 32)) with (2^64) in R.
    assert (le_dec (take 8 q) / d <= le_dec (take 8 q) / 1664) by (apply Z.div_le_compat_l; lia).
    assert (le_dec (take 8 q) / 1664 < 2^64 / 1664 + 1).
    { apply Z.div_lt_upper_bound; [lia|]. change (2^64 / 1664) with 11085783698142759. lia. }
    change (2^64 / 1664) with 11085783698142759 in *. lia. }
  rewrite Z.mod_small by lia. rewrite to_i64_small by lia.
  destruct (Z.ltb_spec (address d q * 832) 0); [lia|].
  rewrite Rd. rewrite (to_i64_small (address d q)) by lia.
  assert (Hget : forall e : ent, e ∈ bin_all b -> 0 <= fst e < 2^63 /\ u_get s (fst e) = Some (snd e)).
  { intros e He. apply (bv_mem _ _ _ _ I) in He as [F _]. pose proof (first_at_lt _ _ _ F). split; [lia|].
    unfold u_get. destruct (Z.ltb_spec (fst e) 0); [lia|]. fold (bhs_get (us_file s) (Z.to_nat (fst e))).
    rewrite (bhs_get_rep _ _ _ Hrep). rewrite lookup_app_l by lia. apply F. }
  pose proof (bv_small _ _ _ _ I) as Bs. pose proof (bv_count _ _ _ _ I) as Bc. pose proof (bv_slots _ _ _ _ I) as Bl.
  assert (Ec : to_i64 (le_dec (take 8 (bin_bytes b))) = ub_count b).
  { unfold bin_bytes. rewrite take_app_alt by (by rewrite le_enc_length).
    rewrite le_dec_enc_small by (rewrite pow256_8; lia). apply to_i64_small. lia. }
  rewrite Ec.
  assert (Ed : drop 16 (bin_bytes b) = over_bytes (ub_slots b) ++ replicate ((102 - length (ub_slots b)) * 8) 0).
  { unfold bin_bytes. rewrite app_assoc. rewrite drop_app_alt by (rewrite app_length, !le_enc_length; done). done. }
  rewrite Ed. unfold bin_all in *. rewrite app_length in *.
  assert (En : Z.to_nat (ub_count b `min` 102) = length (ub_slots b)).
  { destruct (ub_over b) as [|o os] eqn:Eo; [cbn [length] in *; lia|]. pose proof (bv_full _ _ _ _ I). rewrite Eo in *. specialize (H0 ltac:(done)). cbn [length] in *. lia. }
  rewrite En. rewrite scan_spec; [|intros e He; apply Hget, elem_of_app; by left|lia].
  rewrite drop_0.
  assert (Fnd : forall (es : list ent) (e : ent), List.find (fun e : ent => bool_decide (snd e = q)) es = Some e -> (forall x, x ∈ es -> x ∈ ub_slots b ++ ub_over b) ->
     first_occurrence hs q (RFound (Z.to_nat (fst e)))).
  { intros es e Hf Hs. apply find_some in Hf as [Hin Hb]. apply bool_decide_eq_true in Hb.
    apply elem_of_list_In in Hin. apply Hs, (bv_mem _ _ _ _ I) in Hin as [(F1 & F2 & F3) _]. rewrite Hb in *. split; done. }
  assert (Nf : forall es, List.find (fun e : ent => bool_decide (snd e = q)) es = None -> forall i, (i, q) ∉ es).
  { intros es Hf i Hin. apply elem_of_list_In in Hin. pose proof (find_none _ _ Hf _ Hin) as Hn. cbn in Hn.
    apply bool_decide_eq_false in Hn. done. }
  assert (Abs : forall o, o = ub_over b -> List.find (fun e : ent => bool_decide (snd e = q)) (ub_slots b) = None ->
     (forall i, (i, q) ∉ o) -> q ∉ hs).
  { intros o -> H1 H2 Hin. destruct (first_at_exists _ _ Hin) as [i Hi].
    assert ((i, q) ∈ ub_slots b ++ ub_over b) as Hx by (apply (bv_mem _ _ _ _ I); done).
    apply elem_of_app in Hx as [Hx|Hx]; [by apply (Nf _ H1 i)|by apply (H2 i)]. }
  destruct (List.find _ (ub_slots b)) as [e|] eqn:E1.
  { change (first_occurrence hs q (RFound (Z.to_nat (fst e)))). apply (Fnd _ _ E1). intros x Hx. apply elem_of_app. by left. }
  cbn [fmap option_fmap option_map].
  destruct (Z.ltb_spec 102 (ub_count b)) as [Hc|Hc].
  - assert (Hne : ub_over b <> []). { intros E0. rewrite E0 in *. cbn [length] in *. lia. }
    pose proof (bv_full _ _ _ _ I Hne) as Hf. rewrite (Ov Hne).
    replace (Z.to_nat (ub_count b - 102)) with (length (ub_over b)) by lia.
    rewrite scan_spec; [|intros e He; apply Hget, elem_of_app; by right|lia].
    rewrite drop_0. destruct (List.find _ (ub_over b)) as [e|] eqn:E2; cbn [fmap option_fmap option_map].
    + change (first_occurrence hs q (RFound (Z.to_nat (fst e)))). apply (Fnd _ _ E2). intros x Hx. apply elem_of_app. by right.
    + cbn. apply (Abs (ub_over b)); [done|done|]. by apply Nf.
  - assert (Hne : ub_over b = []).
    { destruct (ub_over b) as [|o os] eqn:Eo; [done|]. pose proof (bv_full _ _ _ _ I) as Hf. rewrite Eo in Hf. specialize (Hf ltac:(done)). cbn [length] in *. lia. }
    cbn. apply (Abs []); [done|done|]. intros i. apply not_elem_of_nil.
Qed.

Lemma disk_look d dd n hs k a : 0 <= a < n -> disk_ok d n n hs k -> addr_look d a hs (u_open d dd k).
Proof.
  intros Ha (Hk & rows & Es & Cr & Lr & Ok). destruct (Ok a ltac:(lia) ltac:(lia)) as (b & I & Row & Ov).
  exists b, []. split; [done|]. cbn [us_disk u_open]. pose proof bin_size_val as BS. split.
  - rewrite Es. unfold file_read. replace (Z.to_nat (a * 832)) with (Z.to_nat a * bin_size)%nat by lia.
    rewrite (chunks_concat_length bin_size) by done.
    pose proof (lookup_lt_Some _ _ _ Row). rewrite decide_True by nia. rewrite (chunks_read bin_size) by done. rewrite Row. done.
  - intros Hne. rewrite app_nil_r. by apply Ov.
Qed.

Lemma lookup_spec d dd n hs k q : 1664 <= d -> Forall is_hash hs -> is_hash q -> Z.of_nat (length hs) < 2^63 ->
  disk_ok d n n hs k -> address d q < n ->
  first_occurrence hs q (u_index_of (u_open d dd k) q).
Proof.
  intros Hd Hh Hq Hlen Hk Ha. apply (lookup_gen d hs []); [done|done|done|done| |].
  - rewrite app_nil_r. unfold u_open. cbn [us_file]. rewrite (proj1 Hk). apply bhs_open_rep, is_hash_len, Hh.
  - apply (disk_look d dd n); [|done]. pose proof (address_range d q Hq ltac:(lia)). lia.
Qed.

(** An address past the end of BinStarts.bst is refused. *)
Lemma lookup_past_end d dd n hs k q : 1664 <= d -> is_hash q -> 0 <= n -> disk_ok d n n hs k -> n <= address d q ->
  u_index_of (u_open d dd k) q = RErr.
Proof.
  intros Hd Hq Hn (Hk & rows & Es & Cr & Lr & Ok) Ha. pose proof bin_size_val as BS.
  unfold u_index_of. cbn [us_div us_disk u_open].
  assert (0 <= address d q * 832 < 2^63) as Rq.
  { split; [lia|]. destruct Hq as [Hl Hb]. unfold address in *.
    pose proof (le_dec_range (take 8 q) (Forall_take _ 8 _ Hb)) as R. rewrite take_length, Hl in R.
    change (pow256 (8 `min` 32)) with (2^64) in R.
    assert (le_dec (take 8 q) / d <= le_dec (take 8 q) / 1664) by (apply Z.div_le_compat_l; lia).
    assert (le_dec (take 8 q) / 1664 < 2^64 / 1664 + 1).
    { apply Z.div_lt_upper_bound; [lia|]. change (2^64 / 1664) with 11085783698142759. lia. }
    change (2^64 / 1664) with 11085783698142759 in *. lia. }
  rewrite Z.mod_small by lia. rewrite to_i64_small by lia.
  destruct (Z.ltb_spec (address d q * 832) 0); [done|].
  unfold file_read. rewrite decide_False; [done|]. rewrite Es, (chunks_concat_length bin_size) by done. nia.
Qed.

(** ** Appending *)
Definition u_appends (s : ustore) (l : list (list Z)) : ustore := fold_left (fun s h => (u_append s h).1) l s.

Lemma append_rep l s h : length h = 32%nat -> bhs_rep l (us_file s) ->
  bhs_rep (l ++ [h]) (us_file (u_append s h).1) /\ ud_hashes (us_disk (u_append s h).1) = concat (l ++ [h]) /\
  us_div (u_append s h).1 = us_div s /\ us_dd (u_append s h).1 = us_dd s /\
  ud_starts (us_disk (u_append s h).1) = ud_starts (us_disk s) /\
  (forall a c, ud_over (us_disk s) !! a = Some c -> exists pad, ud_over (us_disk (u_append s h).1) !! a = Some (c ++ pad)) /\
  (u_append s h).2 = (if decide (folder_of (us_dd s) (to_i64 (address (us_div s) h)) ∈ ud_dirs (us_disk s)) then Some (length l) else None).
Proof.
  intros Hh Hr. destruct (bhs_append_rep l (us_file s) h Hh Hr) as [R1 R2]. unfold bhs_append in R1, R2. cbn [fst snd] in R1, R2.
  unfold u_append. rewrite R2 in *.
  destruct (decide _) as [E|E]; cbn [fst snd us_file us_disk us_div us_dd ud_hashes ud_starts ud_over ud_dirs].
  - split; [done|]. split; [by destruct R1 as [-> _]|]. split; [done|]. split; [done|]. split; [done|]. split; [|done].
    intros a c Ha. destruct (decide (a = to_i64 (address (us_div s) h))) as [->|Hne].
    + rewrite lookup_insert, Ha. cbn [default from_option]. eexists. done.
    + rewrite lookup_insert_ne by done. exists []. by rewrite app_nil_r.
  - split; [done|]. split; [by destruct R1 as [-> _]|]. split; [done|]. split; [done|]. split; [done|]. split; [|done].
    intros a c Ha. exists []. by rewrite app_nil_r.
Qed.

Lemma appends_rep l : forall hs s, Forall is_hash l -> bhs_rep hs (us_file s) ->
  bhs_rep (hs ++ l) (us_file (u_appends s l)) /\
  (l <> [] -> ud_hashes (us_disk (u_appends s l)) = concat (hs ++ l)) /\
  us_div (u_appends s l) = us_div s /\ us_dd (u_appends s l) = us_dd s /\
  ud_starts (us_disk (u_appends s l)) = ud_starts (us_disk s) /\
  (forall a c, ud_over (us_disk s) !! a = Some c -> exists pad, ud_over (us_disk (u_appends s l)) !! a = Some (c ++ pad)).
Proof.
  induction l as [|h l IH]; intros hs s Hl Hr.
  - rewrite app_nil_r. cbn. split; [done|]. split; [done|]. split; [done|]. split; [done|]. split; [done|].
    intros a c Ha. exists []. by rewrite app_nil_r.
  - apply Forall_cons in Hl as [Hh Hl].
    destruct (append_rep hs s h (proj1 Hh) Hr) as (A1 & A2 & A3 & A4 & A5 & A6 & _).
    destruct (IH (hs ++ [h]) (u_append s h).1 Hl A1) as (B1 & B2 & B3 & B4 & B5 & B6).
    rewrite <-app_assoc in *. cbn [app] in *. change (u_appends s (h :: l)) with (u_appends (u_append s h).1 l).
    split; [done|]. split.
    { intros _. destruct l as [|g l]; [exact A2|]. by rewrite B2. }
    split; [congruence|]. split; [congruence|]. split; [congruence|].
    intros a c Ha. destruct (A6 a c Ha) as [p1 H1]. destruct (B6 a _ H1) as [p2 H2]. exists (p1 ++ p2). by rewrite app_assoc.
Qed.

(** ** A damaged hash file *)
Lemma read_in_damaged d first : forall fuel file bins index, (length file mod 32 <> 0)%nat -> (length file < fuel)%nat ->
  read_in fuel d first bins index file = UErr.
Proof.
  induction fuel as [|fuel IH]; intros file bins index Hm Hf; [lia|]. cbn [read_in].
  rewrite chunk_bytes_eq. pose proof n128 as N. rewrite take_length.
  destruct (decide (Z.to_nat 128 * 32 <= length file)%nat) as [Hle|Hgt].
  - rewrite Nat.min_l by done. destruct (Nat.eqb_spec (Z.to_nat 128 * 32) 0); [lia|].
    rewrite Nat.mod_mul by lia. cbn [Nat.eqb negb]. apply IH; rewrite drop_length; [|lia].
    intros Hc. apply Hm. replace (length file) with (length file - Z.to_nat 128 * 32 + Z.to_nat 128 * 32)%nat by lia.
    rewrite Nat.mod_add by lia. done.
  - rewrite Nat.min_r by lia. destruct (Nat.eqb_spec (length file) 0) as [E|E].
    { rewrite E in Hm. done. }
    destruct (Nat.eqb_spec (length file mod 32) 0); [done|]. done.
Qed.

(** ** The self test *)
Lemma test_loop_spec hs s : (1 <= length hs)%nat -> bhs_rep hs (us_file s) ->
  (forall h, h ∈ hs -> first_occurrence hs h (u_index_of s h)) ->
  forall n i, (i + n = length hs)%nat -> (0 < n)%nat ->
  u_test_loop s (length hs) i n = if (length hs / 100 =? 0)%nat then UPanic else UOk true.
Proof.
  intros Hlen Hr Hf. assert (G : forall i, u_get s (Z.of_nat i) = hs !! i).
  { intros i. unfold u_get. destruct (Z.ltb_spec (Z.of_nat i) 0); [lia|]. rewrite Nat2Z.id. by apply bhs_get_rep. }
  induction n as [|n IH]; intros i Hi Hn; [lia|]. cbn [u_test_loop]. rewrite G.
  destruct (lookup_lt_is_Some_2 hs i) as [h Eh]; [lia|]. rewrite Eh.
  assert (Hin : h ∈ hs) by (by eapply elem_of_list_lookup_2).
  pose proof (Hf h Hin) as F. destruct (u_index_of s h) as [j| | | |]; try done. destruct F as [F1 F2].
  rewrite G, F1. cbn [default from_option]. unfold id. rewrite decide_True by done.
  destruct (length hs / 100 =? 0)%nat eqn:E; [done|].
  destruct n as [|n]; [done|]. apply IH; lia.
Qed.
