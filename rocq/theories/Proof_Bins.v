From Coq Require Import Sorting.Sorted.
From Verif Require Import Base Model_Word Model_Folders Model_MapStore Model_Bins Spec_Bins.

(** ** Splitting *)
Lemma half_pow2 k : 1 <= k -> 2 ^ k / 2 = 2 ^ (k - 1).
Proof.
  intros H. replace k with (Z.succ (k - 1)) at 1 by lia. rewrite Z.pow_succ_r by lia.
  rewrite Z.mul_comm. apply Z.div_mul. lia.
Qed.

Lemma divider_pow2 p k : p_bins p = 2 ^ k -> 1 <= k <= 64 -> divider p = 2 ^ (64 - k).
Proof.
  intros Hb Hk. unfold divider. rewrite Hb, half_pow2 by lia.
  rewrite <- Z.pow_sub_r by lia. f_equal. lia.
Qed.

Lemma divider_pow2_mul p k : p_bins p = 2 ^ k -> 1 <= k <= 64 -> divider p * p_bins p = 2 ^ 64.
Proof. intros Hb Hk. rewrite (divider_pow2 p k), Hb, <- Z.pow_add_r by lia. f_equal. lia. Qed.

Lemma divider_pos p : 2 <= p_bins p <= 2 ^ 64 -> 0 < divider p.
Proof.
  intros H. unfold divider. apply Z.div_str_pos.
  assert (p_bins p / 2 <= 2 ^ 64 / 2) by (apply Z.div_le_mono; lia).
  change (2 ^ 64 / 2) with (2 ^ 63) in *.
  assert (1 <= p_bins p / 2); [|lia]. apply Z.div_le_lower_bound; lia.
Qed.

Lemma divider_mul_le p : 2 <= p_bins p <= 2 ^ 64 -> p_bins p mod 2 = 0 -> divider p * p_bins p <= 2 ^ 64.
Proof.
  intros H He. unfold divider. set (q := p_bins p / 2).
  assert (p_bins p = 2 * q) as -> by (pose proof (Z.div_mod (p_bins p) 2 ltac:(lia)); lia).
  assert (0 < q) by lia.
  pose proof (Z.mul_div_le (2 ^ 63) q ltac:(lia)). lia.
Qed.

Lemma split_in_range p : 2 <= p_bins p <= 2 ^ 64 -> p_bins p mod 2 = 0 ->
  ((forall a, 0 <= a < 2 ^ 64 -> 0 <= bin_num p a < p_bins p) <-> divider p * p_bins p = 2 ^ 64).
Proof.
  intros H He. pose proof (divider_pos p H) as Hd. pose proof (divider_mul_le p H He) as Hm. split.
  - intros Ha. specialize (Ha (2 ^ 64 - 1) ltac:(lia)). unfold bin_num in Ha.
    pose proof (Z.mul_succ_div_gt (2 ^ 64 - 1) (divider p) Hd). nia.
  - intros E a Ha. unfold bin_num. split; [apply Z.div_pos; lia|].
    apply Z.div_lt_upper_bound; lia.
Qed.

Lemma split_join p a : 2 <= p_bins p <= 2 ^ 64 -> 0 <= a < 2 ^ 64 ->
  abbreviation_of p (bin_num p a) (sort_num p a) = a.
Proof.
  intros H Ha. pose proof (divider_pos p H) as Hd. unfold abbreviation_of, bin_num, sort_num.
  rewrite (Z.mul_comm _ (divider p)), <- Z.div_mod by lia. apply Z.mod_small. lia.
Qed.

Lemma join_split p bn sn : 2 <= p_bins p <= 2 ^ 64 -> divider p * p_bins p = 2 ^ 64 ->
  0 <= bn < p_bins p -> 0 <= sn < divider p ->
  0 <= abbreviation_of p bn sn < 2 ^ 64 /\
  bin_num p (abbreviation_of p bn sn) = bn /\ sort_num p (abbreviation_of p bn sn) = sn.
Proof.
  intros H E Hb Hs. pose proof (divider_pos p H) as Hd.
  assert (0 <= bn * divider p + sn < 2 ^ 64) as R by nia.
  unfold abbreviation_of, bin_num, sort_num. rewrite (Z.mod_small _ (2 ^ 64)) by lia.
  split; [lia|]. split.
  - rewrite Z.div_add_l by lia. rewrite Z.div_small by lia. lia.
  - rewrite Z.add_comm, Z.mod_add by lia. apply Z.mod_small. lia.
Qed.

Lemma rebuild_parts h : length h = 32%nat -> bytes h -> rebuild (truncated h) (abbreviated h) = h.
Proof.
  intros Hl Hb. unfold rebuild, truncated, abbreviated.
  assert (length (take 8 h) = 8%nat) as L by (rewrite take_length; lia).
  rewrite <- L at 1. rewrite le_enc_dec by (apply Forall_take, Hb).
  rewrite (take_ge (drop 8 h)) by (rewrite drop_length; lia). apply take_drop.
Qed.

Lemma abbreviated_range h : length h = 32%nat -> bytes h -> 0 <= abbreviated h < 2 ^ 64.
Proof.
  intros Hl Hb. unfold abbreviated. pose proof (le_dec_range (take 8 h) ltac:(apply Forall_take, Hb)) as R.
  rewrite take_length in R. replace (8 `min` length h)%nat with 8%nat in R by lia. rewrite pow256_8 in R. done.
Qed.

(** ** Entries *)
Lemma forallb_zero n v : 0 <= v -> forallb (Z.eqb 0) (le_enc n v) = true <-> v mod pow256 n = 0.
Proof.
  revert v. induction n as [|n IH]; intros v Hv; cbn [le_enc forallb].
  - rewrite pow256_0, Z.mod_1_r. done.
  - rewrite andb_true_iff, Z.eqb_eq, IH by (apply Z.div_pos; lia).
    rewrite pow256_S, Z.rem_mul_r by (pose proof (pow256_pos n); lia).
    pose proof (Z.mod_pos_bound v 256 ltac:(lia)).
    pose proof (Z.mod_pos_bound (v / 256) (pow256 n) (pow256_pos n)). lia.
Qed.

Lemma field_refused w v : (w <= 8)%nat -> 0 <= v < 2 ^ 64 ->
  forallb (Z.eqb 0) (drop w (le_enc 8 v)) = bool_decide (v < pow256 w).
Proof.
  intros Hw Hv. rewrite drop_le_enc by done.
  pose proof (pow256_pos w). pose proof (pow256_pos (8 - w)).
  assert (pow256 w * pow256 (8 - w) = 2 ^ 64) as E.
  { rewrite <- pow256_add, <- pow256_8. f_equal. lia. }
  assert (0 <= v / pow256 w < pow256 (8 - w)) as R.
  { split; [apply Z.div_pos; lia|]. apply Z.div_lt_upper_bound; lia. }
  case_bool_decide as Hc.
  - apply forallb_zero; [lia|]. rewrite Z.div_small by lia. apply Z.mod_0_l. lia.
  - destruct (forallb _ _) eqn:F; [|done]. exfalso.
    apply forallb_zero in F; [|lia]. rewrite Z.mod_small in F by lia.
    apply Z.div_small_iff in F; lia.
Qed.

Definition sizes_ok (p : params) : Prop := (hash_bytes p <= 8)%nat /\ (p_snb p <= 8)%nat.

Lemma entry_enc_some p th hi sn : sizes_ok p -> 0 <= hi < 2 ^ 63 -> 0 <= sn < 2 ^ 64 ->
  hi < pow256 (hash_bytes p) -> sn < pow256 (p_snb p) -> length th = 24%nat ->
  entry_enc p th hi sn = Some (th ++ le_enc (hash_bytes p) hi ++ le_enc (p_snb p) sn).
Proof.
  intros [Ha Hb] Hhi Hsn H1 H2 Hth. unfold entry_enc. rewrite decide_False by lia.
  rewrite !field_refused by lia. rewrite !bool_decide_true by done. cbn [negb].
  rewrite (take_ge th) by lia. rewrite !take_le_enc by done. done.
Qed.

Lemma entry_enc_none p th hi sn : sizes_ok p -> 0 <= hi < 2 ^ 63 -> 0 <= sn < 2 ^ 64 ->
  (pow256 (hash_bytes p) <= hi \/ pow256 (p_snb p) <= sn) -> entry_enc p th hi sn = None.
Proof.
  intros [Ha Hb] Hhi Hsn H. unfold entry_enc. rewrite decide_False by lia.
  rewrite !field_refused by lia. repeat case_bool_decide; cbn [negb]; try done. lia.
Qed.

Lemma entry_fields p th hi sn : sizes_ok p -> 0 <= hi < 2 ^ 63 -> 0 <= sn < 2 ^ 64 ->
  hi < pow256 (hash_bytes p) -> sn < pow256 (p_snb p) -> length th = 24%nat ->
  let e := th ++ le_enc (hash_bytes p) hi ++ le_enc (p_snb p) sn in
  length e = entry_bytes p /\ entry_th e = th /\ entry_hi p e = hi /\ entry_sn p e = sn.
Proof.
  intros [Ha Hb] Hhi Hsn H1 H2 Hth e. unfold e, entry_bytes, entry_th, entry_hi, entry_sn.
  split; [rewrite !app_length, !le_enc_length; lia|].
  split; [apply take_app_alt; done|]. split.
  - rewrite drop_app_alt by done. rewrite take_app_alt by (rewrite le_enc_length; done).
    rewrite le_dec_enc_small by lia. apply to_i64_small. lia.
  - rewrite app_assoc, drop_app_alt by (rewrite app_length, le_enc_length; lia).
    rewrite take_ge by (rewrite le_enc_length; lia). rewrite le_dec_enc_small by lia. done.
Qed.

(** ** Searching *)
Section Search.
  Context (p : params) (probe : Z -> Z -> Z -> Z -> Z -> Z) (b : bin).
  Context (Hp : probe_ok probe) (Hs : sn_sorted p b) (Hlen : Z.of_nat (length b) < 2 ^ 40).
  Context (Hrange : forall e, e ∈ b -> 0 <= entry_sn p e < 2 ^ 64).
  Notation len := (Z.of_nat (length b)).
  Notation at_ := (sn_at p b).

  Lemma sn_at_some i : 0 <= i < len -> exists v, at_ i = Some v.
  Proof using.
    clear. intros H. unfold sn_at. destruct (Z.ltb_spec i 0); [lia|].
    destruct (lookup_lt_is_Some_2 b (Z.to_nat i) ltac:(lia)) as [e ->]. eexists. done.
  Qed.
  Lemma sn_at_bounds i v : at_ i = Some v -> 0 <= i < len /\ 0 <= v < 2 ^ 64.
  Proof using Hrange.
    unfold sn_at. destruct (Z.ltb_spec i 0); [done|]. intros (e & He & ->)%fmap_Some_1.
    split; [|apply Hrange; eapply elem_of_list_lookup_2, He].
    apply lookup_lt_Some in He. lia.
  Qed.
  Lemma sn_at_mono i j v w : i <= j -> at_ i = Some v -> at_ j = Some w -> v <= w.
  Proof using Hs.
    unfold sn_at. intros Hij. destruct (Z.ltb_spec i 0); [done|]. destruct (Z.ltb_spec j 0); [done|].
    rewrite <- !list_lookup_fmap. intros Hv Hw.
    destruct (decide (i = j)) as [->|Hne]; [rewrite Hv in Hw; injection Hw; lia|].
    unfold sn_sorted in Hs.
    revert Hv Hw. assert (Z.to_nat i < Z.to_nat j)%nat as Hlt by lia. clear Hij Hne.
    revert Hs Hlt. generalize (entry_sn p <$> b) (Z.to_nat i) (Z.to_nat j). clear.
    intros l m n Hs. revert m n. induction Hs as [|x l Hs' IH Hall]; intros m n Hlt Hv Hw; [done|].
    destruct n as [|n]; [lia|]. cbn in Hw. destruct m as [|m].
    - injection Hv as ->. eapply Forall_lookup_1 in Hall; eauto.
    - apply (IH Hs' m n); [lia|done|done].
  Qed.

  (** What the search delivers *)
  Definition found (sn i : Z) : Prop :=
    0 <= i <= len /\ (forall j v, i <= j -> at_ j = Some v -> sn <= v) /\
    ((forall j v, j < i -> at_ j = Some v -> v < sn) \/ at_ i = Some sn).

  Definition in_loop (sn s e : Z) : Prop :=
    0 <= s < e /\ e < len /\ (s = 0 \/ exists v, at_ s = Some v /\ v < sn) /\
    (e = len - 1 \/ exists v, at_ e = Some v /\ sn < v).

  Lemma step_back_spec sn s fuel : forall e a,
    (Z.to_nat (e - s) <= fuel)%nat -> 0 <= s < e -> at_ s = Some a -> a <> sn -> at_ e = Some sn ->
    exists i w, step_back p fuel b sn e = Some i /\ s <= i < e /\ at_ i = Some w /\ w <> sn /\ at_ (i + 1) = Some sn.
  Proof using Hrange.
    induction fuel as [|fuel IH]; intros e a Hf Hse Ha Hne He; [lia|]. cbn [step_back].
    destruct (sn_at_bounds _ _ He) as [Be _].
    destruct (sn_at_some (e - 1) ltac:(lia)) as [v Hv]. rewrite Hv. cbn [mbind option_bind].
    destruct (Z.eqb_spec v sn) as [->|Hvn].
    - assert (s < e - 1).
      { destruct (Z.eq_dec s (e - 1)) as [->|]; [|lia]. rewrite Hv in Ha. congruence. }
      destruct (IH (e - 1) a ltac:(lia) ltac:(lia) Ha Hne Hv) as (i & w & E & Hi & Hw).
      exists i, w. split; [done|]. split; [lia|done].
    - exists (e - 1), v. split; [done|]. split; [lia|]. split; [done|]. split; [done|].
      rewrite <- He. f_equal. lia.
  Qed.

  Lemma home_in_spec sn s e : in_loop sn s e ->
    exists s' e', home_in p probe b s e sn = Some (s', e') /\
      ((s' = e' /\ found sn s') \/ (s' < e' /\ in_loop sn s' e' /\ e' - s' < e - s)).
  Proof using Hp Hs Hlen Hrange.
    intros (Hse & Hel & Hl & Hr). unfold home_in.
    destruct (Z.eqb_spec s e); [lia|].
    destruct (sn_at_some s ltac:(lia)) as [a Ha]. destruct (sn_at_some e ltac:(lia)) as [z Hz].
    rewrite Ha. cbn [mbind option_bind].
    destruct (Z.leb_spec sn a) as [Hle|Hgt].
    { exists s, s. split; [done|]. left. split; [done|].
      destruct Hl as [->|(v & Hv & Hlt)]; [|rewrite Ha in Hv; injection Hv; lia].
      split; [lia|]. split.
      - intros j v Hj Hv. pose proof (sn_at_mono 0 j a v Hj Ha Hv). lia.
      - left. intros j v Hj Hv. apply sn_at_bounds in Hv. lia. }
    rewrite Hz. cbn [mbind option_bind].
    destruct (Z.ltb_spec z sn) as [Hlt|Hge].
    { exists (e + 1), (e + 1). split; [done|]. left. split; [done|].
      destruct Hr as [->|(v & Hv & Hlt')]; [|rewrite Hz in Hv; injection Hv; lia].
      split; [lia|]. split.
      - intros j v Hj Hv. apply sn_at_bounds in Hv. lia.
      - left. intros j v Hj Hv. destruct (sn_at_bounds _ _ Hv) as [Bj _].
        pose proof (sn_at_mono j (len - 1) v z ltac:(lia) Hv Hz). lia. }
    destruct (Z.eqb_spec z a); [lia|]. destruct (Z.ltb_spec z a); [lia|].
    destruct (Z.ltb_spec sn z) as [Hsz|Hsz].
    - destruct (Z.eqb_spec (e - s) 1) as [E1|N1].
      { exists e, e. split; [done|]. left. split; [done|]. split; [lia|]. split.
        - intros j v Hj Hv. pose proof (sn_at_mono e j z v Hj Hz Hv). lia.
        - left. intros j v Hj Hv. pose proof (sn_at_mono j s v a ltac:(lia) Hv Ha). lia. }
      destruct (sn_at_bounds _ _ Ha) as [_ Ba]. destruct (sn_at_bounds _ _ Hz) as [_ Bz].
      pose proof (Hp s e a z sn ltac:(lia) ltac:(lia) ltac:(lia) ltac:(lia) Hgt Hsz ltac:(lia)) as Hm0.
      cbv zeta. set (m0 := probe s e a z sn) in *.
      set (m := if m0 =? s then m0 + 1 else if m0 =? e then m0 - 1 else m0).
      assert (s < m < e) as Hm.
      { unfold m. destruct (Z.eqb_spec m0 s); [lia|]. destruct (Z.eqb_spec m0 e); lia. }
      destruct (sn_at_some m ltac:(lia)) as [v Hv]. rewrite Hv. cbn [mbind option_bind].
      destruct (Z.ltb_spec v sn) as [Hvs|Hvs].
      { exists m, e. split; [done|]. right. split; [lia|]. split; [|lia]. repeat split; [lia|lia|lia| |done].
        right. eauto. }
      destruct (Z.ltb_spec sn v) as [Hsv|Hsv].
      { exists s, m. split; [done|]. right. split; [lia|]. split; [|lia]. repeat split; [lia|lia|lia|done|].
        right. eauto. }
      assert (v = sn) as -> by lia.
      exists m, m. split; [done|]. left. split; [done|]. split; [lia|]. split; [|by right].
      intros j w Hj Hw. apply (sn_at_mono m j sn w Hj Hv Hw).
    - assert (z = sn) as -> by lia.
      destruct (step_back_spec sn s (Z.to_nat (e + 1)) e a ltac:(lia) ltac:(lia) Ha ltac:(lia) Hz)
        as (i & w & E & Hi & Hw & Hwn & Hi1).
      rewrite E. cbn [mbind option_bind].
      exists (i + 1), (i + 1). split; [done|]. left. split; [done|]. split; [lia|]. split; [|by right].
      intros j v Hj Hv. apply (sn_at_mono (i + 1) j sn v Hj Hi1 Hv).
  Qed.

  Lemma find_loop_spec sn fuel : forall s e, (Z.to_nat (e - s) <= fuel)%nat -> in_loop sn s e ->
    exists i, find_loop p probe fuel b s e sn = Some i /\ found sn i.
  Proof using Hp Hs Hlen Hrange.
    induction fuel as [|fuel IH]; intros s e Hf Hin; [destruct Hin; lia|].
    destruct (home_in_spec sn s e Hin) as (s' & e' & E & H). cbn [find_loop].
    destruct Hin as (Hse & _). destruct (Z.eqb_spec s e); [lia|]. rewrite E. cbn [mbind option_bind].
    destruct H as [[-> Hf']|(Hlt & Hin' & Hsh)].
    - exists e'. split; [|done]. destruct fuel; cbn [find_loop]; rewrite Z.eqb_refl; done.
    - apply IH; [lia|done].
  Qed.

  Lemma find_index_spec sn : 0 <= sn -> exists i, find_index p probe b sn = Some i /\ found sn i.
  Proof using Hp Hs Hlen Hrange.
    intros Hsn. unfold find_index. destruct (decide (b = [])) as [E|Hne].
    { rewrite E. exists 0. split; [done|]. unfold found. rewrite E. cbn [length]. split; [lia|].
      split; [|left]; intros j v Hj Hv; unfold sn_at in Hv; destruct (j <? 0); done. }
    assert (0 < length b)%nat as Hpos by (destruct b; [done|cbn [length]; lia]).
    assert (forall A (x y : A), match b with [] => x | _ => y end = y) as M by (destruct b; done).
    rewrite M. clear M. destruct (Z.eqb_spec (len - 1) 0) as [E1|N1].
    - destruct (sn_at_some 0 ltac:(lia)) as [a Ha]. rewrite Ha. cbn [mbind option_bind].
      destruct (Z.ltb_spec a sn) as [Hlt|Hge].
      + exists 1. split; [done|]. split; [lia|]. split.
        * intros j v Hj Hv. apply sn_at_bounds in Hv. lia.
        * left. intros j v Hj Hv. destruct (sn_at_bounds _ _ Hv) as [Bj _].
          assert (j = 0) as -> by lia. rewrite Ha in Hv. injection Hv. lia.
      + exists 0. split.
        { destruct (length b); [lia|]. cbn [find_loop]. rewrite E1. done. }
        split; [lia|]. split.
        * intros j v Hj Hv. pose proof (sn_at_mono 0 j a v Hj Ha Hv). lia.
        * left. intros j v Hj Hv. apply sn_at_bounds in Hv. lia.
    - apply find_loop_spec; [lia|]. split; [lia|]. split; [lia|]. split; by left.
  Qed.

  Lemma scan_absent l th sn : ~ holds p l th sn -> scan p l th sn = -1.
  Proof using.
    clear. induction l as [|e l IH]; intros Hn; [done|]. cbn [scan].
    case_bool_decide as H1; [done|]. case_bool_decide as H2.
    - destruct Hn. exists e. split; [by left|]. split; [done|]. destruct (decide (entry_sn p e = sn)); done.
    - apply IH. intros (x & Hx & Hx'). apply Hn. exists x. split; [by right|done].
  Qed.
  Lemma scan_in l th sn : scan p l th sn = -1 \/
    exists e, e ∈ l /\ entry_th e = th /\ entry_sn p e = sn /\ scan p l th sn = entry_hi p e.
  Proof using.
    clear. induction l as [|e l IH]; [by left|]. cbn [scan].
    case_bool_decide as H1; [by left|]. case_bool_decide as H2.
    - right. exists e. split; [by left|]. split; [done|]. split; [destruct (decide (entry_sn p e = sn)); done|done].
    - destruct IH as [->|(x & Hx & Hx')]; [by left|]. right. exists x. split; [by right|done].
  Qed.
  Lemma first_index_absent l th sn : ~ holds p l th sn -> first_index p l th sn = -1.
  Proof using.
    clear. induction l as [|e l IH]; intros Hn; [done|]. cbn [first_index].
    case_bool_decide as H1.
    - destruct Hn. exists e. split; [by left|done].
    - apply IH. intros (x & Hx & Hx'). apply Hn. exists x. split; [by right|done].
  Qed.
  Lemma first_index_unique l th sn q e : at_most_one p l sn -> l !! q = Some e -> entry_th e = th -> entry_sn p e = sn ->
    first_index p l th sn = entry_hi p e.
  Proof using.
    clear. revert q. induction l as [|x l IH]; intros q H1 Hq Ht Hsn; [done|]. cbn [first_index].
    case_bool_decide as Hx.
    - destruct Hx as [Hx1 Hx2]. assert (0 = q)%nat as <- by (eapply (H1 0%nat q x e); done).
      cbn in Hq. injection Hq as ->. done.
    - destruct q as [|q]; [cbn in Hq; injection Hq as ->; destruct Hx; done|]. cbn in Hq.
      apply (IH q); [|done|done|done]. intros i j y y' Hi Hj Hy Hy'.
      pose proof (H1 (S i) (S j) y y' Hi Hj Hy Hy'). lia.
  Qed.

  Lemma lookup_absent th sn : 0 <= sn -> ~ holds p b th sn -> lookup_by_hash p probe b th sn = Some (-1).
  Proof using Hp Hs Hlen Hrange.
    intros Hsn Hn. destruct (find_index_spec sn Hsn) as (i & E & _). unfold lookup_by_hash. rewrite E.
    cbn [mbind option_bind]. f_equal. apply scan_absent. intros (x & Hx & Hx'). apply Hn.
    exists x. split; [|done]. eapply elem_of_list_lookup in Hx as [k Hk]. rewrite lookup_drop in Hk.
    eapply elem_of_list_lookup_2, Hk.
  Qed.

  Lemma lookup_total th sn : 0 <= sn -> exists r, lookup_by_hash p probe b th sn = Some r /\
    (r = -1 \/ exists e, e ∈ b /\ entry_th e = th /\ entry_sn p e = sn /\ r = entry_hi p e).
  Proof using Hp Hs Hlen Hrange.
    intros Hsn. destruct (find_index_spec sn Hsn) as (i & E & _). unfold lookup_by_hash. rewrite E.
    cbn [mbind option_bind]. eexists. split; [done|].
    destruct (scan_in (drop (Z.to_nat i) b) th sn) as [->|(x & Hx & Hx')]; [by left|]. right.
    exists x. split; [|done]. eapply elem_of_list_lookup in Hx as [k Hk]. rewrite lookup_drop in Hk.
    eapply elem_of_list_lookup_2, Hk.
  Qed.

  Lemma lookup_present th sn : 0 <= sn -> at_most_one p b sn ->
    lookup_by_hash p probe b th sn = Some (first_index p b th sn).
  Proof using Hp Hs Hlen Hrange.
    intros Hsn H1.
    assert (Decision (holds p b th sn)) as [Hh|Hn].
    { destruct (decide (Exists (fun e => entry_th e = th /\ entry_sn p e = sn) b)) as [Ex|Nx].
      - left. apply Exists_exists in Ex as (e & He & H). by exists e.
      - right. intros (e & He & H). apply Nx, Exists_exists. by exists e. }
    2:{ rewrite first_index_absent by done. apply lookup_absent; done. }
    destruct (find_index_spec sn Hsn) as (i & E & Hi & Hge & Hor). unfold lookup_by_hash. rewrite E.
    cbn [mbind option_bind]. f_equal.
    destruct Hh as (e & He & Ht & Hesn). apply elem_of_list_lookup in He as [q Hq].
    rewrite (first_index_unique b th sn q e) by done.
    assert (at_ (Z.of_nat q) = Some sn) as Hat.
    { unfold sn_at. destruct (Z.ltb_spec (Z.of_nat q) 0); [lia|]. rewrite Nat2Z.id, Hq. cbn. by rewrite Hesn. }
    assert (i = Z.of_nat q) as ->.
    { destruct Hor as [Hlt|Heq].
      - destruct (Z.lt_trichotomy i (Z.of_nat q)) as [Hl|[->|Hg]]; [|done|].
        + exfalso. destruct (sn_at_some i) as [v Hv]; [apply sn_at_bounds in Hat; lia|].
          pose proof (Hge i v ltac:(lia) Hv). pose proof (sn_at_mono i (Z.of_nat q) v sn ltac:(lia) Hv Hat).
          assert (v = sn) as -> by lia.
          unfold sn_at in Hv. destruct (Z.ltb_spec i 0); [done|]. apply fmap_Some_1 in Hv as (e' & He' & Ev).
          pose proof (H1 (Z.to_nat i) q e' e He' Hq (eq_sym Ev) Hesn). lia.
        + pose proof (Hlt _ _ Hg Hat). lia.
      - unfold sn_at in Heq. destruct (Z.ltb_spec i 0); [done|]. apply fmap_Some_1 in Heq as (e' & He' & Ev).
        pose proof (H1 (Z.to_nat i) q e' e He' Hq (eq_sym Ev) Hesn). lia. }
    rewrite Nat2Z.id, (drop_S _ _ _ Hq). cbn [scan]. rewrite bool_decide_false by (intros X; done).
    rewrite bool_decide_true by done. done.
  Qed.
End Search.

(** ** Sorting and removing duplicates *)
Lemma dedup_from_sublist last b : dedup_from last b `sublist_of` b.
Proof.
  revert last. induction b as [|e b IH]; intros last; cbn [dedup_from]; [constructor|].
  destruct (decide _); constructor; apply IH.
Qed.

Lemma dedup_from_keeps last b th k e : th <> last -> b !! k = Some e -> entry_th e = th ->
  (forall k' e', (k' < k)%nat -> b !! k' = Some e' -> entry_th e' <> th) -> e ∈ dedup_from last b.
Proof.
  revert last k. induction b as [|x b IH]; intros last k Hne Hk Ht Hfirst; [done|]. cbn [dedup_from].
  destruct k as [|k].
  - cbn in Hk. injection Hk as ->. rewrite decide_False by congruence. by left.
  - cbn in Hk. assert (entry_th x <> th) as Hx by (apply (Hfirst 0%nat); [lia|done]).
    assert (forall k' e', (k' < k)%nat -> b !! k' = Some e' -> entry_th e' <> th) as Hf'.
    { intros k' e' Hk' He'. apply (Hfirst (S k')); [lia|done]. }
    destruct (decide _).
    + eapply IH; eauto.
    + right. eapply IH; [|done|done|done]. congruence.
Qed.

Lemma dedup_from_nodup last b : (forall k k' e e', (k < k')%nat -> b !! k = Some e -> b !! k' = Some e' ->
    entry_th e = entry_th e' -> forall m x, (k <= m)%nat -> (m <= k')%nat -> b !! m = Some x -> entry_th x = entry_th e) ->
  (forall k e, b !! k = Some e -> entry_th e = last -> forall m x, (m <= k)%nat -> b !! m = Some x -> entry_th x = last) ->
  NoDup (last :: (entry_th <$> dedup_from last b)).
Proof.
  revert last. induction b as [|x b IH]; intros last Hrun Hlast.
  - cbn. apply NoDup_singleton.
  - cbn [dedup_from].
    assert (forall k k' e e', (k < k')%nat -> b !! k = Some e -> b !! k' = Some e' ->
      entry_th e = entry_th e' -> forall m y, (k <= m)%nat -> (m <= k')%nat -> b !! m = Some y -> entry_th y = entry_th e) as Hrun'.
    { intros k k' e e' Hk He He' Heq m y H1 H2 Hy.
      exact (Hrun (S k) (S k') e e' ltac:(lia) He He' Heq (S m) y ltac:(lia) ltac:(lia) Hy). }
    destruct (decide (entry_th x = last)) as [Hx|Hx].
    + apply IH; [done|]. intros k e He Hl m y Hm Hy. exact (Hlast (S k) e He Hl (S m) y ltac:(lia) Hy).
    + cbn [fmap list_fmap]. apply NoDup_cons. split.
      * intros Hin. apply elem_of_cons in Hin as [->|Hin]; [done|].
        apply elem_of_list_fmap in Hin as (y & -> & Hy).
        assert (y ∈ b) as Hy' by (eapply elem_of_submseteq; [exact Hy|apply sublist_submseteq, dedup_from_sublist]).
        apply elem_of_list_lookup in Hy' as [k Hk].
        apply Hx. apply (Hlast (S k) y Hk eq_refl 0%nat x); [lia|done].
      * apply IH; [done|]. intros k e He Hl m y Hm Hy.
        exact (Hrun 0%nat (S k) x e ltac:(lia) eq_refl He (eq_sym Hl) (S m) y ltac:(lia) ltac:(lia) Hy).
Qed.

Lemma stronglysorted_lookup {A} (R : A -> A -> Prop) l i j x y : StronglySorted R l -> (i < j)%nat ->
  l !! i = Some x -> l !! j = Some y -> R x y.
Proof.
  intros Hs. revert i j. induction Hs as [|a l Hs' IH Hall]; intros i j Hij Hx Hy; [done|].
  destruct j as [|j]; [lia|]. destruct i as [|i]; cbn in Hx, Hy.
  - injection Hx as <-. rewrite Forall_forall in Hall. apply Hall. by eapply elem_of_list_lookup_2.
  - apply (IH i j); [lia|done|done].
Qed.

Lemma stronglysorted_sublist {A} (R : A -> A -> Prop) l k : l `sublist_of` k -> StronglySorted R k -> StronglySorted R l.
Proof.
  induction 1 as [|x l k Hs IH|x l k Hs IH]; intros Hk; [constructor| |]; apply StronglySorted_inv in Hk as [Hk Hall].
  - constructor; [by apply IH|]. rewrite Forall_forall in *. intros y Hy. apply Hall.
    eapply elem_of_submseteq; [exact Hy|by apply sublist_submseteq].
  - by apply IH.
Qed.

Lemma sort_dedup_perm p srt b : sorts p srt -> exists s, s ≡ₚ b /\ StronglySorted (entry_le p) s /\
  sort_dedup srt b = match s with [] => [] | e :: b' => e :: dedup_from (entry_th e) b' end.
Proof.
  intros Hs. unfold sort_dedup. destruct (decide _) as [Hl|Hl].
  - exists b. split; [done|]. destruct b as [|e [|e' b]]; cbn in *; [| |lia].
    + split; [constructor|done].
    + split; [repeat constructor|done].
  - exists (srt b). split; [apply Hs|]. split; [apply Hs|done].
Qed.

Lemma sort_dedup_facts p srt b : sorts p srt ->
  (forall e, e ∈ sort_dedup srt b -> e ∈ b) /\ StronglySorted (entry_le p) (sort_dedup srt b).
Proof.
  intros Hs. destruct (sort_dedup_perm p srt b Hs) as (s & Hp & Hss & ->).
  assert (match s with [] => [] | e :: b' => e :: dedup_from (entry_th e) b' end `sublist_of` s) as Hsub.
  { destruct s; constructor. apply dedup_from_sublist. }
  split.
  - intros e He. rewrite <- Hp. eapply elem_of_submseteq; [exact He|by apply sublist_submseteq].
  - by eapply stronglysorted_sublist.
Qed.

Lemma entry_le_sn_sorted p b : StronglySorted (entry_le p) b -> sn_sorted p b.
Proof.
  unfold sn_sorted. induction 1 as [|x l Hs IH Hall]; cbn [fmap list_fmap]; constructor; [done|].
  apply Forall_fmap. eapply Forall_impl; [exact Hall|]. intros y [?|[? ?]]; cbn; lia.
Qed.

(** the first entry, in sorted order, with a given property *)
Lemma first_with {A} (P : A -> Prop) `{!forall x, Decision (P x)} (l : list A) x : x ∈ l -> P x ->
  exists k y, l !! k = Some y /\ P y /\ forall k' y', (k' < k)%nat -> l !! k' = Some y' -> ~ P y'.
Proof.
  induction l as [|a l IH]; intros Hin Hx; [by apply elem_of_nil in Hin|].
  destruct (decide (P a)) as [Ha|Ha].
  - exists 0%nat, a. split; [done|]. split; [done|]. intros; lia.
  - apply elem_of_cons in Hin as [->|Hin]; [done|]. destruct (IH Hin Hx) as (k & y & Hk & Hy & Hf).
    exists (S k), y. split; [done|]. split; [done|]. intros [|k'] y' Hk' Hy'; cbn in Hy'; [congruence|].
    apply (Hf k'); [lia|done].
Qed.

Lemma sort_dedup_keeps p srt b e : sorts p srt -> e ∈ b -> truncations_distinct p b ->
  exists e', e' ∈ sort_dedup srt b /\ entry_th e' = entry_th e /\ entry_sn p e' = entry_sn p e /\
    forall x, x ∈ b -> entry_th x = entry_th e -> entry_hi p e' <= entry_hi p x.
Proof.
  intros Hs He Ht. destruct (sort_dedup_perm p srt b Hs) as (s & Hp & Hss & ->).
  destruct (first_with (fun x => entry_th x = entry_th e) s e) as (k & y & Hk & Hy & Hf); [by rewrite Hp|done|].
  exists y. assert (y ∈ b) as Hyb by (rewrite <- Hp; by eapply elem_of_list_lookup_2).
  split; [|split; [done|split; [by apply Ht|]]].
  - destruct s as [|a s]; [done|]. destruct k as [|k]; cbn in Hk; [injection Hk as ->; by left|].
    right. eapply dedup_from_keeps; [|exact Hk|exact Hy|].
    + intros E. apply (Hf 0%nat a); [lia|done|done].
    + intros k' e' Hk' He'. apply (Hf (S k')); [lia|done].
  - intros x Hx Hxe. assert (x ∈ s) as Hxs by (by rewrite Hp). apply elem_of_list_lookup in Hxs as [j Hj].
    assert (entry_sn p x = entry_sn p y) as Esn by (apply Ht; [done|done|congruence]).
    destruct (Nat.lt_trichotomy j k) as [Hjk|[->|Hjk]].
    + exfalso. by apply (Hf j x).
    + rewrite Hk in Hj. injection Hj as ->. lia.
    + destruct (stronglysorted_lookup _ s k j y x Hss Hjk Hk Hj) as [?|[? ?]]; lia.
Qed.

Lemma sort_dedup_nodup p srt b : sorts p srt -> truncations_distinct p b -> sort_numbers_distinct p b ->
  NoDup (entry_th <$> sort_dedup srt b).
Proof.
  intros Hs Ht Hn. destruct (sort_dedup_perm p srt b Hs) as (s & Hp & Hss & ->).
  assert (forall k k' e e', (k < k')%nat -> s !! k = Some e -> s !! k' = Some e' ->
    entry_th e = entry_th e' -> forall m x, (k <= m)%nat -> (m <= k')%nat -> s !! m = Some x -> entry_th x = entry_th e) as Hrun.
  { intros k k' e e' Hk He He' Heq m x H1 H2 Hx.
    assert (forall j z, s !! j = Some z -> z ∈ b) as Hin by (intros j z Hz; rewrite <- Hp; by eapply elem_of_list_lookup_2).
    pose proof (Ht e e' ltac:(eauto) ltac:(eauto) Heq) as Esn. apply Hn; [eauto|eauto|].
    destruct (decide (k = m)) as [->|N1]; [congruence|]. destruct (decide (m = k')) as [->|N2]; [congruence|].
    pose proof (stronglysorted_lookup _ s k m e x Hss ltac:(lia) He Hx) as R1.
    pose proof (stronglysorted_lookup _ s m k' x e' Hss ltac:(lia) Hx He') as R2.
    unfold entry_le in R1, R2. lia. }
  destruct s as [|a s]; [constructor|]. cbn [fmap list_fmap]. apply dedup_from_nodup.
  - intros k k' e e' Hk He He' Heq m x H1 H2 Hx.
    exact (Hrun (S k) (S k') e e' ltac:(lia) He He' Heq (S m) x ltac:(lia) ltac:(lia) Hx).
  - intros k e He Hl m x Hm Hx.
    exact (Hrun 0%nat (S k) a e ltac:(lia) eq_refl He (eq_sym Hl) (S m) x ltac:(lia) ltac:(lia) Hx).
Qed.

Lemma sort_dedup_at_most_one p srt b sn : sorts p srt -> truncations_distinct p b -> sort_numbers_distinct p b ->
  at_most_one p (sort_dedup srt b) sn.
Proof.
  intros Hs Ht Hn i j e e' Hi Hj Ei Ej. pose proof (sort_dedup_nodup p srt b Hs Ht Hn) as Hnd.
  destruct (sort_dedup_facts p srt b Hs) as [Hin _].
  eapply NoDup_lookup; [exact Hnd| |].
  - rewrite list_lookup_fmap, Hi. reflexivity.
  - rewrite list_lookup_fmap, Hj. cbn. f_equal. apply Hn; [| |congruence]; apply Hin; by eapply elem_of_list_lookup_2.
Qed.

Lemma first_index_holds p b th sn : holds p b th sn -> exists e, e ∈ b /\ entry_th e = th /\ entry_sn p e = sn /\
  first_index p b th sn = entry_hi p e.
Proof.
  intros (e & He & Ht & Hn). induction b as [|a b IH]; [by apply elem_of_nil in He|]. cbn [first_index].
  case_bool_decide as Ha.
  - exists a. split; [by left|]. naive_solver.
  - apply elem_of_cons in He as [->|He]; [naive_solver|]. destruct (IH He) as (e' & ? & ? & ? & ?).
    exists e'. split; [by right|]. done.
Qed.

Lemma sort_dedup_first p srt b th sn : sorts p srt -> truncations_distinct p b -> sort_numbers_distinct p b ->
  holds p b th sn -> least_index p b th sn (first_index p (sort_dedup srt b) th sn).
Proof.
  intros Hs Ht Hn (e & He & <- & <-). destruct (sort_dedup_keeps p srt b e Hs He Ht) as (e' & He' & Et & En & Hmin).
  destruct (sort_dedup_facts p srt b Hs) as [Hin _].
  destruct (first_index_holds p (sort_dedup srt b) (entry_th e) (entry_sn p e)) as (y & Hy & Yt & Yn & ->); [by exists e'|].
  assert (y = e') as ->.
  { apply elem_of_list_lookup in Hy as [i Hi], He' as [j Hj].
    pose proof (sort_dedup_at_most_one p srt b (entry_sn p e) Hs Ht Hn i j y e' Hi Hj Yn En) as ->. congruence. }
  split.
  - exists e'. auto.
  - intros x Hx Hxt _. by apply Hmin.
Qed.

Lemma first_index_none p b th sn : ~ holds p b th sn -> first_index p b th sn = -1.
Proof.
  intros Hh. induction b as [|a b IH]; [done|]. cbn [first_index]. rewrite bool_decide_eq_false_2.
  - apply IH. intros (e & He & ?). apply Hh. exists e. split; [by right|done].
  - intros [? ?]. apply Hh. exists a. split; [by left|done].
Qed.
