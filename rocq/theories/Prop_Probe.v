(** The probe of the bin search in floating point (indexedhashes3/binbytes.go:208-211): it stays inside the
    searched range, so the theorems about searching hold for the actual formula. *)
From Coq Require Import ZArith Reals Lia Lra.
From Flocq Require Import Core.
From Flocq.Prop Require Import Relative.
From Verif Require Import Base Model_Word Model_Bins Spec_Bins Proof_Bins Proof_BinFiles Prop_Bins Model_Pass Spec_Pass Proof_Pass Proof_Index Proof_Plan Prop_Pass Prop_Index Prop_Amount.
Open Scope R_scope.

(** indexedhashes3/binbytes.go:208-211: conversions to float64 round, and so does every operation; the values
    are far from overflow *)
Definition slope (s e a z : Z) : R := fl (fl (IZR (z - a)) / fl (IZR (e - s))).
Definition float_index (s e a z x : Z) : R := fl (fl (IZR s) + fl (fl (IZR (x - a)) / slope s e a z)).
Definition float_probe (s e a z x : Z) : Z := math_round (float_index s e a z x).

Lemma fl_le x y : x <= y -> fl x <= fl y.
Proof. intros H. apply round_le; [apply FLT_exp_valid; reflexivity|apply valid_rnd_N|exact H]. Qed.

(** numbers with a short mantissa are not changed *)
Lemma fl_exact (m k : Z) : (Z.abs m < 2 ^ 53)%Z -> (-1074 <= k)%Z -> fl (IZR m * bpow radix2 k) = IZR m * bpow radix2 k.
Proof.
  intros Hm Hk. apply round_generic; [apply valid_rnd_N|]. apply generic_format_FLT.
  exists (Float radix2 m k); [reflexivity|exact Hm|exact Hk].
Qed.
Lemma fl_int m : (Z.abs m < 2 ^ 53)%Z -> fl (IZR m) = IZR m.
Proof.
  intros Hm. pose proof (fl_exact m 0 Hm ltac:(lia)) as H. change (bpow radix2 0) with 1%R in H. rewrite Rmult_1_r in H. exact H.
Qed.
Lemma fl_sixteenth m : (0 <= m < 2 ^ 40)%Z -> fl (IZR m + / 16) = IZR m + / 16.
Proof.
  intros Hm. assert (IZR m + / 16 = IZR (16 * m + 1) * bpow radix2 (-4)) as E.
  { rewrite plus_IZR, mult_IZR. change (bpow radix2 (-4)) with (/ 16). lra. }
  rewrite E. apply fl_exact; [|lia]. lia.
Qed.

Lemma float_probe_ok : probe_ok float_probe.
Proof.
  intros s e a z x Hs Hse He Ha Hax Hxz Hz.
  assert (fl (IZR s) = IZR s) as Es by (apply fl_int; lia).
  assert (fl (IZR (e - s)) = IZR (e - s)) as En by (apply fl_int; lia).
  assert (2 <= IZR (e - s)) as Hn2 by (apply IZR_le; lia).
  assert (IZR (e - s) <= 1099511627776) as Hn40 by (apply IZR_le; lia).
  assert (1 <= fl (IZR (z - a))) as HA1.
  { rewrite <- (fl_int 1) by lia. apply fl_le, IZR_le. lia. }
  assert (fl (IZR (x - a)) <= fl (IZR (z - a))) as HXA by (apply fl_le, IZR_le; lia).
  assert (0 <= fl (IZR (x - a))) as HX0.
  { rewrite <- fl_0. apply fl_le, IZR_le. lia. }
  unfold float_probe, float_index, slope. rewrite Es, En.
  set (A := fl (IZR (z - a))) in *. set (X := fl (IZR (x - a))) in *. set (n := IZR (e - s)) in *.
  assert (/ 1099511627776 <= A / n) as Hq.
  { apply (Rmult_le_reg_r n); [lra|]. unfold Rdiv. rewrite Rmult_assoc, Rinv_l by lra. rewrite Rmult_1_r.
    apply Rle_trans with 1; [|exact HA1]. apply (Rmult_le_reg_l 1099511627776); [lra|]. rewrite <- Rmult_assoc, Rinv_r by lra. lra. }
  pose proof (fl_relative (A / n)) as Hrel. rewrite (Rabs_pos_eq (A / n)) in Hrel by lra.
  assert (/ 4503599627370496 <= A / n) as Hq' by lra.
  specialize (Hrel Hq'). apply Rabs_le_inv in Hrel. set (sl := fl (A / n)) in *. unfold ulp53 in Hrel.
  assert ((1 - / 9007199254740992) * (A / n) <= sl) as Hsl by lra.
  assert (0 < sl) as Hsl0 by lra.
  assert (A <= (n + / 16) * sl) as Hbig.
  { apply Rle_trans with ((n + / 16) * ((1 - / 9007199254740992) * (A / n))).
    - assert (A = n * (A / n)) as EA by (field; lra). set (q := A / n) in *. rewrite EA.
      assert (0 <= q * ((n + / 16) * (1 - / 9007199254740992) - n)) as H; [|lra].
      apply Rmult_le_pos; [lra|]. lra.
    - apply Rmult_le_compat_l; lra. }
  assert (0 <= X / sl) as HQ0.
  { unfold Rdiv. apply Rmult_le_pos; [exact HX0|]. left. by apply Rinv_0_lt_compat. }
  assert (X / sl <= n + / 16) as HQ1.
  { apply (Rmult_le_reg_r sl); [exact Hsl0|]. unfold Rdiv. rewrite Rmult_assoc, Rinv_l, Rmult_1_r by lra. lra. }
  assert (0 <= fl (X / sl)) as HF0 by (rewrite <- fl_0; by apply fl_le).
  assert (fl (X / sl) <= n + / 16) as HF1.
  { unfold n. rewrite <- fl_sixteenth by lia. by apply fl_le. }
  assert (IZR s <= fl (IZR s + fl (X / sl))) as HG0.
  { rewrite <- Es at 1. apply fl_le. lra. }
  assert (fl (IZR s + fl (X / sl)) <= IZR e + / 16) as HG1.
  { rewrite <- fl_sixteenth by lia. apply fl_le. unfold n in HF1. rewrite minus_IZR in HF1. lra. }
  set (g := fl (IZR s + fl (X / sl))) in *. unfold math_round. split.
  - rewrite <- (Zrnd_IZR ZnearestA s). by apply Zrnd_le; [apply valid_rnd_N|].
  - assert (ZnearestA (IZR e + / 16) = e) as <-.
    { apply Znearest_imp. replace (IZR e + / 16 - IZR e) with (/ 16) by lra. rewrite Rabs_pos_eq; lra. }
    by apply Zrnd_le; [apply valid_rnd_N|].
Qed.

(** C19. Searching a bin with the actual floating point formula. *)
Theorem C19_float_lookup_finds_lone_sort_numbers_partial :
  forall p b th sn, searchable p b -> (0 <= sn)%Z -> at_most_one p b sn ->
    lookup_by_hash p float_probe b th sn = Some (first_index p b th sn).
Proof. intros p b th sn H1 H2 H3. apply C19_lookup_finds_lone_sort_numbers_partial; [apply float_probe_ok|done|done|done]. Qed.

Theorem C19_float_absent_hash_not_found :
  forall p b th sn, searchable p b -> (0 <= sn)%Z -> ~ holds p b th sn -> lookup_by_hash p float_probe b th sn = Some (-1)%Z.
Proof. intros p b th sn H1 H2 H3. apply C19_absent_hash_not_found; [apply float_probe_ok|done|done|done]. Qed.

Lemma math_round_int m : math_round (IZR m) = m.
Proof. apply Zrnd_IZR. apply valid_rnd_N. Qed.

Lemma float_probe_example : float_probe 0 3 0 9 6 = 2%Z.
Proof.
  unfold float_probe, float_index, slope. change (6 - 0)%Z with 6%Z. change (9 - 0)%Z with 9%Z. change (3 - 0)%Z with 3%Z.
  rewrite (fl_int 9), (fl_int 3), (fl_int 6), (fl_int 0) by lia.
  replace (9 / 3) with (IZR 3) by (cbn; lra). rewrite (fl_int 3) by lia.
  replace (6 / 3) with (IZR 2) by (cbn; lra). rewrite (fl_int 2) by lia.
  replace (0 + 2) with (IZR 2) by (cbn; lra). rewrite (fl_int 2) by lia. apply math_round_int.
Qed.

(** C19. The hash that is not found, with the actual formula. *)
Theorem C19_float_shared_sort_number_refuted :
  exists p b th sn, searchable p b /\ (0 <= sn)%Z /\ holds p b th sn /\
    first_index p b th sn = 11%Z /\ lookup_by_hash p float_probe b th sn = Some (-1)%Z.
Proof.
  exists ex_params, [ex_entry 1 10 0; ex_entry 2 11 6; ex_entry 3 12 6; ex_entry 4 13 9], (replicate 23 0%Z ++ [2%Z]), 6%Z.
  split; [apply ex_searchable; by left|]. split; [lia|]. split; [|split; [by vm_compute|]].
  - exists (ex_entry 2 11 6). split; [right; left|]. vm_compute. done.
  - set (b := [_; _; _; _]).
    assert (forall q : Z -> Z -> Z -> Z -> Z -> Z, q 0%Z 3%Z 0%Z 9%Z 6%Z = 2%Z ->
      lookup_by_hash ex_params q b (replicate 23 0%Z ++ [2%Z]) 6 = Some (-1)%Z) as H.
    { intros q Hq.
      assert (home_in ex_params q b 0 3 6 = Some (2, 2)%Z) as Eh.
      { unfold home_in. cbn [Z.eqb].
        assert (sn_at ex_params b 0 = Some 0%Z) as -> by (vm_compute; reflexivity).
        assert (sn_at ex_params b 3 = Some 9%Z) as -> by (vm_compute; reflexivity).
        cbn [mbind option_bind]. rewrite Hq. cbn [Z.leb Z.ltb Z.eqb Z.compare Pos.compare Pos.compare_cont Pos.eqb].
        change (3 - 0 =? 1)%Z with false. cbn iota.
        assert (sn_at ex_params b 2 = Some 6%Z) as -> by (vm_compute; reflexivity). vm_compute. reflexivity. }
      assert (find_index ex_params q b 6 = ('(s', e') ← home_in ex_params q b 0 3 6; find_loop ex_params q 3 b s' e' 6)) as Ef by reflexivity.
      rewrite Eh in Ef. unfold lookup_by_hash. rewrite Ef. vm_compute. reflexivity. }
    apply H, float_probe_example.
Qed.

(** C51 with the actual formula. *)
Theorem C51_float_index_answers_partial :
  forall p srt hs threads bytes_per_pass nums f in_ram,
    sorts p srt -> settings_ok p -> hash_list_ok p hs -> no_collisions hs -> first_hash_visible p hs ->
    (0 < threads)%nat -> (0 <= bytes_per_pass)%Z -> preload p srt hs threads bytes_per_pass nums f ->
    exists s, h3_open p nums f in_ram = Some s /\ h3_count s = length hs /\
      (forall h, length h = 32%nat -> bytes h -> h3_index_of p float_probe s h = Some (first_position h 0 hs)) /\
      (forall i h, hs !! i = Some h -> first_position h 0 hs = Z.of_nat i -> h3_get p s i = Some h) /\
      (forall i, (length hs <= i)%nat -> h3_get p s i = None).
Proof.
  intros p srt hs threads bpp nums f in_ram H0 H1 H2 H3 H4 H5 H6 H7.
  exact (C51_index_answers_partial p float_probe srt hs threads bpp nums f in_ram float_probe_ok H0 H1 H2 H3 H4 H5 H6 H7).
Qed.

Print Assumptions C19_float_lookup_finds_lone_sort_numbers_partial.
Print Assumptions C19_float_absent_hash_not_found.
Print Assumptions C19_float_shared_sort_number_refuted.
Print Assumptions C51_float_index_answers_partial.
