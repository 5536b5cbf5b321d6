(** C79, C80: the difficulty of a block. *)
From Coq Require Import ZArith Reals Lia Lra.
From Coq Require Import Floats.SpecFloat.
From Flocq Require Import Core.
From Flocq.Prop Require Import Relative.
From Flocq.IEEE754 Require Import BinarySingleNaN.
From Verif Require Import Base Model_Uniform Model_Difficulty.
Open Scope Z_scope.

(** ** What Bitcoin Core reports (rpc/blockchain.cpp, GetDifficulty): 65535 divided by the low 24 bits, then
    multiplied or divided by 256 until the exponent is 29. *)
Definition f64_mul : spec_float -> spec_float -> spec_float := SFmul 53 1024.
Definition core_difficulty (nbits : Z) : spec_float :=
  let d0 := f64_div (f64_of 0xffff) (f64_of (nbits mod 2^24)) in
  let shift := nbits / 2^24 in
  if shift <=? 29 then Nat.iter (Z.to_nat (29 - shift)) (fun d => f64_mul d (f64_of 256)) d0
  else Nat.iter (Z.to_nat (shift - 29)) (fun d => f64_div d (f64_of 256)) d0.

(** ** The executable floats are those of Flocq *)
Notation fl := (round radix2 (FLT_exp (-1074) 53) ZnearestE).
Notation bin := (binary_float 53 1024).
Lemma Hp : FLX.Prec_gt_0 53. Proof. reflexivity. Qed.
Lemma Hm : Prec_lt_emax 53 1024. Proof. reflexivity. Qed.

Lemma nearest_even_equiv s m l : round_nearest_even m l = choice_mode mode_NE s m l.
Proof. case l; [reflexivity|intro c]. case c; [|reflexivity..]. simpl; unfold Round.cond_incr; by case Z.even. Qed.
Lemma round_aux_equiv sx mx ex lx :
  SpecFloat.binary_round_aux 53 1024 sx mx ex lx = binary_round_aux 53 1024 mode_NE sx mx ex lx.
Proof.
  unfold SpecFloat.binary_round_aux, binary_round_aux. set (x := shr_fexp _ _ _). case x; intros mrs' e'; simpl.
  by rewrite (nearest_even_equiv sx).
Qed.
Lemma div_equiv (x y : bin) : f64_div (B2SF x) (B2SF y) = B2SF (Bdiv (prec_gt_0_ := Hp) (prec_lt_emax_ := Hm) mode_NE x y).
Proof.
  unfold f64_div. destruct x as [sx|sx| |sx mx ex Bx]; destruct y as [sy|sy| |sy my ey By];
    [by (trivial || simpl; case Bool.eqb)..|].
  simpl. rewrite B2SF_SF2B. set (melz := SFdiv_core_binary _ _ _ _ _ _). case melz as [[mz ez] lz].
  apply round_aux_equiv.
Qed.
Lemma mul_equiv (x y : bin) : f64_mul (B2SF x) (B2SF y) = B2SF (Bmult (prec_gt_0_ := Hp) (prec_lt_emax_ := Hm) mode_NE x y).
Proof.
  unfold f64_mul. destruct x as [sx|sx| |sx mx ex Bx]; destruct y as [sy|sy| |sy my ey By]; [by trivial..|].
  simpl. rewrite B2SF_SF2B. apply round_aux_equiv.
Qed.
Lemma of_equiv z : f64_of z = B2SF (binary_normalize 53 1024 Hp Hm mode_NE z 0 false).
Proof.
  unfold f64_of. destruct z as [|p|p]; [reflexivity|..]; simpl; rewrite B2SF_SF2B;
  unfold SpecFloat.binary_round, binary_round, shl_align_fexp;
  set (mez := shl_align _ _ _); destruct mez as [mz ez]; apply round_aux_equiv.
Qed.

(** ** Positive floats and the reals they stand for *)
Local Open Scope R_scope.
Definition is_fl (f : spec_float) (x : R) : Prop :=
  0 < x /\ exists b : bin, B2SF b = f /\ B2R b = x /\ is_finite b = true /\ Bsign b = false.
(** Reals that are neither tiny nor huge *)
Definition mid (k : Z) (x : R) : Prop := bpow radix2 (- k) <= x <= bpow radix2 k.

Global Instance fl_exp_valid : Valid_exp (FLT_exp (-1074) 53).
Proof. apply FLT_exp_valid. reflexivity. Qed.

Lemma mid_weaken k l x : (k <= l)%Z -> mid k x -> mid l x.
Proof.
  intros H [A B]. split; [eapply Rle_trans; [|exact A]|eapply Rle_trans; [exact B|]]; apply bpow_le; lia.
Qed.
Lemma mid_mult k l x y : mid k x -> mid l y -> mid (k + l) (x * y).
Proof.
  intros [A B] [C D]. pose proof (bpow_gt_0 radix2 (-k)). pose proof (bpow_gt_0 radix2 (-l)).
  split.
  - replace (- (k + l))%Z with (- k + - l)%Z by lia. rewrite bpow_plus. apply Rmult_le_compat; lra.
  - rewrite bpow_plus. apply Rmult_le_compat; lra.
Qed.
Lemma mid_inv k x : mid k x -> mid k (/ x).
Proof.
  intros [A B]. pose proof (bpow_gt_0 radix2 (-k)). pose proof (bpow_gt_0 radix2 k). split.
  - rewrite bpow_opp. apply Rinv_le; lra.
  - replace k with (- - k)%Z by lia. rewrite (bpow_opp radix2 (-k)). apply Rinv_le; lra.
Qed.
Lemma mid_bpow k e : (Z.abs e <= k)%Z -> mid k (bpow radix2 e).
Proof. intros H. split; apply bpow_le; lia. Qed.
Lemma mid_IZR k z : (0 < z < 2 ^ k)%Z -> (0 <= k)%Z -> mid k (IZR z).
Proof.
  intros [A B] Hk. split.
  - apply Rle_trans with 1; [change 1 with (bpow radix2 0); apply bpow_le; lia|]. apply IZR_le. lia.
  - rewrite <- IZR_Zpower by done. apply IZR_le. simpl. lia.
Qed.
Lemma mid_pos k x : mid k x -> 0 < x.
Proof. intros [A _]. pose proof (bpow_gt_0 radix2 (-k)). lra. Qed.

Lemma fl_mid k x : (0 <= k <= 1000)%Z -> mid k x -> mid k (fl x).
Proof.
  intros Hk [A B]. split.
  - rewrite <- (round_generic radix2 (FLT_exp (-1074) 53) ZnearestE (bpow radix2 (-k))).
    + apply round_le; [apply _|apply _|done].
    + apply generic_format_bpow. unfold FLT_exp. lia.
  - rewrite <- (round_generic radix2 (FLT_exp (-1074) 53) ZnearestE (bpow radix2 k)).
    + apply round_le; [apply _|apply _|done].
    + apply generic_format_bpow. unfold FLT_exp. lia.
Qed.

Lemma mid_lt k x : (0 <= k <= 1000)%Z -> mid k x -> Rabs (fl x) < bpow radix2 1024.
Proof.
  intros Hk H. apply fl_mid in H; [|done]. rewrite Rabs_pos_eq by (apply Rlt_le, (mid_pos k), H).
  destruct H as [_ H]. eapply Rle_lt_trans; [exact H|]. apply bpow_lt. lia.
Qed.

Lemma is_fl_of k z : (0 <= k <= 1000)%Z -> mid k (IZR z) -> is_fl (f64_of z) (fl (IZR z)).
Proof.
  intros Hk H. split; [eapply mid_pos, fl_mid; done|].
  eexists. split; [symmetry; apply of_equiv|].
  pose proof (binary_normalize_correct 53 1024 Hp Hm mode_NE z 0 false) as C. cbv zeta in C.
  unfold F2R in C. simpl Fnum in C. simpl Fexp in C. change (bpow radix2 0) with 1 in C. rewrite Rmult_1_r in C.
  rewrite Rlt_bool_true in C by (eapply mid_lt; done).
  destruct C as (C1 & C2 & C3). split; [exact C1|]. split; [exact C2|]. rewrite C3.
  rewrite Rcompare_Gt; [done|]. eapply mid_pos, H.
Qed.
Lemma is_fl_div k f g x y : (0 <= k <= 1000)%Z -> is_fl f x -> is_fl g y -> mid k (x / y) ->
  is_fl (f64_div f g) (fl (x / y)).
Proof.
  intros Hk (Hx & a & <- & Ea & Fa & Sa) (Hy & b & <- & Eb & Fb & Sb) H.
  split; [eapply mid_pos, fl_mid; done|]. eexists. split; [symmetry; apply div_equiv|].
  pose proof (Bdiv_correct 53 1024 Hp Hm mode_NE a b) as C. rewrite Ea, Eb in C.
  specialize (C ltac:(lra)). rewrite Rlt_bool_true in C by (eapply mid_lt; done).
  destruct C as (C1 & C2 & C3). split; [exact C1|]. split; [congruence|].
  rewrite C3, Sa, Sb; [done|]. rewrite Fa in C2. destruct (Bdiv _ _ _); done.
Qed.
Lemma is_fl_mul k f g x y : (0 <= k <= 1000)%Z -> is_fl f x -> is_fl g y -> mid k (x * y) ->
  is_fl (f64_mul f g) (fl (x * y)).
Proof.
  intros Hk (Hx & a & <- & Ea & Fa & Sa) (Hy & b & <- & Eb & Fb & Sb) H.
  split; [eapply mid_pos, fl_mid; done|]. eexists. split; [symmetry; apply mul_equiv|].
  pose proof (Bmult_correct 53 1024 Hp Hm mode_NE a b) as C. rewrite Ea, Eb in C.
  rewrite Rlt_bool_true in C by (eapply mid_lt; done).
  destruct C as (C1 & C2 & C3). split; [exact C1|]. split; [rewrite C2, Fa, Fb; done|].
  rewrite C3, Sa, Sb; [done|]. rewrite Fa, Fb in C2. destruct (Bmult _ _ _); done.
Qed.
Lemma is_fl_unique f g x : is_fl f x -> is_fl g x -> f = g.
Proof.
  intros (_ & a & <- & Ea & Fa & Sa) (_ & b & <- & Eb & Fb & Sb). f_equal.
  apply B2R_Bsign_inj; congruence.
Qed.

(** Scaling by a power of two commutes with rounding. *)
Lemma fl_scale k x e : (0 <= k <= 500)%Z -> (Z.abs e <= 500)%Z -> mid k x -> fl (x * bpow radix2 e) = fl x * bpow radix2 e.
Proof.
  intros Hk He H. pose proof (mid_pos _ _ H) as Px.
  assert (mid 1000 (x * bpow radix2 e)) as H2.
  { apply mid_weaken with (k + 500)%Z; [lia|]. apply mid_mult; [done|]. by apply mid_bpow. }
  pose proof (mid_pos _ _ H2) as Px2.
  rewrite !round_FLT_FLX.
  - unfold round, scaled_mantissa, cexp, FLX_exp, F2R. simpl Fnum. simpl Fexp.
    rewrite mag_mult_bpow by lra.
    replace (x * bpow radix2 e * bpow radix2 (- (mag radix2 x + e - 53))) with (x * bpow radix2 (- (mag radix2 x - 53))).
    + replace (mag radix2 x + e - 53)%Z with (mag radix2 x - 53 + e)%Z by lia. rewrite bpow_plus. ring.
    + rewrite Rmult_assoc, <- bpow_plus. f_equal. f_equal. lia.
  - rewrite Rabs_pos_eq by lra. destruct H as [H _]. eapply Rle_trans; [|exact H]. apply bpow_le. lia.
  - rewrite Rabs_pos_eq by lra. destruct H2 as [H2 _]. eapply Rle_trans; [|exact H2]. apply bpow_le. lia.
Qed.
Lemma fl_idem x : fl (fl x) = fl x.
Proof. apply round_generic; [apply _|]. apply generic_format_round; apply _. Qed.
Lemma fl_small z : (0 < z < 2 ^ 53)%Z -> fl (IZR z) = IZR z.
Proof.
  intros H. apply round_generic; [apply _|]. apply generic_format_FLT.
  exists (Float radix2 z 0); [unfold F2R; simpl; lra|simpl; lia|simpl; lia].
Qed.

(** ** The difficulty as a real number *)
Definition ratio (nbits : Z) : R := IZR 65535 / IZR (nbits mod 2^24) * bpow radix2 (8 * (29 - nbits / 2^24)).

Section Bits.
  Context (nbits : Z).
  Notation m := (nbits mod 2^24)%Z.
  Notation e := (nbits / 2^24)%Z.
  Hypothesis He : (3 <= e <= 34)%Z.
  Lemma target_eq : (target_of nbits = m * 2 ^ (8 * (e - 3)))%Z.
  Proof using He.
    unfold target_of. destruct (Z.ltb_spec 3 e); [done|]. destruct (Z.ltb_spec e 3); [lia|].
    replace (8 * (e - 3))%Z with 0%Z by lia. change (2^0)%Z with 1%Z. by rewrite Z.mul_1_r.
  Qed.
  Hypothesis Hz : m <> 0%Z.

  Lemma m_range : (0 < m < 2^24)%Z.
  Proof. pose proof (Z.mod_pos_bound nbits (2^24) ltac:(lia)). lia. Qed.
  Lemma mid_m : mid 24 (IZR m). Proof. apply mid_IZR; [apply m_range|lia]. Qed.
  Lemma mid_q : mid 40 (IZR 65535 / IZR m).
  Proof. change 40%Z with (16 + 24)%Z. apply mid_mult; [apply mid_IZR; lia|apply mid_inv, mid_m]. Qed.

  Lemma target_real : IZR (target_of nbits) = IZR m * bpow radix2 (8 * (e - 3)).
  Proof. rewrite target_eq, mult_IZR. f_equal. rewrite <- IZR_Zpower by lia. done. Qed.

  Lemma is_fl_target : is_fl (f64_of (target_of nbits)) (IZR m * bpow radix2 (8 * (e - 3))).
  Proof.
    assert (mid 300 (IZR (target_of nbits))) as H.
    { rewrite target_real. apply mid_weaken with (24 + 248)%Z; [lia|].
      apply mid_mult; [apply mid_m|apply mid_bpow; lia]. }
    pose proof (is_fl_of 300 _ ltac:(lia) H) as F. rewrite target_real in F.
    rewrite (fl_scale 24) in F; [|lia|lia|apply mid_m]. rewrite fl_small in F; [exact F|]. pose proof m_range. lia.
  Qed.
  Lemma gen_real : IZR gen_target = IZR 65535 * bpow radix2 208.
  Proof. unfold gen_target. rewrite mult_IZR, <- (IZR_Zpower radix2 208) by lia. done. Qed.
  Lemma is_fl_gen : is_fl (f64_of gen_target) (IZR 65535 * bpow radix2 208).
  Proof.
    assert (mid 300 (IZR gen_target)) as H.
    { rewrite gen_real. apply mid_weaken with (16 + 208)%Z; [lia|].
      apply mid_mult; [apply mid_IZR; lia|apply mid_bpow; lia]. }
    pose proof (is_fl_of 300 _ ltac:(lia) H) as F. rewrite gen_real in F.
    rewrite (fl_scale 16) in F; [|lia|lia|apply mid_IZR; lia]. by rewrite fl_small in F by lia.
  Qed.

  Lemma ratio_eq : IZR 65535 * bpow radix2 208 / (IZR m * bpow radix2 (8 * (e - 3))) = ratio nbits.
  Proof.
    unfold ratio, Rdiv. rewrite Rinv_mult by (pose proof (mid_pos _ _ mid_m); pose proof (bpow_gt_0 radix2 (8 * (e - 3))); lra).
    rewrite <- bpow_opp.
    replace (8 * (29 - e))%Z with (208 + - (8 * (e - 3)))%Z by lia. rewrite bpow_plus. ring.
  Qed.
  Lemma mid_ratio : mid 300 (ratio nbits).
  Proof. apply mid_weaken with (40 + 208)%Z; [lia|]. apply mid_mult; [apply mid_q|apply mid_bpow; lia]. Qed.
  Lemma is_fl_difficulty : is_fl (difficulty nbits) (fl (ratio nbits)).
  Proof.
    unfold difficulty. rewrite <- ratio_eq. apply (is_fl_div 300); [lia|apply is_fl_gen|apply is_fl_target|].
    rewrite ratio_eq. apply mid_ratio.
  Qed.

  Lemma is_fl_256 : is_fl (f64_of 256) 256.
  Proof.
    rewrite <- (fl_small 256) by lia. apply (is_fl_of 10); [lia|]. apply mid_IZR; lia.
  Qed.
  Lemma scaled_mid n x : (0 <= n <= 26)%Z -> mid 40 x -> mid 300 (x * bpow radix2 (8 * n)) /\ mid 300 (x * bpow radix2 (- (8 * n))).
  Proof.
    intros H M. split; (apply mid_weaken with (40 + 208)%Z; [lia|]; apply mid_mult; [done|apply mid_bpow; lia]).
  Qed.
  Lemma iter_mul n x f : mid 40 x -> (n <= 26)%nat -> is_fl f (fl x) ->
    is_fl (Nat.iter n (fun d => f64_mul d (f64_of 256)) f) (fl (x * bpow radix2 (8 * Z.of_nat n))).
  Proof.
    intros M. induction n as [|n IH]; intros Hn F.
    - cbn [Nat.iter]. change (bpow radix2 (8 * Z.of_nat 0)) with 1. by rewrite Rmult_1_r.
    - change (Nat.iter (S n) (fun d => f64_mul d (f64_of 256)) f)
        with (f64_mul (Nat.iter n (fun d => f64_mul d (f64_of 256)) f) (f64_of 256)).
      specialize (IH ltac:(lia) F). destruct (scaled_mid (Z.of_nat n) x) as [M1 _]; [lia|done|].
      pose proof (is_fl_mul 400 _ _ _ _ ltac:(lia) IH is_fl_256) as G.
      assert (E : fl (x * bpow radix2 (8 * Z.of_nat n)) * 256 = fl (x * bpow radix2 (8 * Z.of_nat (S n)))).
      { change 256 with (bpow radix2 8). rewrite <- (fl_scale 300); [|lia|lia|done].
        f_equal. rewrite Rmult_assoc, <- bpow_plus. f_equal. f_equal. lia. }
      rewrite E, fl_idem in G. apply G.
      apply fl_mid; [lia|]. apply mid_weaken with 300%Z; [lia|]. apply scaled_mid; [lia|done].
  Qed.
  Lemma iter_div n x f : mid 40 x -> (n <= 26)%nat -> is_fl f (fl x) ->
    is_fl (Nat.iter n (fun d => f64_div d (f64_of 256)) f) (fl (x * bpow radix2 (- (8 * Z.of_nat n)))).
  Proof.
    intros M. induction n as [|n IH]; intros Hn F.
    - cbn [Nat.iter]. change (bpow radix2 (- (8 * Z.of_nat 0))) with 1. by rewrite Rmult_1_r.
    - change (Nat.iter (S n) (fun d => f64_div d (f64_of 256)) f)
        with (f64_div (Nat.iter n (fun d => f64_div d (f64_of 256)) f) (f64_of 256)).
      specialize (IH ltac:(lia) F). destruct (scaled_mid (Z.of_nat n) x) as [_ M1]; [lia|done|].
      pose proof (is_fl_div 400 _ _ _ _ ltac:(lia) IH is_fl_256) as G.
      assert (E : fl (x * bpow radix2 (- (8 * Z.of_nat n))) / 256 = fl (x * bpow radix2 (- (8 * Z.of_nat (S n))))).
      { unfold Rdiv. change (/ 256) with (bpow radix2 (-8)). rewrite <- (fl_scale 300); [|lia|lia|done].
        f_equal. rewrite Rmult_assoc, <- bpow_plus. f_equal. f_equal. lia. }
      rewrite E, fl_idem in G. apply G.
      apply fl_mid; [lia|]. apply mid_weaken with 300%Z; [lia|]. apply scaled_mid; [lia|done].
  Qed.
  Lemma is_fl_core : is_fl (core_difficulty nbits) (fl (ratio nbits)).
  Proof.
    assert (is_fl (f64_div (f64_of 65535) (f64_of m)) (fl (IZR 65535 / IZR m))) as F.
    { apply (is_fl_div 40); [lia|..|apply mid_q].
      - rewrite <- (fl_small 65535) by lia. apply (is_fl_of 16); [lia|]. apply mid_IZR; lia.
      - rewrite <- (fl_small m) by (pose proof m_range; lia). apply (is_fl_of 24); [lia|]. apply mid_m. }
    unfold core_difficulty, ratio. cbv zeta. destruct (Z.leb_spec e 29).
    - replace (8 * (29 - e))%Z with (8 * Z.of_nat (Z.to_nat (29 - e)))%Z by lia. apply iter_mul; [apply mid_q|lia|exact F].
    - replace (8 * (29 - e))%Z with (- (8 * Z.of_nat (Z.to_nat (e - 29))))%Z by lia. apply iter_div; [apply mid_q|lia|exact F].
  Qed.
End Bits.

Local Open Scope Z_scope.
Lemma iter_inf n (g : spec_float -> spec_float) : g (S754_infinity false) = S754_infinity false ->
  Nat.iter n g (S754_infinity false) = S754_infinity false.
Proof. intros H. induction n as [|n IH]; [done|].
  change (Nat.iter (S n) g (S754_infinity false)) with (g (Nat.iter n g (S754_infinity false))). by rewrite IH.
Qed.

(** ** C79: the difficulty computed from the bits of a header is the one Bitcoin Core reports, bit for bit. *)
Theorem C79_same_as_core nbits : 3 <= nbits / 2^24 <= 34 -> difficulty nbits = core_difficulty nbits.
Proof.
  intros He. destruct (Z.eq_dec (nbits mod 2^24) 0) as [Hz|Hz].
  - assert (target_of nbits = 0) as T by (rewrite (target_eq nbits He), Hz; reflexivity).
    unfold difficulty, core_difficulty. rewrite T, Hz.
    change (f64_div (f64_of gen_target) (f64_of 0)) with (S754_infinity false).
    change (f64_div (f64_of 65535) (f64_of 0)) with (S754_infinity false). cbv zeta.
    destruct (nbits / 2^24 <=? 29); symmetry; apply iter_inf; reflexivity.
  - eapply is_fl_unique; [by apply is_fl_difficulty|by apply is_fl_core].
Qed.

Lemma f64_round_near f x : is_fl f x -> (x < bpow radix2 62)%R ->
  exists r, f64_round f = Some r /\ (Rabs (IZR r - x) <= / 2)%R.
Proof.
  intros (Hx & b & <- & Eb & Fb & Sb) Hlt. destruct b as [s|s| |s m e B]; try done.
  { simpl in Eb. lra. }
  simpl in Sb. subst s. simpl in Eb. simpl B2SF. cbn [f64_round].
  set (a := if 0 <=? e then _ else _).
  assert (Rabs (IZR a - x) <= / 2)%R as Ha.
  { subst a x. unfold F2R. simpl Fnum. simpl Fexp. destruct (Z.leb_spec 0 e) as [E|E].
    - rewrite mult_IZR. replace (IZR (2 ^ e)) with (bpow radix2 e) by (rewrite <- IZR_Zpower by lia; done).
      simpl. rewrite Rminus_diag_eq by done. rewrite Rabs_R0. lra.
    - set (p := 2 ^ (- e)). assert (0 < p) by (apply Z.pow_pos_nonneg; lia).
      assert (bpow radix2 e = / IZR p)%R as Eq.
      { replace e with (- - e) by lia. rewrite bpow_opp. f_equal. unfold p. rewrite <- IZR_Zpower by lia. done. }
      rewrite Z.pow_add_r by lia. change (2^1) with 2. fold p. rewrite Eq.
      set (q := (2 * Z.pos m + p) / (p * 2)).
      pose proof (Z.div_mod (2 * Z.pos m + p) (p * 2) ltac:(lia)) as D.
      pose proof (Z.mod_pos_bound (2 * Z.pos m + p) (p * 2) ltac:(lia)) as M. fold q in D.
      assert (2 * (q * p) <= 2 * Z.pos m + p) as U1 by nia.
      assert (2 * Z.pos m <= 2 * (q * p) + p) as U2 by nia.
      simpl cond_Zopp. apply IZR_le in U1, U2. rewrite ?plus_IZR, ?mult_IZR in U1, U2.
      assert (0 < IZR p)%R as PP by (apply IZR_lt; done).
      replace (IZR q - IZR (Z.pos m) * / IZR p)%R with ((IZR q * IZR p - IZR (Z.pos m)) / IZR p)%R by (field; lra).
      unfold Rdiv. rewrite Rabs_mult, (Rabs_pos_eq (/ IZR p)) by (apply Rlt_le, Rinv_0_lt_compat; done).
      apply Rmult_le_reg_r with (IZR p); [done|]. rewrite Rmult_assoc, Rinv_l, Rmult_1_r by lra.
      apply Rabs_le. lra. }
  clearbody a. clear Eb Fb.
  assert (-1 < a < 2^63) as Hr.
  { apply Rabs_le_inv in Ha. change (bpow radix2 62) with (IZR (2^62)) in Hlt.
    split; [apply lt_IZR; lra|]. apply lt_IZR. apply Rle_lt_trans with (IZR (2^62) + 1)%R; [lra|].
    rewrite <- plus_IZR. apply IZR_lt. lia. }
  destruct (Z.leb_spec (- 2^63) a); [|lia]. destruct (Z.ltb_spec a (2^63)); [|lia]. cbn [andb].
  exists a. done.
Qed.

(** ** C80: the integer stored for the difficulty *)
(** [r] is a nearest integer to the quotient of the targets. *)
Definition nearest (r g t : Z) : Prop := 2 * Z.abs (r * t - g) <= t.

Lemma fl_error nbits : 3 <= nbits / 2^24 <= 34 -> nbits mod 2^24 <> 0 ->
  (Rabs (fl (ratio nbits) - ratio nbits) <= / 9007199254740992 * ratio nbits)%R.
Proof.
  intros He Hz. pose proof (mid_ratio nbits He Hz) as M. pose proof (mid_pos _ _ M) as P.
  pose proof (relative_error_N_FLT radix2 (-1074) 53 ltac:(reflexivity) (fun x => negb (Z.even x)) (ratio nbits)) as E.
  rewrite (Rabs_pos_eq (ratio nbits)) in E by lra.
  assert (bpow radix2 (-1074 + 53 - 1) <= ratio nbits)%R as B.
  { destruct M as [M _]. eapply Rle_trans; [|exact M]. apply bpow_le. lia. }
  specialize (E B). eapply Rle_trans; [exact E|]. apply Rmult_le_compat_r; [lra|].
  change (bpow radix2 (- (53) + 1)) with (/ 4503599627370496)%R. lra.
Qed.

Lemma ratio_quotient nbits : 3 <= nbits / 2^24 <= 34 -> nbits mod 2^24 <> 0 ->
  ratio nbits = (IZR gen_target / IZR (target_of nbits))%R /\ 0 < target_of nbits.
Proof.
  intros He Hz. split.
  - rewrite <- ratio_eq by done. rewrite gen_real, target_real by done. done.
  - rewrite (target_eq nbits He). pose proof (m_range nbits Hz). apply Z.mul_pos_pos; [lia|]. apply Z.pow_pos_nonneg; lia.
Qed.

(** The target the bits stand for *)
Definition bits_target (nbits : Z) : Z := nbits mod 2^24 * 2^(8 * (nbits / 2^24 - 3)).
Definition genesis_target : Z := 65535 * 2^208.

Lemma stored_near nbits : 3 <= nbits / 2^24 <= 34 -> nbits mod 2^24 <> 0 ->
  genesis_target <= 2^61 * bits_target nbits ->
  exists r, stored_difficulty nbits = Some r /\ (Rabs (IZR r - fl (ratio nbits)) <= / 2)%R.
Proof.
  intros He Hz Hb. apply f64_round_near; [by apply is_fl_difficulty|].
  apply Rle_lt_trans with (bpow radix2 61); [|apply bpow_lt; lia].
  rewrite <- (round_generic radix2 (FLT_exp (-1074) 53) ZnearestE (bpow radix2 61))
    by (apply generic_format_bpow; unfold FLT_exp; lia).
  apply round_le; [apply _|apply _|].
  destruct (ratio_quotient nbits He Hz) as [-> T]. unfold bits_target in Hb. rewrite <- (target_eq nbits He) in Hb.
  apply IZR_lt in T as T'. apply Rmult_le_reg_r with (IZR (target_of nbits)); [done|].
  unfold Rdiv. rewrite Rmult_assoc, Rinv_l, Rmult_1_r by lra.
  rewrite <- (IZR_Zpower radix2 61), <- mult_IZR by lia. apply IZR_le. exact Hb.
Qed.

(** It is nearest to the true quotient for exponents from 25 on (difficulties up to about 2^48) ... *)
Theorem C80_stored_difficulty_partial nbits : 25 <= nbits / 2^24 <= 34 -> nbits mod 2^24 <> 0 ->
  exists r, stored_difficulty nbits = Some r /\ nearest r genesis_target (bits_target nbits).
Proof.
  intros He Hz. assert (He' : 3 <= nbits / 2^24 <= 34) by lia.
  pose proof (m_range nbits Hz) as Hm.
  set (m := nbits mod 2^24) in *. set (e := nbits / 2^24) in *.
  destruct (stored_near nbits He' Hz) as (r & E & N).
  { unfold bits_target, genesis_target. fold m e.
    apply Z.le_trans with (2^61 * (1 * 2^(8 * (25 - 3)))); [lia|].
    apply Z.mul_le_mono_nonneg_l; [lia|]. apply Z.mul_le_mono_nonneg; try lia. apply Z.pow_le_mono_r; lia. }
  exists r. split; [exact E|].
  pose proof (fl_error nbits He' Hz) as F. set (x := fl (ratio nbits)) in *. clearbody x.
  set (k := 8 * (e - 25)).
  assert (RR : ratio nbits = (IZR (65535 * 2^32) / IZR (m * 2^k))%R).
  { unfold ratio. fold m e. rewrite !mult_IZR. replace (8 * (29 - e)) with (32 + - k) by lia.
    rewrite bpow_plus, bpow_opp. rewrite <- (IZR_Zpower radix2 32), <- (IZR_Zpower radix2 k) by lia.
    assert (IZR m <> 0)%R by (apply not_0_IZR; lia).
    assert (IZR (Z.pow radix2 k) <> 0)%R by (apply not_0_IZR; apply Z.pow_nonzero; simpl; lia).
    change (radix_val radix2) with 2 in *. field. done. }
  set (T := m * 2^k) in *. assert (0 < T) as PT by (apply Z.mul_pos_pos; [lia|apply Z.pow_pos_nonneg; lia]).
  set (G := 65535 * 2^32) in *.
  assert (Near : 2 * Z.abs (r * T - G) <= T).
  { apply Z.nlt_ge. intros C. rewrite RR in F. apply IZR_lt in PT as PT'.
    apply Rabs_le_inv in N, F.
    assert (IZR G / IZR T * IZR T = IZR G)%R as Q by (field; lra). set (q := (IZR G / IZR T)%R) in *.
    assert (Hg : (/ 9007199254740992 * q * IZR T < / 2)%R).
    { rewrite Rmult_assoc, Q. unfold G. rewrite mult_IZR. change (IZR (2^32)) with (4294967296)%R. lra. }
    assert (HF1 : (x * IZR T - IZR G <= / 9007199254740992 * q * IZR T)%R).
    { rewrite <- Q. rewrite <- Rmult_minus_distr_r. apply Rmult_le_compat_r; lra. }
    assert (HF2 : (IZR G - x * IZR T <= / 9007199254740992 * q * IZR T)%R).
    { rewrite <- Q. rewrite <- Rmult_minus_distr_r. apply Rmult_le_compat_r; lra. }
    assert (HN1 : (IZR r * IZR T - x * IZR T <= / 2 * IZR T)%R).
    { rewrite <- Rmult_minus_distr_r. apply Rmult_le_compat_r; lra. }
    assert (HN2 : (x * IZR T - IZR r * IZR T <= / 2 * IZR T)%R).
    { rewrite <- Rmult_minus_distr_r. apply Rmult_le_compat_r; lra. }
    assert (D : 2 * (r * T - G) >= T + 1 \/ 2 * (G - r * T) >= T + 1) by lia.
    destruct D as [D|D]; apply Z.ge_le, IZR_le in D;
      rewrite plus_IZR, mult_IZR, minus_IZR, mult_IZR in D; lra. }
  unfold nearest, bits_target, genesis_target. fold m e.
  replace (m * 2^(8 * (e - 3))) with (T * 2^176).
  2:{ unfold T. rewrite <- Z.mul_assoc, <- Z.pow_add_r by lia. f_equal. f_equal. lia. }
  replace (65535 * 2^208) with (G * 2^176) by reflexivity.
  rewrite Z.mul_assoc, <- Z.mul_sub_distr_r, Z.abs_mul, (Z.abs_eq (2^176)) by lia. nia.
Qed.

(** ... in general it can be off by the rounding of the quotient to 53 bits ... *)
Theorem C80_stored_difficulty_error_partial nbits : 3 <= nbits / 2^24 <= 34 -> nbits mod 2^24 <> 0 ->
  genesis_target <= 2^61 * bits_target nbits ->
  exists r, stored_difficulty nbits = Some r /\
    2^54 * Z.abs (r * bits_target nbits - genesis_target) <= 2^53 * bits_target nbits + 2 * genesis_target.
Proof.
  intros He Hz Hb. destruct (stored_near nbits He Hz Hb) as (r & E & N). exists r. split; [exact E|].
  pose proof (fl_error nbits He Hz) as F. set (x := fl (ratio nbits)) in *. clearbody x.
  destruct (ratio_quotient nbits He Hz) as [RR PT]. rewrite RR in F.
  unfold bits_target. rewrite <- (target_eq nbits He). set (T := target_of nbits) in *.
  change genesis_target with gen_target. set (G := gen_target) in *. clearbody T G.
  apply IZR_lt in PT as PT'. apply Rabs_le_inv in N, F.
  assert (IZR G / IZR T * IZR T = IZR G)%R as Q by (field; lra). set (q := (IZR G / IZR T)%R) in *. clearbody q.
  assert (HF1 : (x * IZR T - IZR G <= / 9007199254740992 * IZR G)%R).
  { rewrite <- Q. rewrite <- Rmult_minus_distr_r, <- Rmult_assoc. apply Rmult_le_compat_r; lra. }
  assert (HF2 : (IZR G - x * IZR T <= / 9007199254740992 * IZR G)%R).
  { rewrite <- Q. rewrite <- Rmult_minus_distr_r, <- Rmult_assoc. apply Rmult_le_compat_r; lra. }
  assert (HN1 : (IZR r * IZR T - x * IZR T <= / 2 * IZR T)%R).
  { rewrite <- Rmult_minus_distr_r. apply Rmult_le_compat_r; lra. }
  assert (HN2 : (x * IZR T - IZR r * IZR T <= / 2 * IZR T)%R).
  { rewrite <- Rmult_minus_distr_r. apply Rmult_le_compat_r; lra. }
  apply le_IZR. rewrite plus_IZR, !mult_IZR, abs_IZR, minus_IZR, mult_IZR.
  change (IZR (2^54)) with 18014398509481984%R. change (IZR (2^53)) with 9007199254740992%R.
  unfold Rabs. destruct (Rcase_abs _); lra.
Qed.

(** ... and then it is not the true difficulty rounded: these bits (a difficulty of about 4.6 * 10^14) are of the size
    seen in recent blocks; the true quotient is 464038604315074.4858..., the stored integer ends in 5. *)
Theorem C80_stored_difficulty_refuted : exists nbits r,
  3 <= nbits / 2^24 <= 34 /\ 2^15 <= nbits mod 2^24 < 2^23 /\
  stored_difficulty nbits = Some r /\ ~ nearest r genesis_target (bits_target nbits).
Proof.
  exists 0x17009b48, 464038604315075. split; [vm_compute; done|]. split; [vm_compute; done|].
  split; [vm_compute; reflexivity|]. unfold nearest. vm_compute. intros H. apply H. reflexivity.
Qed.
(** Bits without a mantissa give no difficulty at all. *)
Theorem C80_zero_target nbits : 3 <= nbits / 2^24 <= 34 -> nbits mod 2^24 = 0 -> stored_difficulty nbits = None.
Proof.
  intros He Hz. assert (target_of nbits = 0) as T by (rewrite (target_eq nbits He), Hz; reflexivity).
  unfold stored_difficulty, difficulty. rewrite T. reflexivity.
Qed.

(** The first block, and one of early 2014 *)
Example C80_example : stored_difficulty 0x1d00ffff = Some 1 /\ stored_difficulty 0x1900db99 = Some 5006860589.
Proof. split; vm_compute; reflexivity. Qed.
Example C79_example : difficulty 0x1b0404cb = S754_finite false 8965099470472465 (-39) /\
  3 <= 0x1b0404cb / 2^24 <= 34 /\ core_difficulty 0x1b0404cb = difficulty 0x1b0404cb.
Proof. vm_compute. done. Qed.

Print Assumptions C79_same_as_core.
Print Assumptions C80_stored_difficulty_partial.
Print Assumptions C80_stored_difficulty_error_partial.
Print Assumptions C80_stored_difficulty_refuted.
Print Assumptions C80_zero_target.
