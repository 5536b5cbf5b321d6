(** C58: amounts read from JSON are exact.
    intrinsicobjects/jsontransaction.go:11,63: [int64(math.Round(value * satoshisPerBitcoin))] where
    [value] is the float64 nearest to the decimal number of bitcoins printed in the JSON. Floating point
    is modelled with Flocq's IEEE rounding to binary64 (nearest, ties to even) over the reals; the
    results are far below the overflow threshold. *)
From Coq Require Import ZArith Reals Lia Lra.
From Flocq Require Import Core.
From Flocq.Prop Require Import Relative.
From Verif Require Import Base Model_Codec Model_Parse Spec_Parse Model_Json Prop_Json.
Open Scope R_scope.

(** Rounding to float64 *)
Definition fl (x : R) : R := round radix2 (FLT_exp (-1074) 53) ZnearestE x.
(** encoding/json (strconv.ParseFloat): the float64 nearest to the decimal number printed *)
Definition printed (s : Z) : R := fl (IZR s / 100000000).
(** math.Round: nearest integer, half away from zero *)
Definition math_round (x : R) : Z := ZnearestA x.
Definition json_sats (value : R) : Z := math_round (fl (value * 100000000)).

Definition ulp53 : R := / 9007199254740992.

Lemma fl_relative x : / 4503599627370496 <= Rabs x -> Rabs (fl x - x) <= ulp53 * Rabs x.
Proof.
  intros Hx. unfold fl. eapply Rle_trans.
  - apply relative_error_N_FLT; [reflexivity|]. eapply Rle_trans; [|exact Hx].
    change (/ 4503599627370496) with (bpow radix2 (-52)). apply bpow_le. lia.
  - apply Rmult_le_compat_r; [apply Rabs_pos|].
    change (bpow radix2 (- (53) + 1)) with (/ 4503599627370496). unfold ulp53. lra.
Qed.

Lemma fl_0 : fl 0 = 0.
Proof. apply round_0. apply valid_rnd_N. Qed.

Theorem C58_json_amounts_are_exact s : (0 <= s <= 2100000000000000)%Z -> json_sats (printed s) = s.
Proof.
  intros Hs. unfold json_sats, math_round. apply Znearest_imp. unfold printed.
  destruct (Z.eq_dec s 0) as [->|Hnz].
  { unfold Rdiv. rewrite Rmult_0_l, fl_0, Rmult_0_l, fl_0, Rminus_0_r, Rabs_R0. lra. }
  assert (1 <= IZR s) as H1 by (apply IZR_le; lia).
  assert (IZR s <= 2100000000000000) as H2 by (apply IZR_le; lia).
  set (S := IZR s) in *.
  assert (0 < S / 100000000) as Hpos by lra.
  pose proof (fl_relative (S / 100000000)) as E1. rewrite (Rabs_pos_eq (S / 100000000)) in E1 by lra.
  specialize (E1 ltac:(lra)). set (x := fl (S / 100000000)) in *.
  apply Rabs_le_inv in E1. unfold ulp53 in E1.
  assert (/ 4503599627370496 <= x * 100000000) as Hx by lra.
  pose proof (fl_relative (x * 100000000)) as E2. rewrite (Rabs_pos_eq (x * 100000000)) in E2 by lra.
  specialize (E2 Hx). set (y := fl (x * 100000000)) in *.
  apply Rabs_le_inv in E2. unfold ulp53 in E2.
  apply Rabs_lt. lra.
Qed.

(** Hence the JSON parser and the binary parser read the same transaction, amounts included. *)
Theorem C58_json_and_binary_agree_on_amounts sha pre t post st :
  (forall l, length (sha l) = 32%nat /\ bytes (sha l)) ->
  wf_trans t -> Forall (fun i => bytes (wi_txid i)) (wt_ins t) ->
  Forall (fun o => bytes (wo_script o) /\ (0 <= wo_value o <= 2100000000000000)%Z) (wt_outs t) ->
  (Z.of_nat (length (st_scripts st) + length (scripts_of t)) < 2^31)%Z ->
  exists t' st', parse_json json_sats (core_json printed sha t) st = Some (t', st') /\
    parse_trans sha (pre ++ ser_trans t ++ post) (Z.of_nat (length pre)) st
      = Some (t', st', Z.of_nat (length (ser_trans t))).
Proof.
  intros Hsha Ht Hi Ho Hs. apply C57_json_and_binary_agree; try assumption.
  eapply Forall_impl; [exact Ho|]. intros o [Hb Hv]. split; [exact Hb|]. apply C58_json_amounts_are_exact, Hv.
Qed.

Print Assumptions C58_json_amounts_are_exact.
Print Assumptions C58_json_and_binary_agree_on_amounts.

Example C58_example : json_sats (printed 2099999999999999) = 2099999999999999%Z.
Proof. apply C58_json_amounts_are_exact. lia. Qed.
