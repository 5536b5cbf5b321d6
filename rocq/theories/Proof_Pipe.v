From Verif Require Import Base Model_Seq Spec_Seq.

Local Open Scope nat_scope.

Definition b (P : Prop) `{Decision P} : nat := if decide P then 1 else 0.

(** How often item [x] is held at each place; and how many items past the gate are held there. *)
Definition o_pass (x : nat) (g : gate) : nat := match g with GPassed i => b (i = x) | _ => 0 end.
Definition o_wait (x : nat) (g : gate) : nat := match g with GCheck i | GAsleep i => b (i = x) | _ => 0 end.
Definition o_num (x : nat) (n : numberer) : nat := match n with NHold i => b (i = x) | _ => 0 end.
Definition o_w (x : nat) (w : worker) : nat := match w with WBusy i | WReady i => b (i = x) | _ => 0 end.
Definition o_mode (x : nat) (m : smode) : nat := match m with SPark i | SEmitIn i => b (i = x) | _ => 0 end.
Definition l_pass (g : gate) : nat := match g with GPassed i => 1 | _ => 0 end.
Definition l_num (n : numberer) : nat := match n with NHold i => 1 | _ => 0 end.
Definition l_w (w : worker) : nat := match w with WBusy i | WReady i => 1 | _ => 0 end.
(* an item being sent out of the map counts as one more, in place of the one just sent *)
Definition l_mode (m : smode) : nat := match m with SPark i | SEmitIn i | SEmitMap i => 1 | _ => 0 end.
Fixpoint wsum (f : worker -> nat) (ws : list worker) : nat :=
  match ws with [] => 0 | w :: ws' => f w + wsum f ws' end.

Lemma wsum_insert f ws k w w' : ws !! k = Some w ->
  wsum f (<[k := w']> ws) + f w = wsum f ws + f w'.
Proof.
  revert k. induction ws as [|a ws IH]; intros [|k] H; try done.
  - injection H as ->. change (<[0 := w']> (w :: ws)) with (w' :: ws). cbn [wsum]. lia.
  - specialize (IH k H). change (<[S k := w']> (a :: ws)) with (a :: <[k := w']> ws). cbn [wsum]. lia.
Qed.
Lemma wsum_le f g ws : (forall w, f w <= g w) -> wsum f ws <= wsum g ws.
Proof. intros H. induction ws as [|a ws IH]; cbn; [lia|]. specialize (H a). lia. Qed.
Lemma wsum_len ws : wsum l_w ws <= length ws.
Proof. induction ws as [|a ws IH]; cbn; [lia|]. destruct a; cbn; lia. Qed.

(** items past the gate and not yet parked or sent *)
Definition flight (x : nat) (s : pipe) : nat :=
  o_pass x (p_gate s) + o_num x (p_num s) + wsum (o_w x) (p_workers s) + o_mode x (p_mode s).
Definition flights (s : pipe) : nat :=
  l_pass (p_gate s) + l_num (p_num s) + wsum l_w (p_workers s) + l_mode (p_mode s).

Lemma flight_le x s : flight x s <= flights s.
Proof.
  unfold flight, flights.
  assert (wsum (o_w x) (p_workers s) <= wsum l_w (p_workers s)).
  { apply wsum_le. intros [| | |]; cbn; unfold b; try destruct (decide _); lia. }
  destruct (p_gate s), (p_num s), (p_mode s); cbn; unfold b; repeat destruct (decide _); lia.
Qed.

Definition mode_ok (s : pipe) : Prop :=
  match p_mode s with
  | SRecv => p_next s ∉ p_map s
  | SPark i => i <> p_next s /\ p_next s ∉ p_map s
  | SEmitIn i => i = p_next s
  | SEmitMap i => i = p_next s /\ i ∈ p_map s
  | SEnd => p_map s = ∅ /\ Forall (fun w => w = WDone) (p_workers s)
  | SPanic => False
  end.

Record pinv (N B W : nat) (s : pipe) : Prop := {
  pi_out : p_out s = seq 0 (p_next s);
  pi_count : forall x, b (x < p_next s) + b (x ∈ p_map s) + flight x s + o_wait x (p_gate s) = b (x < p_src s);
  pi_src : p_src s <= N;
  pi_gate : match p_gate s with GCheck i | GAsleep i | GPassed i => S i = p_src s | GClosed => p_src s = N | GIdle => True end;
  pi_len : length (p_workers s) = W;
  pi_mode : mode_ok s;
  pi_bl : p_bloated s = true <-> B <= size (p_map s);
  pi_sleep : forall i, p_gate s = GAsleep i -> p_bloated s = true;
  pi_bound : p_bloated s = true -> size (p_map s) + flights s <= B + W + 2;
  pi_nclosed : p_num s = NClosed -> p_gate s = GClosed;
  pi_done : WDone ∈ p_workers s -> p_num s = NClosed;
}.

Lemma b_true P `{Decision P} : P -> b P = 1.
Proof. intros. unfold b. by rewrite decide_True. Qed.
Lemma b_false P `{Decision P} : ~ P -> b P = 0.
Proof. intros. unfold b. by rewrite decide_False. Qed.
Lemma b_le P `{Decision P} : b P <= 1.
Proof. unfold b. destruct (decide P); lia. Qed.
Lemma b_pos P `{Decision P} : 1 <= b P -> P.
Proof. unfold b. destruct (decide P); [done|lia]. Qed.

(** When something is parked, the awaited item is past the gate and not parked. *)
Lemma awaited_in_flight N B W s : pinv N B W s -> p_next s ∉ p_map s -> p_map s <> ∅ -> flight (p_next s) s = 1.
Proof.
  intros I Hn Hne. apply set_choose_L in Hne as [y Hy].
  pose proof (pi_count _ _ _ _ I y) as Cy. pose proof (pi_count _ _ _ _ I (p_next s)) as Cn.
  rewrite (b_true (y ∈ _)) in Cy by done. rewrite (b_false (p_next s ∈ _)) in Cn by done.
  rewrite (b_false (p_next s < _)) in Cn by lia.
  pose proof (b_le (y < p_src s)). assert (Hys : y < p_src s) by (apply (b_pos (y < p_src s)); lia).
  assert (~ y < p_next s). { intros Hlt. rewrite (b_true (y < p_next s)) in Cy by done. lia. }
  assert (y <> p_next s) by congruence.
  rewrite (b_true (p_next s < p_src s)) in Cn by lia.
  assert (o_wait (p_next s) (p_gate s) = 0); [|lia].
  pose proof (pi_gate _ _ _ _ I) as G.
  destruct (p_gate s) eqn:Eg; try done; cbn [o_wait] in *; apply b_false; lia.
Qed.

Lemma wsum_elem x ws k i : ws !! k = Some (WReady i) -> b (i = x) <= wsum (o_w x) ws.
Proof.
  revert k. induction ws as [|a ws IH]; intros [|k] H; cbn in *; try done.
  - injection H as ->. cbn. lia.
  - specialize (IH k H). lia.
Qed.

Lemma in_map_insert (i x : nat) (m : gset nat) : i ∉ m -> b (x ∈ {[i]} ∪ m) = b (i = x) + b (x ∈ m).
Proof.
  intros Hi. destruct (decide (i = x)) as [->|Hne].
  - rewrite (b_true (x ∈ _)) by set_solver. rewrite (b_true (x = x)) by done. rewrite (b_false (x ∈ m)) by done. lia.
  - rewrite (b_false (i = x)) by done. destruct (decide (x ∈ m)).
    + rewrite !b_true by set_solver. lia.
    + rewrite !b_false by set_solver. lia.
Qed.
Lemma in_map_delete (i x : nat) (m : gset nat) : i ∈ m -> b (x ∈ m ∖ {[i]}) + b (i = x) = b (x ∈ m).
Proof.
  intros Hi. destruct (decide (i = x)) as [->|Hne].
  - rewrite (b_false (x ∈ _ ∖ _)) by set_solver. rewrite (b_true (x = x)) by done. rewrite (b_true (x ∈ m)) by done. lia.
  - rewrite (b_false (i = x)) by done. destruct (decide (x ∈ m)).
    + rewrite !b_true by set_solver. lia.
    + rewrite !b_false by set_solver. lia.
Qed.
Lemma b_lt_S (x n : nat) : b (x < S n) = b (x < n) + b (n = x).
Proof. unfold b. repeat destruct (decide _); lia. Qed.
Lemma size_insert (i : nat) (m : gset nat) : i ∉ m -> size ({[i]} ∪ m) = S (size m).
Proof. intros. rewrite size_union by set_solver. rewrite size_singleton. lia. Qed.
Lemma size_delete (i : nat) (m : gset nat) : i ∈ m -> S (size (m ∖ {[i]})) = size m.
Proof.
  intros. rewrite size_difference by set_solver. rewrite size_singleton.
  assert (size m <> 0); [|lia]. apply size_non_empty_iff. set_solver.
Qed.
Lemma seq_0_S n : seq 0 (S n) = seq 0 n ++ [n].
Proof. by rewrite seq_S. Qed.

Lemma pinv_init N B W : 1 <= B -> pinv N B W (pipe_init W).
Proof.
  intros HB. unfold pipe_init.
  assert (R : forall f, f WIdle = 0 -> wsum f (replicate W WIdle) = 0).
  { intros f Hf. induction W as [|W IH]; cbn; [done|]. rewrite IH. lia. }
  constructor; cbn [p_src p_gate p_num p_workers p_mode p_next p_map p_bloated p_out]; try done; try lia.
  - intros x. unfold flight; cbn [p_src p_gate p_num p_workers p_mode p_next p_map p_bloated p_out o_pass o_num o_mode o_wait].
    rewrite R by done. rewrite (b_false (x ∈ _)) by set_solver. rewrite b_false by lia. lia.
  - by rewrite replicate_length.
  - rewrite size_empty. split; [done|lia].
  - intros H. apply elem_of_replicate in H as [H _]. done.
Qed.

Ltac psimpl := unfold flight, flights, mode_ok in *; cbn [p_src p_gate p_num p_workers p_mode p_next p_map p_bloated p_out] in *.

Lemma mode_after n m : match after_emit n m with
  | SRecv => n ∉ m | SPark i => i <> n /\ n ∉ m | SEmitIn i => i = n | SEmitMap i => i = n /\ i ∈ m
  | SEnd => False | SPanic => False end /\ o_mode n (after_emit n m) = 0 /\ (forall x, o_mode x (after_emit n m) = 0) /\ l_mode (after_emit n m) <= 1.
Proof. unfold after_emit. destruct (decide _); auto. Qed.

Lemma WDone_insert (ws : list worker) (k : nat) (w w' : worker) : ws !! k = Some w -> w' <> WDone -> WDone ∈ <[k := w']> ws -> WDone ∈ ws.
Proof.
  intros H Hw Hin. apply elem_of_list_lookup in Hin as [j Hj].
  destruct (decide (j = k)) as [->|Hne].
  - rewrite list_lookup_insert in Hj; [congruence|]. eapply lookup_lt_Some; eauto.
  - rewrite list_lookup_insert_ne in Hj by done. eapply elem_of_list_lookup_2; eauto.
Qed.

(** All the arithmetic facts that follow from replacing one worker's state *)
Ltac use_insert Hk w' :=
  let H := fresh in
  pose proof (wsum_insert l_w _ _ _ w' Hk) as H; cbn [l_w] in H.

Lemma pinv_step N B W s s' : 1 <= B -> 1 <= W -> pinv N B W s -> pstep N B s s' -> pinv N B W s'.
Proof.
  intros HB HW I Hstep.
  pose proof (pi_out _ _ _ _ I) as Iout. pose proof (pi_count _ _ _ _ I) as Icount.
  pose proof (pi_src _ _ _ _ I) as Isrc. pose proof (pi_gate _ _ _ _ I) as Igate.
  pose proof (pi_len _ _ _ _ I) as Ilen. pose proof (pi_mode _ _ _ _ I) as Imode.
  pose proof (pi_bl _ _ _ _ I) as Ibl. pose proof (pi_sleep _ _ _ _ I) as Isleep.
  pose proof (pi_bound _ _ _ _ I) as Ibound. pose proof (pi_nclosed _ _ _ _ I) as Inc.
  pose proof (pi_done _ _ _ _ I) as Idone.
  destruct Hstep as [s Hg Hs|s Hg Hs|s i Hg Hb|s i Hg Hb|s i Hg Hn|s Hg Hn|s i k Hn Hk|s i k Hk|s k Hn Hk|
    s i k Hk Hm Hi|s i k Hk Hm Hi|s i Hm|s i Hm|s i Hm|s Ha Hm He|s Ha Hm He].
  - (* take *) rewrite Hg in *. constructor; psimpl; rewrite ?Hg in *; cbn [o_pass o_wait l_pass] in *; auto; try done.
    + intros x. specialize (Icount x). rewrite b_lt_S. lia.
    + intros HN. specialize (Inc HN). done.
  - (* gate close *) rewrite Hg in *. constructor; psimpl; rewrite ?Hg in *; cbn [o_pass o_wait l_pass] in *; auto; try done.
  - (* gate pass *) rewrite Hg in *. constructor; psimpl; rewrite ?Hg in *; cbn [o_pass o_wait l_pass] in *; auto; try done.
    + intros x. specialize (Icount x). lia.
    + rewrite Hb. done.
    + intros HN. specialize (Inc HN). done.
  - (* sleep *) rewrite Hg in *. constructor; psimpl; rewrite ?Hg in *; cbn [o_pass o_wait l_pass] in *; auto; try done.
    intros HN. specialize (Inc HN). done.
  - (* number *) rewrite Hg, Hn in *. constructor; psimpl; rewrite ?Hg, ?Hn in *; cbn [o_pass o_wait l_pass o_num l_num] in *; auto; try done.
    + intros x. specialize (Icount x). lia.
    + intros H. specialize (Idone H). done.
  - (* numberer close *) rewrite Hg, Hn in *. constructor; psimpl; rewrite ?Hg, ?Hn in *; cbn [o_pass o_wait l_pass o_num l_num] in *; auto; try done.
  - (* work *) rewrite Hn in *. use_insert Hk (WBusy i). constructor; psimpl; rewrite ?Hn in *; cbn [o_num l_num] in *; auto; try done.
    + intros x. specialize (Icount x). pose proof (wsum_insert (o_w x) _ _ _ (WBusy i) Hk) as W1. cbn [o_w] in W1. lia.
    + by rewrite insert_length.
    + destruct (p_mode s); auto. destruct Imode as [_ F]. exfalso.
      apply (Forall_lookup_1 _ _ _ _ F) in Hk. done.
    + intros HX. specialize (Ibound HX). lia.
    + intros H0. eapply WDone_insert in H0; [|eauto|done]. specialize (Idone H0). done.
  - (* parsed *) use_insert Hk (WReady i). constructor; psimpl; auto.
    + intros x. specialize (Icount x). pose proof (wsum_insert (o_w x) _ _ _ (WReady i) Hk) as W1. cbn [o_w] in W1. lia.
    + by rewrite insert_length.
    + destruct (p_mode s); auto. destruct Imode as [_ F]. exfalso.
      apply (Forall_lookup_1 _ _ _ _ F) in Hk. done.
    + intros HX. specialize (Ibound HX). lia.
    + intros H0. eapply WDone_insert in H0; eauto.
  - (* worker end *) use_insert Hk WDone. constructor; psimpl; auto.
    + intros x. specialize (Icount x). pose proof (wsum_insert (o_w x) _ _ _ WDone Hk) as W1. cbn [o_w] in W1. lia.
    + by rewrite insert_length.
    + destruct (p_mode s); auto. destruct Imode as [E F]. split; [done|].
      apply Forall_insert; done.
    + intros HX. specialize (Ibound HX). lia.
  - (* recv next *) use_insert Hk WIdle. constructor; psimpl; rewrite ?Hm in *; cbn [o_mode l_mode] in *; auto.
    + intros x. specialize (Icount x). pose proof (wsum_insert (o_w x) _ _ _ WIdle Hk) as W1. cbn [o_w] in W1. lia.
    + by rewrite insert_length.
    + intros HX. specialize (Ibound HX). lia.
    + intros H0. eapply WDone_insert in H0; eauto.
  - (* recv other *) use_insert Hk WIdle. constructor; psimpl; rewrite ?Hm in *; cbn [o_mode l_mode] in *; auto.
    + intros x. specialize (Icount x). pose proof (wsum_insert (o_w x) _ _ _ WIdle Hk) as W1. cbn [o_w] in W1. lia.
    + by rewrite insert_length.
    + intros HX. specialize (Ibound HX). lia.
    + intros H0. eapply WDone_insert in H0; eauto.
  - (* park *)
    assert (Hni : i ∉ p_map s).
    { intros Hin. specialize (Icount i). psimpl. rewrite Hm in Icount. cbn [o_mode] in Icount.
      rewrite (b_true (i ∈ _)), (b_true (i = i)) in Icount by done. pose proof (b_le (i < p_src s)). lia. }
    rewrite (size_insert i (p_map s)) by done.
    constructor; psimpl; rewrite ?Hm in *; cbn [o_mode l_mode] in *; auto.
    + intros x. specialize (Icount x). rewrite (in_map_insert i x) by done. lia.
    + set_solver.
    + rewrite (size_insert i (p_map s)) by done. destruct (decide _); [split; [lia|done]|]. rewrite Ibl. lia.
    + intros j Hj. destruct (decide _); [done|eauto].
    + rewrite (size_insert i (p_map s)) by done. destruct (decide _) as [E|E]; [|intros HX; specialize (Ibound HX); lia].
      intros _. pose proof (wsum_len (p_workers s)).
      destruct (p_gate s), (p_num s); cbn [l_pass l_num]; lia.
  - (* emit in *)
    destruct (mode_after (S (p_next s)) (p_map s)) as (M1 & M2 & M3 & M4).
    assert (Hi : i = p_next s) by (psimpl; rewrite Hm in Imode; done). subst i.
    constructor; psimpl; rewrite ?Hm in *; cbn [o_mode l_mode] in *; auto.
    + rewrite Iout. by rewrite seq_0_S.
    + intros x. specialize (Icount x). rewrite M3, b_lt_S. lia.
    + destruct (after_emit _ _); try done.
    + intros HX. specialize (Ibound HX). lia.
  - (* emit map *)
    destruct (mode_after (S (p_next s)) (p_map s ∖ {[p_next s]})) as (M1 & M2 & M3 & M4).
    assert (Hi : i = p_next s /\ p_next s ∈ p_map s) by (psimpl; rewrite Hm in Imode; destruct Imode; subst; done).
    destruct Hi as [-> Hin].
    pose proof (size_delete _ _ Hin) as Hsz.
    assert (Gw : forall x, o_pass x (wake (p_gate s)) = o_pass x (p_gate s) /\ o_wait x (wake (p_gate s)) = o_wait x (p_gate s))
      by (intros; by destruct (p_gate s)).
    assert (Gl : l_pass (wake (p_gate s)) = l_pass (p_gate s)) by (by destruct (p_gate s)).
    constructor; psimpl; rewrite ?Hm in *; cbn [o_mode l_mode] in *; auto.
    + rewrite Iout. by rewrite seq_0_S.
    + intros x. specialize (Icount x). rewrite M3, b_lt_S.
      pose proof (in_map_delete (p_next s) x _ Hin). destruct (Gw x) as [G1 G2].
      destruct (decide _); rewrite ?G1, ?G2; lia.
    + destruct (decide _); [|done]. destruct (p_gate s); done.
    + destruct (after_emit _ _); try done.
    + destruct (decide _); [split; [done|lia]|]. rewrite Ibl. lia.
    + intros j Hj. destruct (decide _); [destruct (p_gate s); done|eauto].
    + destruct (decide _); [done|]. intros HX. specialize (Ibound HX). lia.
    + intros HN. specialize (Inc HN). rewrite Inc. by destruct (decide _).
  - (* end *) constructor; psimpl; rewrite ?Hm in *; cbn [o_mode l_mode] in *; auto.
  - (* panic: impossible *)
    exfalso. psimpl. rewrite Hm in Imode.
    pose proof (awaited_in_flight _ _ _ _ I Imode He) as F. psimpl. rewrite Hm in F. cbn [o_mode] in F.
    assert (Ew : wsum (o_w (p_next s)) (p_workers s) = 0).
    { clear -Ha. induction (p_workers s) as [|a ws IH]; [done|]. cbn. apply Forall_cons in Ha as [-> Ha].
      specialize (IH Ha). rewrite IH. done. }
    destruct (p_workers s) as [|w ws] eqn:Ews.
    + (* no workers at all: nothing was ever parked *)
      cbn in Ilen. lia.
    + apply Forall_cons in Ha as [-> Ha]. specialize (Idone ltac:(left)). specialize (Inc Idone).
      rewrite Idone, Inc in F. cbn [o_pass o_num] in F. lia.
Qed.

(** ** Progress *)
Lemma all_done_or (ws : list worker) :
  Forall (fun w => w = WDone) ws \/
  (exists k i, ws !! k = Some (WReady i)) \/ (exists k i, ws !! k = Some (WBusy i)) \/
  (exists k, ws !! k = Some WIdle /\ forall x, wsum (o_w x) ws = 0).
Proof.
  induction ws as [|a ws IH]; [left; by constructor|].
  destruct IH as [F|[(k & i & Hk)|[(k & i & Hk)|(k & Hk & Hz)]]].
  - destruct a as [|i|i|].
    + right; right; right. exists 0. split; [done|]. intros x. cbn [wsum o_w].
      clear -F. induction F as [|w ws -> F IH]; [done|]. cbn [wsum o_w]. lia.
    + right; right; left. by exists 0, i.
    + right; left. by exists 0, i.
    + left. by constructor.
  - right; left. by exists (S k), i.
  - right; right; left. by exists (S k), i.
  - destruct a as [|i|i|].
    + right; right; right. exists (S k). split; [done|]. intros x. cbn [wsum o_w]. by rewrite Hz.
    + right; right; left. by exists 0, i.
    + right; left. by exists 0, i.
    + right; right; right. exists (S k). split; [done|]. intros x. cbn [wsum o_w]. by rewrite Hz.
Qed.

Lemma progress N B W s : 1 <= B -> 1 <= W -> pinv N B W s -> p_mode s <> SEnd -> exists s', pstep N B s s'.
Proof.
  intros HB HW I Hne.
  pose proof (pi_mode _ _ _ _ I) as Imode. unfold mode_ok in Imode.
  destruct (p_mode s) as [|i|i|i| |] eqn:Hm; [|by eexists; eapply ps_park|by eexists; eapply ps_emit_in|by eexists; eapply ps_emit_map|done|done].
  destruct (all_done_or (p_workers s)) as [F|[(k & i & Hk)|[(k & i & Hk)|(k & Hk & Hz)]]].
  - destruct (decide (p_map s = ∅)); eexists; [by apply ps_seq_end|by apply ps_seq_panic].
  - destruct (decide (i = p_next s)); eexists; [by eapply ps_recv_next|by eapply ps_recv_other].
  - eexists; by eapply ps_parsed.
  - destruct (p_num s) as [|i|] eqn:Hn.
    + pose proof (pi_src _ _ _ _ I). destruct (p_gate s) as [|i|i|i|] eqn:Hg.
      * destruct (decide (p_src s < N)); eexists; [by apply ps_take|apply ps_gate_close; [done|lia]].
      * destruct (p_bloated s) eqn:Hb; eexists; [by eapply ps_gate_sleep|by eapply ps_gate_pass].
      * exfalso. pose proof (pi_sleep _ _ _ _ I _ Hg) as Hb. apply (pi_bl _ _ _ _ I) in Hb.
        assert (Hmne : p_map s <> ∅). { intros E. rewrite E, size_empty in Hb. lia. }
        pose proof (awaited_in_flight _ _ _ _ I Imode Hmne) as Fl. unfold flight in Fl.
        rewrite Hg, Hn, Hm, Hz in Fl. cbn in Fl. lia.
      * eexists; by eapply ps_number.
      * eexists; by eapply ps_num_close.
    + eexists; by eapply ps_work.
    + eexists; by eapply ps_worker_end.
Qed.

(** ** Termination: every step makes this number smaller *)
Definition r_gate (g : gate) : nat := match g with GIdle => 1 | GCheck _ => 13 | GAsleep _ => 12 | GPassed _ => 11 | GClosed => 0 end.
Definition r_num (n : numberer) : nat := match n with NIdle => 1 | NHold _ => 9 | NClosed => 0 end.
Definition r_w (w : worker) : nat := match w with WIdle => 1 | WBusy _ => 6 | WReady _ => 5 | WDone => 0 end.
Definition r_mode (m : smode) : nat := match m with SRecv => 1 | SPark _ => 4 | SEmitIn _ => 3 | SEmitMap _ => 1 | SEnd => 0 | SPanic => 0 end.
Definition rank (N : nat) (s : pipe) : nat :=
  20 * (N - p_src s) + r_gate (p_gate s) + r_num (p_num s) + wsum r_w (p_workers s) + r_mode (p_mode s) + 2 * size (p_map s).

Lemma rank_step N B W s s' : pinv N B W s -> pstep N B s s' -> rank N s' < rank N s.
Proof.
  intros I Hstep. pose proof (pi_mode _ _ _ _ I) as Imode. unfold mode_ok in Imode.
  destruct Hstep as [s Hg Hs|s Hg Hs|s i Hg Hb|s i Hg Hb|s i Hg Hn|s Hg Hn|s i k Hn Hk|s i k Hk|s k Hn Hk|
    s i k Hk Hm Hi|s i k Hk Hm Hi|s i Hm|s i Hm|s i Hm|s Ha Hm He|s Ha Hm He];
    unfold rank; cbn [p_src p_gate p_num p_workers p_mode p_next p_map p_bloated p_out];
    rewrite ?Hg, ?Hn, ?Hm; cbn [r_gate r_num r_mode]; try lia.
  - pose proof (wsum_insert r_w _ _ _ (WBusy i) Hk) as E. cbn [r_w] in E. lia.
  - pose proof (wsum_insert r_w _ _ _ (WReady i) Hk) as E. cbn [r_w] in E. lia.
  - pose proof (wsum_insert r_w _ _ _ WDone Hk) as E. cbn [r_w] in E. lia.
  - pose proof (wsum_insert r_w _ _ _ WIdle Hk) as E. cbn [r_w] in E. lia.
  - pose proof (wsum_insert r_w _ _ _ WIdle Hk) as E. cbn [r_w] in E. lia.
  - assert (size ({[i]} ∪ p_map s) <= S (size (p_map s))); [|lia].
    destruct (decide (i ∈ p_map s)) as [Hin|Hin].
    + replace ({[i]} ∪ p_map s) with (p_map s) by set_solver. lia.
    + rewrite size_insert by done. lia.
  - unfold after_emit. destruct (decide _); cbn [r_mode]; lia.
  - rewrite Hm in Imode. destruct Imode as [-> Hin]. pose proof (size_delete _ _ Hin).
    unfold after_emit. repeat destruct (decide _); cbn [r_mode]; destruct (p_gate s); cbn [wake r_gate]; lia.
Qed.

Lemma pipe_terminates N B W s : 1 <= B -> 1 <= W -> pinv N B W s -> terminates (pstep N B) s.
Proof.
  intros HB HW. unfold terminates. remember (rank N s) as n eqn:En.
  revert s En. induction (lt_wf n) as [n _ IH]. intros s -> I. constructor. intros s' Hs.
  eapply IH; [eapply rank_step; eauto|done|eapply pinv_step; eauto].
Qed.

Lemma pinv_reach N B W s s' : 1 <= B -> 1 <= W -> pinv N B W s -> rtc (pstep N B) s s' -> pinv N B W s'.
Proof. intros HB HW I R. induction R; [done|]. apply IHR. eapply pinv_step; eauto. Qed.

Lemma pinv_end N B W s : 1 <= W -> pinv N B W s -> p_mode s = SEnd -> p_out s = seq 0 N.
Proof.
  intros HW I Hm. pose proof (pi_mode _ _ _ _ I) as Imode. unfold mode_ok in Imode. rewrite Hm in Imode.
  destruct Imode as [Em F].
  assert (Hd : WDone ∈ p_workers s).
  { pose proof (pi_len _ _ _ _ I). destruct (p_workers s) as [|w ws]; [cbn in *; lia|].
    apply Forall_cons in F as [-> _]. left. }
  pose proof (pi_done _ _ _ _ I Hd) as Hn. pose proof (pi_nclosed _ _ _ _ I Hn) as Hg.
  pose proof (pi_gate _ _ _ _ I) as G. rewrite Hg in G.
  assert (Hnx : p_next s = N); [|by rewrite (pi_out _ _ _ _ I), Hnx].
  assert (Hz : forall x, b (x < p_next s) = b (x < N)).
  { intros x. pose proof (pi_count _ _ _ _ I x) as C. unfold flight in C.
    rewrite Hg, Hn, Hm, Em, G in C. cbn [o_pass o_num o_mode o_wait] in C.
    rewrite (b_false (x ∈ ∅)) in C by set_solver.
    assert (wsum (o_w x) (p_workers s) = 0); [|lia].
    clear -F. induction F as [|w ws -> F IH]; [done|]. cbn [wsum o_w]. lia. }
  pose proof (Hz N) as H1. pose proof (Hz (p_next s)) as H2. unfold b in *. repeat destruct (decide _); lia.
Qed.

Lemma parked_bound N B W s : pinv N B W s -> 1 <= B -> size (p_map s) <= B + W + 1.
Proof.
  intros I HB. destruct (p_bloated s) eqn:Hb.
  - pose proof (pi_bound _ _ _ _ I Hb) as P. pose proof (pi_mode _ _ _ _ I) as Im. unfold mode_ok in Im.
    assert (Hne : p_map s <> ∅). { apply (pi_bl _ _ _ _ I) in Hb. intros E. rewrite E, size_empty in Hb. lia. }
    assert (Fl : p_next s ∉ p_map s -> 1 <= flights s).
    { intros Hn. pose proof (awaited_in_flight _ _ _ _ I Hn Hne). pose proof (flight_le (p_next s) s). lia. }
    destruct (p_mode s) as [|i|i|i| |] eqn:Hm.
    + specialize (Fl Im). lia.
    + specialize (Fl (proj2 Im)). lia.
    + unfold flights in P. rewrite Hm in P. cbn [l_mode] in P. lia.
    + unfold flights in P. rewrite Hm in P. cbn [l_mode] in P. lia.
    + by destruct Im.
    + done.
  - assert (~ B <= size (p_map s)). { rewrite <-(pi_bl _ _ _ _ I). by rewrite Hb. } lia.
Qed.
