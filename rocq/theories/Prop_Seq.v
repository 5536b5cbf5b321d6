(** C24, C25, C26: the sequencer, the block pipeline, the memory blocker. *)
From Verif Require Import Base Model_Seq Spec_Seq Proof_Seq Proof_Pipe Proof_MemBlock.

(** ** C24 *)

(** Whatever arrives (missing numbers, repeated numbers, any order), what has been sent out so far
    carries consecutive numbers from the start number on, and consists of arrived items. *)
Theorem C24_never_out_of_sequence {T} (num : T -> Z) first bc l :
  let out := fst (arrivals num (sq_new first bc) l) in
  in_sequence num first out /\ forall v, v ∈ out -> v ∈ l.
Proof.
  pose proof (arrivals_spec num l first [] [] (sq_new first bc) (sinv_new num first bc) (lookup_empty _)) as A.
  destruct (arrivals num (sq_new first bc) l) as [o s]. destruct A as (A1 & _). cbn [fst app] in *.
  split; [exact (si_seq _ _ _ _ _ A1)|exact (si_out _ _ _ _ _ A1)].
Qed.

(** Items numbered consecutively, in any arrival order: all are sent, in order, and closing is clean. *)
Theorem C24_every_item_once_in_order {T} (num : T -> Z) first bc l :
  num <$> l ≡ₚ consecutive first (length l) ->
  let '(out, s) := arrivals num (sq_new first bc) l in
  out ≡ₚ l /\ num <$> out = consecutive first (length l) /\ sq_close s = Some [].
Proof.
  intros Hp.
  pose proof (arrivals_spec num l first [] [] (sq_new first bc) (sinv_new num first bc) (lookup_empty _)) as A.
  destruct (arrivals num (sq_new first bc) l) as [o s]. cbn [app] in A. destruct A as (A1 & A2 & _ & A4).
  assert (C : conserved l o s).
  { apply A4; [rewrite Hp; apply NoDup_consecutive|]. apply conserved_new. }
  assert (Hm : sq_map s = ∅).
  { apply map_empty. intros k. destruct (sq_map s !! k) as [v|] eqn:Ek; [|done]. exfalso.
    unfold conserved in C.
    assert (Hlen : (length o < length l)%nat).
    { rewrite <-C, app_length. assert (v ∈ (map_to_list (sq_map s)).*2) as Hv.
      { apply elem_of_list_fmap. exists (k, v). split; [done|]. by apply elem_of_map_to_list. }
      destruct ((map_to_list (sq_map s)).*2); [by apply elem_of_nil in Hv|]. cbn [length]. lia. }
    assert (Hin : sq_next s ∈ num <$> l).
    { rewrite Hp. apply elem_of_consecutive. rewrite (si_next _ _ _ _ _ A1). lia. }
    apply elem_of_list_fmap in Hin as (w & Hw & Hin). rewrite <-C in Hin.
    apply elem_of_app in Hin as [Hin|Hin].
    - pose proof (si_seq _ _ _ _ _ A1) as S1. unfold in_sequence in S1.
      assert (num w ∈ num <$> o) as Ho by by apply elem_of_list_fmap_1.
      rewrite S1 in Ho. apply elem_of_consecutive in Ho. rewrite (si_next _ _ _ _ _ A1) in Hw. lia.
    - apply elem_of_list_fmap in Hin as ([k' w'] & -> & Hin). apply elem_of_map_to_list in Hin.
      cbn in Hw. destruct (si_map _ _ _ _ _ A1 _ _ Hin) as [<- _]. rewrite <-Hw in Hin. congruence. }
  assert (Ho : o ≡ₚ l). { rewrite <-C, Hm, map_to_list_empty, app_nil_r. done. }
  split; [done|]. split.
  - rewrite (si_seq _ _ _ _ _ A1). by rewrite Ho.
  - rewrite sq_close_none by done. rewrite Hm. rewrite decide_True; [done|]. apply map_size_empty.
Qed.

(** With distinct numbers, closing is clean exactly when the numbers are consecutive from the start
    number; otherwise it panics.  In particular a missing number is always noticed. *)
Theorem C24_close_is_clean_iff_nothing_missing {T} (num : T -> Z) first bc l :
  NoDup (num <$> l) ->
  let '(out, s) := arrivals num (sq_new first bc) l in
  (sq_close s = Some [] <-> num <$> l ≡ₚ consecutive first (length l)) /\
  (sq_close s = None <-> ~ num <$> l ≡ₚ consecutive first (length l)).
Proof.
  intros Hd.
  pose proof (C24_every_item_once_in_order num first bc l) as Hok.
  pose proof (arrivals_spec num l first [] [] (sq_new first bc) (sinv_new num first bc) (lookup_empty _)) as A.
  destruct (arrivals num (sq_new first bc) l) as [o s]. cbn [app] in A. destruct A as (A1 & A2 & _ & A4).
  assert (C : conserved l o s) by (apply A4; [done|apply conserved_new]). unfold conserved in C.
  assert (Hcl : sq_close s = Some [] -> num <$> l ≡ₚ consecutive first (length l)).
  { rewrite sq_close_none by done. destruct (decide _) as [E|E]; [|done]. intros _.
    apply map_size_empty_iff in E. rewrite E, map_to_list_empty, app_nil_r in C.
    rewrite <-C. rewrite (si_seq _ _ _ _ _ A1). done. }
  assert (Hcn : num <$> l ≡ₚ consecutive first (length l) -> sq_close s = Some []) by (intros H; by apply Hok in H as (_ & _ & ?)).
  split; [tauto|]. rewrite sq_close_none in * by done. split.
  - intros E Hp. specialize (Hcn Hp). congruence.
  - intros Hn. destruct (decide _) as [E|E]; [|done]. exfalso. apply Hn. by apply Hcl.
Qed.

(** With distinct numbers, the sent items are exactly those below the first missing number. *)
Theorem C24_sends_up_to_the_first_missing {T} (num : T -> Z) first bc l :
  NoDup (num <$> l) ->
  let out := fst (arrivals num (sq_new first bc) l) in
  let stop := first + Z.of_nat (length out) in
  stop ∉ num <$> l /\ (forall k, first <= k < stop -> k ∈ num <$> l) /\
  (forall v, v ∈ out <-> v ∈ l /\ first <= num v < stop).
Proof.
  intros Hd.
  pose proof (arrivals_spec num l first [] [] (sq_new first bc) (sinv_new num first bc) (lookup_empty _)) as A.
  destruct (arrivals num (sq_new first bc) l) as [o s]. cbn [fst app] in *. destruct A as (A1 & A2 & _ & A4).
  assert (C : conserved l o s) by (apply A4; [done|apply conserved_new]). unfold conserved in C.
  pose proof (si_seq _ _ _ _ _ A1) as S1. unfold in_sequence in S1.
  pose proof (si_next _ _ _ _ _ A1) as S2.
  assert (Hrange : forall v, v ∈ o -> first <= num v < first + Z.of_nat (length o)).
  { intros v Hv. apply elem_of_consecutive. rewrite <-S1. by apply elem_of_list_fmap_1. }
  assert (Hmap : forall v, v ∈ (map_to_list (sq_map s)).*2 -> sq_map s !! num v = Some v).
  { intros v Hv. apply elem_of_list_fmap in Hv as ([k w] & -> & Hin). apply elem_of_map_to_list in Hin.
    cbn. destruct (si_map _ _ _ _ _ A1 _ _ Hin) as [-> _]. done. }
  assert (Hnot : first + Z.of_nat (length o) ∉ num <$> l).
  { rewrite <-S2. intros Hin. apply elem_of_list_fmap in Hin as (w & Hw & Hin). rewrite <-C in Hin.
    apply elem_of_app in Hin as [Hin|Hin].
    - apply Hrange in Hin. lia.
    - apply Hmap in Hin. rewrite <-Hw in Hin. congruence. }
  split; [done|]. split.
  - intros k Hk. apply elem_of_consecutive in Hk. rewrite <-S1 in Hk.
    apply elem_of_list_fmap in Hk as (v & -> & Hv). apply elem_of_list_fmap_1. rewrite <-C. apply elem_of_app. by left.
  - intros v. split.
    + intros Hv. split; [rewrite <-C; apply elem_of_app; by left|]. by apply Hrange.
    + intros [Hv Hr]. rewrite <-C in Hv. apply elem_of_app in Hv as [Hv|Hv]; [done|]. exfalso.
      (* the same number is also carried by a sent item *)
      assert (Hk : num v ∈ num <$> o). { rewrite S1. by apply elem_of_consecutive. }
      apply elem_of_list_fmap in Hk as (u & Hu & Hin).
      assert (Hp : num <$> (o ++ (map_to_list (sq_map s)).*2) ≡ₚ num <$> l) by (by rewrite C).
      rewrite <-Hp in Hd. rewrite fmap_app in Hd. apply NoDup_app in Hd as (_ & Hd & _).
      apply (Hd (num u)); [by apply elem_of_list_fmap_1|]. rewrite <-Hu. by apply elem_of_list_fmap_1.
Qed.

(** The back-pressure flag says precisely whether at least [bc] items are parked. *)
Theorem C24_flag_tells_whether_bloated {T} (num : T -> Z) first bc l :
  (1 <= bc)%nat ->
  let s := snd (arrivals num (sq_new first bc) l) in
  sq_bloated s = true <-> (bc <= size (sq_map s))%nat.
Proof.
  intros Hb.
  pose proof (arrivals_spec num l first [] [] (sq_new first bc) (sinv_new num first bc) (lookup_empty _)) as A.
  destruct (arrivals num (sq_new first bc) l) as [o s]. destruct A as (A1 & _ & A3 & _). cbn [snd] in *.
  cbn [sq_bc sq_new] in A3. pose proof (si_bl _ _ _ _ _ A1) as B. rewrite A3 in B. auto.
Qed.

(** Examples: items are (number, payload) pairs. *)
Example C24_ex_shuffled :
  let l := [(7,30); (5,10); (8,40); (6,20)] in
  fst <$> l ≡ₚ consecutive 5 (length l) /\
  (fst (arrivals fst (sq_new 5 2) l) = [(5,10); (6,20); (7,30); (8,40)]).
Proof.
  split; [|vm_compute; done]. cbn.
  change (consecutive 5 4) with [5; 6; 7; 8].
  etrans; [apply (Permutation_swap 5 7)|]. f_equiv. change [7; 8; 6] with ([7; 8] ++ [6]).
  change [6; 7; 8] with ([6] ++ [7; 8]). apply Permutation_app_comm.
Qed.
Example C24_ex_missing :
  let '(out, s) := arrivals fst (sq_new 0 2) [(2,30); (0,10); (3,40)] in
  out = [(0,10)] /\ sq_close s = None /\ sq_bloated s = true.
Proof. vm_compute. done. Qed.

(** ** C25 *)

(** Every run of the pipeline is finite, can be continued until the sequencer has ended normally, and
    then the consumer has received all blocks in order.  [1 <= B]: the code uses 100 and 1000. *)
Theorem C25_every_run_completes N B W s :
  (1 <= B)%nat -> (1 <= W)%nat -> rtc (pstep N B) (pipe_init W) s ->
  terminates (pstep N B) s /\
  (stuck (pstep N B) s -> p_mode s = SEnd /\ p_out s = seq 0 N) /\
  p_mode s <> SPanic /\ exists k, p_out s = seq 0 k.
Proof.
  intros HB HW R. pose proof (pinv_reach _ _ _ _ _ HB HW (pinv_init N B W HB) R) as I.
  split; [by eapply pipe_terminates|]. split; [|split].
  - intros St. destruct (p_mode s) eqn:Em;
      try (exfalso; destruct (progress N B W s HB HW I) as [s' Hs]; [congruence|eapply St; eauto]).
    split; [done|]. by eapply pinv_end.
  - intros E. pose proof (pi_mode _ _ _ _ I) as M. unfold mode_ok in M. by rewrite E in M.
  - eexists. apply (pi_out _ _ _ _ I).
Qed.

(** Some place after the gate holds item [i]. *)
Definition past_gate (i : nat) (s : pipe) : Prop :=
  p_gate s = GPassed i \/ p_num s = NHold i \/ (exists k, p_workers s !! k = Some (WBusy i) \/ p_workers s !! k = Some (WReady i)) \/
  p_mode s = SPark i \/ p_mode s = SEmitIn i \/ p_mode s = SEmitMap i.

Lemma wsum_pos x ws : wsum (o_w x) ws <> 0%nat -> exists k, ws !! k = Some (WBusy x) \/ ws !! k = Some (WReady x).
Proof.
  induction ws as [|a ws IH]; cbn [wsum]; [lia|]. intros H.
  destruct (decide (o_w x a = 0%nat)) as [E|E].
  - destruct IH as [k Hk]; [lia|]. by exists (S k).
  - exists 0%nat. destruct a as [|i|i|]; cbn in E; try lia; unfold Proof_Pipe.b in E; destruct (decide _); try lia; subst; auto.
Qed.

(** Whenever the gate sleeps because of the flag, the awaited item is already past the gate. *)
Theorem C25_awaited_item_is_past_the_gate N B W s i :
  (1 <= B)%nat -> (1 <= W)%nat -> rtc (pstep N B) (pipe_init W) s ->
  p_gate s = GAsleep i -> past_gate (length (p_out s)) s.
Proof.
  intros HB HW R Hg. pose proof (pinv_reach _ _ _ _ _ HB HW (pinv_init N B W HB) R) as I.
  rewrite (pi_out _ _ _ _ I), seq_length.
  pose proof (pi_sleep _ _ _ _ I _ Hg) as Hb. apply (pi_bl _ _ _ _ I) in Hb.
  assert (Hne : p_map s <> ∅). { intros E. rewrite E, size_empty in Hb. lia. }
  assert (Fl : p_next s ∉ p_map s -> past_gate (p_next s) s).
  { intros Hn. pose proof (awaited_in_flight _ _ _ _ I Hn Hne) as F. unfold flight in F. rewrite Hg in F. cbn [o_pass] in F.
    destruct (decide (o_num (p_next s) (p_num s) = 0%nat)) as [E1|E1].
    - destruct (decide (wsum (o_w (p_next s)) (p_workers s) = 0%nat)) as [E2|E2].
      + unfold past_gate. destruct (p_mode s) as [|j|j|j| |]; cbn in F; try lia; unfold Proof_Pipe.b in F; destruct (decide _); try lia; subst; tauto.
      + right; right; left. by apply wsum_pos.
    - right; left. destruct (p_num s) as [|j|]; cbn in E1; try lia. unfold Proof_Pipe.b in E1. destruct (decide _); [by subst|lia]. }
  pose proof (pi_mode _ _ _ _ I) as M. unfold mode_ok in M. unfold past_gate.
  destruct (p_mode s) as [|j|j|j| |] eqn:Em.
  - specialize (Fl M). unfold past_gate in Fl. rewrite Em in Fl. done.
  - destruct M as [_ M]. specialize (Fl M). unfold past_gate in Fl. rewrite Em in Fl. done.
  - subst. tauto.
  - destruct M as [-> _]. tauto.
  - by destruct M.
  - done.
Qed.

(** The number of parked items never exceeds threshold + threads + 1 ... *)
Theorem C25_parked_items_are_bounded N B W s :
  (1 <= B)%nat -> (1 <= W)%nat -> rtc (pstep N B) (pipe_init W) s ->
  (size (p_map s) <= B + W + 1)%nat.
Proof. intros HB HW R. eapply parked_bound; [|done]. eapply pinv_reach; eauto. by apply pinv_init. Qed.

(** ... and that bound is reached, so "threshold + threads" would be wrong. *)
Ltac ps lem := eapply rtc_l; [lem; cbn; try reflexivity; try lia; fail|cbn].
Theorem C25_bound_is_reached : exists s, rtc (pstep 5 1) (pipe_init 2) s /\ size (p_map s) = (1 + 2 + 1)%nat.
Proof.
  eexists. split.
  - unfold pipe_init. cbn.
    (* item 0 stays in thread 0; item 1 goes through thread 1 *)
    ps ltac:(apply ps_take). ps ltac:(eapply ps_gate_pass). ps ltac:(eapply ps_number).
    ps ltac:(eapply (ps_work _ _ _ _ 0)).
    ps ltac:(apply ps_take). ps ltac:(eapply ps_gate_pass). ps ltac:(eapply ps_number).
    ps ltac:(eapply (ps_work _ _ _ _ 1)). ps ltac:(eapply (ps_parsed _ _ _ _ 1)). ps ltac:(eapply (ps_recv_other _ _ _ _ 1)).
    (* before item 1 is put aside, 2, 3 and 4 pass the gate *)
    ps ltac:(apply ps_take). ps ltac:(eapply ps_gate_pass). ps ltac:(eapply ps_number). ps ltac:(eapply (ps_work _ _ _ _ 1)).
    ps ltac:(apply ps_take). ps ltac:(eapply ps_gate_pass). ps ltac:(eapply ps_number).
    ps ltac:(apply ps_take). ps ltac:(eapply ps_gate_pass).
    ps ltac:(eapply ps_park).
    ps ltac:(eapply (ps_parsed _ _ _ _ 1)). ps ltac:(eapply (ps_recv_other _ _ _ _ 1)). ps ltac:(eapply ps_park).
    ps ltac:(eapply (ps_work _ _ _ _ 1)). ps ltac:(eapply ps_number).
    ps ltac:(eapply (ps_parsed _ _ _ _ 1)). ps ltac:(eapply (ps_recv_other _ _ _ _ 1)). ps ltac:(eapply ps_park).
    ps ltac:(eapply (ps_work _ _ _ _ 1)).
    ps ltac:(eapply (ps_parsed _ _ _ _ 1)). ps ltac:(eapply (ps_recv_other _ _ _ _ 1)). ps ltac:(eapply ps_park).
    apply rtc_refl.
  - vm_compute. done.
Qed.

(** ** C26 *)

(** Two threads are never both inside a locked section. *)
Theorem C26_mutual_exclusion max who heap n s t u w w' :
  rtc (mstep max who) (mem_init heap n) s ->
  mm_threads s !! t = Some w -> mm_threads s !! u = Some w' ->
  (w = MFreeing \/ exists r, w = MReadIt r) -> (w' = MFreeing \/ exists r, w' = MReadIt r) -> t = u.
Proof.
  intros R Ht Hu Hw Hw'. pose proof (minv_reach _ _ _ _ (minv_init max who heap n) R) as I.
  assert (E1 : mm_lock s = Some t). { eapply mi_lock; eauto. by destruct Hw as [->|[r ->]]. }
  assert (E2 : mm_lock s = Some u). { eapply mi_lock; eauto. by destruct Hw' as [->|[r ->]]. }
  congruence.
Qed.

(** A waiter that has returned saw less than the limit allocated at a moment when it held the lock. *)
Theorem C26_returns_only_after_seeing_spare_memory max who heap n s t r :
  rtc (mstep max who) (mem_init heap n) s -> mm_threads s !! t = Some (MReturned r) ->
  exists s1, rtc (mstep max who) (mem_init heap n) s1 /\ rtc (mstep max who) s1 s /\
    mm_lock s1 = Some t /\ mm_heap s1 < max.
Proof.
  intros R Ht. pose proof (minv_reach _ _ _ _ (minv_init max who heap n) R) as I.
  destruct (reads max who (mem_init heap n) s (minv_init _ _ _ _)) with (t := t) (r := r) as (s1 & A & B & C & D).
  - intros u x. split; intros H; cbn in H; apply lookup_replicate in H as [H _]; done.
  - done.
  - by right.
  - exists s1. repeat split; try done. rewrite D. eapply mi_ret; eauto.
Qed.

(** With one waiting thread (as in indexedhashes/jobs.go), no release is lost: if it sleeps while there
    is spare memory, some thread that is freeing memory has still to signal. *)
Theorem C26_no_lost_wakeup_with_one_waiter_partial max t0 heap n s t :
  rtc (mstep max {[t0]}) (mem_init heap n) s ->
  mm_threads s !! t = Some MAsleep -> mm_heap s < max ->
  exists u w, mm_threads s !! u = Some w /\ (w = MWantFree \/ w = MFreeing \/ w = MMustSignal).
Proof.
  intros R Ht Hh. destruct (nolost_reach _ _ _ _ _ R t) as [N _].
  destruct (N Ht Hh) as (u & w & Hu & Hw). exists u, w. split; [done|]. destruct w; try done; tauto.
Qed.

(** With two waiting threads a release can leave one asleep for ever: Signal wakes only one, and the
    woken thread does not pass the signal on. *)
Theorem C26_no_lost_wakeup_refuted : exists s,
  rtc (mstep 10 {[0%nat; 1%nat]}) (mem_init 20 3) s /\
  mm_threads s !! 1%nat = Some MAsleep /\ mm_heap s < 10 /\
  forall u w, mm_threads s !! u = Some w -> w <> MWantFree /\ w <> MFreeing /\ w <> MMustSignal /\ w <> MWoken.
Proof.
  exists (mk_mem 0 None [MReturned 0; MAsleep; MOut]). split.
  - unfold mem_init. cbn [replicate].
    eapply rtc_l; [apply (mt_call_wait _ _ _ 0); [set_solver|done]|cbn].
    eapply rtc_l; [apply (mt_call_wait _ _ _ 1); [set_solver|done]|cbn].
    eapply rtc_l; [apply (mt_lock_wait _ _ _ 0); done|cbn].
    eapply rtc_l; [eapply (mt_sleep _ _ _ 0); [done|lia]|cbn].
    eapply rtc_l; [apply (mt_lock_wait _ _ _ 1); done|cbn].
    eapply rtc_l; [eapply (mt_sleep _ _ _ 1); [done|lia]|cbn].
    eapply rtc_l; [apply (mt_call_free _ _ _ 2); done|cbn].
    eapply rtc_l; [apply (mt_lock_free _ _ _ 2); done|cbn].
    eapply rtc_l; [eapply (mt_free _ _ _ 2 20); [done|by right|cbn; lia]|cbn].
    eapply rtc_l; [apply (mt_unlock _ _ _ 2); done|cbn].
    eapply rtc_l; [apply (mt_signal _ _ _ 2 0); done|cbn].
    eapply rtc_l; [apply (mt_relock _ _ _ 0); done|cbn].
    eapply rtc_l; [eapply (mt_return _ _ _ 0); [done|cbn; lia]|cbn].
    apply rtc_refl.
  - split; [done|]. split; [cbn; lia|]. intros [|[|[|u]]] w H; cbn in H; try done; injection H as <-; done.
Qed.

(** A waiter can get through: the hypotheses of the theorems above are met. *)
Example C26_ex_return : exists s,
  rtc (mstep 10 {[0%nat]}) (mem_init 20 2) s /\ mm_threads s !! 0%nat = Some (MReturned 5).
Proof.
  exists (mk_mem 5 None [MReturned 5; MOut]). split; [|done].
  unfold mem_init. cbn [replicate].
  eapply rtc_l; [apply (mt_call_wait _ _ _ 0); [set_solver|done]|cbn].
  eapply rtc_l; [apply (mt_lock_wait _ _ _ 0); done|cbn].
  eapply rtc_l; [eapply (mt_sleep _ _ _ 0); [done|lia]|cbn].
  eapply rtc_l; [apply (mt_call_free _ _ _ 1); done|cbn].
  eapply rtc_l; [eapply (mt_free _ _ _ 1 15); [done|by left|cbn; lia]|cbn].
  eapply rtc_l; [apply (mt_lock_free _ _ _ 1); done|cbn].
  eapply rtc_l; [apply (mt_unlock _ _ _ 1); done|cbn].
  eapply rtc_l; [apply (mt_signal _ _ _ 1 0); done|cbn].
  eapply rtc_l; [apply (mt_relock _ _ _ 0); done|cbn].
  eapply rtc_l; [eapply (mt_return _ _ _ 0); [done|cbn; lia]|cbn].
  apply rtc_refl.
Qed.

Print Assumptions C24_every_item_once_in_order.
Print Assumptions C24_close_is_clean_iff_nothing_missing.
Print Assumptions C24_sends_up_to_the_first_missing.
Print Assumptions C25_every_run_completes.
Print Assumptions C25_awaited_item_is_past_the_gate.
Print Assumptions C25_parked_items_are_bounded.
Print Assumptions C26_returns_only_after_seeing_spare_memory.
Print Assumptions C26_no_lost_wakeup_with_one_waiter_partial.
