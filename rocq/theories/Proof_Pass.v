(** The indexing runs. *)
From Verif Require Import Base Model_Word Model_Bins Spec_Bins Proof_Bins Proof_BinFiles Model_Pass Spec_Pass.

(** ** Lists of lists *)
Lemma sum_insert {A} (f : A -> nat) (l : list A) i x y : l !! i = Some x ->
  (sum_list_with f (<[i := y]> l) + f x = sum_list_with f l + f y)%nat.
Proof.
  revert i. induction l as [|a l IH]; intros [|i] H; [done|done| |].
  - injection H as ->. change (<[0%nat := y]> (x :: l)) with (y :: l). cbn [sum_list_with]. lia.
  - change (<[S i := y]> (a :: l)) with (a :: <[i := y]> l). cbn [sum_list_with].
    specialize (IH i H). lia.
Qed.

(** ** Entries and items *)
Definition item_of (p : params) (slot_of : Z -> option nat) (i : nat) (h : list Z) : option item :=
  (fun k => mk_item k (sort_num p (abbreviated h)) (Z.of_nat i) (truncated h)) <$> slot_of (bin_num p (abbreviated h)).
Definition triple (it : item) : list Z * Z * Z := (it_th it, it_hi it, it_sn it).
Definition for_slot (k : nat) (q : list item) : list (list Z * Z * Z) := triple <$> filter (fun it => it_slot it = k) q.

Lemma hashes_of_app p slot_of k start a b :
  hashes_of p slot_of k start (a ++ b) = hashes_of p slot_of k start a ++ hashes_of p slot_of k (start + length a) b.
Proof.
  revert start. induction a as [|h a IH]; intros start; cbn [app hashes_of length].
  - rewrite Nat.add_0_r. done.
  - rewrite IH. replace (S start + length a)%nat with (start + S (length a))%nat by lia. by destruct (decide _).
Qed.

Section Fan.
  Context (p : params) (hs : list (list Z)) (write_nums : bool).
  Context (slot_of : Z -> option nat) (owner : nat -> nat) (cap threads slots : nat) (launched : list bool).
  Notation step := (fan_step p hs write_nums slot_of owner cap threads).
  Notation init := (fan_init threads slots launched).
  Context (Hfit : hashes_fit p hs).
  Context (Hslot : forall h k, h ∈ hs -> slot_of (bin_num p (abbreviated h)) = Some k -> (k < slots)%nat /\ (owner k < threads)%nat).
  Context (Hlaunch : length launched = threads).
  (** workers with bins are running *)
  Context (Hown : forall h k, h ∈ hs -> slot_of (bin_num p (abbreviated h)) = Some k -> launched !! owner k = Some true).

  (** an item that some worker can handle *)
  Definition item_ok (w : nat) (it : item) : Prop :=
    owner (it_slot it) = w /\ (it_slot it < slots)%nat /\
    exists e, entry_enc p (it_th it) (it_hi it) (it_sn it) = Some e /\
      length e = entry_bytes p /\ bytes e /\
      entry_th e = it_th it /\ entry_hi p e = it_hi it /\ entry_sn p e = it_sn it.

  Record fan_inv (s : fan_state) : Prop := {
    fi_lq : length (st_queues s) = threads;
    fi_lc : length (st_closed s) = threads;
    fi_ld : length (st_done s) = threads;
    fi_lb : length (st_bins s) = slots;
    fi_pos : (st_pos s <= length hs)%nat;
    fi_nums : st_nums s = if write_nums then (fun h => bin_num p (abbreviated h)) <$> take (st_pos s) hs else [];
    fi_closing : (st_closing s <= threads)%nat /\ ((0 < st_closing s)%nat -> st_pos s = length hs);
    fi_closed : forall w l, launched !! w = Some l -> st_closed s !! w = Some (negb l || bool_decide (w < st_closing s)%nat);
    fi_done : forall w, st_done s !! w = Some true -> st_closed s !! w = Some true /\ st_queues s !! w = Some [];
    fi_undone : forall w, launched !! w = Some false -> st_done s !! w = Some true;
    fi_items : forall w q, st_queues s !! w = Some q -> Forall (item_ok w) q;
    fi_entries : Forall (entries_ok p) (st_bins s);
    fi_bins : forall k b q, st_bins s !! k = Some b -> st_queues s !! owner k = Some q ->
      contents p b ++ for_slot k q = hashes_of p slot_of k 0 (take (st_pos s) hs);
    fi_other : forall k b, st_bins s !! k = Some b -> ~ (owner k < threads)%nat -> b = [] /\ hashes_of p slot_of k 0 hs = [] }.

  Lemma hash_item i h k : hs !! i = Some h -> slot_of (bin_num p (abbreviated h)) = Some k ->
    item_ok (owner k) (mk_item k (sort_num p (abbreviated h)) (Z.of_nat i) (truncated h)).
  Proof using All.
    intros Hi Hk. destruct Hfit as (H1 & H2 & H3 & H3' & H4). rewrite Forall_lookup in H4.
    destruct (H4 _ _ Hi) as (Hl & Hb & Hsn). pose proof (lookup_lt_Some _ _ _ Hi) as Hlt.
    assert (h ∈ hs) as Hin by (by eapply elem_of_list_lookup_2).
    destruct (Hslot h k Hin Hk) as [Hk1 Hk2]. cbn [it_slot]. split; [done|]. split; [done|]. cbn [it_th it_hi it_sn].
    assert (length (truncated h) = 24%nat) as Lt.
    { unfold truncated. rewrite take_length, drop_length. lia. }
    assert (pow256 (p_snb p) <= 2 ^ 64) as Hle by (rewrite <- pow256_8; by apply pow256_le).
    exists (truncated h ++ le_enc (hash_bytes p) (Z.of_nat i) ++ le_enc (p_snb p) (sort_num p (abbreviated h))).
    split; [apply entry_enc_some; [split; done|lia|lia|lia|lia|done]|].
    destruct (entry_fields p (truncated h) (Z.of_nat i) (sort_num p (abbreviated h))) as (E1 & E2 & E3 & E4);
      [split; done|lia|lia|lia|lia|done|].
    split; [done|]. split; [|done].
    apply Forall_app. split; [by apply Forall_take, Forall_drop|]. apply Forall_app. split; apply le_enc_bytes.
  Qed.

  Lemma fan_inv_init : fan_inv init.
  Proof using All.
    split; cbn [fan_init st_queues st_closed st_done st_bins st_pos st_nums st_closing].
    - apply replicate_length.
    - by rewrite fmap_length.
    - by rewrite fmap_length.
    - apply replicate_length.
    - lia.
    - rewrite take_0. by destruct write_nums.
    - split; lia.
    - intros w l Hl. rewrite list_lookup_fmap, Hl. cbn. f_equal. rewrite bool_decide_eq_false_2 by lia. by rewrite orb_false_r.
    - intros w Hw. split; [done|]. apply lookup_replicate_2. rewrite list_lookup_fmap in Hw.
      destruct (launched !! w) eqn:E; [|done]. rewrite <- Hlaunch. by eapply lookup_lt_Some.
    - intros w Hw. rewrite list_lookup_fmap, Hw. done.
    - intros w q Hq. apply lookup_replicate in Hq as [-> _]. constructor.
    - apply Forall_replicate. constructor.
    - intros k b q Hb Hq. apply lookup_replicate in Hb as [-> _]. apply lookup_replicate in Hq as [-> _].
      rewrite take_0. done.
    - intros k b Hb Hk. apply lookup_replicate in Hb as [-> _]. split; [done|].
      assert (forall l start, (forall h, h ∈ l -> h ∈ hs) -> hashes_of p slot_of k start l = []) as H; [|by apply H].
      induction l as [|h l IH]; intros start Hin; [done|]. cbn [hashes_of].
      destruct (decide _) as [E|_].
      + exfalso. apply Hk. apply (Hslot h k); [apply Hin; by left|done].
      + apply IH. intros x Hx. apply Hin. by right.
  Qed.

  Lemma take_S_hs s h : hs !! st_pos s = Some h -> take (S (st_pos s)) hs = take (st_pos s) hs ++ [h].
  Proof using All. apply take_S_r. Qed.

  Lemma nums_step s h : fan_inv s -> hs !! st_pos s = Some h ->
    nums_after write_nums s (bin_num p (abbreviated h)) =
    (if write_nums then (fun h => bin_num p (abbreviated h)) <$> take (S (st_pos s)) hs else []).
  Proof using All.
    intros Hi Hh. unfold nums_after. rewrite (fi_nums s Hi). rewrite (take_S_r _ _ _ Hh).
    destruct write_nums; [|done]. by rewrite fmap_app.
  Qed.

  Lemma hashes_of_step s h k : hs !! st_pos s = Some h ->
    hashes_of p slot_of k 0 (take (S (st_pos s)) hs) =
    hashes_of p slot_of k 0 (take (st_pos s) hs) ++
      (if decide (slot_of (bin_num p (abbreviated h)) = Some k)
       then [(truncated h, Z.of_nat (st_pos s), sort_num p (abbreviated h))] else []).
  Proof using All.
    intros Hh. rewrite (take_S_r _ _ _ Hh), hashes_of_app. f_equal. cbn [hashes_of]. cbn [plus].
    rewrite take_length. pose proof (lookup_lt_Some _ _ _ Hh).
    replace (st_pos s `min` length hs)%nat with (st_pos s) by lia. by destruct (decide _).
  Qed.

  Lemma fan_inv_step s s' : step s s' -> fan_inv s -> st_crashed s' = false -> fan_inv s'.
  Proof using All.
    intros Hst Hi Hnc. pose proof Hi as [Ilq Ilc Ild Ilb Ipos Inums [Icl1 Icl2] Iclosed Idone Iundone Iitems Ientries Ibins Iother].
    destruct Hst as
      [s h bn Hc Hh -> Hno|s h bn k w q Hc Hh -> Hk Hw Hq Hopen Hcap|s h k Hc Hh Hk Hcl|s Hc Hend Hlt Hopen|s Hc Hend Hlt Hcl
      |s w it q b b' Hc Hd Hq Hb Happ|s w it q b Hc Hd Hq Hb Happ|s w Hc Hd Hq Hcl];
      cbn [set_crashed st_crashed] in Hnc; try discriminate; clear Hnc.
    - (* skip *)
      pose proof (lookup_lt_Some _ _ _ Hh) as Hlt.
      split; cbn [st_queues st_closed st_done st_bins st_pos st_nums st_closing]; try done.
      + by apply nums_step.
      + split; [done|]. intros H0. apply Icl2 in H0. lia.
      + intros k b q Hb Hq. rewrite (hashes_of_step s h k Hh), decide_False by congruence.
        rewrite app_nil_r. by apply Ibins.
    - (* send *)
      pose proof (lookup_lt_Some _ _ _ Hh) as Hlt. pose proof (hash_item _ _ _ Hh Hk) as Hit.
      pose proof (lookup_lt_Some _ _ _ Hq) as Hwl.
      split; cbn [st_queues st_closed st_done st_bins st_pos st_nums st_closing]; try done.
      + by rewrite insert_length.
      + by apply nums_step.
      + split; [done|]. intros H0. apply Icl2 in H0. lia.
      + intros w' Hw'. destruct (Idone w' Hw') as [E1 E2]. split; [done|].
        rewrite list_lookup_insert_ne; [done|]. intros ->. congruence.
      + intros w' q' Hq'. apply list_lookup_insert_Some in Hq' as [(-> & <- & _)|[_ Hq']].
        * apply Forall_app. split; [by apply Iitems|]. apply Forall_singleton. rewrite <- Hw in *. done.
        * by apply Iitems.
      + intros k' b q' Hb Hq'. rewrite (hashes_of_step s h k' Hh), Hk.
        apply list_lookup_insert_Some in Hq' as [(Hwo & <- & _)|[Hne Hq']].
        * unfold for_slot. rewrite filter_app, fmap_app, app_assoc. fold (for_slot k' q).
          rewrite (Ibins k' b q Hb) by (rewrite <- Hwo; done). f_equal.
          destruct (decide (Some k = Some k')) as [E|E].
          -- injection E as ->. rewrite filter_cons_True by done. done.
          -- rewrite filter_cons_False by (cbn; congruence). done.
        * rewrite decide_False by congruence. rewrite app_nil_r. by apply Ibins.
    - (* close *)
      split; cbn [st_queues st_closed st_done st_bins st_pos st_nums st_closing]; try done.
      + by rewrite insert_length.
      + intros w l Hl. destruct (decide (w = st_closing s)) as [->|Hne].
        * rewrite list_lookup_insert by lia. rewrite bool_decide_eq_true_2 by lia. by rewrite orb_true_r.
        * rewrite list_lookup_insert_ne by done. rewrite (Iclosed w l Hl). do 2 f_equal. apply bool_decide_ext. lia.
      + intros w Hw. destruct (Idone w Hw) as [E1 E2]. split; [|done].
        destruct (decide (w = st_closing s)) as [->|Hne]; [|by rewrite list_lookup_insert_ne].
        rewrite list_lookup_insert by lia. done.
    - (* recv *)
      pose proof (Iitems _ _ Hq) as Hit. apply Forall_cons in Hit as [(Ho & Hsl & e & Ee & El & Eb & E1 & E2 & E3) Hit].
      unfold append_entry in Happ. rewrite Ee in Happ. cbn [mbind option_bind] in Happ. injection Happ as <-.
      pose proof (lookup_lt_Some _ _ _ Hq) as Hwl. pose proof (lookup_lt_Some _ _ _ Hb) as Hbl.
      split; cbn [st_queues st_closed st_done st_bins st_pos st_nums st_closing]; try done.
      + by rewrite insert_length.
      + by rewrite insert_length.
      + intros w' Hw'. destruct (Idone w' Hw') as [F1 F2]. split; [done|].
        rewrite list_lookup_insert_ne; [done|]. intros ->. congruence.
      + intros w' q' Hq'. apply list_lookup_insert_Some in Hq' as [(-> & <- & _)|[_ Hq']]; [done|by apply Iitems].
      + apply Forall_insert; [done|]. apply Forall_app. split.
        * rewrite Forall_lookup in Ientries. by eapply Ientries.
        * by apply Forall_singleton.
      + intros k' b' q' Hb' Hq'. apply list_lookup_insert_Some in Hb' as [(Ek' & <- & _)|[Hne Hb']]; [subst k'|].
        * rewrite Ho in Hq'. rewrite list_lookup_insert in Hq' by done. injection Hq' as <-.
          rewrite <- (Ibins (it_slot it) b (it :: q) Hb) by (by rewrite Ho).
          unfold contents. rewrite fmap_app, <- app_assoc. f_equal. cbn [fmap list_fmap app].
          unfold for_slot. rewrite filter_cons_True by done. cbn [fmap list_fmap]. unfold triple at 1. by rewrite E1, E2, E3.
        * apply list_lookup_insert_Some in Hq' as [(Hwo & <- & _)|[Hne' Hq']].
          -- rewrite <- (Ibins k' b' (it :: q) Hb') by (by rewrite <- Hwo). f_equal. unfold for_slot.
             rewrite filter_cons_False by done. done.
          -- by apply Ibins.
      + intros k' b' Hb' Hk'. apply list_lookup_insert_Some in Hb' as [(Ek' & <- & _)|[Hne Hb']]; [subst k'|].
        * exfalso. apply Hk'. rewrite Ho. lia.
        * by apply (Iother k' b').
    - (* done *)
      pose proof (lookup_lt_Some _ _ _ Hd) as Hwl.
      split; cbn [st_queues st_closed st_done st_bins st_pos st_nums st_closing]; try done.
      + by rewrite insert_length.
      + intros w' Hw'. apply list_lookup_insert_Some in Hw' as [(-> & _ & _)|[_ Hw']]; [done|by apply Idone].
      + intros w' Hw'. destruct (decide (w' = w)) as [->|Hne]; [by rewrite list_lookup_insert|].
        rewrite list_lookup_insert_ne by done. by apply Iundone.
  Qed.

  (** *** No panic when every worker is started *)
  Context (Hall : Forall (fun l => l = true) launched).

  Lemma fan_no_crash s s' : step s s' -> fan_inv s -> st_crashed s' = false.
  Proof using All.
    intros Hst Hi. pose proof Hi as [Ilq Ilc Ild Ilb Ipos Inums [Icl1 Icl2] Iclosed Idone Iundone Iitems Ientries Ibins Iother].
    assert (forall w, (w < threads)%nat -> st_closed s !! w = Some (bool_decide (w < st_closing s)%nat)) as Hcl0.
    { intros w Hw. destruct (lookup_lt_is_Some_2 launched w) as [l Hl]; [lia|]. rewrite (Iclosed w l Hl).
      rewrite Forall_lookup in Hall. rewrite (Hall _ _ Hl). done. }
    destruct Hst as
      [s h bn Hc Hh -> Hno|s h bn k w q Hc Hh -> Hk Hw Hq Hopen Hcap|s h k Hc Hh Hk Hcl|s Hc Hend Hlt Hopen|s Hc Hend Hlt Hcl
      |s w it q b b' Hc Hd Hq Hb Happ|s w it q b Hc Hd Hq Hb Happ|s w Hc Hd Hq Hcl]; try done; exfalso.
    - destruct (Hslot h k) as [_ Hw]; [by eapply elem_of_list_lookup_2|done|].
      rewrite Hcl0 in Hcl by done. injection Hcl as Hcl. apply bool_decide_eq_true in Hcl.
      pose proof (lookup_lt_Some _ _ _ Hh). lia.
    - rewrite Hcl0 in Hcl by done. injection Hcl as Hcl. apply bool_decide_eq_true in Hcl. lia.
    - pose proof (Iitems _ _ Hq) as Hit. apply Forall_cons in Hit as [(Ho & Hsl & e & Ee & _) Hit].
      unfold append_entry in Happ. rewrite Ee in Happ. done.
  Qed.

  Lemma fan_reach s : rtc step init s -> fan_inv s /\ st_crashed s = false.
  Proof using All.
    revert s. refine (rtc_ind_r _ init _ _).
    - split; [apply fan_inv_init|done].
    - intros s s' _ Hst [Hi Hc]. pose proof (fan_no_crash s s' Hst Hi) as Hc'. split; [|done]. by eapply fan_inv_step.
  Qed.

  (** *** Every execution can go on until it is finished, and ends *)
  Context (Hcap : (0 < cap)%nat) (Hthr : (0 < threads)%nat).

  Lemma fan_progress s : rtc step init s -> fan_finished threads s \/ exists s', step s s'.
  Proof using All.
    intros Hr. destruct (fan_reach s Hr) as [Hi Hc].
    pose proof Hi as [Ilq Ilc Ild Ilb Ipos Inums [Icl1 Icl2] Iclosed Idone Iundone Iitems Ientries Ibins Iother].
    assert (forall w, (w < threads)%nat -> st_closed s !! w = Some (bool_decide (w < st_closing s)%nat)) as Hcl0.
    { intros w Hw. destruct (lookup_lt_is_Some_2 launched w) as [l Hl]; [lia|]. rewrite (Iclosed w l Hl).
      rewrite Forall_lookup in Hall. rewrite (Hall _ _ Hl). done. }
    (* a worker with a non-empty queue can receive *)
    assert (forall w it q, st_queues s !! w = Some (it :: q) -> exists s', step s s') as Hrecv.
    { intros w it q Hq. pose proof (Iitems _ _ Hq) as Hit. apply Forall_cons in Hit as [(Ho & Hsl & e & Ee & _) Hit].
      pose proof (lookup_lt_Some _ _ _ Hq) as Hwl.
      destruct (lookup_lt_is_Some_2 (st_bins s) (it_slot it)) as [b Hb]; [lia|].
      destruct (lookup_lt_is_Some_2 (st_done s) w) as [d Hd]; [lia|].
      destruct d; [destruct (Idone w Hd); congruence|].
      eexists. eapply step_recv; [done|done|done|done|]. unfold append_entry. rewrite Ee. reflexivity. }
    destruct (hs !! st_pos s) as [h|] eqn:Eh.
    - right. destruct (slot_of (bin_num p (abbreviated h))) as [k|] eqn:Ek; [|eexists; by eapply step_skip].
      destruct (Hslot h k) as [Hk Hw]; [by eapply elem_of_list_lookup_2|done|].
      destruct (lookup_lt_is_Some_2 (st_queues s) (owner k)) as [q Hq]; [lia|].
      destruct q as [|it q]; [|by eapply Hrecv].
      eexists. eapply step_send; [done|done|done|done|done|done| |done].
      rewrite Hcl0 by done. f_equal. apply bool_decide_eq_false. pose proof (lookup_lt_Some _ _ _ Eh). lia.
    - assert (st_pos s = length hs) as Epos by (apply lookup_ge_None in Eh; lia).
      destruct (decide (st_closing s < threads)%nat) as [Hlt|Hge].
      { right. eexists. eapply step_close; [done|done|done|]. rewrite Hcl0 by done. f_equal. apply bool_decide_eq_false. lia. }
      destruct (decide (Forall (fun d => d = true) (st_done s))) as [Hd|Hd]; [left; split; [done|split; [lia|done]]|].
      right. apply not_Forall_Exists in Hd; [|intros x; apply _]. apply Exists_exists in Hd as (d & Hin & Hd).
      apply elem_of_list_lookup in Hin as [w Hw]. destruct d; [by destruct Hd|]. pose proof (lookup_lt_Some _ _ _ Hw) as Hwl.
      destruct (lookup_lt_is_Some_2 (st_queues s) w) as [q Hq]; [lia|]. destruct q as [|it q]; [|by eapply Hrecv].
      eexists. eapply step_done; [done|done|done|]. rewrite Hcl0 by lia. f_equal. apply bool_decide_eq_true. lia.
  Qed.

  Definition undone (d : bool) : nat := if d then 0 else 1.
  Definition fan_measure (s : fan_state) : nat :=
    2 * (length hs - st_pos s) + sum_list_with length (st_queues s) + (threads - st_closing s) +
    sum_list_with undone (st_done s) + (if st_crashed s then 0 else 1).

  Lemma fan_measure_step s s' : step s s' -> (fan_measure s' < fan_measure s)%nat.
  Proof using All.
    intros Hst. unfold fan_measure.
    destruct Hst as
      [s h bn Hc Hh -> Hno|s h bn k w q Hc Hh -> Hk Hw Hq Hopen Hcp|s h k Hc Hh Hk Hcl|s Hc Hend Hlt Hopen|s Hc Hend Hlt Hcl
      |s w it q b b' Hc Hd Hq Hb Happ|s w it q b Hc Hd Hq Hb Happ|s w Hc Hd Hq Hcl];
      cbn [set_crashed st_queues st_closed st_done st_bins st_pos st_nums st_closing st_crashed]; rewrite Hc.
    - apply lookup_lt_Some in Hh. lia.
    - apply lookup_lt_Some in Hh.
      pose proof (sum_insert length (st_queues s) w q (q ++ [mk_item k (sort_num p (abbreviated h)) (Z.of_nat (st_pos s)) (truncated h)]) Hq) as E.
      rewrite app_length in E. cbn [length] in E. lia.
    - lia.
    - lia.
    - lia.
    - pose proof (sum_insert length (st_queues s) w (it :: q) q Hq) as E. cbn [length] in E. lia.
    - lia.
    - pose proof (sum_insert undone (st_done s) w false true Hd) as E. cbn [undone] in E. lia.
  Qed.

  Lemma fan_terminates s : rtc step init s -> exists s', rtc step s s' /\ fan_finished threads s'.
  Proof using All.
    intros Hr. remember (fan_measure s) as m eqn:Em. revert s Hr Em.
    induction (lt_wf m) as [m _ IH]. intros s Hr ->.
    destruct (fan_progress s Hr) as [Hf|[s1 Hst]]; [by exists s|].
    destruct (IH (fan_measure s1) (fan_measure_step s s1 Hst) s1) as (s2 & H2 & Hf2); [by eapply rtc_r|done|].
    exists s2. split; [by eapply rtc_l|done].
  Qed.

  Lemma fan_result s : rtc step init s -> fan_finished threads s ->
    length (st_bins s) = slots /\ Forall (entries_ok p) (st_bins s) /\
    (forall k b, st_bins s !! k = Some b -> contents p b = hashes_of p slot_of k 0 hs) /\
    st_nums s = if write_nums then (fun h => bin_num p (abbreviated h)) <$> hs else [].
  Proof using All.
    intros Hr (Hc & Hcl & Hd). destruct (fan_reach s Hr) as [Hi _].
    pose proof Hi as [Ilq Ilc Ild Ilb Ipos Inums [Icl1 Icl2] Iclosed Idone Iundone Iitems Ientries Ibins Iother].
    assert (st_pos s = length hs) as Hp by (apply Icl2; lia).
    split; [done|]. split; [done|]. split.
    - intros k b Hb. destruct (decide (owner k < threads)%nat) as [Hk|Hk].
      + destruct (lookup_lt_is_Some_2 (st_done s) (owner k)) as [d Hdd]; [lia|].
        rewrite Forall_lookup in Hd. pose proof (Hd _ _ Hdd) as ->. destruct (Idone _ Hdd) as [_ Hq].
        pose proof (Ibins k b [] Hb Hq) as E. unfold for_slot in E. cbn [filter list_filter fmap list_fmap] in E.
        rewrite app_nil_r, Hp, take_ge in E by lia. done.
      + destruct (Iother k b Hb Hk) as [-> ->]. done.
    - rewrite Inums, Hp, take_ge by lia. done.
  Qed.
End Fan.

(** *** Adaptive runs with a worker that has no bins *)
Section Unlaunched.
  Context (p : params) (hs : list (list Z)) (write_nums : bool).
  Context (slot_of : Z -> option nat) (owner : nat -> nat) (cap threads slots : nat) (launched : list bool).
  Notation step := (fan_step p hs write_nums slot_of owner cap threads).
  Notation init := (fan_init threads slots launched).

  Lemma unlaunched_stays w s : launched !! w = Some false -> rtc step init s ->
    st_closed s !! w = Some true /\ (st_closing s <= w)%nat.
  Proof using All.
    intros Hw. revert s. refine (rtc_ind_r _ init _ _).
    - cbn [fan_init st_closed st_closing]. rewrite list_lookup_fmap, Hw. split; [done|lia].
    - intros s s' _ Hst [H1 H2]. destruct Hst; cbn [set_crashed st_closed st_closing]; try done.
      destruct (decide (w = st_closing s)) as [->|Hne]; [congruence|].
      rewrite list_lookup_insert_ne by done. split; [done|lia].
  Qed.

  Lemma unlaunched_never_finishes w s : launched !! w = Some false -> (w < threads)%nat -> rtc step init s ->
    ~ fan_finished threads s.
  Proof using All.
    intros Hw Hlt Hr (_ & Hcl & _). destruct (unlaunched_stays w s Hw Hr). lia.
  Qed.
End Unlaunched.

(** ** Sorting in parallel *)
Global Instance sorter_eq_dec : EqDecision sorter.
Proof. solve_decision. Defined.

Section Sort.
  Context (srt : bin -> bin) (bins : list bin) (threads : nat).
  Notation step := (sort_step srt).
  Notation init := (sort_init threads bins).

  Record sort_inv (s : sort_state) : Prop := {
    so_len : length (ss_bins s) = length bins;
    so_lw : length (ss_workers s) = threads;
    so_busy : forall w k, ss_workers s !! w = Some (Busy k) -> (k < ss_next s)%nat /\ (k < length bins)%nat;
    so_one : forall w w' k, ss_workers s !! w = Some (Busy k) -> ss_workers s !! w' = Some (Busy k) -> w = w';
    so_bins : forall k b, bins !! k = Some b ->
      ((k < ss_next s)%nat /\ (forall w, ss_workers s !! w <> Some (Busy k)) /\ ss_bins s !! k = Some (sort_dedup srt b)) \/
      (((ss_next s <= k)%nat \/ exists w, ss_workers s !! w = Some (Busy k)) /\ ss_bins s !! k = Some b);
    so_exit : (exists w, ss_workers s !! w = Some Exited) -> (length bins <= ss_next s)%nat }.

  Lemma sort_inv_init : sort_inv init.
  Proof using All.
    split; cbn [sort_init ss_bins ss_workers ss_next]; try done.
    - apply replicate_length.
    - intros w k Hw. apply lookup_replicate in Hw as [? _]. done.
    - intros w w' k Hw. apply lookup_replicate in Hw as [? _]. done.
    - intros k b Hb. right. split; [left; lia|done].
    - intros [w Hw]. apply lookup_replicate in Hw as [? _]. done.
  Qed.

  Lemma sort_inv_step s s' : step s s' -> sort_inv s -> sort_inv s'.
  Proof using All.
    intros Hst [Il Ilw Ibusy Ione Ibins Iexit].
    destruct Hst as [s w Hw Hlt|s w Hw Hge|s w k b Hw Hb]; pose proof (lookup_lt_Some _ _ _ Hw) as Hwl;
      split; cbn [ss_bins ss_workers ss_next]; rewrite ?insert_length; try done.
    - intros w' k Hk. apply list_lookup_insert_Some in Hk as [(-> & E & _)|[_ Hk]].
      + injection E as <-. lia.
      + destruct (Ibusy w' k Hk). lia.
    - intros w1 w2 k H1 H2.
      apply list_lookup_insert_Some in H1 as [(-> & E1 & _)|[_ H1]], H2 as [(-> & E2 & _)|[_ H2]]; try done.
      + injection E1 as <-. apply Ibusy in H2. lia.
      + injection E2 as <-. apply Ibusy in H1. lia.
      + by eapply Ione.
    - intros k b Hb. destruct (decide (k = ss_next s)) as [->|Hne].
      + right. split; [right; exists w; by rewrite list_lookup_insert|].
        destruct (Ibins _ b Hb) as [(? & _)|[_ ?]]; [lia|done].
      + destruct (Ibins k b Hb) as [(H1 & H2 & H3)|[[H1|[w' H1]] H3]].
        * left. split; [lia|]. split; [|done]. intros w' Hw'. apply list_lookup_insert_Some in Hw' as [(-> & E & _)|[_ Hw']].
          -- injection E. lia.
          -- by eapply H2.
        * right. split; [left; lia|done].
        * right. split; [|done]. right. exists w'. rewrite list_lookup_insert_ne; [done|]. intros ->. congruence.
    - intros [w' Hw']. apply list_lookup_insert_Some in Hw' as [(-> & E & _)|[_ Hw']]; [done|]. pose proof (Iexit (ex_intro _ w' Hw')). lia.
    - intros w' k Hk. apply list_lookup_insert_Some in Hk as [(-> & E & _)|[_ Hk]]; [done|]. destruct (Ibusy w' k Hk). lia.
    - intros w1 w2 k H1 H2.
      apply list_lookup_insert_Some in H1 as [(-> & E1 & _)|[_ H1]], H2 as [(-> & E2 & _)|[_ H2]]; try done. by eapply Ione.
    - intros k b Hb. pose proof (lookup_lt_Some _ _ _ Hb) as Hk. destruct (Ibins k b Hb) as [(H1 & H2 & H3)|[[H1|[w' H1]] H3]].
      + left. split; [lia|]. split; [|done]. intros w' Hw'. apply list_lookup_insert_Some in Hw' as [(-> & E & _)|[_ Hw']]; [done|].
        by eapply H2.
      + lia.
      + right. split; [|done]. right. exists w'. rewrite list_lookup_insert_ne; [done|]. intros ->. congruence.
    - intros _. lia.
    - intros w' k' Hk. apply list_lookup_insert_Some in Hk as [(-> & E & _)|[_ Hk]]; [done|]. by apply (Ibusy w').
    - intros w1 w2 k' H1 H2.
      apply list_lookup_insert_Some in H1 as [(-> & E1 & _)|[_ H1]], H2 as [(-> & E2 & _)|[_ H2]]; try done. by eapply Ione.
    - intros k' b' Hb'. pose proof (Ibusy w k Hw) as [Hk1 Hk2]. destruct (decide (k' = k)) as [->|Hne].
      + left. split; [lia|]. split.
        * intros w' Hw'. apply list_lookup_insert_Some in Hw' as [(-> & E & _)|[Hn Hw']]; [done|].
          apply Hn. by eapply Ione.
        * rewrite list_lookup_insert by lia. f_equal. f_equal.
          destruct (Ibins k b' Hb') as [(_ & H2 & _)|[_ H3]]; [by apply H2 in Hw|congruence].
      + rewrite list_lookup_insert_ne by done. destruct (Ibins k' b' Hb') as [(H1 & H2 & H3)|[[H1|[w' H1]] H3]].
        * left. split; [done|]. split; [|done]. intros w' Hw'. apply list_lookup_insert_Some in Hw' as [(-> & E & _)|[_ Hw']]; [done|].
          by eapply H2.
        * right. split; [by left|done].
        * right. split; [|done]. right. exists w'. rewrite list_lookup_insert_ne; [done|]. intros ->. congruence.
    - intros [w' Hw']. apply list_lookup_insert_Some in Hw' as [(-> & E & _)|[_ Hw']]; [done|]. apply Iexit. by exists w'.
  Qed.

  Lemma sort_reach s : rtc step init s -> sort_inv s.
  Proof using All.
    revert s. refine (rtc_ind_r _ init _ _); [apply sort_inv_init|]. intros s s' _ Hst Hi. by eapply sort_inv_step.
  Qed.

  Lemma sort_result s : (0 < threads)%nat -> rtc step init s -> Forall (fun w => w = Exited) (ss_workers s) ->
    ss_bins s = sort_dedup srt <$> bins.
  Proof using All.
    intros Ht Hr He. destruct (sort_reach s Hr) as [Il Ilw Ibusy Ione Ibins Iexit].
    rewrite Forall_lookup in He.
    assert (length bins <= ss_next s)%nat as Hn.
    { apply Iexit. exists 0%nat. destruct (lookup_lt_is_Some_2 (ss_workers s) 0) as [w Hw]; [lia|]. rewrite Hw. f_equal. by eapply He. }
    apply list_eq_same_length with (n := length bins); [by rewrite fmap_length|done|].
    intros k x y Hk Hx Hy. rewrite list_lookup_fmap in Hy.
    destruct (bins !! k) as [b|] eqn:Eb; [|done]. cbn in Hy. injection Hy as <-.
    destruct (Ibins k b Eb) as [(_ & _ & H3)|[[H1|[w H1]] _]].
    - congruence.
    - lia.
    - apply He in H1. done.
  Qed.

  Lemma sort_progress s : rtc step init s -> Forall (fun w => w = Exited) (ss_workers s) \/ exists s', step s s'.
  Proof using All.
    intros Hr. destruct (sort_reach s Hr) as [Il Ilw Ibusy Ione Ibins Iexit].
    destruct (decide (Forall (fun w => w = Exited) (ss_workers s))) as [H|H].
    { left. done. }
    right. apply not_Forall_Exists in H; [|intros x; apply _].
    apply Exists_exists in H as (x & Hin & Hx). apply elem_of_list_lookup in Hin as [w Hw].
    destruct x as [|k|]; [| |by destruct Hx].
    - destruct (decide (ss_next s < length (ss_bins s))%nat); eexists; [by eapply sort_claim|eapply sort_exit; [done|lia]].
    - destruct (Ibusy w k Hw) as [_ Hk]. destruct (lookup_lt_is_Some_2 (ss_bins s) k) as [b Hb]; [lia|].
      eexists. by eapply sort_work.
  Qed.

  Definition live (w : sorter) : nat := match w with Idle => 1 | Busy _ => 2 | Exited => 0 end.
  Definition sort_measure (s : sort_state) : nat :=
    (2 * (length (ss_bins s) - ss_next s) + sum_list_with live (ss_workers s))%nat.

  Lemma sort_measure_step s s' : step s s' -> (sort_measure s' < sort_measure s)%nat.
  Proof using All.
    intros Hst. unfold sort_measure. destruct Hst as [s w Hw Hlt|s w Hw Hge|s w k b Hw Hb];
      cbn [ss_bins ss_workers ss_next]; rewrite ?insert_length.
    - pose proof (sum_insert live (ss_workers s) w Idle (Busy (ss_next s)) Hw) as E. cbn [live] in E. lia.
    - pose proof (sum_insert live (ss_workers s) w Idle Exited Hw) as E. cbn [live] in E. lia.
    - pose proof (sum_insert live (ss_workers s) w (Busy k) Idle Hw) as E. cbn [live] in E. lia.
  Qed.

  Lemma sort_terminates s : rtc step init s -> exists s', rtc step s s' /\ Forall (fun w => w = Exited) (ss_workers s').
  Proof using All.
    intros Hr. remember (sort_measure s) as m eqn:Em. revert s Hr Em.
    induction (lt_wf m) as [m _ IH]. intros s Hr ->.
    destruct (sort_progress s Hr) as [Hf|[s1 Hst]]; [by exists s|].
    destruct (IH (sort_measure s1) (sort_measure_step s s1 Hst) s1) as (s2 & H2 & Hf2); [by eapply rtc_r|done|].
    exists s2. split; [by eapply rtc_l|done].
  Qed.
End Sort.

(** ** Pass ranges *)
Definition range (r : Z * Z) : list Z := (fun i => fst r + Z.of_nat i) <$> seq 0 (Z.to_nat (snd r)).

Lemma pass_ranges_cover p bytes_per_pass rs : 0 <= bytes_per_pass -> 0 < p_bins p -> 0 <= p_estimate p ->
  pass_ranges p bytes_per_pass = Some rs -> concat (range <$> rs) = (fun i => Z.of_nat i) <$> seq 0 (Z.to_nat (p_bins p)).
Proof.
  intros Hb Hbins Hest Hr. unfold pass_ranges in Hr. set (bpp := bins_per_pass p bytes_per_pass) in *.
  destruct (Z.eqb_spec bpp 0) as [|H0]; [done|]. injection Hr as <-.
  assert (0 < bpp) as Hpos.
  { assert (0 <= bpp); [|lia]. unfold bpp, bins_per_pass. pose proof (entry_bytes_pos p).
    apply Z.quot_pos; [done|]. destruct (Z.eqb_spec (p_estimate p `quot` p_bins p) 0); [lia|].
    assert (0 <= p_estimate p `quot` p_bins p) by (apply Z.quot_pos; lia). nia. }
  clearbody bpp. rewrite Z.quot_div_nonneg by lia.
  set (bins := p_bins p) in *. clearbody bins. set (q := bins / bpp).
  assert (0 <= q) as Hq by (apply Z.div_pos; lia).
  pose proof (Z.mul_div_le bins bpp Hpos) as D1. pose proof (Z.mul_succ_div_gt bins bpp Hpos) as D2. fold q in D1, D2.
  assert (forall n, (n <= Z.to_nat q)%nat ->
    concat (range <$> ((fun i => let first := Z.of_nat i * bpp in (first, if bins <? first + bpp then bins - first else bpp)) <$> seq 0 n))
    = Z.of_nat <$> seq 0 (n * Z.to_nat bpp)) as H.
  { induction n as [|n IH]; intros Hn; [done|].
    rewrite seq_S, !fmap_app, concat_app, IH by lia. cbn [fmap list_fmap concat plus]. rewrite app_nil_r.
    replace (S n * Z.to_nat bpp)%nat with (n * Z.to_nat bpp + Z.to_nat bpp)%nat by lia.
    rewrite seq_app, fmap_app. f_equal. cbn [plus]. unfold range. cbn [fst snd].
    destruct (Z.ltb_spec bins (Z.of_nat n * bpp + bpp)); [nia|].
    rewrite <- (Nat.add_0_r (n * Z.to_nat bpp)) at 1. rewrite <- fmap_add_seq, <- list_fmap_compose.
    apply list_fmap_ext. intros _ i _. cbn. nia. }
  replace (Z.to_nat (1 + q)) with (S (Z.to_nat q)) by lia.
  rewrite seq_S, !fmap_app, concat_app, H by lia. cbn [fmap list_fmap concat plus]. rewrite app_nil_r.
  unfold range. cbn [fst snd].
  destruct (Z.ltb_spec bins (Z.of_nat (Z.to_nat q) * bpp + bpp)); [|nia].
  assert (Z.to_nat bins = (Z.to_nat q * Z.to_nat bpp + Z.to_nat (bins - Z.of_nat (Z.to_nat q) * bpp))%nat) as E by nia.
  rewrite E. rewrite seq_app, fmap_app. f_equal. cbn [plus].
  rewrite <- (Nat.add_0_r (Z.to_nat q * Z.to_nat bpp)) at 1. rewrite <- fmap_add_seq, <- list_fmap_compose.
  apply list_fmap_ext. intros _ i _. cbn. nia.
Qed.

(** ** The planner *)
Lemma design_perm budget used big ws : fst (design budget used big ws) ++ snd (design budget used big ws) ≡ₚ ws.
Proof.
  revert used big. induction ws as [|w ws IH]; intros used big; cbn [design fst snd app]; [done|].
  destruct (_ || _); cbn [fst snd app].
  - constructor. apply IH.
  - rewrite <- Permutation_middle. constructor. apply IH.
Qed.

Lemma design_progress budget ws : ws <> [] -> (length (snd (design budget 0 true ws)) < length ws)%nat.
Proof.
  intros Hne. pose proof (Permutation_length (design_perm budget 0 true ws)) as E. rewrite app_length in E.
  destruct ws as [|w ws]; [done|]. cbn [design] in *. rewrite orb_true_r in *. cbn [fst snd length] in *. lia.
Qed.

Lemma design_budget budget used ws : Forall (fun w => 0 <= wk_count w) ws -> used < budget ->
  used + total (fst (design budget used false ws)) < budget.
Proof.
  revert used. induction ws as [|w ws IH]; intros used Hn Hu; cbn [design fst]; [unfold total; cbn; lia|].
  apply Forall_cons in Hn as [Hw Hn]. rewrite orb_false_r. destruct (Z.ltb_spec (wk_count w) (budget - used)) as [H|H]; cbn [fst].
  - specialize (IH (used + wk_count w) Hn ltac:(lia)). unfold total in *. cbn [fmap list_fmap foldr]. lia.
  - by apply IH.
Qed.

Lemma design_over budget used ws : Forall (fun w => 0 <= wk_count w) ws -> budget <= used ->
  fst (design budget used false ws) = [].
Proof.
  revert used. induction ws as [|w ws IH]; intros used Hn Hu; cbn [design fst]; [done|].
  apply Forall_cons in Hn as [Hw Hn]. rewrite orb_false_r. destruct (Z.ltb_spec (wk_count w) (budget - used)) as [H|H]; [lia|].
  cbn [fst]. by apply IH.
Qed.

Lemma design_first budget ws : Forall (fun w => 0 <= wk_count w) ws ->
  total (fst (design budget 0 true ws)) < budget \/ (length (fst (design budget 0 true ws)) <= 1)%nat.
Proof.
  intros Hn. destruct ws as [|w ws]; [right; cbn; lia|]. cbn [design]. rewrite orb_true_r. cbn [fst]. rewrite Z.add_0_l.
  apply Forall_cons in Hn as [Hw Hn]. destruct (decide (wk_count w < budget)) as [Hl|Hl].
  - left. pose proof (design_budget budget (wk_count w) ws Hn Hl) as H. unfold total in *. cbn [fmap list_fmap foldr]. lia.
  - right. rewrite design_over by (done || lia). cbn. lia.
Qed.

Lemma plan_spec fuel budget ws : (length ws <= fuel)%nat -> Forall (fun w => 0 <= wk_count w) ws ->
  exists ps, plan fuel budget ws = Some ps /\ concat ps ≡ₚ ws /\ Forall (fun q => q <> []) ps /\
    Forall (fun q => total q < budget \/ length q = 1%nat) ps.
Proof.
  revert ws. induction fuel as [|fuel IH]; intros ws Hf Hn.
  - destruct ws; [|cbn in Hf; lia]. exists []. split; [done|]. split; [done|]. split; constructor.
  - destruct ws as [|w ws].
    { exists []. split; [done|]. split; [done|]. split; constructor. }
    set (ws1 := w :: ws) in *. assert (ws1 <> []) as Hne by done.
    assert (plan (S fuel) budget ws1 = ps ← plan fuel budget (snd (design budget 0 true ws1)); Some (fst (design budget 0 true ws1) :: ps)) as -> by done.
    pose proof (design_progress budget ws1 Hne) as Hlt. pose proof (design_perm budget 0 true ws1) as Hp.
    destruct (IH (snd (design budget 0 true ws1))) as (ps & E & Hperm & Hnn & Hb).
    { lia. }
    { rewrite <- Hp in Hn. by apply Forall_app in Hn as [_ Hn]. }
    rewrite E. cbn [mbind option_bind]. eexists. split; [done|]. split; [|split].
    + cbn [concat]. rewrite Hperm. done.
    + constructor; [|done]. unfold ws1. cbn [design]. rewrite orb_true_r. done.
    + constructor; [|done]. destruct (design_first budget ws1 Hn) as [H|H]; [by left|right].
      unfold ws1 in *. cbn [design] in *. rewrite orb_true_r in *. cbn [fst length] in *. lia.
Qed.
