(** C94: the worker pool. *)
From Verif Require Import Base Model_Workers.

Definition task_of (e : event) : nat := match e with Taken t | ProcessedE t | ErrorSet t _ | DoneE t => t end.
(** what happened to one task, in order *)
Definition story (t : nat) (log : list event) : list event := filter (fun e => task_of e = t) log.
Definition takes (log : list event) : nat := sum_list_with (fun e => match e with Taken _ => 1 | _ => 0 end)%nat log.
Definition dones (log : list event) : nat := sum_list_with (fun e => match e with DoneE _ => 1 | _ => 0 end)%nat log.
(** tasks a worker has taken and not signalled as done *)
Definition open_tasks (log : list event) : nat :=
  (takes log - dones log)%nat.

Definition busy (w : worker) : option nat := match w with Idle => None | Got t | Processed t _ | Told t => Some t end.
Lemma story_app t l e : story t (l ++ [e]) = story t l ++ (if decide (task_of e = t) then [e] else []).
Proof. unfold story. rewrite filter_app. done. Qed.

Lemma concat_take (cs : list (list nat)) : forall c t ts, cs !! c = Some (t :: ts) -> concat cs ≡ₚ t :: concat (<[c := ts]> cs).
Proof.
  induction cs as [|x cs IH]; intros [|c] t ts H; cbn in H |- *; [done|done| |].
  - injection H as ->. done.
  - rewrite (IH c t ts H). by rewrite Permutation_middle.
Qed.
Lemma omap_insert_new (ws : list worker) : forall w t x, ws !! w = Some Idle -> busy x = Some t -> omap busy (<[w := x]> ws) ≡ₚ t :: omap busy ws.
Proof.
  induction ws as [|y ws IH]; intros [|w] t x H Hx; cbn in H |- *; [done|done| |].
  - injection H as ->. cbn. by rewrite Hx.
  - destruct (busy y); [|by apply IH]. rewrite (IH w t x H Hx). apply perm_swap.
Qed.
Lemma omap_insert_same (ws : list worker) : forall w x y, ws !! w = Some y -> busy x = busy y -> omap busy (<[w := x]> ws) = omap busy ws.
Proof.
  induction ws as [|z ws IH]; intros [|w] x y H Hx; cbn in H |- *; [done|done| |].
  - injection H as ->. by rewrite Hx.
  - destruct (busy z); [f_equal|]; by eapply IH.
Qed.
Lemma omap_insert_idle (ws : list worker) : forall w t y, ws !! w = Some y -> busy y = Some t -> omap busy ws ≡ₚ t :: omap busy (<[w := Idle]> ws).
Proof.
  induction ws as [|z ws IH]; intros [|w] t y H Hy; cbn in H |- *; [done|done| |].
  - injection H as ->. by rewrite Hy.
  - destruct (busy z); [|by eapply IH]. rewrite (IH w t y H Hy). apply perm_swap.
Qed.

Section Pool.
  Context (res : nat -> Z) (all : list nat) (Hall : NoDup all).
  Definition full (t : nat) : list event := [Taken t; ProcessedE t; ErrorSet t (res t); DoneE t].
  Definition stage (w : worker) : list event :=
    match w with
    | Idle => []
    | Got t => [Taken t]
    | Processed t e => [Taken t; ProcessedE t]
    | Told t => [Taken t; ProcessedE t; ErrorSet t (res t)]
    end.
  Record good (s : pool) (fin : list nat) : Prop := mk_good {
    g_all : all ≡ₚ concat (p_clients s) ++ omap busy (p_workers s) ++ fin;
    g_wait : forall t, t ∉ omap busy (p_workers s) -> t ∉ fin -> story t (p_log s) = [];
    g_work : forall w x t, p_workers s !! w = Some x -> busy x = Some t -> story t (p_log s) = stage x;
    g_err : forall w t e, p_workers s !! w = Some (Processed t e) -> e = res t;
    g_fin : forall t, t ∈ fin -> story t (p_log s) = full t;
    g_len : (takes (p_log s) =
             dones (p_log s) + length (omap busy (p_workers s)))%nat }.

  Lemma good_nodup s fin : good s fin -> NoDup (concat (p_clients s) ++ omap busy (p_workers s) ++ fin).
  Proof using Hall. intros G. rewrite <- (g_all _ _ G). done. Qed.
  Lemma busy_in s w x t : p_workers s !! w = Some x -> busy x = Some t -> t ∈ omap busy (p_workers s).
  Proof using. intros H Hx. apply elem_of_list_omap. exists x. split; [|done]. by eapply elem_of_list_lookup_2. Qed.
  Lemma busy_unique (ws : list worker) : NoDup (omap busy ws) -> forall w1 w2 x1 x2 t, ws !! w1 = Some x1 -> ws !! w2 = Some x2 -> busy x1 = Some t -> busy x2 = Some t -> w1 = w2.
  Proof using.
    induction ws as [|z ws IH]; intros Hn w1 w2 x1 x2 t H1 H2 B1 B2; [done|]. cbn in Hn.
    destruct w1 as [|w1], w2 as [|w2]; cbn in H1, H2; [done| | |].
    - injection H1 as ->. rewrite B1 in Hn. apply NoDup_cons in Hn as [Hn _]. destruct Hn. apply elem_of_list_omap. exists x2. split; [by eapply elem_of_list_lookup_2|done].
    - injection H2 as ->. rewrite B2 in Hn. apply NoDup_cons in Hn as [Hn _]. destruct Hn. apply elem_of_list_omap. exists x1. split; [by eapply elem_of_list_lookup_2|done].
    - f_equal. eapply IH; [|exact H1|exact H2|exact B1|exact B2]. destruct (busy z); [by apply NoDup_cons in Hn as [_ Hn]|done].
  Qed.

  (** a step of a worker that keeps its task *)
  Lemma good_same s fin w x y t e : good s fin -> p_workers s !! w = Some x -> busy x = Some t -> busy y = Some t -> task_of e = t ->
    stage x ++ [e] = stage y -> (forall t' e', y = Processed t' e' -> e' = res t') -> match e with Taken _ | DoneE _ => False | _ => True end ->
    good (mk_pool (p_clients s) (<[w := y]> (p_workers s)) (p_log s ++ [e])) fin.
  Proof using Hall.
    intros G Hx Bx By He Hst Hr Hk. pose proof (good_nodup s fin G) as Hn. apply NoDup_app in Hn as (_ & _ & Hn). apply NoDup_app in Hn as (Hn & Hd & _).
    assert (Eo : omap busy (<[w := y]> (p_workers s)) = omap busy (p_workers s)) by (eapply omap_insert_same; [done|congruence]).
    pose proof (busy_in s w x t Hx Bx) as Hin. pose proof (lookup_lt_Some _ _ _ Hx) as Hlt. destruct G.
    constructor; cbn [p_clients p_workers p_log]; rewrite ?Eo; [done| | | | |].
    - intros t' H1 H2. rewrite story_app, g_wait0 by done. rewrite decide_False by (intros E; apply H1; congruence). done.
    - intros w' x' t' Hl Hb. rewrite story_app. destruct (decide (w' = w)) as [->|Hne].
      + rewrite list_lookup_insert in Hl by done. injection Hl as <-. assert (t' = t) as -> by congruence.
        rewrite (g_work0 w x t Hx Bx). by rewrite decide_True.
      + rewrite list_lookup_insert_ne in Hl by done. rewrite (g_work0 w' x' t' Hl Hb). rewrite decide_False; [by rewrite app_nil_r|].
        intros E. apply Hne. eapply (busy_unique _ Hn w' w x' x t); [done..| |done]. congruence.
    - intros w' t' e' Hl. destruct (decide (w' = w)) as [->|Hne].
      + rewrite list_lookup_insert in Hl by done. injection Hl as Hl. by eapply Hr.
      + rewrite list_lookup_insert_ne in Hl by done. by eapply g_err0.
    - intros t' Ht. rewrite story_app, g_fin0 by done. rewrite decide_False; [done|]. intros E. apply (Hd t Hin). congruence.
    - unfold takes, dones in *. rewrite !sum_list_with_app, g_len0. destruct e; try done; cbn; lia.
  Qed.

  Lemma good_step s fin s' : good s fin -> step res s s' -> exists fin', good s' fin'.
  Proof using Hall.
    intros G Hs. pose proof (good_nodup s fin G) as Hn. pose proof (g_all _ _ G) as Ga. destruct Hs as [s c t ts w Hc Hw|s w t Hw|s w t e Hw|s w t Hw].
    - exists fin. pose proof (concat_take _ _ _ _ Hc) as Ec. rewrite Ec in Hn, Ga. cbn [app] in Hn. apply NoDup_cons in Hn as [Hnin Hn].
      pose proof (omap_insert_new (p_workers s) w t (Got t) Hw eq_refl) as Ew. pose proof (lookup_lt_Some _ _ _ Hw) as Hlt.
      apply not_elem_of_app in Hnin as [_ Hnin]. apply not_elem_of_app in Hnin as [Hnb Hnf]. destruct G.
      constructor; cbn [p_clients p_workers p_log].
      + rewrite Ga, Ew. cbn [app]. by rewrite Permutation_middle.
      + intros t' H1 H2. rewrite Ew in H1. apply not_elem_of_cons in H1 as [H1 H3]. rewrite story_app, g_wait0 by done. rewrite decide_False by (cbn; congruence). done.
      + intros w' x' t' Hl Hb. rewrite story_app. destruct (decide (w' = w)) as [->|Hne].
        * rewrite list_lookup_insert in Hl by done. injection Hl as <-. injection Hb as <-. rewrite g_wait0 by done. by rewrite decide_True.
        * rewrite list_lookup_insert_ne in Hl by done. rewrite (g_work0 w' x' t' Hl Hb). rewrite decide_False; [by rewrite app_nil_r|]. cbn. intros ->.
          apply Hnb. by eapply busy_in.
      + intros w' t' e' Hl. destruct (decide (w' = w)) as [->|Hne].
        * rewrite list_lookup_insert in Hl by done. done.
        * rewrite list_lookup_insert_ne in Hl by done. by eapply g_err0.
      + intros t' Ht. rewrite story_app, g_fin0 by done. rewrite decide_False; [done|]. cbn. intros ->. done.
      + unfold takes, dones in *. rewrite !sum_list_with_app, Ew, g_len0. cbn. lia.
    - exists fin. eapply (good_same s fin w (Got t) (Processed t (res t)) t); try done. intros t' e' E. by injection E as -> ->.
    - exists fin. pose proof (g_err _ _ G _ _ _ Hw) as ->. eapply (good_same s fin w (Processed t (res t)) (Told t) t); done.
    - exists (t :: fin). pose proof (omap_insert_idle (p_workers s) w t (Told t) Hw eq_refl) as Ew. pose proof (lookup_lt_Some _ _ _ Hw) as Hlt.
      rewrite Ew in Hn. apply NoDup_app in Hn as (_ & _ & Hn). cbn [app] in Hn. apply NoDup_cons in Hn as [Hnin Hn]. apply not_elem_of_app in Hnin as [Hnb Hnf].
      destruct G. constructor; cbn [p_clients p_workers p_log].
      + rewrite Ga, Ew. cbn [app]. by rewrite Permutation_middle.
      + intros t' H1 H2. apply not_elem_of_cons in H2 as [H2 H3]. rewrite story_app, g_wait0; [|rewrite Ew; by apply not_elem_of_cons|done].
        rewrite decide_False by (cbn; congruence). done.
      + intros w' x' t' Hl Hb. rewrite story_app. destruct (decide (w' = w)) as [->|Hne].
        * rewrite list_lookup_insert in Hl by done. injection Hl as <-. done.
        * pose proof Hl as Hl'. rewrite list_lookup_insert_ne in Hl by done. rewrite (g_work0 w' x' t' Hl Hb). rewrite decide_False; [by rewrite app_nil_r|]. cbn. intros ->.
          apply Hnb. apply elem_of_list_omap. exists x'. split; [by eapply elem_of_list_lookup_2|done].
      + intros w' t' e' Hl. destruct (decide (w' = w)) as [->|Hne].
        * rewrite list_lookup_insert in Hl by done. done.
        * rewrite list_lookup_insert_ne in Hl by done. by eapply g_err0.
      + intros t' Ht. rewrite story_app. apply elem_of_cons in Ht as [->|Ht].
        * rewrite (g_work0 w (Told t) t Hw eq_refl). by rewrite decide_True.
        * rewrite g_fin0 by done. rewrite decide_False; [done|]. cbn. intros ->. done.
      + unfold takes, dones in *. rewrite !sum_list_with_app, g_len0, Ew. cbn. lia.
  Qed.
  Lemma good_steps s s' : rtc (step res) s s' -> forall fin, good s fin -> exists fin', good s' fin'.
  Proof using Hall. induction 1 as [|s1 s2 s3 H1 H2 IH]; intros fin G; [by exists fin|]. destruct (good_step s1 fin s2 G H1) as [fin' G']. by eapply IH. Qed.
End Pool.

Lemma idle_busy n : omap busy (replicate n Idle) = [].
Proof. induction n; [done|]. exact IHn. Qed.
Lemma good_new res n clients : good res (concat clients) (new_pool n clients) [].
Proof.
  constructor; cbn [new_pool p_clients p_workers p_log]; try done.
  - rewrite idle_busy. by rewrite !app_nil_r.
  - intros w x t Hw Hx. apply lookup_replicate in Hw as [-> _]. done.
  - intros w t e Hw. apply lookup_replicate in Hw as [Hw _]. done.
  - intros t Ht. by apply elem_of_nil in Ht.
  - rewrite idle_busy. done.
Qed.

(** C94. At any moment of any run: what has happened to a task is the beginning of: taken, processed, its own result
    recorded, done; nothing happens to other tasks; and no more tasks are open than there are workers. *)
Theorem C94_each_task_at_most_once_in_order :
  forall res n clients s, NoDup (concat clients) -> rtc (step res) (new_pool n clients) s ->
    (forall t, story t (p_log s) `prefix_of` [Taken t; ProcessedE t; ErrorSet t (res t); DoneE t]) /\
    (forall t, t ∉ concat clients -> story t (p_log s) = []) /\
    (open_tasks (p_log s) <= Z.to_nat n)%nat.
Proof.
  intros res n clients s Hn Hr. destruct (good_steps res _ Hn _ _ Hr [] (good_new res n clients)) as [fin G].
  assert (Hlen : length (p_workers s) = Z.to_nat n).
  { remember (new_pool n clients) as s0. assert (length (p_workers s0) = Z.to_nat n) as H0 by (subst; apply replicate_length). clear -Hr H0.
    induction Hr as [|s1 s2 s3 H1 H2 IH]; [done|]. apply IH. rewrite <- H0. destruct H1; cbn [p_workers]; apply insert_length. }
  pose proof (good_nodup res _ Hn s fin G) as Hnd. pose proof (g_all _ _ _ _ G) as Ga. destruct G. split_and!.
  - intros t. destruct (decide (t ∈ omap busy (p_workers s))) as [Hb|Hb].
    + apply elem_of_list_omap in Hb as (x & Hx & Hb). apply elem_of_list_lookup in Hx as [w Hx]. rewrite (g_work0 w x t Hx Hb).
      destruct x as [|t'|t' e|t']; cbn in Hb; [done|injection Hb as ->..]; cbn [stage].
      * by exists [ProcessedE t; ErrorSet t (res t); DoneE t].
      * by exists [ErrorSet t (res t); DoneE t].
      * by exists [DoneE t].
    + destruct (decide (t ∈ fin)) as [Hf|Hf]; [by rewrite g_fin0|]. rewrite g_wait0 by done. apply prefix_nil.
  - intros t Ht. apply g_wait0; intros Hin; apply Ht; rewrite Ga, !elem_of_app; tauto.
  - unfold open_tasks. rewrite g_len0. rewrite <- Hlen. assert (length (omap busy (p_workers s)) <= length (p_workers s))%nat as H; [|lia].
    generalize (p_workers s). intros l. induction l as [|x l IH]; [done|]. cbn. destruct (busy x); cbn; lia.
Qed.

(** C94. With at least one worker, no run can stop before every task has been through all of it, and every run stops. *)
Theorem C94_every_task_gets_done :
  forall res n clients s, 1 <= n -> NoDup (concat clients) -> rtc (step res) (new_pool n clients) s -> (forall s', ~ step res s s') ->
    forall t, t ∈ concat clients -> story t (p_log s) = [Taken t; ProcessedE t; ErrorSet t (res t); DoneE t].
Proof.
  intros res n clients s Hn1 Hn Hr Hstop t Ht. destruct (good_steps res _ Hn _ _ Hr [] (good_new res n clients)) as [fin G].
  assert (Hlen : length (p_workers s) = Z.to_nat n).
  { remember (new_pool n clients) as s0. assert (length (p_workers s0) = Z.to_nat n) as H0 by (subst; apply replicate_length). clear -Hr H0.
    induction Hr as [|s1 s2 s3 H1 H2 IH]; [done|]. apply IH. rewrite <- H0. destruct H1; cbn [p_workers]; apply insert_length. }
  assert (Hidle : forall w x, p_workers s !! w = Some x -> x = Idle).
  { intros w [|t'|t' e|t'] Hx; [done|exfalso; eapply Hstop..]; [by eapply step_process|by eapply step_error|by eapply step_done]. }
  assert (Hb : omap busy (p_workers s) = []).
  { assert (forall l : list worker, (forall x, x ∈ l -> x = Idle) -> omap busy l = []) as H.
    { induction l as [|x l IH]; intros Hl; [done|]. cbn. rewrite (Hl x) by left. cbn. apply IH. intros y Hy. apply Hl. by right. }
    apply H. intros x Hx. apply elem_of_list_lookup in Hx as [w Hx]. by eapply Hidle. }
  assert (Hc : concat (p_clients s) = []).
  { destruct (p_workers s) as [|x ws] eqn:Ew; [cbn in Hlen; lia|]. pose proof (Hidle 0%nat x) as Hx. specialize (Hx eq_refl). subst x.
    destruct (concat (p_clients s)) as [|t' l] eqn:Ec; [done|]. exfalso.
    assert (exists c t ts, p_clients s !! c = Some (t :: ts)) as (c & t0 & ts & Hc).
    { clear -Ec. induction (p_clients s) as [|y cs IH]; [done|]. destruct y as [|t ts]; [|by exists 0%nat, t, ts]. cbn in Ec. destruct (IH Ec) as (c & t0 & ts & H). by exists (S c), t0, ts. }
    apply (Hstop _ (step_take res s c t0 ts 0%nat Hc ltac:(by rewrite Ew))). }
  pose proof (g_all _ _ _ _ G) as Ga. rewrite Hb, Hc in Ga. cbn [app] in Ga. apply (g_fin _ _ _ _ G). by rewrite <- Ga.
Qed.

Definition cost (w : worker) : nat := match w with Idle => 0 | Got _ => 3 | Processed _ _ => 2 | Told _ => 1 end.
Definition left_over (s : pool) : nat := (4 * length (concat (p_clients s)) + sum_list_with cost (p_workers s))%nat.
Lemma sum_insert (ws : list worker) : forall w x y, ws !! w = Some x -> (sum_list_with cost (<[w := y]> ws) + cost x = sum_list_with cost ws + cost y)%nat.
Proof.
  induction ws as [|z ws IH]; intros [|w] x y H; [done|done| |].
  - apply (inj Some) in H. subst z. change (cost y + sum_list_with cost ws + cost x = cost x + sum_list_with cost ws + cost y)%nat. lia.
  - specialize (IH w x y H). change (cost z + sum_list_with cost (<[w := y]> ws) + cost x = cost z + sum_list_with cost ws + cost y)%nat. lia.
Qed.
Theorem C94_every_run_stops :
  forall res n clients s, rtc (step res) (new_pool n clients) s -> forall k s', nsteps (step res) k s s' -> (k <= 4 * length (concat clients))%nat.
Proof.
  intros res n clients s Hr k s' Hk.
  assert (Hstep : forall a b, step res a b -> left_over a = S (left_over b)).
  { intros a b H. unfold left_over. destruct H as [s0 c t ts w Hc Hw|s0 w t Hw|s0 w t e Hw|s0 w t Hw]; cbn [p_clients p_workers].
    - pose proof (sum_insert _ _ _ (Got t) Hw) as E. cbn [cost] in E. rewrite (concat_take _ _ _ _ Hc). cbn [length]. lia.
    - pose proof (sum_insert _ _ _ (Processed t (res t)) Hw) as E. cbn [cost] in E. lia.
    - pose proof (sum_insert _ _ _ (Told t) Hw) as E. cbn [cost] in E. lia.
    - pose proof (sum_insert _ _ _ Idle Hw) as E. cbn [cost] in E. lia. }
  assert (H0 : left_over (new_pool n clients) = (4 * length (concat clients))%nat).
  { unfold left_over, new_pool. cbn [p_clients p_workers]. assert (sum_list_with cost (replicate (Z.to_nat n) Idle) = 0%nat) as ->; [|lia]. by induction (Z.to_nat n). }
  assert (H1 : (left_over s <= left_over (new_pool n clients))%nat) by (clear -Hr Hstep; induction Hr as [|a b c Ha Hb IH]; [done|]; rewrite (Hstep _ _ Ha); lia).
  assert (H2 : (k <= left_over s)%nat); [|lia]. clear -Hk Hstep. induction Hk as [|k a b c Ha Hb IH]; [lia|]. rewrite (Hstep _ _ Ha). lia.
Qed.

(** C94, the boundary: a pool asked for no workers, or a negative number of them, is made without complaint, and
    nothing anybody sends to it is ever taken. *)
Theorem C94_without_workers_nothing_is_taken :
  forall res n clients s, n <= 0 -> rtc (step res) (new_pool n clients) s -> s = new_pool n clients.
Proof.
  intros res n clients s Hn Hr. assert (E : p_workers (new_pool n clients) = []) by (unfold new_pool; cbn [p_workers]; by rewrite Z2Nat.nonpos).
  destruct Hr as [s|s1 s2 s3 H1 H2]; [done|]. exfalso. destruct H1 as [s0 c t ts w Hc Hw|s0 w t Hw|s0 w t e Hw|s0 w t Hw]; rewrite E in Hw; done.
Qed.

Local Tactic Notation "go" uconstr(l) := eapply rtc_l; [eapply l; reflexivity|]; match goal with |- rtc _ ?a _ => let b := eval vm_compute in a in change a with b end.
(** two clients, two workers, done in this order *)
Example C94_example : NoDup (concat [[1; 2]; [3]])%nat /\ exists s, rtc (step Z.of_nat) (new_pool 2 [[1; 2]; [3]]%nat) s /\
  p_log s = [Taken 3; Taken 1; ProcessedE 1; ErrorSet 1 1; DoneE 1; Taken 2; ProcessedE 2; ProcessedE 3; ErrorSet 2 2; ErrorSet 3 3; DoneE 3; DoneE 2]%nat.
Proof.
  split; [by apply (bool_decide_unpack _); vm_compute|].
  eexists. split.
  - go (step_take Z.of_nat _ 1 3 [] 0). go (step_take Z.of_nat _ 0 1 [2%nat] 1).
    go (step_process Z.of_nat _ 1). go (step_error Z.of_nat _ 1). go (step_done Z.of_nat _ 1).
    go (step_take Z.of_nat _ 0 2 [] 1). go (step_process Z.of_nat _ 1). go (step_process Z.of_nat _ 0).
    go (step_error Z.of_nat _ 1). go (step_error Z.of_nat _ 0). go (step_done Z.of_nat _ 0).
    go (step_done Z.of_nat _ 1). apply rtc_refl.
  - cbn. reflexivity.
Qed.

Print Assumptions C94_each_task_at_most_once_in_order.
Print Assumptions C94_every_task_gets_done.
Print Assumptions C94_every_run_stops.
Print Assumptions C94_without_workers_nothing_is_taken.
