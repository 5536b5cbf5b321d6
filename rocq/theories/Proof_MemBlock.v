From Verif Require Import Base Model_Seq Spec_Seq.

Definition holding (w : mthread) : Prop := match w with MReadIt _ | MFreeing => True | _ => False end.
Definition waiting (w : mthread) : Prop := match w with MWantWait | MReadIt _ | MAsleep | MWoken | MReturned _ => True | _ => False end.
Definition freer (w : mthread) : Prop := match w with MWantFree | MFreeing | MMustSignal => True | _ => False end.

Record minv (max : Z) (who : gset nat) (s : mem) : Prop := {
  mi_lock : forall t w, mm_threads s !! t = Some w -> holding w -> mm_lock s = Some t;
  mi_who : forall t w, mm_threads s !! t = Some w -> waiting w -> t ∈ who;
  mi_ret : forall t r, mm_threads s !! t = Some (MReturned r) -> r < max;
}.

Lemma lookup_ins (l : list mthread) t u w x :
  <[t := w]> l !! u = Some x -> (u = t /\ x = w) \/ (u <> t /\ l !! u = Some x).
Proof. intros H. apply list_lookup_insert_Some in H as [(-> & -> & _)|[? ?]]; auto. Qed.

Lemma minv_init max who heap n : minv max who (mem_init heap n).
Proof.
  constructor; cbn; intros t w H; apply lookup_replicate in H as [H _]; subst; try done.
Qed.

Lemma minv_step max who s s' : minv max who s -> mstep max who s s' -> minv max who s'.
Proof.
  intros [I1 I2 I3] St.
  destruct St as [s n Hn|s t Hw Ht|s t Ht|s t Ht Hl|s t Ht Hl|s t r Ht Hr|s t r Ht Hr|s t Ht Hl|s t n w Ht Hw Hn|s t Ht|s t u Ht Hu|s t Ht Hu];
   constructor; cbn [mm_heap mm_lock mm_threads]; auto.
  all: try (intros u0 w0 Hx; apply lookup_ins in Hx as [[-> ->]|[Hne Hx]]; [try done|]; eauto).
  all: try (intros Hh; pose proof (I1 _ _ Hx Hh) as E; rewrite Hl in E; done).
  all: try (intros Hh; pose proof (I1 _ _ Hx Hh) as E; pose proof (I1 _ _ Ht I) as E2; congruence).
  all: try (intros _; eapply I2; eauto; done).
  all: try congruence.
  all: try (intros u0 r0 Hx; apply lookup_ins in Hx as [[-> E]|[Hne Hx]]; [first [done|injection E as ->; lia]|]; eauto; fail).
  - apply lookup_ins in Hx as [[-> ->]|[Hne2 Hx]]; [done|]. eauto.
  - apply lookup_ins in Hx as [[-> ->]|[Hne2 Hx]]; [done|]. eauto.
  - intros u0 r0 Hx. apply lookup_ins in Hx as [[-> E]|[Hne Hx]]; [done|].
    apply lookup_ins in Hx as [[-> E]|[Hne2 Hx]]; [done|]. eauto.
Qed.

Lemma minv_reach max who s s' : minv max who s -> rtc (mstep max who) s s' -> minv max who s'.
Proof. intros I R. induction R; [done|]. apply IHR. eapply minv_step; eauto. Qed.

(** The reading with which a waiter returned was taken while it held the lock. *)
Definition was_read (max : Z) (who : gset nat) (s0 : mem) (t : nat) (r : Z) (s : mem) : Prop :=
  exists s1, rtc (mstep max who) s0 s1 /\ rtc (mstep max who) s1 s /\
             mm_lock s1 = Some t /\ mm_heap s1 = r.

Lemma was_read_step max who s0 t r s s' : was_read max who s0 t r s -> mstep max who s s' -> was_read max who s0 t r s'.
Proof. intros (s1 & A & B & C & D) St. exists s1. split; [done|]. split; [|done]. eapply rtc_r; eauto. Qed.

Lemma reads max who s0 s : minv max who s0 ->
  (forall t r, mm_threads s0 !! t <> Some (MReadIt r) /\ mm_threads s0 !! t <> Some (MReturned r)) ->
  rtc (mstep max who) s0 s ->
  forall t r, mm_threads s !! t = Some (MReadIt r) \/ mm_threads s !! t = Some (MReturned r) ->
  was_read max who s0 t r s.
Proof.
  intros I H0 R. revert s R. refine (rtc_ind_r _ s0 _ _); [|intros s s' R St IH].
  - intros t r [H|H]; destruct (H0 t r); done.
  - intros t r H.
    assert (Old : mm_threads s !! t = Some (MReadIt r) \/ mm_threads s !! t = Some (MReturned r) -> was_read max who s0 t r s').
    { intros HH. eapply was_read_step; eauto. }
    pose proof (rtc_r _ _ _ R St) as R'.
    destruct St as [s n Hn|s u Hw Hu|s u Hu|s u Hu Hl|s u Hu Hl|s u r' Hu Hr|s u r' Hu Hr|s u Hu Hl|s u n w Hu Hw Hn|s u Hu|s u v Hu Hv|s u Hu Hv];
      cbn [mm_heap mm_lock mm_threads] in H; auto.
    all: try (apply Old; destruct H as [H|H]; apply lookup_ins in H as [[-> E]|[Hne H]]; try done; auto;
       apply lookup_ins in H as [[-> E]|[Hne' H]]; try done; auto; fail).
    + destruct H as [H|H]; apply lookup_ins in H as [[-> E]|[Hne H]]; try done; auto.
      injection E as ->. eexists. split; [exact R'|]. split; [apply rtc_refl|]. done.
    + destruct H as [H|H]; apply lookup_ins in H as [[-> E]|[Hne H]]; try done; auto.
      injection E as ->. eexists. split; [exact R'|]. split; [apply rtc_refl|]. done.
    + destruct H as [H|H]; apply lookup_ins in H as [[-> E]|[Hne H]]; try done; auto.
      injection E as <-. auto.
Qed.

(** With one waiting thread no wake-up is lost. *)
Definition will_signal (s : mem) : Prop := exists u w, mm_threads s !! u = Some w /\ freer w.
Definition will_lock (s : mem) : Prop := exists u w, mm_threads s !! u = Some w /\ w = MWantFree.
Definition nolost (max : Z) (s : mem) : Prop :=
  forall t, (mm_threads s !! t = Some MAsleep -> mm_heap s < max -> will_signal s) /\
  (forall r, mm_threads s !! t = Some (MReadIt r) -> max <= r -> mm_heap s < max -> will_lock s).

Lemma nolost_step max t0 s s' : minv max {[t0]} s -> nolost max s -> mstep max {[t0]} s s' -> nolost max s'.
Proof.
  intros [I1 I2 I3] N St.
  assert (Ins : forall u w v t, mm_threads s !! t = Some v -> mm_threads s !! u = Some w -> u <> t -> forall x, <[t := x]> (mm_threads s) !! u = Some w).
  { intros. by rewrite list_lookup_insert_ne. }
  destruct St as [s n Hn|s u Hw Hu|s u Hu|s u Hu Hl|s u Hu Hl|s u r' Hu Hr|s u r' Hu Hr|s u Hu Hl|s u n w Hu Hw Hn|s u Hu|s u v Hu Hv|s u Hu Hv];
    intros t; destruct (N t) as [N1 N2]; split; cbn [mm_heap mm_lock mm_threads] in *.
  - intros H Hh. destruct (N1 H ltac:(lia)) as (x & w & Hx & Hf). exists x, w; done.
  - intros r H Hr Hh. destruct (N2 r H Hr ltac:(lia)) as (x & w & Hx & Hf). exists x, w; done.
  - intros H Hh. apply lookup_ins in H as [[-> ?]|[Hne H]]; [done|]. destruct (N1 H Hh) as (x & w & Hx & Hf).
    exists x, w. split; [|done]. eapply Ins; eauto. intros ->. rewrite Hu in Hx. injection Hx as <-. done.
  - intros r H Hr Hh. apply lookup_ins in H as [[-> ?]|[Hne H]]; [done|]. destruct (N2 r H Hr Hh) as (x & w & Hx & ->).
    exists x, MWantFree. split; [|done]. eapply Ins; eauto. intros ->. congruence.
  - intros H Hh. exists u, MWantFree. split; [|done]. apply list_lookup_insert. eapply lookup_lt_Some; eauto.
  - intros r H Hr Hh. exists u, MWantFree. split; [|done]. apply list_lookup_insert. eapply lookup_lt_Some; eauto.
  - intros H Hh. apply lookup_ins in H as [[-> ?]|[Hne H]]; [done|]. destruct (N1 H Hh) as (x & w & Hx & Hf).
    exists x, w. split; [|done]. eapply Ins; eauto. intros ->. rewrite Hu in Hx. injection Hx as <-. done.
  - intros r H Hr Hh. apply lookup_ins in H as [[-> E]|[Hne H]].
    + injection E as ->. lia.
    + pose proof (I1 _ _ H I). congruence.
  - intros H Hh. apply lookup_ins in H as [[-> ?]|[Hne H]]; [done|]. destruct (N1 H Hh) as (x & w & Hx & Hf).
    exists x, w. split; [|done]. eapply Ins; eauto. intros ->. rewrite Hu in Hx. injection Hx as <-. done.
  - intros r H Hr Hh. apply lookup_ins in H as [[-> E]|[Hne H]].
    + injection E as ->. lia.
    + pose proof (I1 _ _ H I). congruence.
  - (* sleep *) intros H Hh. apply lookup_ins in H as [[-> ?]|[Hne H]].
    + destruct (N2 _ Hu Hr Hh) as (x & w & Hx & ->). exists x, MWantFree. split; [|done].
      eapply Ins; eauto. intros ->. congruence.
    + destruct (N1 H Hh) as (x & w & Hx & Hf).
      exists x, w. split; [|done]. eapply Ins; eauto. intros ->. rewrite Hu in Hx. injection Hx as <-. done.
  - intros r H Hr' Hh. apply lookup_ins in H as [[-> ?]|[Hne H]]; [done|].
    pose proof (I1 _ _ H I) as E1. pose proof (I1 _ _ Hu I) as E2. congruence.
  - (* return *) intros H Hh. apply lookup_ins in H as [[-> ?]|[Hne H]]; [done|].
    destruct (N1 H Hh) as (x & w & Hx & Hf).
    exists x, w. split; [|done]. eapply Ins; eauto. intros ->. rewrite Hu in Hx. injection Hx as <-. done.
  - intros r H Hr' Hh. apply lookup_ins in H as [[-> ?]|[Hne H]]; [done|].
    pose proof (I1 _ _ H I) as E1. pose proof (I1 _ _ Hu I) as E2. congruence.
  - (* lock free *) intros H Hh. exists u, MFreeing. split; [|done]. apply list_lookup_insert. eapply lookup_lt_Some; eauto.
  - intros r H Hr Hh. apply lookup_ins in H as [[-> E]|[Hne H]]; [done|]. pose proof (I1 _ _ H I). congruence.
  - (* free *) intros H Hh. exists u, w. split; [done|]. by destruct Hw as [-> | ->].
  - intros r H Hr Hh. destruct Hw as [-> | ->].
    + exists u, MWantFree. done.
    + pose proof (I1 _ _ H I) as E1. pose proof (I1 _ _ Hu I) as E2. assert (t = u) as -> by congruence. congruence.
  - (* unlock *) intros H Hh. exists u, MMustSignal. split; [|done]. apply list_lookup_insert. eapply lookup_lt_Some; eauto.
  - intros r H Hr Hh. apply lookup_ins in H as [[-> E]|[Hne H]]; [done|].
    pose proof (I1 _ _ H I) as E1. pose proof (I1 _ _ Hu I) as E2. congruence.
  - (* signal *) intros H Hh. apply lookup_ins in H as [[-> ?]|[Hne H]]; [done|].
    apply lookup_ins in H as [[-> ?]|[Hne' H]]; [done|].
    exfalso. apply Hne. pose proof (I2 _ _ H I). pose proof (I2 _ _ Hv I). set_solver.
  - intros r H Hr Hh. apply lookup_ins in H as [[-> ?]|[Hne H]]; [done|].
    apply lookup_ins in H as [[-> ?]|[Hne' H]]; [done|].
    destruct (N2 r H Hr Hh) as (x & w & Hx & ->). exists x, MWantFree. split; [|done].
    cbn [mm_threads]. rewrite !list_lookup_insert_ne; [done|congruence|congruence].
  - (* nobody to wake *) intros H Hh. apply lookup_ins in H as [[-> ?]|[Hne H]]; [done|].
    exfalso. apply Hv. eapply elem_of_list_lookup_2; eauto.
  - intros r H Hr Hh. apply lookup_ins in H as [[-> ?]|[Hne H]]; [done|].
    destruct (N2 r H Hr Hh) as (x & w & Hx & ->). exists x, MWantFree. split; [|done].
    eapply Ins; eauto. congruence.
Qed.

Lemma nolost_reach max t0 heap n s : rtc (mstep max {[t0]}) (mem_init heap n) s -> nolost max s.
Proof.
  revert s. refine (rtc_ind_r _ (mem_init heap n) _ _); [|intros s s' R St IH].
  - intros t. split; [intros H|intros r H]; cbn in H; apply lookup_replicate in H as [H _]; done.
  - eapply nolost_step; eauto. eapply minv_reach; eauto. apply minv_init.
Qed.
