(** C97: bins used again. *)
From Verif Require Import Base Model_Reuse.

(** The same deeds on bins that are just lists of bytes: a pass begins with empty ones *)
Definition plain (d : deed) (l : list (list Z)) : option (list (list Z)) :=
  match d with
  | Pass n _ _ => Some (replicate n [])
  | Append slot bs _ => b ← l !! slot; Some (<[slot := b ++ bs]> l)
  | Rewrite slot new junk => b ← l !! slot; if decide (length new + length junk = length b)%nat then Some (<[slot := new]> l) else None
  end.
Fixpoint plain_all (ds : list deed) (l : list (list Z)) : option (list (list Z)) :=
  match ds with [] => Some l | d :: ds' => l' ← plain d l; plain_all ds' l' end.

(** The bins in use are different, look at different arrays, and hold [l]. *)
Record shows (m : mem) (l : list (list Z)) : Prop := {
  sh_len : length l = m_len m;
  sh_back : (m_len m <= length (m_back m))%nat;
  sh_nodup : NoDup (take (m_len m) (m_back m));
  sh_bins : forall i, (i < m_len m)%nat -> exists b a n arr, m_back m !! i = Some b /\ m_bin m !! b = Some (a, n) /\
    m_arr m !! a = Some arr /\ (n <= length arr)%nat /\ l !! i = Some (take n arr);
  sh_apart : forall i j b b' a n n', (i < m_len m)%nat -> (j < m_len m)%nat -> m_back m !! i = Some b -> m_back m !! j = Some b' ->
    m_bin m !! b = Some (a, n) -> m_bin m !! b' = Some (a, n') -> i = j }.

Lemma used_inj m l i j b : shows m l -> (i < m_len m)%nat -> (j < m_len m)%nat -> m_back m !! i = Some b -> m_back m !! j = Some b -> i = j.
Proof.
  intros H Hi Hj Ei Ej. eapply NoDup_lookup; [apply (sh_nodup m l H)|rewrite lookup_take by done; exact Ei|by rewrite lookup_take].
Qed.

Lemma shows_seen m l : shows m l -> seen m = Some l.
Proof.
  intros H. unfold seen. apply mapM_Some_2, Forall2_same_length_lookup. split.
  - rewrite take_length, (sh_len m l H). pose proof (sh_back m l H). lia.
  - intros i b c Eb Ec. assert (i < m_len m)%nat as Hi by (apply lookup_lt_Some in Ec; by rewrite (sh_len m l H) in Ec).
    rewrite lookup_take in Eb by done. destruct (sh_bins m l H i Hi) as (b' & a & n & arr & E1 & E2 & E3 & E4 & E5).
    rewrite Eb in E1. apply (inj Some) in E1 as <-. rewrite Ec in E5. apply (inj Some) in E5 as ->.
    unfold bytes_of. rewrite E2. cbn [mbind option_bind fst snd]. by rewrite E3.
Qed.

Lemma add_bin_shows cap spare m l : shows m l -> shows (add_bin cap spare m) (l ++ [[]]).
Proof.
  intros H. pose proof (sh_len m l H) as Hl. pose proof (sh_back m l H) as Hb.
  set (a := fresh (dom (m_arr m))). set (b := fresh (dom (m_bin m))).
  assert (m_arr m !! a = None) as Ha by (apply not_elem_of_dom, is_fresh).
  assert (m_bin m !! b = None) as Hbn by (apply not_elem_of_dom, is_fresh).
  set (back := if decide (m_len m < length (m_back m))%nat then <[m_len m := b]> (m_back m) else m_back m ++ b :: replicate spare 0%nat).
  assert (forall i, (i < m_len m)%nat -> back !! i = m_back m !! i) as Hold.
  { intros i Hi. unfold back. case_decide; [rewrite list_lookup_insert_ne by lia; done|]. by rewrite lookup_app_l by lia. }
  assert (back !! m_len m = Some b) as Hnew.
  { unfold back. case_decide; [by apply list_lookup_insert|]. rewrite lookup_app_r by lia. by replace (m_len m - length (m_back m))%nat with 0%nat by lia. }
  assert (m_len m < length back)%nat as Hlb by (by eapply lookup_lt_Some).
  assert (forall i x, (i < m_len m)%nat -> m_back m !! i = Some x -> x <> b) as Hne.
  { intros i x Hi Ei ->. destruct (sh_bins m l H i Hi) as (b' & a' & n & arr & E1 & E2 & _). rewrite Ei in E1. apply (inj Some) in E1 as <-. congruence. }
  assert (forall i x s, (i < m_len m)%nat -> m_back m !! i = Some x -> m_bin m !! x = Some s -> s.1 <> a) as Hna.
  { intros i x s Hi Ei Es Ea. destruct (sh_bins m l H i Hi) as (b' & a' & n & arr & E1 & E2 & E3 & _). rewrite Ei in E1. apply (inj Some) in E1 as <-.
    rewrite Es in E2. apply (inj Some) in E2 as ->. cbn in Ea. congruence. }
  unfold add_bin. fold a b back. constructor; cbn [m_arr m_bin m_back m_len].
  - rewrite app_length. cbn [length]. lia.
  - lia.
  - rewrite (take_S_r _ _ _ Hnew). apply NoDup_app. split_and!.
    + replace (take (m_len m) back) with (take (m_len m) (m_back m)); [apply (sh_nodup m l H)|].
      apply list_eq. intros i. destruct (decide (i < m_len m)%nat); [rewrite !lookup_take by done; symmetry; by apply Hold|].
      rewrite !lookup_take_ge by lia. done.
    + intros x Hx Hx'. apply elem_of_list_singleton in Hx' as ->. apply elem_of_list_lookup in Hx as [i Hi].
      assert (i < m_len m)%nat as Hi' by (apply lookup_lt_Some in Hi; rewrite take_length in Hi; lia).
      rewrite lookup_take, Hold in Hi by done. by eapply Hne.
    + apply NoDup_singleton.
  - intros i Hi. destruct (decide (i = m_len m)) as [->|Hi'].
    + exists b, a, 0%nat, (replicate cap 0). rewrite !lookup_insert. split_and!; try done; [lia|].
      rewrite lookup_app_r by lia. by replace (m_len m - length l)%nat with 0%nat by lia.
    + assert (i < m_len m)%nat as Hi2 by lia. destruct (sh_bins m l H i Hi2) as (b' & a' & n & arr & E1 & E2 & E3 & E4 & E5).
      exists b', a', n, arr. rewrite Hold by done. rewrite lookup_insert_ne by (apply not_eq_sym; by eapply Hne).
      rewrite lookup_insert_ne by (intros ->; congruence). rewrite lookup_app_l by lia. done.
  - intros i j x x' a' n n' Hi Hj Ei Ej Ex Ex'.
    destruct (decide (i = m_len m)) as [->|Hi'], (decide (j = m_len m)) as [->|Hj']; [done| | |].
    + rewrite Hnew in Ei. apply (inj Some) in Ei as <-. rewrite lookup_insert in Ex. apply (inj Some) in Ex. injection Ex as <- <-.
      rewrite Hold in Ej by lia. rewrite lookup_insert_ne in Ex' by (apply not_eq_sym; eapply Hne; [|done]; lia).
      destruct (Hna j x' (a, n') ltac:(lia) Ej Ex'). done.
    + rewrite Hnew in Ej. apply (inj Some) in Ej as <-. rewrite lookup_insert in Ex'. apply (inj Some) in Ex'. injection Ex' as <- <-.
      rewrite Hold in Ei by lia. rewrite lookup_insert_ne in Ex by (apply not_eq_sym; eapply Hne; [|done]; lia).
      destruct (Hna i x (a, n) ltac:(lia) Ei Ex). done.
    + rewrite Hold in Ei, Ej by lia. rewrite lookup_insert_ne in Ex by (apply not_eq_sym; eapply Hne; [|done]; lia).
      rewrite lookup_insert_ne in Ex' by (apply not_eq_sym; eapply Hne; [|done]; lia).
      eapply (sh_apart m l H i j); try done; lia.
Qed.

Lemma add_bins_shows k cap spare m l : shows m l -> shows (add_bins k cap spare m) (l ++ replicate k []).
Proof.
  revert m l. induction k as [|k IH]; intros m l H; cbn [add_bins replicate]; [by rewrite app_nil_r|].
  replace (l ++ [] :: replicate k []) with ((l ++ [[]]) ++ replicate k []) by (by rewrite <- app_assoc). apply IH. by apply add_bin_shows.
Qed.
Lemma add_bins_len k cap spare m : m_len (add_bins k cap spare m) = (m_len m + k)%nat.
Proof. revert m. induction k as [|k IH]; intros m; cbn [add_bins]; [lia|]. rewrite IH. unfold add_bin. cbn [m_len]. lia. Qed.

Lemma new_bins_shows n cap : shows (new_bins n cap) (replicate n []).
Proof.
  unfold new_bins. apply (add_bins_shows n cap 0 _ []). constructor; cbn; try done; try lia. constructor.
Qed.

Lemma emptied bs bins b : foldr empty_bin bins bs !! b = if decide (b ∈ bs) then (fun s => (fst s, 0%nat)) <$> bins !! b else bins !! b.
Proof.
  induction bs as [|x bs IH]; cbn [foldr]; [by rewrite decide_False by (by apply not_elem_of_nil)|].
  unfold empty_bin at 1. destruct (decide (x = b)) as [->|Hne].
  - rewrite lookup_alter, IH, (decide_True (P := b ∈ b :: bs)) by (by left). case_decide; [|done].
    destruct (bins !! b); done.
  - rewrite lookup_alter_ne, IH by done. destruct (decide (b ∈ bs)) as [Hin|Hin].
    + rewrite decide_True by (by right). done.
    + rewrite decide_False; [done|]. intros [->|?]%elem_of_cons; done.
Qed.

Lemma empty_bins_shows m l : shows m l -> shows (empty_bins m) (replicate (m_len m) []).
Proof.
  intros H. pose proof (sh_back m l H) as Hb.
  assert (forall i b, (i < m_len m)%nat -> m_back m !! i = Some b -> b ∈ take (m_len m) (m_back m)) as Hin.
  { intros i b Hi Ei. apply (elem_of_list_lookup_2 _ i). by rewrite lookup_take. }
  unfold empty_bins. constructor; cbn [m_arr m_bin m_back m_len]; [apply replicate_length|done|apply (sh_nodup m l H)| |].
  - intros i Hi. destruct (sh_bins m l H i Hi) as (b & a & n & arr & E1 & E2 & E3 & E4 & E5).
    exists b, a, 0%nat, arr. rewrite emptied, decide_True, E2 by exact (Hin i b Hi E1). split_and!; try done; [lia|].
    rewrite lookup_replicate_2 by done. done.
  - intros i j b b' a n n' Hi Hj Ei Ej Eb Eb'. rewrite emptied, decide_True in Eb by exact (Hin i b Hi Ei). rewrite emptied, decide_True in Eb' by exact (Hin j b' Hj Ej).
    destruct (m_bin m !! b) as [[a1 n1]|] eqn:F1; [|done]. destruct (m_bin m !! b') as [[a2 n2]|] eqn:F2; [|done].
    cbn in Eb, Eb'. injection Eb as -> <-. injection Eb' as -> <-. by eapply (sh_apart m l H i j b b' a n1 n2).
Qed.

Lemma reuse_shows n cap spare m l : shows m l -> exists m', reuse n cap spare m = Some m' /\ shows m' (replicate n []).
Proof.
  intros H. pose proof (add_bins_shows (n - m_len m) cap spare _ _ (empty_bins_shows m l H)) as H2.
  set (m2 := add_bins (n - m_len m) cap spare (empty_bins m)) in *.
  assert (m_len m2 = m_len m + (n - m_len m))%nat as Hlen by (unfold m2; rewrite add_bins_len; done).
  pose proof (sh_back _ _ H2) as Hb. rewrite <- replicate_add in H2.
  eexists. split; [unfold reuse; cbv zeta; change (m_len (empty_bins m)) with (m_len m); fold m2; rewrite decide_True by lia; reflexivity|].
  constructor; cbn [m_arr m_bin m_back m_len].
  - apply replicate_length.
  - lia.
  - pose proof (sh_nodup _ _ H2) as Hnd. rewrite <- (take_drop n (take _ _)) in Hnd.
    apply NoDup_app in Hnd as [Hnd _]. rewrite take_take, Nat.min_l in Hnd by lia. done.
  - intros i Hi. destruct (sh_bins _ _ H2 i ltac:(lia)) as (b & a & k & arr & E1 & E2 & E3 & E4 & E5). exists b, a, k, arr. split_and!; try done.
    rewrite lookup_replicate_2 in E5 by lia. by rewrite lookup_replicate_2.
  - intros i j b b' a k k' Hi Hj. apply (sh_apart _ _ H2 i j); lia.
Qed.

(** a change of one bin in its own array or in a new one *)
Lemma change_shows m l slot b a n arr a' arr' n' : shows m l -> (slot < m_len m)%nat -> m_back m !! slot = Some b -> m_bin m !! b = Some (a, n) ->
  m_arr m !! a = Some arr -> (a' = a \/ m_arr m !! a' = None) -> (n' <= length arr')%nat ->
  shows (mk_mem (<[a' := arr']> (m_arr m)) (<[b := (a', n')]> (m_bin m)) (m_back m) (m_len m)) (<[slot := take n' arr']> l).
Proof.
  intros H Hs Eb Es Ea Ha Hn. pose proof (sh_len m l H) as Hl.
  assert (forall i x k c, (i < m_len m)%nat -> i <> slot -> m_back m !! i = Some x -> m_bin m !! x = Some (c, k) -> x <> b /\ c <> a') as Hother.
  { intros i x k c Hi Hne Ei Ex. split.
    - intros ->. destruct Hne. by eapply (used_inj m l).
    - intros ->. destruct Ha as [->|Hnone]; [destruct Hne; by eapply (sh_apart m l H i slot)|].
      destruct (sh_bins m l H i Hi) as (b2 & a2 & n2 & arr2 & E1 & E2 & E3 & _). rewrite Ei in E1. apply (inj Some) in E1 as <-.
      rewrite Ex in E2. apply (inj Some) in E2. injection E2 as <- <-. congruence. }
  constructor; cbn [m_arr m_bin m_back m_len].
  - by rewrite insert_length.
  - apply (sh_back m l H).
  - apply (sh_nodup m l H).
  - intros i Hi. destruct (decide (i = slot)) as [->|Hne].
    + exists b, a', n', arr'. rewrite !lookup_insert, list_lookup_insert by lia. done.
    + destruct (sh_bins m l H i Hi) as (b2 & a2 & n2 & arr2 & E1 & E2 & E3 & E4 & E5). destruct (Hother i b2 n2 a2 Hi Hne E1 E2) as [N1 N2].
      exists b2, a2, n2, arr2. rewrite !lookup_insert_ne, list_lookup_insert_ne by done. done.
  - intros i j x x' c k k' Hi Hj Ei Ej Ex Ex'.
    destruct (decide (i = slot)) as [->|Hi'], (decide (j = slot)) as [->|Hj']; [done| | |].
    + rewrite Eb in Ei. apply (inj Some) in Ei as <-. rewrite lookup_insert in Ex. apply (inj Some) in Ex. injection Ex as <- <-.
      destruct (decide (x' = b)) as [->|Hx]; [by eapply (used_inj m l)|]. rewrite lookup_insert_ne in Ex' by done.
      destruct (Hother j x' k' a' Hj Hj' Ej Ex'). done.
    + rewrite Eb in Ej. apply (inj Some) in Ej as <-. rewrite lookup_insert in Ex'. apply (inj Some) in Ex'. injection Ex' as <- <-.
      destruct (decide (x = b)) as [->|Hx]; [by eapply (used_inj m l)|]. rewrite lookup_insert_ne in Ex by done.
      destruct (Hother i x k a' Hi Hi' Ei Ex). done.
    + destruct (decide (x = b)) as [->|Hx]; [destruct Hi'; by eapply (used_inj m l)|].
      destruct (decide (x' = b)) as [->|Hx']; [destruct Hj'; by eapply (used_inj m l)|].
      rewrite lookup_insert_ne in Ex by done. rewrite lookup_insert_ne in Ex' by done. by eapply (sh_apart m l H i j).
Qed.

Lemma perform_shows d m l : shows m l ->
  match plain d l with
  | Some l' => exists m', perform d m = Some m' /\ shows m' l'
  | None => perform d m = None
  end.
Proof.
  intros H. pose proof (sh_len m l H) as Hl. destruct d as [n cap spare|slot bs spare|slot new junk]; cbn [plain perform].
  - by eapply reuse_shows.
  - unfold append_bytes, bin_at. destruct (decide (slot < m_len m)%nat) as [Hs|Hs].
    2:{ rewrite lookup_ge_None_2 by lia. done. }
    destruct (sh_bins m l H slot Hs) as (b & a & n & arr & E1 & E2 & E3 & E4 & E5). rewrite E5, E1. cbn [mbind option_bind].
    rewrite E2. cbn [mbind option_bind]. rewrite E3. cbn [mbind option_bind].
    assert (forall x, take (n + length bs) (take n arr ++ bs ++ x) = take n arr ++ bs) as Ht.
    { intros x. rewrite app_assoc. apply take_app_alt. rewrite app_length, take_length. lia. }
    destruct (decide _) as [Hr|Hr]; eexists; (split; [reflexivity|]).
    + rewrite <- (Ht (drop (n + length bs) arr)). eapply change_shows; try done; [by left|].
      rewrite !app_length, take_length, drop_length. lia.
    + rewrite <- (Ht (replicate spare 0)). eapply change_shows; try done; [right; apply not_elem_of_dom, is_fresh|].
      rewrite !app_length, take_length. lia.
  - unfold rewrite_bytes, bin_at. destruct (decide (slot < m_len m)%nat) as [Hs|Hs].
    2:{ rewrite lookup_ge_None_2 by lia. done. }
    destruct (sh_bins m l H slot Hs) as (b & a & n & arr & E1 & E2 & E3 & E4 & E5). rewrite E5, E1. cbn [mbind option_bind].
    rewrite E2. cbn [mbind option_bind]. rewrite E3. cbn [mbind option_bind]. rewrite take_length, (Nat.min_l n (length arr)) by lia.
    destruct (decide _) as [Hr|Hr]; [|done]. eexists. split; [reflexivity|].
    rewrite <- (take_app new (junk ++ drop n arr)) at 3. eapply change_shows; try done; [by left|]. rewrite app_length. lia.
Qed.

(** C97. Whatever passes have been run with the bins before, in whatever sizes, and however the memory grew: what is
    seen in the bins, and whether a panic happens, is as if every pass had bins of its own, made empty for it. *)
Theorem C97_bins_as_if_fresh :
  forall ds n cap, (perform_all ds (new_bins n cap) ≫= seen) = plain_all ds (replicate n []).
Proof.
  intros ds n cap. generalize (new_bins_shows n cap). generalize (new_bins n cap) as m, (replicate n ([] : list Z)) as l.
  induction ds as [|d ds IH]; intros m l H; cbn [perform_all plain_all].
  - cbn [mbind option_bind]. by apply shows_seen.
  - pose proof (perform_shows d m l H) as Hd. destruct (plain d l) as [l'|]; cbn [mbind option_bind].
    + destruct Hd as (m' & -> & H'). cbn [mbind option_bind]. by apply IH.
    + rewrite Hd. done.
Qed.

(** C97. A pass starts with exactly the asked number of bins, all empty, and what it leaves does not depend on what
    was done before it. *)
Theorem C97_pass_does_not_see_the_past :
  forall before size cap spare pass n0 cap0 m0, perform_all before (new_bins n0 cap0) = Some m0 ->
  (perform_all (Pass size cap spare :: pass) m0 ≫= seen) = plain_all pass (replicate size []) /\
  (exists m, perform (Pass size cap spare) m0 = Some m /\ seen m = Some (replicate size [])).
Proof.
  intros before size cap spare pass n0 cap0 m0 E.
  assert (forall ds, (perform_all ds m0 ≫= seen) = (perform_all (before ++ ds) (new_bins n0 cap0) ≫= seen)) as Happ.
  { intros ds. revert E. generalize (new_bins n0 cap0) as m. induction before as [|d before IH]; intros m E; cbn [app perform_all] in *.
    - by apply (inj Some) in E as <-.
    - destruct (perform d m) as [m'|]; [|done]. cbn [mbind option_bind] in *. by apply IH. }
  assert (exists l0, plain_all before (replicate n0 []) = Some l0) as [l0 El0].
  { pose proof (C97_bins_as_if_fresh before n0 cap0) as Hb. rewrite E in Hb. cbn [mbind option_bind] in Hb.
    destruct (plain_all before (replicate n0 [])) as [l0|] eqn:El; [by exists l0|]. exfalso.
    revert E El Hb. clear. intros E El Hb. revert E El. generalize (new_bins_shows n0 cap0).
    generalize (new_bins n0 cap0) as m, (replicate n0 ([] : list Z)) as l. induction before as [|d before IH]; intros m l H E El; [done|].
    cbn [perform_all plain_all] in *. pose proof (perform_shows d m l H) as Hd. destruct (plain d l) as [l'|]; cbn [mbind option_bind] in *.
    - destruct Hd as (m' & Em & H'). rewrite Em in E. cbn [mbind option_bind] in E. by eapply IH.
    - rewrite Hd in E. done. }
  assert (forall ds, plain_all (before ++ ds) (replicate n0 []) = plain_all ds l0) as Hpl.
  { intros ds. revert El0. generalize (replicate n0 ([] : list Z)) as l. clear. induction before as [|d before IH]; intros l El; cbn [app plain_all] in *.
    - by apply (inj Some) in El as ->.
    - destruct (plain d l) as [l'|]; [|done]. cbn [mbind option_bind] in *. by apply IH. }
  split.
  - rewrite Happ, C97_bins_as_if_fresh, Hpl. done.
  - pose proof (Happ [Pass size cap spare]) as H1. rewrite C97_bins_as_if_fresh, Hpl in H1. cbn [plain_all plain mbind option_bind perform_all] in H1.
    cbn [perform] in *. destruct (reuse size cap spare m0) as [m|]; [|done]. exists m. split; [done|]. exact H1.
Qed.

(** Three bins, then two of them, then four: the last two are new ones and empty, although a bin filled at first
    stood there; an append that does not fit moves to a new array. *)
Example C97_example :
  (perform_all [Append 2 [7; 7; 7] 0; Pass 2 4 0; Append 1 [1; 2; 3; 4; 5] 3; Append 0 [9] 0; Append 1 [6] 0; Rewrite 1 [2; 4] [0; 0; 0; 0];
    Pass 4 2 1; Append 3 [8; 8; 8] 5] (new_bins 3 4) ≫= seen) = Some [[]; []; []; [8; 8; 8]] /\
  (perform_all [Append 2 [7; 7; 7] 0; Pass 2 4 0; Append 1 [1; 2; 3; 4; 5] 3; Append 0 [9] 0; Append 1 [6] 0; Rewrite 1 [2; 4] [0; 0; 0; 0]]
     (new_bins 3 4) ≫= seen) = Some [[9]; [2; 4]] /\
  perform_all [Pass 2 4 0; Append 2 [1] 0] (new_bins 3 4) = None.
Proof. split_and!; vm_compute; reflexivity. Qed.

Print Assumptions C97_bins_as_if_fresh.
Print Assumptions C97_pass_does_not_see_the_past.
