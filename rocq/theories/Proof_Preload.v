(** Proofs about the preloader: every list is in exactly one place, and together they hold what was sent. *)
From Verif Require Import Base Model_Preload.

(** An entry: 8 byte index and 32 byte hash *)
Definition pent_ok (e : pent) : Prop := 0 <= fst e < 2^64 /\ length (snd e) = 32%nat.

(** What was sent to an address, in order *)
Definition sent_to (log : list (Z * pent)) (a : Z) : list pent :=
  omap (fun p : Z * pent => if decide (fst p = a) then Some (snd p) else None) log.

Lemma sent_to_app l1 l2 a : sent_to (l1 ++ l2) a = sent_to l1 a ++ sent_to l2 a.
Proof. apply omap_app. Qed.
Lemma sent_to_same a e : sent_to [(a, e)] a = [e].
Proof. cbn. by rewrite decide_True. Qed.
Lemma sent_to_other a b e : a <> b -> sent_to [(a, e)] b = [].
Proof. intros. cbn. by rewrite decide_False. Qed.
Lemma sent_to_ok log a : Forall (fun p : Z * pent => pent_ok (snd p)) log -> Forall pent_ok (sent_to log a).
Proof. induction 1 as [|[b e] l H _ IH]; cbn; [done|]. case_decide; [constructor|]; done. Qed.

(** ** Files *)
Lemma ent_bytes_len e : pent_ok e -> length (ent_bytes e) = 40%nat.
Proof. intros [_ H]. unfold ent_bytes. rewrite app_length, le_enc_length, H. done. Qed.
Lemma list_bytes_len l : Forall pent_ok l -> length (list_bytes l) = (length l * 40)%nat.
Proof.
  induction 1 as [|e l He _ IH]; [done|]. unfold list_bytes in *. cbn [fmap list_fmap concat length].
  rewrite app_length, IH, ent_bytes_len by done. lia.
Qed.
Lemma dec_bytes l : Forall pent_ok l -> dec_list (length l) (list_bytes l) = l.
Proof.
  induction 1 as [|[i h] l He _ IH]; [done|]. unfold list_bytes in *. cbn [fmap list_fmap concat length dec_list].
  rewrite (drop_app_alt (ent_bytes (i, h)) _ 40) by (by rewrite ent_bytes_len). rewrite IH. f_equal.
  unfold ent_bytes. cbn [fst snd]. rewrite <- (app_assoc (le_enc 8 i)).
  rewrite take_app_alt by (by rewrite le_enc_length). rewrite drop_app_alt by (by rewrite le_enc_length).
  destruct He as [Hi Hh]. cbn [fst snd] in *.
  rewrite take_app_alt by done. f_equal. apply le_dec_enc_small. change (pow256 8) with (2^64). lia.
Qed.

(** ** One store *)
Definition es_ok (es : estore) : Prop :=
  (forall n a, a ∈ group es n <-> exists l, es_map es !! a = Some l /\ length l = n) /\
  (forall a l, es_map es !! a = Some l -> l <> []).

Lemma group_insert m g n n' x : group (mk_es m (<[n := x]> g)) n' = if decide (n = n') then x else default ∅ (g !! n').
Proof.
  unfold group. cbn [es_groups]. case_decide as E.
  - subst. by rewrite lookup_insert.
  - by rewrite lookup_insert_ne.
Qed.

Lemma es_empty_ok : es_ok es_empty.
Proof.
  split.
  - intros n a. unfold group, es_empty. cbn [es_groups es_map]. rewrite lookup_empty. cbn [default].
    split; [set_solver|]. intros (l & H & _). by rewrite lookup_empty in H.
  - intros a l H. cbn in H. by rewrite lookup_empty in H.
Qed.

Lemma add_if_listed_spec es a e : es_ok es ->
  match add_if_listed es a e with
  | None => es_map es !! a = None
  | Some es' => exists l, es_map es !! a = Some l /\ es_map es' = <[a := l ++ [e]]> (es_map es) /\ es_ok es'
  end.
Proof.
  intros [H1 H2]. unfold add_if_listed. destruct (es_map es !! a) as [l|] eqn:E; [|done].
  exists l. split; [done|]. split; [done|]. split.
  - intros n b. cbn [es_map]. rewrite group_insert.
    assert (G : forall k, default ∅ (<[length l:=group es (length l) ∖ {[a]}]> (es_groups es) !! k) =
      if decide (length l = k) then group es (length l) ∖ {[a]} else group es k).
    { intros k. case_decide as Ek; [subst; by rewrite lookup_insert|by rewrite lookup_insert_ne]. }
    destruct (decide (b = a)) as [->|Hb].
    + rewrite lookup_insert. case_decide as En.
      * split; [|set_solver]. intros _. exists (l ++ [e]). split; [done|]. rewrite app_length. cbn. lia.
      * rewrite G. split.
        -- case_decide; [set_solver|]. intros (l' & E' & L')%H1. congruence.
        -- intros (l' & [= <-] & L'). rewrite app_length in L'. cbn in L'. lia.
    + rewrite (lookup_insert_ne _ a b) by done. case_decide as En.
      * unfold group at 1. cbn [es_groups]. rewrite G, decide_False by lia. rewrite elem_of_union, elem_of_singleton.
        subst n. rewrite H1. naive_solver.
      * rewrite G. case_decide as El; [|apply H1]. rewrite elem_of_difference, elem_of_singleton, H1. subst n. naive_solver.
  - intros b l'. cbn [es_map]. destruct (decide (b = a)) as [->|Hb].
    + rewrite lookup_insert. intros [= <-]. by destruct l.
    + rewrite lookup_insert_ne by done. apply H2.
Qed.

Lemma add_new_spec es a l : es_ok es -> es_map es !! a = None -> l <> [] ->
  es_map (add_new_list es a l) = <[a := l]> (es_map es) /\ es_ok (add_new_list es a l).
Proof.
  intros [H1 H2] E Hl. split; [done|]. unfold add_new_list. split.
  - intros n b. rewrite group_insert. cbn [es_map]. fold (group es n). destruct (decide (b = a)) as [->|Hb].
    + rewrite lookup_insert. case_decide as En.
      * split; [|set_solver]. intros _. by exists l.
      * split; [intros (l' & E' & _)%H1; congruence|]. intros (l' & [= <-] & L'). done.
    + rewrite lookup_insert_ne by done. case_decide as En; [|apply H1]. subst n.
      rewrite elem_of_union, elem_of_singleton, H1. naive_solver.
  - intros b l'. cbn [es_map]. destruct (decide (b = a)) as [->|Hb].
    + rewrite lookup_insert. intros [= <-]. done.
    + rewrite lookup_insert_ne by done. apply H2.
Qed.

Lemma biggest_spec es :
  (biggest es = 0%nat \/ group es (biggest es) <> ∅) /\ (forall n, group es n <> ∅ -> n <= biggest es)%nat.
Proof.
  unfold biggest, group. generalize (es_groups es) as g. intros g.
  apply (map_fold_ind (fun (r : nat) (g : gmap nat (gset Z)) =>
    (r = 0%nat \/ default ∅ (g !! r) <> ∅) /\ (forall n, default ∅ (g !! n) <> ∅ -> n <= r)%nat)).
  - split; [by left|]. intros n. rewrite lookup_empty. done.
  - intros n x m r Hn [I1 I2]. split.
    + case_decide as Ex.
      * destruct I1 as [I1|I1]; [by left|]. right. destruct (decide (n = r)) as [->|]; [by rewrite Hn in I1|].
        by rewrite lookup_insert_ne.
      * destruct (Nat.max_spec n r) as [[L ->]|[L ->]].
        -- destruct I1 as [I1|I1]; [lia|]. right. by rewrite lookup_insert_ne by lia.
        -- right. by rewrite lookup_insert.
    + intros k. destruct (decide (n = k)) as [->|].
      * rewrite lookup_insert. cbn [default]. intros Hk. rewrite decide_False by done. lia.
      * rewrite lookup_insert_ne by done. intros Hk%I2. case_decide; lia.
Qed.

Lemma biggest_pos es : es_ok es -> (0 < biggest es)%nat -> exists a, a ∈ group es (biggest es).
Proof.
  intros _ Hb. destruct (biggest_spec es) as [[H|H] _]; [lia|]. by apply set_choose_L.
Qed.
Lemma biggest_zero es : es_ok es -> biggest es = 0%nat -> es_map es = ∅.
Proof.
  intros [H1 H2] Hb. apply map_empty. intros a. destruct (es_map es !! a) as [l|] eqn:E; [|done].
  destruct (biggest_spec es) as [_ H]. specialize (H (length l)). rewrite Hb in H.
  assert (a ∈ group es (length l)) by (apply H1; by exists l). pose proof (H2 a l E).
  destruct l; [done|]. cbn in *. assert (S (length l) <= 0)%nat; [|lia]. apply H. set_solver.
Qed.

Lemma extract_list_spec es n pick : es_ok es -> (0 < n)%nat ->
  match extract_list es n pick with
  | XList l es' => es_map es !! pick = Some l /\ es_map es' = delete pick (es_map es) /\ es_ok es'
  | XNone => group es n = ∅
  | XBad => pick ∉ group es n
  | XPanic => False
  end.
Proof.
  intros [H1 H2] Hn. unfold extract_list. case_decide as E0; [done|]. case_decide as Ep; [|done].
  destruct (proj1 (H1 _ _) Ep) as (l & E & L). rewrite E. split; [done|]. split; [done|]. split.
  - intros k b. rewrite group_insert. cbn [es_map]. fold (group es k). destruct (decide (b = pick)) as [->|Hb].
    + rewrite lookup_delete. split.
      * case_decide; [set_solver|]. intros (l' & E' & L')%H1. congruence.
      * intros (l' & ? & _). done.
    + rewrite lookup_delete_ne by done. case_decide as Ek; [|apply H1]. subst k.
      rewrite elem_of_difference, elem_of_singleton, H1. naive_solver.
  - intros b l'. cbn [es_map]. intros [_ H]%lookup_delete_Some. by eapply H2.
Qed.

(** ** The preloader *)
(** Where the entries sent to an address are *)
Definition place (s : pstate) (a : Z) (all : list pent) : Prop :=
  match es_map (pl_mem s) !! a, es_map (pl_cache s) !! a with
  | Some l, None => l = all /\ a ∉ pl_bits s /\ pl_files s !! a = None
  | None, Some l => l = all /\ a ∈ pl_bits s
  | None, None =>
      if decide (a ∈ pl_bits s) then all <> [] /\ pl_files s !! a = Some (list_bytes all)
      else all = [] /\ pl_files s !! a = None
  | Some _, Some _ => False
  end.
Definition pinv (log : list (Z * pent)) (s : pstate) : Prop :=
  es_ok (pl_mem s) /\ es_ok (pl_cache s) /\ forall a, place s a (sent_to log a).

Lemma pinv_init : pinv [] ps_init.
Proof.
  split; [apply es_empty_ok|]. split; [apply es_empty_ok|]. intros a. unfold place. cbn.
  rewrite !lookup_empty. rewrite decide_False by set_solver. done.
Qed.

Lemma place_ext s s' a all :
  es_map (pl_mem s') !! a = es_map (pl_mem s) !! a -> es_map (pl_cache s') !! a = es_map (pl_cache s) !! a ->
  (a ∈ pl_bits s' <-> a ∈ pl_bits s) -> pl_files s' !! a = pl_files s !! a -> place s a all -> place s' a all.
Proof.
  unfold place. intros -> -> Hb ->.
  destruct (es_map (pl_mem s) !! a), (es_map (pl_cache s) !! a); try tauto; [naive_solver..|].
  destruct (decide (a ∈ pl_bits s)), (decide (a ∈ pl_bits s')); tauto.
Qed.

Lemma delegate_inv log s a e : Forall (fun p : Z * pent => pent_ok (snd p)) log -> pinv log s ->
  exists s', delegate s a e = Some s' /\ pinv (log ++ [(a, e)]) s' /\ pl_files s' = pl_files s.
Proof.
  intros Ok (Hm & Hc & Hp). unfold delegate.
  pose proof (add_if_listed_spec (pl_mem s) a e Hm) as Am.
  destruct (add_if_listed (pl_mem s) a e) as [m|].
  { destruct Am as (l & El & Em & Om). eexists. split; [done|]. split; [|done]. split; [done|]. split; [done|].
    intros b. rewrite sent_to_app. destruct (decide (b = a)) as [->|Hb].
    - rewrite sent_to_same. specialize (Hp a). unfold place in *. cbn [pl_mem pl_cache pl_bits pl_files].
      rewrite Em, lookup_insert. rewrite El in Hp. destruct (es_map (pl_cache s) !! a); [done|].
      destruct Hp as (-> & ? & ?). done.
    - rewrite sent_to_other, app_nil_r by done. apply (place_ext s); [|done..|apply Hp].
      cbn [pl_mem]. by rewrite Em, lookup_insert_ne. }
  pose proof (add_if_listed_spec (pl_cache s) a e Hc) as Ac.
  destruct (add_if_listed (pl_cache s) a e) as [c|].
  { destruct Ac as (l & El & Em & Om). eexists. split; [done|]. split; [|done]. split; [done|]. split; [done|].
    intros b. rewrite sent_to_app. destruct (decide (b = a)) as [->|Hb].
    - rewrite sent_to_same. specialize (Hp a). unfold place in *. cbn [pl_mem pl_cache pl_bits pl_files].
      rewrite Em, lookup_insert, Am. rewrite El, Am in Hp. destruct Hp as (-> & ?). done.
    - rewrite sent_to_other, app_nil_r by done. apply (place_ext s); [done| |done..|apply Hp].
      cbn [pl_cache]. by rewrite Em, lookup_insert_ne. }
  pose proof (Hp a) as Pa. unfold place in Pa. rewrite Am, Ac in Pa. unfold load_list.
  case_decide as Eb.
  - destruct Pa as [Hne Hf]. rewrite Hf. pose proof (sent_to_ok log a Ok) as Oa.
    rewrite list_bytes_len by done. rewrite Nat.mod_mul, Nat.div_mul by lia. cbn [Nat.eqb negb].
    rewrite dec_bytes by done.
    destruct (add_new_spec (pl_cache s) a (sent_to log a ++ [e]) Hc Ac) as [Em Om]; [by destruct (sent_to log a)|].
    eexists. split; [done|]. split; [|done]. split; [done|]. split; [done|].
    intros b. rewrite sent_to_app. destruct (decide (b = a)) as [->|Hb].
    + rewrite sent_to_same. unfold place. cbn [pl_mem pl_cache pl_bits pl_files]. by rewrite Em, lookup_insert, Am.
    + rewrite sent_to_other, app_nil_r by done. apply (place_ext s); [done| |done..|apply Hp].
      cbn [pl_cache]. by rewrite Em, lookup_insert_ne.
  - destruct Pa as [Hne Hf].
    destruct (add_new_spec (pl_mem s) a [e] Hm Am) as [Em Om]; [done|].
    eexists. split; [done|]. split; [|done]. split; [done|]. split; [done|].
    intros b. rewrite sent_to_app. destruct (decide (b = a)) as [->|Hb].
    + rewrite sent_to_same, Hne. unfold place. cbn [pl_mem pl_cache pl_bits pl_files]. by rewrite Em, lookup_insert, Ac.
    + rewrite sent_to_other, app_nil_r by done. apply (place_ext s); [|done..|apply Hp].
      cbn [pl_mem]. by rewrite Em, lookup_insert_ne.
Qed.

(** The number of lists waiting *)
Definition waiting (s : pstate) : nat := (size (es_map (pl_mem s)) + size (es_map (pl_cache s)))%nat.

Lemma size_delete_lt (m : gmap Z (list pent)) a l : m !! a = Some l -> (S (size (delete a m)) = size m)%nat.
Proof.
  intros H. pose proof (map_size_delete a m) as E. rewrite H in E.
  pose proof (map_size_non_empty_iff m) as N. assert (size m <> 0)%nat; [|lia].
  apply N. intros ->. by rewrite lookup_empty in H.
Qed.

Lemma extract_inv log s pick : pinv log s ->
  match extract s pick with
  | EOk s' true => pinv log s' /\ S (waiting s') = waiting s
  | EOk s' false => s' = s /\ es_map (pl_mem s) = ∅ /\ es_map (pl_cache s) = ∅
  | EBad => True
  | EPanic => False
  end.
Proof.
  intros (Hm & Hc & Hp). unfold extract.
  destruct (biggest_spec (pl_mem s)) as [Bm _]. destruct (biggest_spec (pl_cache s)) as [Bc _].
  destruct (Nat.ltb_spec (biggest (pl_cache s)) (biggest (pl_mem s))).
  - pose proof (extract_list_spec (pl_mem s) (biggest (pl_mem s)) pick Hm ltac:(lia)) as X.
    destruct (extract_list _ _ _) as [l m| | |]; [|destruct Bm; [lia|done]|done|done].
    destruct X as (El & Em & Om). split.
    + split; [done|]. split; [done|]. intros b. destruct (decide (b = pick)) as [->|Hb].
      * specialize (Hp pick). unfold place in *. cbn [pl_mem pl_cache pl_bits pl_files set_bit write_file].
        rewrite Em, lookup_delete. rewrite El in Hp. destruct (es_map (pl_cache s) !! pick); [done|].
        rewrite decide_True by set_solver. destruct Hp as (<- & _). split; [by eapply (proj2 Hm)|]. by rewrite lookup_insert.
      * apply (place_ext s); cbn [pl_mem pl_cache pl_bits pl_files set_bit write_file]; [|done|set_solver| |apply Hp].
        -- by rewrite Em, lookup_delete_ne.
        -- by rewrite lookup_insert_ne.
    + unfold waiting. cbn [pl_mem pl_cache set_bit write_file]. rewrite Em. rewrite <- (size_delete_lt _ _ _ El). lia.
  - destruct (Nat.ltb_spec 0 (biggest (pl_cache s))).
    + pose proof (extract_list_spec (pl_cache s) (biggest (pl_cache s)) pick Hc ltac:(lia)) as X.
      destruct (extract_list _ _ _) as [l m| | |]; [|destruct Bc; [lia|done]|done|done].
      destruct X as (El & Em & Om). split.
      * split; [done|]. split; [done|]. intros b. destruct (decide (b = pick)) as [->|Hb].
        -- specialize (Hp pick). unfold place in *. cbn [pl_mem pl_cache pl_bits pl_files set_bit write_file].
           rewrite Em, lookup_delete. rewrite El in Hp. destruct (es_map (pl_mem s) !! pick); [done|].
           rewrite decide_True by set_solver. destruct Hp as (<- & _). split; [by eapply (proj2 Hc)|]. by rewrite lookup_insert.
        -- apply (place_ext s); cbn [pl_mem pl_cache pl_bits pl_files set_bit write_file]; [done| |set_solver| |apply Hp].
           ++ by rewrite Em, lookup_delete_ne.
           ++ by rewrite lookup_insert_ne.
      * unfold waiting. cbn [pl_mem pl_cache set_bit write_file]. rewrite Em. rewrite <- (size_delete_lt _ _ _ El). lia.
    + split; [done|]. split; apply biggest_zero; (done || lia).
Qed.

(** Some list can always be chosen *)
Lemma extract_possible log s : pinv log s -> exists pick s' w, extract s pick = EOk s' w.
Proof.
  intros I. assert (forall pick, extract s pick <> EPanic) as NP.
  { intros pick E. pose proof (extract_inv log s pick I) as X. by rewrite E in X. }
  destruct I as (Hm & Hc & _).
  destruct (decide (biggest (pl_cache s) < biggest (pl_mem s))%nat) as [L|L].
  - destruct (biggest_pos (pl_mem s) Hm ltac:(lia)) as [a Ha]. exists a. specialize (NP a). revert NP. unfold extract.
    destruct (Nat.ltb_spec (biggest (pl_cache s)) (biggest (pl_mem s))); [|lia].
    pose proof (extract_list_spec (pl_mem s) (biggest (pl_mem s)) a Hm ltac:(lia)) as X.
    destruct (extract_list _ _ _); [eauto|eauto|done|done].
  - destruct (decide (0 < biggest (pl_cache s))%nat) as [L'|L'].
    + destruct (biggest_pos (pl_cache s) Hc ltac:(lia)) as [a Ha]. exists a. specialize (NP a). revert NP. unfold extract.
      destruct (Nat.ltb_spec (biggest (pl_cache s)) (biggest (pl_mem s))); [lia|].
      destruct (Nat.ltb_spec 0 (biggest (pl_cache s))); [|lia].
      pose proof (extract_list_spec (pl_cache s) (biggest (pl_cache s)) a Hc ltac:(lia)) as X.
      destruct (extract_list _ _ _); [eauto|eauto|done|done].
    + exists 0. unfold extract. destruct (Nat.ltb_spec (biggest (pl_cache s)) (biggest (pl_mem s))); [lia|].
      destruct (Nat.ltb_spec 0 (biggest (pl_cache s))); [lia|]. eauto.
Qed.

(** What is on disk when nothing is waiting *)
Lemma drained_files log s a : pinv log s -> es_map (pl_mem s) = ∅ -> es_map (pl_cache s) = ∅ ->
  pl_files s !! a = match sent_to log a with [] => None | l => Some (list_bytes l) end.
Proof.
  intros (_ & _ & H) E1 E2. specialize (H a). unfold place in H. rewrite E1, E2, !lookup_empty in H.
  case_decide; destruct H as [H1 H2]; rewrite H2; [|by rewrite H1]. by destruct (sent_to log a).
Qed.

Definition delegated (ops : list pop) : list (Z * pent) :=
  omap (fun o => match o with PDelegate a e => Some (a, e) | PExtract _ => None end) ops.

Lemma prun_inv ops : forall log s s', Forall (fun p : Z * pent => pent_ok (snd p)) (log ++ delegated ops) ->
  pinv log s -> prun s ops = Some s' -> pinv (log ++ delegated ops) s'.
Proof.
  induction ops as [|[a e|p] ops IH]; intros log s s' Ok I R; cbn [prun] in R.
  - injection R as <-. cbn. by rewrite app_nil_r.
  - change (delegated (PDelegate a e :: ops)) with ((a, e) :: delegated ops) in *.
    destruct (delegate_inv log s a e) as (s1 & E & I1 & _); [by apply Forall_app in Ok as [? _]|done|].
    rewrite E in R. replace (log ++ (a, e) :: delegated ops) with ((log ++ [(a, e)]) ++ delegated ops) by (by rewrite <- app_assoc).
    apply (IH _ s1); [by rewrite <- app_assoc|done|done].
  - change (delegated (PExtract p :: ops)) with (delegated ops) in *.
    pose proof (extract_inv log s p I) as X. destruct (extract s p) as [s1 [|]| |]; [|..|done|done].
    + destruct X as [X _]. by apply (IH _ s1).
    + destruct X as (-> & _). by apply (IH _ s).
Qed.

(** ** The job *)
Lemma rounds_inv k s n s' log : rounds k s n s' -> pinv log s ->
  pinv log s' /\ ((n < k)%nat -> es_map (pl_mem s') = ∅ /\ es_map (pl_cache s') = ∅).
Proof.
  induction 1 as [s|k s p s' E|k s p s' n s'' E _ IH]; intros I; [split; [done|lia]| |];
    pose proof (extract_inv log s p I) as X; rewrite E in X.
  - destruct X as (-> & ? & ?). done.
  - destruct X as [X _]. destruct (IH X) as [? H]. split; [done|]. intros. apply H. lia.
Qed.

Lemma jsteps_inv es s ls s' log : jsteps s ls s' -> Forall (fun p : Z * pent => pent_ok (snd p)) es ->
  es = log ++ j_todo s -> pinv log (j_pl s) -> exists log', es = log' ++ j_todo s' /\ pinv log' (j_pl s').
Proof.
  intros R Ok. revert log. induction R as [s|s l s1 ls s2 St _ IH]; intros log E I; [by exists log|].
  destruct St; cbn [j_todo j_pl] in *.
  - destruct (delegate_inv log pl a e) as (s' & E' & I' & _); [subst es; by apply Forall_app in Ok as [? _]|done|].
    rewrite E' in H. injection H as <-. apply (IH (log ++ [(a, e)])); [|done]. by rewrite <- app_assoc.
  - by apply (IH log).
  - by apply (IH log).
  - by apply (IH log).
  - by apply (IH log).
  - apply (IH log); [done|]. by eapply rounds_inv.
Qed.
