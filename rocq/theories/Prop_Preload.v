(** Properties C76 and C77: the preloader that gathers hashes in memory and files, and the job driving it. *)
From Verif Require Import Base Model_Preload Proof_Preload.

Local Notation entries_ok l := (Forall (fun p : Z * pent => pent_ok (snd p)) l).

(** The files wanted for what was sent: for each address one file with its entries (index, hash) in order,
    and no file where nothing was sent. *)
Definition complete (log : list (Z * pent)) (files : gmap Z (list Z)) : Prop :=
  forall a, files !! a = match sent_to log a with
                         | [] => None
                         | l => Some (concat ((fun e : pent => le_enc 8 (fst e) ++ snd e) <$> l))
                         end.

(** ** C76 *)
(** As long as no two calls overlap: whatever was delegated and extracted in whatever order, once an
    extraction finds nothing left the files are complete. *)
Theorem C76_nothing_lost_partial ops s p s' :
  entries_ok (delegated ops) -> prun ps_init ops = Some s -> extract s p = EOk s' false ->
  complete (delegated ops) (pl_files s').
Proof.
  intros Ok R E a. pose proof (prun_inv ops [] ps_init s Ok pinv_init R) as I. cbn [app] in I.
  pose proof (extract_inv _ s p I) as X. rewrite E in X. destruct X as (-> & E1 & E2).
  by rewrite (drained_files _ _ _ I E1 E2).
Qed.

(** No call fails on the way: delegating always succeeds, extracting never panics and some list can be
    chosen. *)
Theorem C76_calls_succeed ops s :
  entries_ok (delegated ops) -> prun ps_init ops = Some s ->
  (forall a e, is_Some (delegate s a e)) /\ (forall p, extract s p <> EPanic) /\
  (exists p s' w, extract s p = EOk s' w).
Proof.
  intros Ok R. pose proof (prun_inv ops [] ps_init s Ok pinv_init R) as I. cbn [app] in I. split; [|split].
  - intros a e. destruct (delegate_inv _ s a e Ok I) as (s' & -> & _). by eexists.
  - intros p E. pose proof (extract_inv _ s p I) as X. by rewrite E in X.
  - by eapply extract_possible.
Qed.

(** Extracting again and again comes to an end, with complete files, whichever lists are chosen. *)
Theorem C76_draining_ends ops s :
  entries_ok (delegated ops) -> prun ps_init ops = Some s ->
  exists picks s', prun s (PExtract <$> picks) = Some s' /\ complete (delegated ops) (pl_files s').
Proof.
  intros Ok R. pose proof (prun_inv ops [] ps_init s Ok pinv_init R) as I. cbn [app] in I. clear R.
  remember (waiting s) as n eqn:En. revert s En I. induction n as [|n IH]; intros s En I;
    destruct (extract_possible _ s I) as (p & s' & w & E); pose proof (extract_inv _ s p I) as X; rewrite E in X.
  - destruct w; [destruct X; lia|]. destruct X as (-> & E1 & E2). exists [], s. split; [done|].
    intros a. by rewrite (drained_files _ _ _ I E1 E2).
  - destruct w.
    + destruct X as [I' W]. destruct (IH s' ltac:(lia) I') as (ps & s2 & R2 & C2).
      exists (p :: ps), s2. split; [|done]. rewrite fmap_cons. cbn [prun]. by rewrite E.
    + destruct X as (-> & E1 & E2). exists [], s. split; [done|].
      intros a. by rewrite (drained_files _ _ _ I E1 E2).
Qed.
Theorem C76_at_most_one_file_per_list ops s picks s' :
  entries_ok (delegated ops) -> prun ps_init ops = Some s -> prun s (PExtract <$> picks) = Some s' ->
  (waiting s <= length picks)%nat -> complete (delegated ops) (pl_files s').
Proof.
  intros Ok R. pose proof (prun_inv ops [] ps_init s Ok pinv_init R) as I. cbn [app] in I. clear R.
  revert s I. induction picks as [|p picks IH]; intros s I R L.
  - injection R as <-. cbn [length] in L. unfold waiting in L. intros a.
    assert (es_map (pl_mem s) = ∅) by (apply map_size_empty_inv; lia).
    assert (es_map (pl_cache s) = ∅) by (apply map_size_empty_inv; lia).
    by rewrite (drained_files _ _ a I).
  - rewrite fmap_cons in R. cbn [prun] in R. cbn [length] in L. pose proof (extract_inv _ s p I) as X.
    destruct (extract s p) as [s1 [|]| |]; [|..|done|done].
    + destruct X as [I1 W]. apply (IH s1); [done|done|lia].
    + destruct X as (-> & E1 & E2). apply (IH s); [done|done|]. unfold waiting. rewrite E1, E2, map_size_empty. lia.
Qed.

(** The two goroutines of the job do overlap: the extracting one takes a list out of memory, and before it
    has written it the other starts a new list for the same address.  Everything ends quietly, and the
    first entry is in no file. *)
Definition ex_e (i : Z) : pent := (i, replicate 32 i).
Definition ex_ops : list cop :=
  [CD (Some (7, ex_e 1)); CD None; CD None; CD None;          (* delegate 1 *)
   CE 0; CE 0; CE 7;                                         (* take its list *)
   CD (Some (7, ex_e 2)); CD None; CD None; CD None;          (* delegate 2 *)
   CE 0; CE 0;                                               (* write the first list *)
   CE 0; CE 0; CE 7; CE 0; CE 0].                            (* take and write the second *)
Lemma extract_nothing s p : biggest (pl_mem s) = 0%nat -> biggest (pl_cache s) = 0%nat -> extract s p = EOk s false.
Proof. unfold extract. intros -> ->. reflexivity. Qed.
Theorem C76_overlapping_calls_refuted : exists c,
  crun c_init ex_ops = Some c /\ c_d c = DIdle /\ c_e c = EIdle /\ (forall p, extract (c_pl c) p = EOk (c_pl c) false) /\
  entries_ok [(7, ex_e 1); (7, ex_e 2)] /\ ~ complete [(7, ex_e 1); (7, ex_e 2)] (pl_files (c_pl c)) /\
  pl_files (c_pl c) !! 7 = Some (list_bytes [ex_e 2]).
Proof.
  assert (H : (fun c => (c_d c, c_e c, biggest (pl_mem (c_pl c)), biggest (pl_cache (c_pl c)), pl_files (c_pl c) !! 7)) <$>
    crun c_init ex_ops = Some (DIdle, EIdle, 0%nat, 0%nat, Some (list_bytes [ex_e 2]))) by (vm_compute; reflexivity).
  apply fmap_Some in H as (c & E & H). exists c. split; [exact E|]. clear E.
  pose proof (f_equal (fun x => x.1.1.1.1) H) as H1. pose proof (f_equal (fun x => x.1.1.1.2) H) as H2.
  pose proof (f_equal (fun x => x.1.1.2) H) as H3. pose proof (f_equal (fun x => x.1.2) H) as H4.
  pose proof (f_equal snd H) as H5. clear H. cbn [fst snd] in H1, H2, H3, H4, H5. symmetry in H1, H2, H3, H4, H5.
  split; [exact H1|]. split; [exact H2|]. split; [intros p; by apply extract_nothing|]. split.
  { repeat constructor; vm_compute; congruence. }
  split; [|exact H5]. intros C. specialize (C 7). rewrite H5 in C. vm_compute in C. discriminate C.
Qed.

(** ** C77 *)
(** If the memory limit is never hit, the job ends without having written anything. *)
Theorem C77_no_pressure_writes_nothing es ls s :
  entries_ok es -> jsteps (j_init es) ls s -> JPressure ∉ ls -> j_ext s = JDone ->
  pl_files (j_pl s) = ∅ /\ j_todo s = [].
Proof.
  intros Ok R.
  assert (G : forall s0 log, jsteps s0 ls s -> JPressure ∉ ls -> es = log ++ j_todo s0 -> pinv log (j_pl s0) ->
    pl_files (j_pl s0) = ∅ ->
    (j_ext s0 = JWait \/ (j_sent s0 = true /\ j_todo s0 = [] /\ (j_ext s0 = JTest 0 \/ j_ext s0 = JDone))) ->
    j_ext s = JDone -> pl_files (j_pl s) = ∅ /\ j_todo s = []).
  { clear R. induction ls as [|l ls IH]; intros s0 log R NP E I F H D; inversion R; subst.
    - destruct H as [H|(_ & ? & _)]; [congruence|done].
    - apply not_elem_of_cons in NP as [Np1 Np2].
      match goal with St : jstep _ _ _ |- _ => destruct St; cbn [j_pl j_todo j_ext j_sent] in * end.
      + destruct (delegate_inv log pl a e) as (s' & E' & I' & F'); [by apply Forall_app in Ok as [? _]|done|].
        assert (Some pl' = Some s') as [= ->] by congruence.
        refine (IH _ (log ++ [(a, e)]) _ Np2 _ _ _ _ D); [eassumption|cbn; by rewrite <- app_assoc|exact I'|cbn; congruence|].
        cbn. destruct H as [H|(? & _)]; [by left|done].
      + done.
      + refine (IH _ log _ Np2 _ _ _ _ D); [eassumption|done|exact I|exact F|]. cbn. naive_solver.
      + refine (IH _ log _ Np2 _ _ _ _ D); [eassumption|done|exact I|exact F|]. cbn. naive_solver.
      + refine (IH _ log _ Np2 _ _ _ _ D); [eassumption|done|exact I|exact F|]. cbn. naive_solver.
      + exfalso. destruct H as [H|(-> & _ & [H|H])]; [done| |done]. injection H as ->.
        match goal with X : _ \/ _ |- _ => destruct X as [?|?]; [done|lia] end. }
  intros NP D. apply (G (j_init es) [] R NP); [done|apply pinv_init|done|by left|done].
Qed.

(** Such executions exist for every list of entries: all are sent, and the job ends. *)
Lemma all_sent es : forall log pl, entries_ok (log ++ es) -> pinv log pl ->
  exists pl', jsteps (mk_js pl es false false JWait) ((fun _ => JSend) <$> es) (mk_js pl' [] false false JWait).
Proof.
  induction es as [|[a e] es IH]; intros log pl Ok I; [exists pl; constructor|].
  destruct (delegate_inv log pl a e) as (p1 & E & I1 & _); [by apply Forall_app in Ok as [? _]|done|].
  destruct (IH (log ++ [(a, e)]) p1) as (pl' & R); [by rewrite <- app_assoc|done|].
  exists pl'. rewrite fmap_cons. eapply jsteps_cons; [by constructor|done].
Qed.
Lemma jsteps_app s1 l1 s2 l2 s3 : jsteps s1 l1 s2 -> jsteps s2 l2 s3 -> jsteps s1 (l1 ++ l2) s3.
Proof. induction 1; [done|]. intros. cbn. econstructor; eauto. Qed.

Theorem C77_job_writes_everything_refuted : forall es, entries_ok es -> es <> [] ->
  exists ls s, jsteps (j_init es) ls s /\ j_ext s = JDone /\ pl_files (j_pl s) = ∅ /\ ~ complete es (pl_files (j_pl s)).
Proof.
  intros es Ok Hne. destruct (all_sent es [] ps_init Ok pinv_init) as (pl & R).
  set (s := mk_js pl [] true true JDone).
  assert (R' : jsteps (j_init es) (((fun _ => JSend) <$> es) ++ [JSentAll; JWakeEnd; JLeave]) s).
  { eapply jsteps_app; [exact R|]. do 3 (eapply jsteps_cons; [constructor|]). constructor. }
  eexists _, s. split; [exact R'|]. split; [done|].
  assert (F : pl_files pl = ∅).
  { apply (C77_no_pressure_writes_nothing es _ s Ok R'); [|done].
    rewrite elem_of_app, elem_of_list_fmap. intros [(? & ? & _)|X]; [done|]. set_solver. }
  cbn [j_pl s]. split; [exact F|]. intros C. destruct es as [|[a e] es]; [done|]. specialize (C a).
  rewrite F, lookup_empty in C. cbn [sent_to omap list_omap fst snd] in C. rewrite decide_True in C by done. discriminate C.
Qed.

(** Entries are also lost after the limit has been hit: if the extracting goroutine has just found nothing
    to write when the last hashes are sent, it leaves without writing them. *)
Lemma round_size_S : exists k, round_size = S (S k).
Proof.
  exists (Z.to_nat 9998). unfold round_size. replace 10000 with (Z.succ (Z.succ 9998)) by lia.
  rewrite Z2Nat.inj_succ by lia. rewrite Z2Nat.inj_succ by lia. reflexivity.
Qed.
(** States of a small run *)
Definition get_d (o : option pstate) : pstate := default ps_init o.
Definition get_x (r : eres) : pstate := match r with EOk s _ => s | _ => ps_init end.
Definition wrote (r : eres) : bool := match r with EOk _ w => w | _ => false end.
Lemma get_d_eq (o : option pstate) : (match o with Some _ => true | None => false end) = true -> o = Some (get_d o).
Proof. by destruct o. Qed.
Lemma get_x_eq r : wrote r = true -> r = EOk (get_x r) true.
Proof. by destruct r as [? []| |]. Qed.
Definition ex_p1 : pstate := get_d (delegate ps_init 7 (ex_e 1)).
Definition ex_p2 : pstate := get_x (extract ex_p1 7).
Definition ex_p4 : pstate := get_d (delegate ex_p2 9 (ex_e 2)).
Definition ex_p5 : pstate := get_x (extract ex_p4 9).
Lemma ex_1 : delegate ps_init 7 (ex_e 1) = Some ex_p1.
Proof. apply get_d_eq. vm_compute. reflexivity. Qed.
Lemma ex_2 : extract ex_p1 7 = EOk ex_p2 true.
Proof. apply get_x_eq. vm_compute. reflexivity. Qed.
Lemma ex_3 : extract ex_p2 0 = EOk ex_p2 false.
Proof. apply extract_nothing; vm_compute; reflexivity. Qed.
Lemma ex_4 : delegate ex_p2 9 (ex_e 2) = Some ex_p4.
Proof. apply get_d_eq. vm_compute. reflexivity. Qed.
Lemma ex_5 : extract ex_p4 9 = EOk ex_p5 true.
Proof. apply get_x_eq. vm_compute. reflexivity. Qed.
Lemma ex_6 : extract ex_p5 0 = EOk ex_p5 false.
Proof. apply extract_nothing; vm_compute; reflexivity. Qed.
Lemma ex_7 : pl_files ex_p4 !! 9 = None.
Proof. vm_compute. reflexivity. Qed.
Global Opaque ex_p1 ex_p2 ex_p4 ex_p5.
Theorem C77_after_pressure_refuted : exists es ls s,
  entries_ok es /\ jsteps (j_init es) ls s /\ j_ext s = JDone /\ ls = [JSend; JPressure; JExtract; JExtract; JSend; JSentAll; JLeave] /\
  ~ complete es (pl_files (j_pl s)).
Proof.
  set (es := [(7, ex_e 1); (9, ex_e 2)]).
  destruct round_size_S as [k K].
  pose proof ex_1 as E1. pose proof ex_2 as E2. pose proof ex_3 as E3. pose proof ex_4 as E4.
  eexists es, _, (mk_js ex_p4 [] true true JDone). split; [|split; [|split; [reflexivity|split; [reflexivity|]]]].
  - repeat constructor; vm_compute; congruence.
  - eapply jsteps_cons; [apply js_send, E1|].
    eapply jsteps_cons; [apply js_pressure|].
    eapply jsteps_cons. { apply (js_extract _ _ _ _ 0 1 ex_p2); [by left|]. rewrite K. eapply rounds_some; [exact E2|]. eapply rounds_none, E3. }
    eapply jsteps_cons. { apply (js_extract _ _ _ _ 1 0 ex_p2); [by left|]. rewrite K. eapply rounds_none, E3. }
    eapply jsteps_cons; [apply js_send, E4|].
    eapply jsteps_cons; [apply js_sent|]. eapply jsteps_cons; [apply js_leave|]. constructor.
  - intros C. specialize (C 9). cbn [j_pl] in C. rewrite ex_7 in C. vm_compute in C. discriminate C.
Qed.

(** If the extracting goroutine still had something to write in its last turn before the sending was over,
    the job leaves complete files. *)
Theorem C77_job_writes_everything_partial es ls1 s1 s2 n ls2 s :
  entries_ok es -> jsteps (j_init es) ls1 s1 -> jstep s1 JSentAll s2 -> j_ext s2 = JTest n -> (0 < n)%nat ->
  jsteps s2 ls2 s -> j_ext s = JDone -> complete es (pl_files (j_pl s)).
Proof.
  intros Ok R1 St X2 Hn R2 D.
  destruct (jsteps_inv es _ _ _ [] R1 Ok eq_refl pinv_init) as (log & Elog & I).
  inversion St; subst. cbn [j_todo j_pl] in *. rewrite app_nil_r in *.
  assert (G : forall s0, jsteps s0 ls2 s -> j_todo s0 = [] -> j_sent s0 = true -> pinv log (j_pl s0) ->
    (exists k, j_ext s0 = JTest k /\ (0 < k)%nat) \/
    (j_ext s0 <> JWait /\ es_map (pl_mem (j_pl s0)) = ∅ /\ es_map (pl_cache (j_pl s0)) = ∅) ->
    complete log (pl_files (j_pl s))).
  { clear -D. intros s0 R. induction R as [s|s l s1 ls s2 St R IH]; intros T S I H.
    - destruct H as [(k & H & _)|(_ & H1 & H2)]; [congruence|]. intros a. by rewrite (drained_files _ _ a I H1 H2).
    - destruct St; cbn [j_todo j_sent j_pl j_ext] in *; try done.
      + apply IH; [done|done|done|done|]. destruct H as [(k & H & _)|(H & _)]; [done|]. done.
      + apply IH; [done|done|done|done|]. destruct H as [(k & H & ?)|(_ & H)]; [injection H as <-; lia|]. by right.
      + match goal with Q : rounds _ _ _ _ |- _ => destruct (rounds_inv _ _ _ _ log Q I) as [I' Z] end.
        apply IH; [done|done|done|done|]. destruct (decide (0 < n)%nat) as [P|P]; [left; by exists n|].
        right. split; [done|]. apply Z. assert (0 < round_size)%nat; [|lia]. unfold round_size. lia. }
  apply (G _ R2); [done|done|exact I|]. left. by exists n.
Qed.

(** Two entries for one address and one for another, with extractions in between. *)
Example C76_example :
  (fun s => (biggest (pl_mem s), biggest (pl_cache s), pl_files s !! 7, pl_files s !! 9)) <$>
  prun ps_init [PDelegate 7 (ex_e 1); PDelegate 9 (ex_e 2); PExtract 7; PDelegate 7 (ex_e 3); PExtract 7; PExtract 9]
  = Some (0%nat, 0%nat, Some (list_bytes [ex_e 1; ex_e 3]), Some (list_bytes [ex_e 2])).
Proof.
  vm_compute. reflexivity.
Qed.
(** A run in which the extraction is under way when the sending ends. *)
Example C77_example : exists s1 s2 s, jsteps (j_init [(7, ex_e 1); (9, ex_e 2)]) [JSend; JPressure; JExtract; JSend] s1 /\
  jstep s1 JSentAll s2 /\ j_ext s2 = JTest 1 /\ jsteps s2 [JExtract; JExtract; JLeave] s /\ j_ext s = JDone.
Proof.
  destruct round_size_S as [k K].
  pose proof ex_1 as E1. pose proof ex_2 as E2. pose proof ex_3 as E3. pose proof ex_4 as E4. pose proof ex_5 as E5. pose proof ex_6 as E6.
  eexists _, _, (mk_js ex_p5 [] true true JDone). split; [|split; [apply js_sent|split; [reflexivity|split; [|reflexivity]]]].
  - eapply jsteps_cons; [apply js_send, E1|].
    eapply jsteps_cons; [apply js_pressure|].
    eapply jsteps_cons. { apply (js_extract _ _ _ _ 0 1 ex_p2); [by left|]. rewrite K. eapply rounds_some; [exact E2|]. eapply rounds_none, E3. }
    eapply jsteps_cons; [apply js_send, E4|]. constructor.
  - eapply jsteps_cons. { apply (js_extract _ _ _ _ 1 1 ex_p5); [right; lia|]. rewrite K. eapply rounds_some; [exact E5|]. eapply rounds_none, E6. }
    eapply jsteps_cons. { apply (js_extract _ _ _ _ 1 0 ex_p5); [right; lia|]. rewrite K. eapply rounds_none, E6. }
    eapply jsteps_cons; [apply js_leave|]. constructor.
Qed.

Print Assumptions C76_nothing_lost_partial.
Print Assumptions C76_calls_succeed.
Print Assumptions C76_draining_ends.
Print Assumptions C76_at_most_one_file_per_list.
Print Assumptions C76_overlapping_calls_refuted.
Print Assumptions C77_no_pressure_writes_nothing.
Print Assumptions C77_job_writes_everything_refuted.
Print Assumptions C77_after_pressure_refuted.
Print Assumptions C77_job_writes_everything_partial.
