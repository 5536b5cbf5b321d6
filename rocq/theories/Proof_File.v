From Verif Require Import Base Model_File Spec_File.

(** ** The specification content and [file_write] agree *)
Lemma spec_content_length init ws : length (spec_content init ws) = spec_size init ws.
Proof. unfold spec_content. rewrite map_length, seq_length. done. Qed.

Lemma spec_content_lookup init ws i :
  spec_content init ws !! i = if decide (i < spec_size init ws)%nat then Some (spec_byte init ws i) else None.
Proof.
  unfold spec_content. rewrite list_lookup_fmap.
  destruct (decide _) as [H|H].
  - rewrite lookup_seq_lt by done. done.
  - rewrite lookup_seq_ge by lia. done.
Qed.

Lemma spec_content_nil init : spec_content init [] = init.
Proof.
  apply list_eq. intros i. rewrite spec_content_lookup. cbn [spec_size spec_byte].
  destruct (decide _) as [H|H].
  - destruct (lookup_lt_is_Some_2 init i H) as [b Hb]. rewrite Hb. done.
  - symmetry. apply lookup_ge_None_2. lia.
Qed.

Lemma spec_byte_beyond init ws i : (spec_size init ws <= i)%nat -> spec_byte init ws i = 0.
Proof.
  induction ws as [|[off d] ws IH]; cbn [spec_size spec_byte]; intros H.
  - rewrite lookup_ge_None_2 by lia. done.
  - destruct d as [|b d].
    + destruct (decide _) as [Hd|]; [cbn in Hd; lia|]. apply IH. lia.
    + destruct (decide _) as [Hd|]; [lia|]. apply IH. lia.
Qed.

Lemma spec_content_cons init ws off d :
  spec_content init ((off, d) :: ws) = file_write (spec_content init ws) off d.
Proof.
  apply list_eq. intros i. rewrite spec_content_lookup.
  destruct d as [|b d].
  - cbn [file_write]. rewrite spec_content_lookup. cbn [spec_size spec_byte length].
    destruct (decide (off <= i < off + 0)%nat); [lia|]. done.
  - remember (b :: d) as dd eqn:Edd. assert (dd <> []) as Hne by (subst; done).
    assert (spec_size init ((off, dd) :: ws) = (spec_size init ws `max` (off + length dd))%nat) as ->
      by (subst; done).
    cbn [spec_byte].
    destruct (decide (off <= i < off + length dd)%nat) as [Hin|Hout].
    + destruct (decide _); [|lia].
      destruct (lookup_lt_is_Some_2 dd (i - off)%nat) as [x Hx]; [lia|].
      rewrite Hx. replace i with (off + (i - off))%nat at 1 by lia.
      rewrite file_write_in by lia. done.
    + destruct (decide (i < off)%nat) as [Hlt|Hge].
      * destruct (decide _) as [Hd|Hd]; [|lia].
        destruct (decide (i < spec_size init ws)%nat) as [Hs|Hs].
        -- rewrite file_write_before by (rewrite ?spec_content_length; lia).
           rewrite spec_content_lookup. destruct (decide _); [done|lia].
        -- rewrite file_write_gap by (rewrite ?spec_content_length; done || lia).
           rewrite spec_byte_beyond by lia. done.
      * rewrite file_write_after by lia. rewrite spec_content_lookup.
        destruct (decide (i < spec_size init ws)%nat), (decide (i < _ `max` _)%nat); done || lia.
Qed.

Lemma spec_read_content init ws off n :
  spec_read init ws off n = take n (drop off (spec_content init ws)).
Proof.
  apply list_eq. intros i. unfold spec_read.
  rewrite (list_lookup_fmap (spec_byte init ws)).
  destruct (decide (i < n)%nat) as [Hi|Hi].
  - rewrite lookup_take, lookup_drop, spec_content_lookup by done.
    destruct (decide (off + i < spec_size init ws)%nat) as [H|H].
    + rewrite lookup_seq_lt by lia. done.
    + rewrite lookup_seq_ge by lia. done.
  - rewrite lookup_take_ge by lia. rewrite lookup_seq_ge by lia. done.
Qed.

Lemma apply_log_app f l1 l2 : apply_log f (l1 ++ l2) = apply_log (apply_log f l1) l2.
Proof. apply fold_left_app. Qed.

(** ** Simulation invariant *)
Definition ao_inv (a : ao_file) (init : list Z) (ws : writes) : Prop :=
  os_init (ao_os a) = init /\
  os_content (ao_os a) ++ default [] (ao_buf a) = spec_content init ws /\
  ao_total a = spec_size init ws /\
  match ao_buf a with
  | Some b => ao_next a = ao_total a /\ os_pos (ao_os a) = length (os_content (ao_os a))
  | None => True
  end.

Lemma os_write_at_content o off d : os_content (os_write_at o off d) = file_write (os_content o) off d.
Proof. unfold os_content, os_write_at. cbn [os_init os_log]. rewrite apply_log_app. done. Qed.

Lemma os_write_content o d :
  os_pos o = length (os_content o) ->
  os_content (os_write o d) = os_content o ++ d /\ os_pos (os_write o d) = length (os_content (os_write o d)).
Proof.
  intros Hp. assert (os_content (os_write o d) = os_content o ++ d) as E.
  { unfold os_write, os_content at 1. cbn [os_init os_log]. rewrite apply_log_app.
    fold (os_content o). rewrite Hp. apply file_write_append. }
  split; [done|]. rewrite E, app_length. cbn. lia.
Qed.

Lemma bufio_flush_content o b :
  os_pos o = length (os_content o) ->
  os_content (bufio_flush o b) = os_content o ++ b /\
  os_pos (bufio_flush o b) = length (os_content (bufio_flush o b)) /\
  os_init (bufio_flush o b) = os_init o.
Proof.
  intros Hp. destruct b as [|x b]; cbn [bufio_flush].
  - rewrite app_nil_r. done.
  - destruct (os_write_content o (x :: b) Hp) as [H1 H2]. done.
Qed.

Lemma bufio_write_content cap o b p o' b' :
  os_pos o = length (os_content o) ->
  bufio_write cap o b p = (o', b') ->
  os_content o' ++ b' = os_content o ++ b ++ p /\
  os_pos o' = length (os_content o') /\ os_init o' = os_init o.
Proof.
  intros Hp. unfold bufio_write.
  destruct (decide _) as [Hlt|Hge].
  - destruct b as [|x b].
    + intros [= <- <-]. destruct (os_write_content o p Hp) as [H1 H2].
      rewrite app_nil_r. done.
    + remember (x :: b) as bb.
      destruct (bufio_flush_content o (bb ++ take (cap - length bb) p) Hp) as (H1 & H2 & H3).
      destruct (decide _) as [Hl|Hg]; intros [= <- <-].
      * destruct (os_write_content _ (drop (cap - length bb) p) H2) as [H4 H5].
        split_and!; [|done|done].
        rewrite app_nil_r, H4, H1, <- !app_assoc, take_drop. done.
      * split_and!; [|done|done]. rewrite H1, <- !app_assoc, take_drop. done.
  - intros [= <- <-]. split_and!; done.
Qed.

Lemma ao_flush_inv a init ws :
  ao_inv a init ws -> ao_inv (ao_flush a) init ws /\ ao_buf (ao_flush a) = None /\
                      os_content (ao_os (ao_flush a)) = spec_content init ws.
Proof.
  intros (Hi & Hc & Ht & Hb). unfold ao_flush, ao_inv. destruct (ao_buf a) as [b|] eqn:E.
  - destruct Hb as [Hn Hp]. destruct (bufio_flush_content (ao_os a) b Hp) as (H1 & H2 & H3).
    cbn [default ao_os ao_buf ao_next ao_total]. cbn [default from_option id] in *.
    rewrite app_nil_r, H1. split_and!; try done; congruence.
  - rewrite E. cbn [default from_option id] in *. rewrite app_nil_r in *. done.
Qed.

Lemma ao_write_inv cap a init ws d off :
  ao_inv a init ws -> d <> [] -> ao_inv (ao_write_at cap a d off) init ((off, d) :: ws).
Proof.
  intros Hinv Hd.
  assert (spec_size init ((off, d) :: ws) = (spec_size init ws `max` (off + length d))%nat) as Hsz
    by (destruct d; done).
  pose proof (ao_flush_inv a init ws Hinv) as (Hf & Hfb & Hfc).
  destruct Hinv as (Hi & Hc & Ht & Hb).
  unfold ao_write_at. destruct (ao_buf a) as [b|] eqn:E.
  - destruct Hb as [Hn Hp].
    destruct (decide _) as [->|Hne].
    + destruct (bufio_write cap (ao_os a) b d) as [o' b'] eqn:Ew.
      destruct (bufio_write_content _ _ _ _ _ _ Hp Ew) as (H1 & H2 & H3).
      unfold ao_inv. cbn [ao_os ao_buf ao_next ao_total]. cbn [default from_option id] in *.
      rewrite Hsz, spec_content_cons, <- Hc, H1, Hn, Ht, <- (spec_content_length init ws).
      split_and!; try congruence; try lia.
      rewrite <- Hc, file_write_append, app_assoc. done.
    + destruct Hf as (Hfi & _ & Hft & _).
      unfold ao_inv. cbn [ao_os ao_buf ao_next ao_total default]. cbn [from_option id].
      rewrite app_nil_r, os_write_at_content, Hfc, spec_content_cons, Hsz, Hft.
      split_and!; try done.
  - cbn [default from_option id] in *. rewrite app_nil_r in Hc.
    destruct (decide _) as [->|Hne].
    + destruct (bufio_write cap (os_seek_end (ao_os a)) [] d) as [o' b'] eqn:Ew.
      destruct (bufio_write_content cap (os_seek_end (ao_os a)) [] d o' b') as (H1 & H2 & H3); [done|done|].
      unfold ao_inv. cbn [ao_os ao_buf ao_next ao_total]. cbn [default from_option id].
      rewrite Hsz, spec_content_cons, H1, Ht, <- (spec_content_length init ws), <- Hc.
      split_and!; [exact (eq_trans H3 Hi)| |lia|lia|done].
      rewrite file_write_append. done.
    + unfold ao_inv. cbn [ao_os ao_buf ao_next ao_total default]. cbn [from_option id].
      rewrite app_nil_r, os_write_at_content, Hc, spec_content_cons, Hsz, Ht. done.
Qed.

(** ** Whole histories *)
Lemma ao_step_sim cap a init ws op a' o :
  ao_inv a init ws ->
  match op with FWrite _ d => d <> [] | _ => True end ->
  ao_step cap a op = (a', o) ->
  ao_inv a' init (spec_hist_step ws op) /\ o = spec_out init ws op.
Proof.
  intros Hinv Hop. destruct op as [off d|off n| |]; cbn [ao_step spec_hist_step spec_out].
  - intros [= <- <-]. split; [|done]. apply ao_write_inv; done.
  - unfold ao_read_at. intros [= <- <-].
    destruct (ao_flush_inv a init ws Hinv) as (Hf & _ & Hfc).
    split; [done|]. rewrite Hfc, spec_read_content. done.
  - intros [= <- <-]. split; [|done]. apply ao_flush_inv, Hinv.
  - intros [= <- <-]. split; [done|]. destruct Hinv as (_ & _ & Ht & _). unfold ao_size. rewrite Ht. done.
Qed.

Lemma ao_run_sim cap a init ws ops a' os :
  ao_inv a init ws ->
  nonempty_writes ops ->
  ao_run cap a ops = (a', os) ->
  ao_inv a' init (spec_hist ws ops) /\ os = spec_outs init ws ops.
Proof.
  revert a ws a' os. induction ops as [|op ops IH]; intros a ws a' os Hinv Hne; cbn [ao_run spec_hist spec_outs].
  - intros [= <- <-]. done.
  - destruct (ao_step cap a op) as [a1 o] eqn:E1. destruct (ao_run cap a1 ops) as [a2 os2] eqn:E2.
    intros [= <- <-]. apply Forall_cons in Hne as [Hop Hne].
    destruct (ao_step_sim _ _ _ _ _ _ _ Hinv Hop E1) as [Hinv1 ->].
    destruct (IH _ _ _ _ Hinv1 Hne E2) as [Hinv2 ->]. done.
Qed.

Lemma ao_new_inv init : ao_inv (ao_new init) init [].
Proof.
  unfold ao_inv, ao_new. cbn [ao_os ao_buf ao_next ao_total os_init].
  rewrite spec_content_nil. split_and!; try done.
  unfold os_content. cbn [apply_log fold_left os_log os_init]. cbn. rewrite app_nil_r. done.
Qed.

Lemma ao_run_app cap a ops1 ops2 :
  (ao_run cap a (ops1 ++ ops2)).1 = (ao_run cap (ao_run cap a ops1).1 ops2).1.
Proof.
  revert a. induction ops1 as [|op ops1 IH]; intros a; cbn [app ao_run]; [done|].
  destruct (ao_step cap a op) as [a1 o]. specialize (IH a1).
  destruct (ao_run cap a1 (ops1 ++ ops2)) as [x y], (ao_run cap a1 ops1) as [u v]. done.
Qed.

Lemma spec_hist_app ws ops1 ops2 : spec_hist ws (ops1 ++ ops2) = spec_hist (spec_hist ws ops1) ops2.
Proof. revert ws. induction ops1 as [|op ops1 IH]; intros ws; cbn; [done|]. apply IH. Qed.

(** ** Crashes: which bytes later primitive writes may touch *)
Definition prim_in (cov : nat -> Prop) (w : nat * list Z) : Prop :=
  forall i, (w.1 <= i < w.1 + length w.2)%nat -> cov i.

Definition touch_inv (base : list (nat * list Z)) (cov : nat -> Prop) (a : ao_file) : Prop :=
  exists new, os_log (ao_os a) = base ++ new /\ Forall (prim_in cov) new /\
 match ao_buf a with
  | Some b => forall i, (os_pos (ao_os a) <= i < os_pos (ao_os a) + length b)%nat -> cov i
  | None => True end.

Lemma os_write_touch base cov o d new :
  os_log o = base ++ new -> Forall (prim_in cov) new ->
  (forall i, (os_pos o <= i < os_pos o + length d)%nat -> cov i) ->
  exists new', os_log (os_write o d) = base ++ new' /\ Forall (prim_in cov) new'.
Proof.
  intros H1 H2 H3. exists (new ++ [(os_pos o, d)]). cbn. rewrite H1, app_assoc.
  split; [done|]. apply Forall_app_2; [done|]. constructor; [|done]. exact H3.
Qed.

Lemma bufio_flush_touch base cov o d new :
  os_log o = base ++ new -> Forall (prim_in cov) new ->
  (forall i, (os_pos o <= i < os_pos o + length d)%nat -> cov i) ->
  (exists new', os_log (bufio_flush o d) = base ++ new' /\ Forall (prim_in cov) new') /\
 os_pos (bufio_flush o d) = (os_pos o + length d)%nat.
Proof.
  intros H1 H2 H3. destruct d as [|x d]; cbn [bufio_flush].
  - split; [eauto|]. cbn. lia.
  - split; [|done]. eapply os_write_touch; done.
Qed.

Lemma bufio_write_touch cap base cov o b p new o' b' :
  os_log o = base ++ new -> Forall (prim_in cov) new ->
  (forall i, (os_pos o <= i < os_pos o + length (b ++ p))%nat -> cov i) ->
  bufio_write cap o b p = (o', b') ->
  (exists new', os_log o' = base ++ new' /\ Forall (prim_in cov) new') /\
 (forall i, (os_pos o' <= i < os_pos o' + length b')%nat -> cov i).
Proof.
  intros H1 H2 H3. rewrite app_length in H3. unfold bufio_write.
  destruct (decide _) as [Hlt|Hge].
  - destruct b as [|x b].
    + intros [= <- <-]. split; [eapply os_write_touch; try done; intros; apply H3; cbn; lia|].
      cbn. intros; lia.
    + remember (x :: b) as bb.
      assert (length (take (cap - length bb) p) = (cap - length bb)%nat) as Hl.
      { rewrite take_length. lia. }
      destruct (bufio_flush_touch base cov o (bb ++ take (cap - length bb) p) new H1 H2) as [(n1 & E1 & F1) Hp].
      { intros i Hi. apply H3. rewrite app_length in Hi. lia. }
      rewrite app_length in Hp.
      assert (forall i, (os_pos (bufio_flush o (bb ++ take (cap - length bb) p)) <= i
               < os_pos (bufio_flush o (bb ++ take (cap - length bb) p)) + length (drop (cap - length bb) p))%nat -> cov i) as HC.
      { intros i. rewrite Hp, drop_length. intros Hi. apply H3. lia. }
      destruct (decide _) as [Hb|Hb]; intros [= <- <-].
      * split; [eapply os_write_touch; done|]. cbn. intros; lia.
      * split; [eauto|]. exact HC.
  - intros [= <- <-]. split; [eauto|]. rewrite app_length. exact H3.
Qed.

Lemma touch_weaken base (cov cov' : nat -> Prop) a :
  (forall i, cov i -> cov' i) -> touch_inv base cov a -> touch_inv base cov' a.
Proof.
  intros H (new & E & F & B). exists new. split_and!; [done| |].
  - eapply Forall_impl; [exact F|]. intros w Hw i Hi. apply H, Hw, Hi.
  - destruct (ao_buf a); [|done]. intros i Hi. apply H, B, Hi.
Qed.

Lemma ao_flush_touch base cov a : touch_inv base cov a -> touch_inv base cov (ao_flush a).
Proof.
  intros (new & E & F & B). unfold ao_flush, touch_inv. destruct (ao_buf a) as [b|] eqn:Eb.
  - cbn. destruct (bufio_flush_touch base cov (ao_os a) b new E F B) as [(n' & E' & F') _]. eauto.
  - rewrite Eb. eauto.
Qed.

Lemma ao_flush_buf a : ao_buf (ao_flush a) = None.
Proof. unfold ao_flush. destruct (ao_buf a) eqn:E; [done|exact E]. Qed.

Lemma ao_write_touch cap base cov a init ws d off :
  ao_inv a init ws -> touch_inv base cov a ->
  touch_inv base (fun i => cov i \/ (off <= i < off + length d)%nat) (ao_write_at cap a d off).
Proof.
  intros Hinv Ht. set (cov' := fun i => cov i \/ (off <= i < off + length d)%nat).
  assert (touch_inv base cov' a) as Ht' by (eapply touch_weaken; [|exact Ht]; intros; left; done).
  pose proof (ao_flush_inv a init ws Hinv) as (_ & _ & Hfc).
  pose proof (ao_flush_touch base cov' a Ht') as (nf & Ef & Ff & _).
  destruct Hinv as (Hi & Hc & Htot & Hb).
  destruct Ht' as (new & E & F & B).
  unfold ao_write_at. destruct (ao_buf a) as [b|] eqn:Eb.
  - destruct Hb as [Hn Hp]. destruct (decide _) as [->|Hne].
    + destruct (bufio_write cap (ao_os a) b d) as [o' b'] eqn:Ew.
      destruct (bufio_write_touch cap base cov' _ b d new o' b' E F) as [(n' & E' & F') B']; [|done|].
      { intros i. rewrite app_length. intros Hi'.
        destruct (decide (i < os_pos (ao_os a) + length b)%nat); [apply B; lia|]. right.
        cbn [default from_option id] in Hc. pose proof (f_equal length Hc) as Hl.
        rewrite app_length, spec_content_length in Hl. lia. }
      exists n'. cbn. done.
    + exists (nf ++ [(off, d)]). cbn [ao_os ao_buf os_write_at os_log]. rewrite Ef, app_assoc.
      split_and!; [done| |done].
      apply Forall_app_2; [done|]. constructor; [|done]. intros i Hi'. right. exact Hi'.
  - destruct (decide _) as [->|Hne].
    + destruct (bufio_write cap (os_seek_end (ao_os a)) [] d) as [o' b'] eqn:Ew.
      cbn [default from_option id] in Hc. rewrite app_nil_r in Hc.
      destruct (bufio_write_touch cap base cov' (os_seek_end (ao_os a)) [] d new o' b' E F) as [(n' & E' & F') B']; [|done|].
      { cbn [os_pos os_seek_end app]. intros i Hi'. right. rewrite Hc, spec_content_length in Hi'. lia. }
      exists n'. cbn. done.
    + exists (new ++ [(off, d)]). cbn [ao_os ao_buf os_write_at os_log]. rewrite E, app_assoc.
      split_and!; [done| |done].
      apply Forall_app_2; [done|]. constructor; [|done]. intros i Hi'. right. exact Hi'.
Qed.

Lemma ao_run_touch cap base cov a init ws ops :
  ao_inv a init ws -> nonempty_writes ops -> touch_inv base cov a ->
  touch_inv base (fun i => cov i \/ covered_by ops i) (ao_run cap a ops).1.
Proof.
  revert cov a ws. induction ops as [|op ops IH]; intros cov a ws Hinv Hne Ht; cbn [ao_run].
  - eapply touch_weaken; [|exact Ht]. intros; left; done.
  - apply Forall_cons in Hne as [Hop Hne].
    destruct (ao_step cap a op) as [a1 o] eqn:E1.
    destruct (ao_step_sim _ _ _ _ _ _ _ Hinv Hop E1) as [Hinv1 _].
    assert (touch_inv base (fun i => cov i \/ covered_by [op] i) a1) as Ht1.
    { destruct op as [off d|off n| |]; cbn [ao_step] in E1; inversion E1; subst.
      - eapply touch_weaken; [|eapply ao_write_touch; eassumption].
        intros i [|]; [left; done|]. right. exists off, d. split; [left|]; done.
      - eapply touch_weaken; [|apply ao_flush_touch; eassumption]. intros; left; done.
      - eapply touch_weaken; [|apply ao_flush_touch; eassumption]. intros; left; done.
      - eapply touch_weaken; [|eassumption]. intros; left; done. }
    specialize (IH _ _ _ Hinv1 Hne Ht1).
    destruct (ao_run cap a1 ops) as [a2 os]. cbn.
    eapply touch_weaken; [|exact IH]. intros i [[|]|]; [left; done| |].
    + right. destruct H as (off & d & Hin & Hi). exists off, d. split; [|done].
      apply elem_of_list_singleton in Hin. subst. left.
    + right. destruct H as (off & d & Hin & Hi). exists off, d. split; [|done]. right. done.
Qed.

Lemma apply_log_untouched f log i :
  Forall (fun w => ~ (w.1 <= i < w.1 + length w.2)%nat) log -> (i < length f)%nat ->
  apply_log f log !! i = f !! i.
Proof.
  revert f. induction log as [|[off d] log IH]; intros f Hall Hi; [done|].
  apply Forall_cons in Hall as [Hw Hall]. cbn [fst snd] in Hw.
  change (apply_log f ((off, d) :: log)) with (apply_log (file_write f off d) log).
  rewrite IH; [|done|].
  - destruct (decide (i < off)%nat); [rewrite file_write_before by lia; done|].
    rewrite file_write_after by lia. done.
  - pose proof (file_write_length_le f off d). lia.
Qed.

Lemma torn_untouched (cov : nat -> Prop) l l' i :
  torn l l' -> Forall (prim_in cov) l -> ~ cov i ->
  Forall (fun w => ~ (w.1 <= i < w.1 + length w.2)%nat) l'.
Proof.
  induction 1 as [|w l l' H IH|off d j l l' H IH]; intros Hall Hc; [done| |];
    apply Forall_cons in Hall as [Hw Hall].
  - apply IH; done.
  - constructor; [|apply IH; done]. cbn. intros Hi. apply Hc, (Hw i). cbn.
    rewrite take_length in Hi. lia.
Qed.

Lemma prefix_torn l k j :
  torn l (take k l ++ match l !! k with Some (off, d) => [(off, take j d)] | None => [] end).
Proof.
  revert k. induction l as [|[off d] l IH]; intros k.
  - destruct k; constructor.
  - destruct k as [|k]; cbn.
    + apply torn_keep. clear. induction l as [|w l IH]; constructor; done.
    + pose proof (torn_keep off d (length d) _ _ (IH k)) as H. rewrite firstn_all in H. exact H.
Qed.

Lemma synced_log cap init ops1 s :
  nonempty_writes ops1 -> is_sync_point s ->
  let a1 := (ao_run cap (ao_new init) (ops1 ++ [s])).1 in
  ao_inv a1 init (spec_hist [] ops1) /\ ao_buf a1 = None /\
 os_content (ao_os a1) = spec_content init (spec_hist [] ops1).
Proof.
  intros Hne Hs. rewrite ao_run_app.
  destruct (ao_run cap (ao_new init) ops1) as [a os] eqn:E.
  destruct (ao_run_sim _ _ _ _ _ _ _ (ao_new_inv init) Hne E) as [Hinv _].
  pose proof (ao_flush_inv _ _ _ Hinv) as (H1 & H2 & H3).
  destruct s as [| | |]; cbn in Hs; try done; cbn; done.
Qed.

Lemma new_log_content cap init ops1 s ops2 :
  nonempty_writes ops1 -> nonempty_writes ops2 -> is_sync_point s ->
  let a1 := (ao_run cap (ao_new init) (ops1 ++ [s])).1 in
  let a2 := (ao_run cap a1 ops2).1 in
  exists new, os_log (ao_os a2) = os_log (ao_os a1) ++ new /\ Forall (prim_in (covered_by ops2)) new.
Proof.
  intros Hne1 Hne2 Hs a1 a2.
  destruct (synced_log cap init ops1 s Hne1 Hs) as (Hinv & Hb & Hc).
  destruct (ao_run_touch cap (os_log (ao_os a1)) (fun _ => False) a1 init _ ops2 Hinv Hne2) as (new & E & F & _).
  { exists []. rewrite app_nil_r. fold a1 in Hb. rewrite Hb. done. }
  exists new. split; [exact E|]. eapply Forall_impl; [exact F|].
  intros w Hw i Hi. destruct (Hw i Hi); done.
Qed.

Lemma os_init_run cap a ops : nonempty_writes ops -> forall init ws, ao_inv a init ws -> os_init (ao_os (ao_run cap a ops).1) = init.
Proof.
  intros Hne init ws Hinv. destruct (ao_run cap a ops) as [a2 os] eqn:E.
  destruct (ao_run_sim _ _ _ _ _ _ _ Hinv Hne E) as [(H & _) _]. exact H.
Qed.

Lemma power_loss_lemma cap init ops1 s ops2 f i :
  nonempty_writes ops1 -> nonempty_writes ops2 -> is_sync_point s ->
  let a1 := (ao_run cap (ao_new init) (ops1 ++ [s])).1 in
  let a2 := (ao_run cap a1 ops2).1 in
  torn_after a1 a2 f ->
  (i < spec_size init (spec_hist [] ops1))%nat -> ~ covered_by ops2 i ->
  f !! i = Some (spec_byte init (spec_hist [] ops1) i).
Proof.
  intros Hne1 Hne2 Hs a1 a2 (lost & Ht & ->) Hi Hcov.
  destruct (synced_log cap init ops1 s Hne1 Hs) as (Hinv & Hb & Hc).
  destruct (new_log_content cap init ops1 s ops2 Hne1 Hne2 Hs) as (new & E & F).
  fold a1 a2 in E. fold a1 in Hc. rewrite E, drop_app in Ht.
  rewrite apply_log_untouched.
  - rewrite Hc, spec_content_lookup. destruct (decide _); [done|lia].
  - eapply torn_untouched; done.
  - rewrite Hc, spec_content_length. done.
Qed.

Lemma crash_is_torn cap init ops1 s ops2 f :
  nonempty_writes ops1 -> nonempty_writes ops2 -> is_sync_point s ->
  let a1 := (ao_run cap (ao_new init) (ops1 ++ [s])).1 in
  let a2 := (ao_run cap a1 ops2).1 in
  crash_after a1 a2 f ->
  exists new k j, os_log (ao_os a2) = os_log (ao_os a1) ++ new /\
   f = apply_log (os_content (ao_os a1)) (take k new ++ match new !! k with Some (off, d) => [(off, take j d)] | None => [] end).
Proof.
  intros Hne1 Hne2 Hs a1 a2 (k & j & Hk & ->).
  destruct (synced_log cap init ops1 s Hne1 Hs) as (Hinv & Hb & Hc).
  destruct (new_log_content cap init ops1 s ops2 Hne1 Hne2 Hs) as (new & E & F).
  fold a1 a2 in E. fold a1 in Hinv.
  exists new, (k - length (os_log (ao_os a1)))%nat, j. split; [done|].
  pose proof (os_init_run cap a1 ops2 Hne2 init _ Hinv) as Hin. fold a2 in Hin. rewrite Hin, E.
  rewrite take_app_ge, lookup_app_r by done.
  rewrite <- app_assoc, apply_log_app. f_equal.
  unfold os_content. destruct Hinv as (-> & _). done.
Qed.

(** ** Append-only suffix: the disk is the synced content plus a prefix of the appended bytes *)
Inductive append_log : nat -> list (nat * list Z) -> Prop :=
| al_nil n : append_log n []
| al_cons n d log : append_log (n + length d) log -> append_log n ((n, d) :: log).

Lemma append_log_snoc n log d :
  append_log n log -> append_log n (log ++ [((n + length (concat (snd <$> log)))%nat, d)]).
Proof.
  induction 1 as [n|n d' log H IH]; cbn.
  - rewrite Nat.add_0_r. repeat constructor.
  - constructor. rewrite app_length, Nat.add_assoc. exact IH.
Qed.

Lemma append_log_apply f log :
  append_log (length f) log -> apply_log f log = f ++ concat (snd <$> log).
Proof.
  remember (length f) as n eqn:En. intros H. revert f En.
  induction H as [n|n d log H IH]; intros f ->.
  - cbn. rewrite app_nil_r. done.
  - unfold apply_log. cbn [fold_left]. cbn [fst snd]. rewrite file_write_append.
    fold (apply_log (f ++ d) log). rewrite IH by (rewrite app_length; done).
    cbn. rewrite app_assoc. done.
Qed.

Lemma append_log_torn f log k j :
  append_log (length f) log ->
  exists n, apply_log f (take k log ++ match log !! k with Some (off, d) => [(off, take j d)] | None => [] end)
            = f ++ take n (concat (snd <$> log)).
Proof.
  remember (length f) as m eqn:Em. intros H. revert f Em k.
  induction H as [m|m d log H IH]; intros f -> k.
  - exists 0%nat. destruct k; cbn; rewrite app_nil_r; done.
  - destruct k as [|k]; cbn [take lookup list_lookup].
    + exists (j `min` length d)%nat. unfold apply_log. cbn [app fold_left fst snd].
      rewrite file_write_append. cbn. rewrite take_app_le by lia. f_equal.
      destruct (decide (j <= length d)%nat); [rewrite Nat.min_l by lia; done|].
      rewrite Nat.min_r, firstn_all, take_ge by lia. done.
    + destruct (IH (f ++ d)) with (k := k) as [n Hn]; [rewrite app_length; done|].
      exists (length d + n)%nat. unfold apply_log. cbn [app fold_left fst snd].
      rewrite file_write_append. etransitivity; [exact Hn|]. cbn.
      rewrite firstn_app_2, app_assoc. done.
Qed.

Definition app_inv (base : list (nat * list Z)) (c : list Z) (data : list Z) (a : ao_file) : Prop :=
  exists new, os_log (ao_os a) = base ++ new /\ append_log (length c) new /\
 concat (snd <$> new) ++ default [] (ao_buf a) = data /\
  ao_total a = (length c + length data)%nat /\
  match ao_buf a with
  | Some b => os_pos (ao_os a) = (length c + length (concat (snd <$> new)))%nat /\ ao_next a = ao_total a
  | None => True
  end.

(** appended facts about one os_write in the append regime *)
Definition os_app (base : list (nat * list Z)) (c : list Z) (done : list Z) (o : os_file) : Prop :=
  exists new, os_log o = base ++ new /\ append_log (length c) new /\ concat (snd <$> new) = done /\
             os_pos o = (length c + length done)%nat.

Lemma os_write_app base c dn o d : os_app base c dn o -> os_app base c (dn ++ d) (os_write o d).
Proof.
  intros (new & E & A & C & P). exists (new ++ [(os_pos o, d)]). cbn. rewrite E, app_assoc.
  split_and!; [done| | |].
  - rewrite P, <- C. apply append_log_snoc, A.
  - rewrite fmap_app, concat_app, C. cbn. rewrite app_nil_r. done.
  - rewrite P, app_length. lia.
Qed.

Lemma bufio_flush_app base c dn o d : os_app base c dn o -> os_app base c (dn ++ d) (bufio_flush o d).
Proof.
  intros H. destruct d; cbn [bufio_flush]; [rewrite app_nil_r; done|]. apply os_write_app, H.
Qed.

Lemma bufio_write_app cap base c dn o b p o' b' :
  os_app base c dn o -> bufio_write cap o b p = (o', b') ->
  exists dn', os_app base c dn' o' /\ dn' ++ b' = dn ++ b ++ p.
Proof.
  intros H. unfold bufio_write. destruct (decide _) as [Hlt|Hge].
  - destruct b as [|x b].
    + intros [= <- <-]. exists (dn ++ p). rewrite app_nil_r. split; [apply os_write_app, H|done].
    + remember (x :: b) as bb.
      pose proof (bufio_flush_app base c dn o (bb ++ take (cap - length bb) p) H) as H1.
      destruct (decide _) as [Hl|Hl]; intros [= <- <-].
      * eexists. split; [apply os_write_app, H1|]. rewrite app_nil_r, <- !app_assoc, take_drop. done.
      * eexists. split; [exact H1|]. rewrite <- !app_assoc, take_drop. done.
  - intros [= <- <-]. exists dn. split; [exact H|]. done.
Qed.

Lemma ao_flush_appinv base c data a : app_inv base c data a -> app_inv base c data (ao_flush a).
Proof.
  intros (new & E & A & C & T & B). unfold ao_flush, app_inv.
  destruct (ao_buf a) as [b|] eqn:Eb.
  - cbn [ao_os ao_buf ao_next ao_total]. cbn [default from_option id] in *. destruct B as [P N].
    destruct (bufio_flush_app base c (concat (snd <$> new)) (ao_os a) b) as (n' & E' & A' & C' & P').
    { exists new. done. }
    exists n'. rewrite app_nil_r. split_and!; try done. congruence.
  - rewrite Eb. exists new. done.
Qed.

Lemma ao_write_appinv cap base c data a d off :
  app_inv base c data a -> os_content (ao_os a) = apply_log c (drop (length base) (os_log (ao_os a))) ->
  off = (length c + length data)%nat ->
  app_inv base c (data ++ d) (ao_write_at cap a d off).
Proof.
  intros (new & E & A & C & T & B) Hcont Hoff. unfold ao_write_at, app_inv.
  destruct (ao_buf a) as [b|] eqn:Eb.
  - cbn [default from_option id] in *. destruct B as [P N].
    destruct (decide _) as [_|Hne]; [|congruence].
    destruct (bufio_write cap (ao_os a) b d) as [o' b'] eqn:Ew.
    destruct (bufio_write_app cap base c (concat (snd <$> new)) (ao_os a) b d o' b') as (dn & (n' & E' & A' & C' & P') & Hd); [|done|].
    { exists new. done. }
    exists n'. cbn [ao_os ao_buf ao_next ao_total]. cbn [default from_option id].
    rewrite app_length, C', Hd, P', T, N, T.
    split_and!; try done; try lia. rewrite <- C, app_assoc. done.
  - cbn [default from_option id] in *. rewrite app_nil_r in C.
    destruct (decide _) as [_|Hne]; [|congruence].
    destruct (bufio_write cap (os_seek_end (ao_os a)) [] d) as [o' b'] eqn:Ew.
    destruct (bufio_write_app cap base c (concat (snd <$> new)) (os_seek_end (ao_os a)) [] d o' b') as (dn & (n' & E' & A' & C' & P') & Hd); [|done|].
    { exists new. split_and!; try done. cbn [os_pos os_seek_end]. rewrite Hcont, E, drop_app.
      rewrite append_log_apply by done. rewrite app_length. done. }
    exists n'. cbn [ao_os ao_buf ao_next ao_total]. cbn [default from_option id].
    rewrite app_length, C', Hd, <- C, P'. cbn [app].
    split_and!; try done; rewrite ?C; lia.
Qed.

Lemma ao_run_appinv cap base c data a init ws ops :
  ao_inv a init ws -> nonempty_writes ops ->
  apply_log init base = c -> spec_size init ws = (length c + length data)%nat ->
  app_inv base c data a ->
  appends_only (length c + length data) ops ->
  app_inv base c (data ++ written ops) (ao_run cap a ops).1.
Proof.
  revert a ws data. induction ops as [|op ops IH]; intros a ws data Hinv Hne Hbase Hsz Happ Honly.
  - cbn. rewrite app_nil_r. done.
  - apply Forall_cons in Hne as [Hop Hne]. cbn [ao_run].
    destruct (ao_step cap a op) as [a1 o] eqn:E1.
    destruct (ao_step_sim _ _ _ _ _ _ _ Hinv Hop E1) as [Hinv1 _].
    destruct (ao_run cap a1 ops) as [a2 os2] eqn:E2.
    assert (a2 = (ao_run cap a1 ops).1) as -> by (rewrite E2; done).
    destruct op as [off d|off n| |]; cbn [ao_step spec_hist_step] in *; inversion E1; subst; cbn [fst written].
    + cbn [appends_only] in Honly. destruct Honly as [-> Honly].
      rewrite app_assoc. eapply IH; try done.
      * cbn [spec_size]. destruct d; [done|]. rewrite Hsz, app_length. lia.
      * apply ao_write_appinv; try done.
        destruct Happ as (new & E & _). rewrite E, drop_app.
        destruct Hinv as (Hi & _). unfold os_content. rewrite Hi, E, apply_log_app. done.
      * rewrite app_length, Nat.add_assoc. done.
    + eapply IH; try done. apply ao_flush_appinv, Happ.
    + eapply IH; try done. apply ao_flush_appinv, Happ.
    + eapply IH; try done.
Qed.

Lemma crash_append_lemma cap init ops1 s ops2 f :
  nonempty_writes ops1 -> nonempty_writes ops2 -> is_sync_point s ->
  appends_only (spec_size init (spec_hist [] ops1)) ops2 ->
  let a1 := (ao_run cap (ao_new init) (ops1 ++ [s])).1 in
  let a2 := (ao_run cap a1 ops2).1 in
  crash_after a1 a2 f ->
  exists n, f = spec_content init (spec_hist [] ops1) ++ take n (written ops2).
Proof.
  intros Hne1 Hne2 Hs Hon a1 a2 Hcr.
  destruct (synced_log cap init ops1 s Hne1 Hs) as (Hinv & Hb & Hc). fold a1 in Hinv, Hb, Hc.
  destruct (crash_is_torn cap init ops1 s ops2 f Hne1 Hne2 Hs Hcr) as (new & k & j & E & ->).
  fold a1 a2 in E.
  destruct (ao_run_appinv cap (os_log (ao_os a1)) (os_content (ao_os a1)) [] a1 init (spec_hist [] ops1) ops2) as (new' & E' & A & C & _).
  - done.
  - done.
  - destruct Hinv as (Hi & _). unfold os_content. rewrite Hi. done.
  - rewrite Hc, spec_content_length. cbn. lia.
  - exists []. rewrite app_nil_r, Hb. split_and!; try done; [constructor|].
    destruct Hinv as (_ & _ & -> & _). rewrite Hc, spec_content_length. cbn. lia.
  - rewrite Hc, spec_content_length. cbn. rewrite Nat.add_0_r. done.
  - fold a1 in E'. fold a2 in E'. rewrite E in E'. apply app_inv_head in E'. subst new'.
    destruct (append_log_torn _ _ k j A) as [n Hn]. cbn [app] in C.
    fold a1. rewrite Hn, Hc. exists (n `min` length (concat (snd <$> new)))%nat. f_equal.
    fold a1 a2 in C. rewrite <- C, take_app_le by lia.
    destruct (decide (n <= length (concat (snd <$> new)))%nat).
    + rewrite Nat.min_l by lia. done.
    + rewrite Nat.min_r, firstn_all, take_ge by lia. done.
Qed.

(** ** Buffer capacity a multiple of the record size: primitive writes are whole records *)
Definition mult_inv (w : nat) (a : ao_file) : Prop :=
  Forall (fun p => Nat.divide w (length p.2)) (os_log (ao_os a)) /\
  Nat.divide w (length (default [] (ao_buf a))).

Lemma bufio_flush_mult w o b :
  Forall (fun p => Nat.divide w (length p.2)) (os_log o) -> Nat.divide w (length b) ->
  Forall (fun p => Nat.divide w (length p.2)) (os_log (bufio_flush o b)).
Proof.
  intros H Hb. destruct b; cbn [bufio_flush]; [done|]. cbn.
  apply Forall_app_2; [done|]. constructor; [done|constructor].
Qed.

Lemma bufio_write_mult w cap o b p o' b' :
  Nat.divide w cap ->
  Forall (fun p => Nat.divide w (length p.2)) (os_log o) -> Nat.divide w (length b) -> Nat.divide w (length p) ->
  bufio_write cap o b p = (o', b') ->
  Forall (fun p => Nat.divide w (length p.2)) (os_log o') /\ Nat.divide w (length b').
Proof.
  intros Hcap H Hb Hp. unfold bufio_write. destruct (decide _) as [Hlt|Hge].
  - destruct b as [|x b].
    + intros [= <- <-]. split; [|apply Nat.divide_0_r]. cbn. apply Forall_app_2; [done|].
      constructor; [done|constructor].
    + remember (x :: b) as bb.
      assert (Nat.divide w (cap - length bb)) as Hk by (apply Nat.divide_sub_r; done).
      assert (Forall (fun p => Nat.divide w (length p.2)) (os_log (bufio_flush o (bb ++ take (cap - length bb) p)))) as HF.
      { apply bufio_flush_mult; [done|]. rewrite app_length, take_length, Nat.min_l by lia.
        apply Nat.divide_add_r; done. }
      assert (Nat.divide w (length (drop (cap - length bb) p))) as Hd
        by (rewrite drop_length; apply Nat.divide_sub_r; done).
      destruct (decide _); intros [= <- <-]; (split; [|done || apply Nat.divide_0_r]); [|done].
      cbn. apply Forall_app_2; [done|]. constructor; [done|constructor].
  - intros [= <- <-]. split; [done|]. rewrite app_length. apply Nat.divide_add_r; done.
Qed.

Lemma ao_flush_mult w a : mult_inv w a -> mult_inv w (ao_flush a).
Proof.
  intros [H Hb]. unfold ao_flush, mult_inv. destruct (ao_buf a) as [b|] eqn:E.
  - cbn [ao_os ao_buf default from_option id length] in *. split; [|apply Nat.divide_0_r].
    apply bufio_flush_mult; done.
  - rewrite E. done.
Qed.

Lemma ao_run_mult w cap a ops :
  Nat.divide w cap -> mult_inv w a ->
  Forall (fun op => match op with FWrite _ d => Nat.divide w (length d) | _ => True end) ops ->
  mult_inv w (ao_run cap a ops).1.
Proof.
  intros Hcap. revert a. induction ops as [|op ops IH]; intros a Hm Hops; [done|].
  apply Forall_cons in Hops as [Hop Hops]. cbn [ao_run].
  assert (mult_inv w (ao_step cap a op).1) as H1.
  { destruct op as [off d|off n| |]; cbn [ao_step fst].
    - unfold ao_write_at. destruct (ao_flush_mult w a Hm) as [Hf1 Hf2]. destruct Hm as [Hm1 Hm2].
      destruct (ao_buf a) as [b|]; cbn [default from_option id] in *.
      + destruct (decide _).
        * destruct (bufio_write cap (ao_os a) b d) as [o' b'] eqn:Ew.
          eapply bufio_write_mult in Ew; try done.
        * split; cbn; [|apply Nat.divide_0_r]. apply Forall_app_2; [done|]. constructor; [done|constructor].
      + destruct (decide _).
        * destruct (bufio_write cap (os_seek_end (ao_os a)) [] d) as [o' b'] eqn:Ew.
          eapply bufio_write_mult in Ew; try done.
        * split; cbn; [|apply Nat.divide_0_r]. apply Forall_app_2; [done|]. constructor; [done|constructor].
    - apply ao_flush_mult, Hm.
    - apply ao_flush_mult, Hm.
    - done. }
  destruct (ao_step cap a op) as [a1 o]. cbn [fst] in H1. specialize (IH _ H1 Hops).
  destruct (ao_run cap a1 ops). done.
Qed.

Lemma append_log_take n log k : append_log n log -> append_log n (take k log).
Proof.
  intros H. revert k. induction H as [n|n d log H IH]; intros k; [rewrite take_nil; constructor|].
  destruct k; cbn; constructor. apply IH.
Qed.

Lemma concat_divide w (log : list (nat * list Z)) :
  Forall (fun p => Nat.divide w (length p.2)) log -> Nat.divide w (length (concat (snd <$> log))).
Proof.
  induction 1 as [|[off d] log H HF IH]; cbn; [apply Nat.divide_0_r|].
  rewrite app_length. apply Nat.divide_add_r; done.
Qed.

(** Kill between primitive writes, appends of whole records from an empty file. *)
Lemma kill_append_lemma w cap ops k :
  Nat.divide w cap -> nonempty_writes ops -> appends_only 0 ops ->
  Forall (fun op => match op with FWrite _ d => Nat.divide w (length d) | _ => True end) ops ->
  exists m, Nat.divide w m /\
    apply_log [] (take k (os_log (ao_os (ao_run cap (ao_new []) ops).1))) = take m (written ops).
Proof.
  intros Hcap Hne Hon Hops.
  destruct (ao_run_appinv cap [] [] [] (ao_new []) [] [] ops) as (new & E & A & C & _); try done.
  - exists []. split_and!; try done. constructor.
  - destruct (ao_run_mult w cap (ao_new []) ops Hcap) as [Hm _]; [|done|].
    { split; [constructor|apply Nat.divide_0_r]. }
    rewrite E in Hm |- *. cbn [app] in Hm, C |- *.
    rewrite append_log_apply by (apply append_log_take, A). cbn [app].
    exists (length (concat (snd <$> take k new))). split.
    + apply concat_divide, Forall_take, Hm.
    + rewrite <- C. assert (concat (snd <$> new) = concat (snd <$> take k new) ++ concat (snd <$> drop k new)) as ->.
      { rewrite <- concat_app, <- fmap_app, take_drop. done. }
      rewrite <- app_assoc, take_app_alt by done. done.
Qed.
