(** Property C101: a stored chain as the source of another chain. *)
From Verif Require Import Base Spec_Word Model_Word Proof_Word Spec_MapStore Model_MapStore Proof_MapStore Prop_MapStore
  Model_Chain Spec_Chain Proof_Chain Prop_Chain Model_Copy.

(** ** Numbers: consecutive, in the order of the chain *)
Definition seqz (a n : nat) : list Z := map Z.of_nat (seq a n).
Definition lin (t : ctx) : nat := length (t_ins t).
Definition lout (t : ctx) : nat := length (t_outs t).
(** [D] are the transactions before *)
Definition number_tx (D : list ctx) (t : ctx) : sent_tx :=
  mk_sent_tx t (Z.of_nat (length D)) (seqz (sum (map lin D)) (lin t)) (seqz (sum (map lout D)) (lout t)).
Fixpoint number_txs (D : list ctx) (ts : list ctx) : list sent_tx :=
  match ts with [] => [] | t :: ts' => number_tx D t :: number_txs (D ++ [t]) ts' end.
Definition number_block (pre : list cblock) (b : cblock) : sent_block :=
  mk_sent_block (b_hash b) (b_ints b) (Z.of_nat (length pre)) (number_txs (txs_of pre) (b_txs b)).
Fixpoint number_blocks (pre bs : list cblock) : list sent_block :=
  match bs with [] => [] | b :: bs' => number_block pre b :: number_blocks (pre ++ [b]) bs' end.

Lemma number_txs_lookup D ts n t : ts !! n = Some t -> number_txs D ts !! n = Some (number_tx (D ++ take n ts) t).
Proof.
  revert D n. induction ts as [|t0 ts IH]; intros D n H; [by rewrite lookup_nil in H|]. destruct n as [|n]; cbn in H.
  - injection H as ->. cbn [take]. by rewrite app_nil_r.
  - change (number_txs (D ++ [t0]) ts !! n = Some (number_tx (D ++ t0 :: take n ts) t)). rewrite (IH _ _ H), <- app_assoc. done.
Qed.
Lemma number_txs_length D ts : length (number_txs D ts) = length ts.
Proof. revert D. induction ts as [|t ts IH]; intros D; cbn; [done|]. by rewrite IH. Qed.
Lemma number_blocks_lookup pre bs n b : bs !! n = Some b -> number_blocks pre bs !! n = Some (number_block (pre ++ take n bs) b).
Proof.
  revert pre n. induction bs as [|b0 bs IH]; intros pre n H; [by rewrite lookup_nil in H|]. destruct n as [|n]; cbn in H.
  - injection H as ->. cbn [take]. by rewrite app_nil_r.
  - change (number_blocks (pre ++ [b0]) bs !! n = Some (number_block (pre ++ b0 :: take n bs) b)). rewrite (IH _ _ H), <- app_assoc. done.
Qed.
Lemma number_blocks_length pre bs : length (number_blocks pre bs) = length bs.
Proof. revert pre. induction bs as [|t ts IH]; intros D; cbn; [done|]. by rewrite IH. Qed.

(** ** The number of words of a file during a program *)
Definition count (f : fid) (s : cst) : option nat := wf_count <$> s_files s !! f.
Definition spares (f : fid) (a : act) : Prop := forall v i, a <> AWrite f v i.
Lemma do_act_count f a s s' r : spares f a -> do_act a s = Some (s', r) -> count f s' = count f s.
Proof.
  intros Hs H. destruct (act_file a) as [g|] eqn:Ea.
  - rewrite (do_file_act a g s Ea) in H. destruct (s_files s !! g) as [wf|] eqn:Eg; [|done].
    destruct (on_file a wf) as [[wf' r']|] eqn:Eo; [|done]. injection H as <- <-.
    unfold count. cbn [with_files s_files]. destruct (decide (g = f)) as [->|Hne]; [|by rewrite lookup_insert_ne].
    rewrite lookup_insert, Eg. cbn [fmap option_fmap option_map]. f_equal.
    destruct a; cbn [act_file] in Ea; try done; cbn [on_file] in Eo; injection Ea as ->.
    + by injection Eo as <- <-.
    + destruct (_ <? 0); [done|]. unfold wf_read in Eo. destruct (decide _); [done|]. by injection Eo as <- <-.
    + by destruct (Hs v i).
  - unfold count. destruct a; cbn [act_file do_act] in *; try done.
    + destruct (cms_append _ _ _); [|done]. cbn in H. by injection H as <- <-.
    + destruct (_ <? _); [done|]. by injection H as <- <-.
    + destruct (_ && _); [done|]. by injection H as <- <-.
    + by injection H as <- <-.
Qed.
Lemma exec_count f p s s' r : uses (spares f) p -> exec p s = Some (s', r) -> count f s' = count f s.
Proof.
  intros Hu. revert s. induction Hu as [v| |a k Ha Hk IH]; intros s H; cbn [exec] in H.
  - by injection H as <- <-.
  - done.
  - destruct (do_act a s) as [[s1 r1]|] eqn:E; [|done]. rewrite (IH r1 s1 H). by eapply do_act_count.
Qed.
Lemma do_write_count f v n s s' r : count f s = Some n -> do_act (AWrite f v (Z.of_nat n)) s = Some (s', r) -> count f s' = Some (S n).
Proof.
  unfold count. intros Hc H. cbn [do_act] in H. destruct (s_files s !! f) as [wf|] eqn:E; [|done]. cbn [mbind option_bind] in H.
  destruct (Z.ltb_spec (Z.of_nat n) 0); [lia|]. injection H as <- <-. cbn [with_files s_files]. rewrite lookup_insert.
  cbn in Hc. injection Hc as <-. cbn [fmap option_fmap option_map wf_write wf_count]. f_equal. rewrite Nat2Z.id. lia.
Qed.
Lemma do_count f s s' r : do_act (ACount f) s = Some (s', r) -> s' = s /\ exists n, count f s = Some n /\ r = Z.of_nat n.
Proof.
  unfold count. cbn [do_act]. intros H. destruct (s_files s !! f) as [wf|]; [|done]. cbn in H. injection H as <- <-. cbn. eauto.
Qed.
Lemma exec_act a k s s2 r2 : exec (PAct a k) s = Some (s2, r2) -> exists s1 r1, do_act a s = Some (s1, r1) /\ exec (k r1) s1 = Some (s2, r2).
Proof. cbn [exec]. destruct (do_act a s) as [[s1 r1]|]; [|done]. eauto. Qed.

Lemma kept_count f a s s' r : do_act a s = Some (s', r) -> spares f a -> count f s' = count f s.
Proof. intros H1 H2. by eapply do_act_count. Qed.
Ltac spare := intros ? ?; discriminate.

(** an input or an output: its number is the number of words so far *)
Lemma txi_count_ok ix tr i s s' r : exec (p_txi ix tr i) s = Some (s', r) ->
  exists n, r = Z.of_nat n /\ count TxiTx s = Some n /\ count TxiTx s' = Some (S n) /\ count TxoSats s' = count TxoSats s.
Proof.
  assert (forall src s s' r,
    exec (PAct (ACount TxiTx) (fun n => PAct (AWrite TxiTx src n) (fun _ => PAct (AWrite TxiVout (i_vout i) n) (fun _ =>
          PAct (AWrite ParTxi tr n) (fun _ => PRet n))))) s = Some (s', r) ->
    exists n, r = Z.of_nat n /\ count TxiTx s = Some n /\ count TxiTx s' = Some (S n) /\ count TxoSats s' = count TxoSats s) as H.
  { clear s s' r. intros src s s' r H. apply exec_act in H as (s1 & r1 & E1 & H). apply do_count in E1 as (-> & n & Hn & ->).
    apply exec_act in H as (s2 & r2 & E2 & H). apply exec_act in H as (s3 & r3 & E3 & H). apply exec_act in H as (s4 & r4 & E4 & H).
    cbn [exec] in H. injection H as <- <-. exists n. split_and!; try done.
    - rewrite (kept_count TxiTx _ _ _ _ E4), (kept_count TxiTx _ _ _ _ E3) by spare. by eapply do_write_count.
    - rewrite (kept_count TxoSats _ _ _ _ E4), (kept_count TxoSats _ _ _ _ E3), (kept_count TxoSats _ _ _ _ E2) by spare. done. }
  unfold p_txi, p_source. destruct (i_src i) as [h|b n|h].
  - apply H.
  - intros E. apply exec_act in E as (s1 & r1 & E1 & E). apply H in E as (m & -> & H1 & H2 & H3).
    exists m. rewrite (kept_count TxiTx _ _ _ _ E1) in H1 by spare. rewrite (kept_count TxoSats _ _ _ _ E1) in H3 by spare. done.
  - apply H.
Qed.

Inductive ends (n : Z) : prog -> Prop :=
| en_ret : ends n (PRet n)
| en_fail : ends n PFail
| en_act a k : (forall r, ends n (k r)) -> ends n (PAct a k).
Lemma exec_ends n p s s' r : ends n p -> exec p s = Some (s', r) -> r = n.
Proof.
  intros He. revert s. induction He as [| |a k _ IH]; intros s H; cbn [exec] in H; [by injection H as _ <-|done|].
  destruct (do_act a s) as [[s1 r1]|]; [|done]. by eapply IH.
Qed.

Definition txo_rest (ix : stores) (tr : Z) (o : cout) (n : Z) : prog :=
  match p_txo ix tr o with PAct _ k => match k n with PAct _ k' => k' 0 | _ => PFail end | _ => PFail end.
Lemma txo_rest_ok ix tr o n f : (f = TxoSats \/ f = TxiTx) -> uses (spares f) (txo_rest ix tr o n) /\ ends n (txo_rest ix tr o n).
Proof.
  intros Hf. assert (forall g v i, g <> TxoSats -> g <> TxiTx -> spares f (AWrite g v i)) as HW.
  { intros g v i H1 H2 v' i' E. injection E as -> _ _. by destruct Hf. }
  unfold txo_rest, p_txo. split.
  - constructor; [by apply HW|intros _]. case_bool_decide; [constructor|]. constructor; [spare|]. intros c.
    case_bool_decide; (constructor; [first [spare|by apply HW]|intros _]);
      repeat first [case_bool_decide | constructor; [first [spare|by apply HW]|intros ?] | constructor].
  - constructor. intros _. case_bool_decide; [constructor|]. constructor. intros c.
    case_bool_decide; (constructor; intros _); repeat first [case_bool_decide | constructor; intros ? | constructor].
Qed.
Lemma txo_count_ok ix tr o s s' r : exec (p_txo ix tr o) s = Some (s', r) ->
  exists n, r = Z.of_nat n /\ count TxoSats s = Some n /\ count TxoSats s' = Some (S n) /\ count TxiTx s' = count TxiTx s.
Proof.
  intros H. apply exec_act in H as (s1 & r1 & E1 & H). apply do_count in E1 as (-> & n & Hn & ->).
  apply exec_act in H as (s2 & r2 & E2 & H).
  change (exec (txo_rest ix tr o (Z.of_nat n)) s2 = Some (s', r)) in H.
  exists n. split; [|split; [done|split]].
  - by apply (exec_ends _ _ _ _ _ (proj2 (txo_rest_ok ix tr o (Z.of_nat n) TxoSats ltac:(by left))) H).
  - rewrite (exec_count TxoSats _ _ _ _ (proj1 (txo_rest_ok ix tr o (Z.of_nat n) TxoSats ltac:(by left))) H). by eapply do_write_count.
  - rewrite (exec_count TxiTx _ _ _ _ (proj1 (txo_rest_ok ix tr o (Z.of_nat n) TxiTx ltac:(by right))) H).
    by rewrite (kept_count TxiTx _ _ _ _ E2) by spare.
Qed.

(** ** A chain whose source numbers everything rightly is stored as one whose source numbers nothing *)
Lemma exec_pseq_cons p ps s s2 r2 : exec (pseq (p :: ps)) s = Some (s2, r2) ->
  exists s1 r1, exec p s = Some (s1, r1) /\ exec (pseq ps) s1 = Some (s2, r2).
Proof. cbn [pseq]. rewrite exec_bind. destruct (exec p s) as [[s1 r1]|]; [|done]. eauto. Qed.
Lemma pseq_cons_exec p ps s s1 r1 : exec p s = Some (s1, r1) -> exec (pseq (p :: ps)) s = exec (pseq ps) s1.
Proof. intros H. cbn [pseq]. by rewrite exec_bind, H. Qed.
Lemma checked_exec p no s s1 : exec p s = Some (s1, no) ->
  exec (pbind p (fun n => if bool_decide (no = n) then PRet n else PFail)) s = Some (s1, no).
Proof. intros H. rewrite exec_bind, H. by rewrite bool_decide_eq_true_2. Qed.

Lemma q_txis_ok ix tr is s s' r n m : exec (pseq (map (p_txi ix tr) is)) s = Some (s', r) ->
  count TxiTx s = Some n -> count TxoSats s = Some m ->
  exec (pseq (zip_with (q_txi ix tr) (seqz n (length is)) is)) s = Some (s', r) /\
  count TxiTx s' = Some (n + length is)%nat /\ count TxoSats s' = Some m.
Proof.
  revert s n. induction is as [|i is IH]; intros s n H Hn Hm.
  - cbn in *. injection H as <- <-. rewrite Nat.add_0_r. done.
  - cbn [map] in H. apply exec_pseq_cons in H as (s1 & r1 & E1 & H).
    destruct (txi_count_ok _ _ _ _ _ _ E1) as (n' & -> & H1 & H2 & H3). rewrite Hn in H1. injection H1 as <-.
    destruct (IH s1 (S n) H H2) as (Q1 & Q2 & Q3); [by rewrite H3|].
    split_and!; [|rewrite Q2; f_equal; cbn; lia|done].
    change (seqz n (length (i :: is))) with (Z.of_nat n :: seqz (S n) (length is)). cbn [zip_with].
    rewrite (pseq_cons_exec _ _ s s1 (Z.of_nat n)); [done|]. by apply checked_exec.
Qed.
Lemma q_txos_ok ix tr os s s' r n m : exec (pseq (map (p_txo ix tr) os)) s = Some (s', r) ->
  count TxiTx s = Some n -> count TxoSats s = Some m ->
  exec (pseq (zip_with (q_txo ix tr) (seqz m (length os)) os)) s = Some (s', r) /\
  count TxiTx s' = Some n /\ count TxoSats s' = Some (m + length os)%nat.
Proof.
  revert s m. induction os as [|i os IH]; intros s m H Hn Hm.
  - cbn in *. injection H as <- <-. rewrite Nat.add_0_r. done.
  - cbn [map] in H. apply exec_pseq_cons in H as (s1 & r1 & E1 & H).
    destruct (txo_count_ok _ _ _ _ _ _ E1) as (n' & -> & H1 & H2 & H3). rewrite Hm in H1. injection H1 as <-.
    destruct (IH s1 (S m) H ltac:(by rewrite H3) H2) as (Q1 & Q2 & Q3).
    split_and!; [|done|rewrite Q3; f_equal; cbn; lia].
    change (seqz m (length (i :: os))) with (Z.of_nat m :: seqz (S m) (length os)). cbn [zip_with].
    rewrite (pseq_cons_exec _ _ s s1 (Z.of_nat m)); [done|]. by apply checked_exec.
Qed.

Lemma uses_ints f names file vals i : (forall n, file n <> f) -> uses (spares f) (p_ints names file vals i).
Proof.
  intros Hf. apply uses_pseq. apply Forall_map, Forall_true. intros n. cbv beta. destruct (vals !! n); [|constructor].
  constructor; [|constructor]. intros v' i' E. injection E as E _ _. by apply (Hf n).
Qed.

Section Run.
  Context (u : setup) (ix : stores) (HD : u_deleg u = false) (HC : u_chi u = false).

  Lemma q_contents_ok tr c t D s s' r : exec (p_contents u ix tr c t) s = Some (s', r) ->
    count TxiTx s = Some (sum (map lin D)) -> count TxoSats s = Some (sum (map lout D)) ->
    exec (q_contents u ix tr (number_tx D t)) s = Some (s', r) /\
    count TxiTx s' = Some (sum (map lin (D ++ [t]))) /\ count TxoSats s' = Some (sum (map lout (D ++ [t]))).
  Proof.
    intros H Hn Hm. unfold p_contents, q_contents in *. cbn [number_tx n_tx]. rewrite exec_bind in H |- *.
    destruct (exec (p_ints _ _ _ _) s) as [[s1 r1]|] eqn:E1; [|done].
    rewrite <- (exec_count TxiTx _ _ _ _ (uses_ints TxiTx (u_trn u) TrnInt (t_ints t) tr ltac:(intros ?; discriminate)) E1) in Hn.
    rewrite <- (exec_count TxoSats _ _ _ _ (uses_ints TxoSats (u_trn u) TrnInt (t_ints t) tr ltac:(intros ?; discriminate)) E1) in Hm.
    rewrite exec_bind in H |- *. destruct (exec (p_ins _ _ _ _ _) s1) as [[s2 r2]|] eqn:E2; [|done].
    assert (exec (q_ins ix tr (number_tx D t)) s1 = Some (s2, r2) /\ count TxiTx s2 = Some (sum (map lin D) + lin t)%nat /\
            count TxoSats s2 = Some (sum (map lout D))) as (-> & Hn2 & Hm2).
    { unfold p_ins in E2. apply exec_act in E2 as (s3 & r3 & F1 & E2). apply exec_act in E2 as (s4 & r4 & F2 & E2).
      unfold q_ins. cbn [exec]. rewrite F1, F2. apply do_count in F1 as (-> & _).
      unfold kept_ins in E2. rewrite HC in E2. cbn [andb] in E2.
      rewrite <- (kept_count TxiTx _ _ _ _ F2) in Hn by spare. rewrite <- (kept_count TxoSats _ _ _ _ F2) in Hm by spare.
      apply (q_txis_ok ix tr (t_ins t) s4 s2 r2 _ _ E2 Hn Hm). }
    unfold p_outs in H. apply exec_act in H as (s3 & r3 & F1 & H). apply exec_act in H as (s4 & r4 & F2 & H).
    apply exec_act in H as (s5 & r5 & F3 & H). apply exec_act in H as (s6 & r6 & F4 & H).
    unfold q_outs. cbn [exec]. rewrite F1, F2, F3, F4. apply do_count in F1 as (-> & _).
    rewrite <- (kept_count TxiTx _ _ _ _ F2), <- (kept_count TxiTx _ _ _ _ F3), <- (kept_count TxiTx _ _ _ _ F4) in Hn2 by spare.
    rewrite <- (kept_count TxoSats _ _ _ _ F2), <- (kept_count TxoSats _ _ _ _ F3), <- (kept_count TxoSats _ _ _ _ F4) in Hm2 by spare.
    destruct (q_txos_ok ix tr (t_outs t) s6 s' r _ _ H Hn2 Hm2) as (Q1 & Q2 & Q3). split; [exact Q1|].
    rewrite !map_app, !sum_app. cbn [map foldr]. rewrite !Nat.add_0_r. done.
  Qed.

  Lemma q_all_contents_ok first ts : forall D g (k : nat) s s' r,
    exec (pseq (imap (fun n t => p_contents u ix (first + Z.of_nat (k + n)) (g n) t) ts)) s = Some (s', r) ->
    count TxiTx s = Some (sum (map lin D)) -> count TxoSats s = Some (sum (map lout D)) ->
    exec (pseq (imap (fun n t => q_contents u ix (first + Z.of_nat (k + n)) t) (number_txs D ts))) s = Some (s', r) /\
    count TxiTx s' = Some (sum (map lin (D ++ ts))) /\ count TxoSats s' = Some (sum (map lout (D ++ ts))).
  Proof.
    induction ts as [|t ts IH]; intros D g k s s' r H Hn Hm.
    - cbn in *. injection H as <- <-. by rewrite app_nil_r.
    - rewrite imap_cons in H. apply exec_pseq_cons in H as (s1 & r1 & E1 & H).
      destruct (q_contents_ok _ _ _ D _ _ _ E1 Hn Hm) as (Q1 & Q2 & Q3).
      cbn [number_txs]. rewrite imap_cons, (pseq_cons_exec _ _ s s1 r1 Q1).
      destruct (IH (D ++ [t]) (fun n => g (S n)) (S k) s1 s' r) as (R1 & R2 & R3); [|done|done|].
      + rewrite <- H. f_equal. f_equal. apply imap_ext. intros n x _. cbn. do 2 f_equal. lia.
      + rewrite <- app_assoc in R2, R3. split_and!; [|done|done]. rewrite <- R1. f_equal. f_equal. apply imap_ext. intros n x _. cbn. do 2 f_equal. lia.
  Qed.

  Definition placed (D ts : list ctx) : Prop :=
    forall n t, ts !! n = Some t -> hs_index (ix_trn ix) (t_hash t) = Z.of_nat (length D + n).
  Lemma placed_tail D t ts : placed D (t :: ts) -> placed (D ++ [t]) ts.
  Proof. intros H n t' Hn. rewrite (H (S n) t' Hn), app_length. cbn [length]. f_equal. lia. Qed.
  Lemma q_frame_eq blk nth D t ts : placed D (t :: ts) -> q_frame ix blk (number_tx D t) = p_frame u ix blk nth t.
  Proof.
    intros H. unfold q_frame, p_frame. rewrite HD. cbn [number_tx n_tx n_no].
    rewrite (H 0%nat t eq_refl), Nat.add_0_r, bool_decide_eq_true_2 by done. done.
  Qed.
  Lemma q_frames_tail blk ts : forall D (g : nat -> Z), placed D ts ->
    map (q_frame ix blk) (number_txs D ts) = imap (fun i t => p_frame u ix blk (g i) t) ts.
  Proof.
    induction ts as [|t ts IH]; intros D g H; [done|]. cbn [number_txs map]. rewrite imap_cons. f_equal.
    - by eapply q_frame_eq.
    - apply (IH (D ++ [t]) (fun i => g (S i))). by apply placed_tail.
  Qed.
  Lemma q_frames_eq blk D ts : placed D ts -> q_frames ix blk (number_txs D ts) = p_frames u ix blk ts.
  Proof.
    intros H. destruct ts as [|t ts]; [done|]. cbn [number_txs q_frames p_frames].
    rewrite (q_frame_eq blk 0 D t ts H), (q_frames_tail blk ts _ (fun i => Z.of_nat i + 1) (placed_tail _ _ _ H)). by rewrite HD.
  Qed.
  Lemma frames_spare f blk ts : f = TxiTx \/ f = TxoSats -> uses (spares f) (p_frames u ix blk ts).
  Proof.
    intros Hf. assert (forall g v i, g <> TxoSats -> g <> TxiTx -> spares f (AWrite g v i)) as HW.
    { intros g v i H1 H2 v' i' E. injection E as -> _ _. by destruct Hf. }
    assert (forall nth t, uses (spares f) (p_frame u ix blk nth t)) as HF.
    { intros nth t. unfold p_frame. rewrite HD. constructor; [by apply HW|]. constructor. }
    destruct ts as [|t ts]; [constructor|]. cbn [p_frames]. rewrite HD. apply uses_bind; [done|]. intros r.
    constructor; [spare|]. intros _. apply uses_bind; [constructor; [by apply HW|constructor]|]. intros _.
    apply uses_bind; [|constructor]. apply uses_pseq. apply Forall_forall. intros p Hp.
    apply elem_of_list_lookup in Hp as [i Hi]. rewrite list_lookup_imap in Hi. destruct (ts !! i); [|done]. cbn in Hi. by injection Hi as <-.
  Qed.

  Lemma q_block_ok pre b s s' r : placed (txs_of pre) (b_txs b) ->
    exec (p_block u ix (Z.of_nat (length pre)) b) s = Some (s', r) ->
    count TxiTx s = Some (sum (map lin (txs_of pre))) -> count TxoSats s = Some (sum (map lout (txs_of pre))) ->
    exec (q_block u ix (number_block pre b)) s = Some (s', r) /\
    count TxiTx s' = Some (sum (map lin (txs_of (pre ++ [b])))) /\ count TxoSats s' = Some (sum (map lout (txs_of (pre ++ [b])))).
  Proof.
    intros HP H Hn Hm. unfold p_block, q_block in *. cbn [number_block n_hash n_bno n_ints n_txs].
    destruct (bool_decide (hs_index _ _ = -1)); [done|]. destruct (bool_decide (_ <> _)); [done|].
    rewrite exec_bind in H |- *. destruct (exec (p_ints _ _ _ _) s) as [[s1 r1]|] eqn:E1; [|done].
    rewrite <- (exec_count TxiTx _ _ _ _ (uses_ints TxiTx (u_blk u) BlkInt (b_ints b) _ ltac:(intros ?; discriminate)) E1) in Hn.
    rewrite <- (exec_count TxoSats _ _ _ _ (uses_ints TxoSats (u_blk u) BlkInt (b_ints b) _ ltac:(intros ?; discriminate)) E1) in Hm.
    rewrite exec_bind in H |- *. rewrite (q_frames_eq _ _ _ HP).
    destruct (exec (p_frames _ _ _ _) s1) as [[s2 first]|] eqn:E2; [|done].
    rewrite <- (exec_count TxiTx _ _ _ _ (frames_spare TxiTx _ _ ltac:(by left)) E2) in Hn.
    rewrite <- (exec_count TxoSats _ _ _ _ (frames_spare TxoSats _ _ ltac:(by right)) E2) in Hm.
    destruct (q_all_contents_ok first (b_txs b) (txs_of pre) (fun t => bool_decide (t = 0%nat)) 0 s2 s' r H Hn Hm) as (Q1 & Q2 & Q3).
    split; [exact Q1|]. unfold txs_of in *. rewrite map_app, concat_app. cbn [map concat]. rewrite app_nil_r. done.
  Qed.

  Lemma run_copy_ok mid : forall pre s s' last,
    (forall k b, mid !! k = Some b -> placed (txs_of (pre ++ take k mid)) (b_txs b)) ->
    run_from u ix (Z.of_nat (length pre)) last mid s = Some s' ->
    count TxiTx s = Some (sum (map lin (txs_of pre))) -> count TxoSats s = Some (sum (map lout (txs_of pre))) ->
    run_copy u ix (number_blocks pre mid) s = Some s'.
  Proof.
    induction mid as [|b mid IH]; intros pre s s' last HP H Hn Hm; [done|]. cbn [run_from number_blocks run_copy] in *.
    unfold p_gather in H. rewrite HD in H. cbn [exec] in H.
    destruct (exec (p_block u ix (Z.of_nat (length pre)) b) s) as [[s2 r2]|] eqn:E; [|done].
    destruct (q_block_ok pre b s s2 r2) as (Q1 & Q2 & Q3); [|done|done|done|].
    { specialize (HP 0%nat b eq_refl). cbn [take] in HP. by rewrite app_nil_r in HP. }
    rewrite Q1. apply (IH (pre ++ [b]) s2 s' (last + Z.of_nat (length (b_txs b)))); [| |done|done].
    - intros k b' Hk. specialize (HP (S k) b' Hk). cbn [take] in HP. by rewrite <- app_assoc.
    - rewrite <- H. f_equal. rewrite app_length. cbn [length]. lia.
  Qed.
End Run.

(** ** Reading the source *)
Definition only (names : list nat) (vals : gmap nat Z) : gmap nat Z := list_to_map (map (fun n => (n, default 0 (vals !! n))) names).
Lemma only_lookup names vals n : n ∈ names -> NoDup names -> only names vals !! n = Some (default 0 (vals !! n)).
Proof.
  intros Hn HN. unfold only. apply elem_of_list_to_map_1; [by rewrite map_map, map_id|]. apply elem_of_list_fmap. eauto.
Qed.
Definition copied_in (bs : list cblock) (i : cin) : cin := mk_cin (SrcHeight (source_number bs (i_src i))) (i_vout i).
Definition copied_tx (u : setup) (bs : list cblock) (c : bool) (t : ctx) : ctx :=
  mk_ctx (t_hash t) (only (u_trn u) (t_ints t)) (map (copied_in bs) (shown_ins u c t)) (t_outs t).
Definition copied_block (u : setup) (bs : list cblock) (b : cblock) : cblock :=
  mk_cblock (b_hash b) (only (u_blk u) (b_ints b)) (imap (fun n t => copied_tx u bs (bool_decide (n = 0%nat)) t) (b_txs b)).
Definition copied (u : setup) (bs : list cblock) : list cblock := map (copied_block u bs) bs.

Lemma copied_tag u bs b : b_txs (copied_block u bs b) = map (fun p => copied_tx u bs p.1 p.2) (tag b).
Proof. unfold tag. cbn [copied_block b_txs]. change (map ?f ?l) with (f <$> l). by rewrite fmap_imap. Qed.
Lemma copied_txs u bs cs : txs_of (map (copied_block u bs) cs) = map (fun p => copied_tx u bs p.1 p.2) (tagged cs).
Proof.
  unfold txs_of, tagged. rewrite concat_map, !map_map. f_equal. apply map_ext. intros b. apply copied_tag.
Qed.
Lemma copied_lin u bs D : map lin (map (fun p => copied_tx u bs p.1 p.2) D) = map (nin u) D.
Proof. rewrite map_map. apply map_ext. intros [c t]. unfold lin, copied_tx, nin. cbn [t_ins fst snd]. by rewrite map_length, kept_shown. Qed.
Lemma copied_lout u bs D : map lout (map (fun p => copied_tx u bs p.1 p.2) D) = map nout D.
Proof. by rewrite map_map. Qed.
Lemma copied_block_hashes u bs : block_hashes (copied u bs) = block_hashes bs.
Proof. unfold block_hashes, copied. by rewrite map_map. Qed.
Lemma copied_tx_hashes u bs : tx_hashes (copied u bs) = tx_hashes bs.
Proof. unfold tx_hashes, copied. rewrite copied_txs, map_map. cbn [copied_tx t_hash]. by rewrite <- (tagged_snd bs), map_map. Qed.
Lemma copied_outs u bs : outs_of (txs_of (copied u bs)) = outs_of (txs_of bs).
Proof. unfold outs_of, copied. rewrite copied_txs, map_map. cbn [copied_tx t_outs]. by rewrite <- (tagged_snd bs), map_map. Qed.
Lemma copied_addr_hashes u bs : addr_hashes (copied u bs) = addr_hashes bs.
Proof. unfold addr_hashes. by rewrite copied_outs. Qed.

Section Source.
  Context (u : setup) (ix : stores) (bs : list cblock) (vw : view) (A : ast).
  Context (HX : indexed ix bs) (HVh : sees (handed_over u) vw ix A) (HI : sofar u bs bs A) (HS : storable u bs).
  Lemma HV_ : sees read_files vw ix A.
  Proof. eapply sees_weaken; [apply (read_files_handed u)|done]. Qed.
  Notation HV := HV_.
  Ltac inrd := unfold read_files; set_solver.

  Lemma src_ints_ok names file (l : nat -> list Z) vals j :
    (forall n, n ∈ names -> rd vw (file n) (Z.of_nat j) = l n !! j) ->
    (forall n, n ∈ names -> l n !! j = Some (default 0 (vals !! n))) ->
    src_ints vw names file (Z.of_nat j) = Some (only names vals).
  Proof.
    intros H1 H2. unfold src_ints, only.
    assert (mapM (fun n => v ← rd vw (file n) (Z.of_nat j); Some (n, v)) names = Some (map (fun n => (n, default 0 (vals !! n))) names)) as ->; [|done].
    apply mapM_Some. apply Forall2_fmap_r. apply Forall_Forall2_diag. apply Forall_forall. intros n Hn. by rewrite H1, H2 by done.
  Qed.
  Lemma blk_handed n : n ∈ u_blk u -> BlkInt n ∈ handed_over u.
  Proof. intros H. apply elem_of_list_filter. split; [done|]. by apply blk_in. Qed.
  Lemma trn_handed n : n ∈ u_trn u -> TrnInt n ∈ handed_over u.
  Proof. intros H. apply elem_of_list_filter. split; [done|]. by apply trn_in. Qed.

  Lemma src_out_ok j c t i o : tagged bs !! j = Some (c, t) -> t_outs t !! i = Some o ->
    src_out vw (Z.of_nat (out_start bs j + i)) = Some o.
  Proof.
    intros Hj Ho. destruct HI as [HB HT]. pose proof (outs_lookup bs j c t i o Hj Ho) as Hoo.
    unfold src_out, txo_sats, txo_address. rewrite !(rd_ok _ _ _ HV) by inrd. rewrite (it_sats _ _ _ _ HT), (it_addr _ _ _ _ HT).
    unfold addr_numbers, out_start. rewrite !lookup_map, Hoo. cbn [fmap option_fmap option_map mbind option_bind].
    assert (address_hash vw (first_of (addr_hashes bs) (o_addr o)) = Some (o_addr o)) as ->; [|by destruct o].
    unfold address_hash. rewrite (proj1 HV). destruct HX as (_ & _ & (_ & _ & Hat)).
    assert (addr_hashes bs !! (sum (take j (map nout (tagged bs))) + i)%nat = Some (o_addr o)) as HL.
    { unfold addr_hashes. rewrite <- tagged_snd, <- outs_snd. by rewrite lookup_map, Hoo. }
    destruct (first_of_cases (addr_hashes bs) (o_addr o)) as [[Hn _]|(k & Ek & Hk & _)].
    - destruct Hn. by eapply elem_of_list_lookup_2.
    - rewrite Ek. by apply Hat.
  Qed.
  Lemma src_in_ok j c t i x : tagged bs !! j = Some (c, t) -> shown_ins u c t !! i = Some x ->
    src_in vw (Z.of_nat (in_start u bs j + i)) = Some (copied_in bs x).
  Proof.
    intros Hj Hx. destruct HI as [HB HT]. rewrite <- kept_shown in Hx. pose proof (lookup_lt_Some _ _ _ Hx) as Hi.
    unfold src_in, txi_source. rewrite !(rd_ok _ _ _ HV) by inrd. rewrite (it_txi_tx _ _ _ _ HT), (it_txi_vout _ _ _ _ HT).
    pose proof (lookup_concat_map (fun p => sources bs (kept u p)) (tagged bs) j (c, t) i Hj) as Q1.
    pose proof (lookup_concat_map (fun p => map i_vout (kept u p)) (tagged bs) j (c, t) i Hj) as Q2.
    cbv beta in Q1, Q2.
    assert (map (fun q => length (sources bs (kept u q))) (tagged bs) = map (nin u) (tagged bs)) as R1.
    { apply map_ext. intros q. unfold sources, nin. by rewrite map_length. }
    assert (map (fun q => length (map i_vout (kept u q))) (tagged bs) = map (nin u) (tagged bs)) as R2.
    { apply map_ext. intros q. unfold nin. by rewrite map_length. }
    rewrite R1 in Q1. rewrite R2 in Q2. unfold in_start. rewrite Q1, Q2 by (unfold sources; by rewrite map_length). unfold sources.
    rewrite !lookup_map, Hx. done.
  Qed.
  Lemma mapM_seqz {X} (f : Z -> option X) a (l : list X) : (forall i x, l !! i = Some x -> f (Z.of_nat (a + i)) = Some x) ->
    mapM f (seqz a (length l)) = Some l.
  Proof.
    intros H. apply mapM_Some. apply Forall2_same_length_lookup_2; [unfold seqz; by rewrite map_length, seq_length|].
    intros i x y Hx Hy. unfold seqz in Hx. rewrite lookup_map in Hx. destruct (seq a (length l) !! i) as [k|] eqn:E; [|done].
    apply lookup_seq in E as [-> _]. cbn in Hx. injection Hx as <-. by apply H.
  Qed.
  Lemma nths_seqz (f : Z -> option Z) a n : (forall i, f (Z.of_nat i) = Some (Z.of_nat (a + i))) ->
    mapM f (indices (Z.of_nat n)) = Some (seqz a n).
  Proof.
    intros H. unfold indices. rewrite Nat2Z.id. apply mapM_Some. apply Forall2_same_length_lookup_2; [unfold seqz; by rewrite !map_length, !seq_length|].
    intros i x y Hx Hy. unfold seqz in Hy. rewrite lookup_map in Hx, Hy.
    destruct (seq a n !! i) as [k|] eqn:E; [|done]. destruct (seq 0 n !! i) as [k'|] eqn:E'; [|done].
    apply lookup_seq in E as [-> _]. apply lookup_seq in E' as [-> _]. cbn in Hx, Hy. injection Hx as <-. injection Hy as <-. apply H.
  Qed.

  Lemma copied_before j : (j <= length (tagged bs))%nat ->
    length (take j (txs_of (copied u bs))) = j /\
    sum (map lin (take j (txs_of (copied u bs)))) = in_start u bs j /\ sum (map lout (take j (txs_of (copied u bs)))) = out_start bs j.
  Proof.
    intros Hj. unfold copied. rewrite copied_txs. split_and!.
    - rewrite take_length, map_length. lia.
    - rewrite <- firstn_map, copied_lin. done.
    - rewrite <- firstn_map, copied_lout. done.
  Qed.

  Lemma src_trans_ok j c t : tagged bs !! j = Some (c, t) ->
    src_trans u vw (Z.of_nat j) = Some (number_tx (take j (txs_of (copied u bs))) (copied_tx u bs c t)).
  Proof.
    intros Hj. pose proof HI as [HB HT]. unfold src_trans. pose proof (lookup_lt_Some _ _ _ Hj) as Hlt.
    destruct (copied_before j ltac:(lia)) as (L1 & L2 & L3).
    assert (trans_hash vw (Z.of_nat j) = Some (t_hash t)) as ->.
    { unfold trans_hash. rewrite (proj1 HV). destruct HX as (_ & (_ & _ & ->) & _). unfold tx_hashes.
      rewrite <- tagged_snd, map_map. by rewrite lookup_map, Hj. }
    cbn [mbind option_bind].
    rewrite (src_ints_ok (u_trn u) TrnInt (fun n => a_f A (TrnInt n)) (t_ints t) j);
      [|intros n Hn; apply (proj2 HVh), trn_handed, Hn|intros n Hn; rewrite (it_ints _ _ _ _ HT n Hn), lookup_map, Hj; done].
    cbn [mbind option_bind].
    destruct (counts_ok ix bs vw A HX HV FirstTxi TxiTx (nin u) j (c, t)) as [E1 E2]; [inrd|inrd|apply HT| |done|].
    { by rewrite (it_txi_tx _ _ _ _ HT), len_sources. }
    unfold txi_count. rewrite E1. cbn [mbind option_bind].
    rewrite (nths_seqz _ (in_start u bs j)) by (intros i; unfold nth_txi; rewrite E2; cbn [mbind option_bind]; f_equal; unfold in_start; lia).
    cbn [mbind option_bind].
    assert (nin u (c, t) = length (map (copied_in bs) (shown_ins u c t))) as El by (unfold nin; by rewrite map_length, kept_shown).
    rewrite El, (mapM_seqz (src_in vw) (in_start u bs j) (map (copied_in bs) (shown_ins u c t))).
    2: { intros i x Hx. rewrite lookup_map in Hx. destruct (shown_ins u c t !! i) as [y|] eqn:Ey; [|done]. cbn in Hx. injection Hx as <-.
         by eapply src_in_ok. }
    cbn [mbind option_bind].
    destruct (counts_ok ix bs vw A HX HV FirstTxo TxoSats nout j (c, t)) as [F1 F2]; [inrd|inrd|apply HT| |done|].
    { by rewrite (it_sats _ _ _ _ HT), map_length, sum_nout. }
    unfold txo_count. rewrite F1. cbn [mbind option_bind].
    rewrite (nths_seqz _ (out_start bs j)) by (intros i; unfold nth_txo; rewrite F2; cbn [mbind option_bind]; f_equal; unfold out_start; lia).
    cbn [mbind option_bind]. unfold nout. cbn [snd].
    rewrite (mapM_seqz (src_out vw) (out_start bs j) (t_outs t)) by (intros i o Ho; by eapply src_out_ok).
    cbn [mbind option_bind]. unfold number_tx. rewrite L1, L2, L3. done.
  Qed.

  Lemma take_txs k b n : bs !! k = Some b -> (n <= ntx b)%nat ->
    txs_of (take k (copied u bs)) ++ take n (b_txs (copied_block u bs b)) = take (sum (take k (map ntx bs)) + n) (txs_of (copied u bs)).
  Proof.
    intros Hk Hn. assert (map ntx (copied u bs) = map ntx bs) as EN.
    { unfold copied. rewrite map_map. apply map_ext. intros q. unfold ntx. rewrite copied_tag, map_length. apply tag_length. }
    assert (copied u bs !! k = Some (copied_block u bs b)) as Hk' by (unfold copied; by rewrite lookup_map, Hk).
    rewrite <- (take_drop_middle _ _ _ Hk') at 2. unfold txs_of. rewrite map_app, concat_app. fold (txs_of (take k (copied u bs))).
    assert (length (txs_of (take k (copied u bs))) = sum (take k (map ntx bs))) as El.
    { rewrite txs_length, <- EN. f_equal. symmetry. apply firstn_map. }
    rewrite take_add_app by done. f_equal. cbn [map concat]. rewrite take_app_le; [done|].
    rewrite copied_tag, map_length, tag_length. done.
  Qed.

  Lemma src_block_ok k b : bs !! k = Some b ->
    src_block u vw (Z.of_nat k) = Some (number_block (take k (copied u bs)) (copied_block u bs b)).
  Proof.
    intros Hk. pose proof HI as [HB HT]. unfold src_block. pose proof (lookup_lt_Some _ _ _ Hk) as Hlt.
    assert (block_hash vw (Z.of_nat k) = Some (b_hash b)) as ->.
    { unfold block_hash. rewrite (proj1 HV). destruct HX as ((_ & _ & ->) & _). unfold block_hashes.
      by rewrite lookup_map, Hk. }
    cbn [mbind option_bind].
    rewrite (src_ints_ok (u_blk u) BlkInt (fun n => a_f A (BlkInt n)) (b_ints b) k);
      [|intros n Hn; apply (proj2 HVh), blk_handed, Hn|intros n Hn; rewrite (ib_ints _ _ _ HB n Hn), lookup_map, Hk; done].
    cbn [mbind option_bind].
    assert (rd vw FirstTrans (Z.of_nat k) = Some (Z.of_nat (sum (take k (map ntx bs))))) as Hr.
    { rewrite (rd_ok _ _ _ HV), (ib_first _ _ _ HB), starts_lookup by (try inrd; by rewrite map_length). done. }
    assert (map ntx bs !! k = Some (ntx b)) as Hl. { by rewrite lookup_map, Hk. }
    pose proof (sum_take_S _ _ _ Hl) as Hs.
    assert (trans_count vw (Z.of_nat k) = Some (Z.of_nat (ntx b))) as ->.
    { unfold trans_count. rewrite Hr. cbn [mbind option_bind]. rewrite (nblk_eq _ _ _ _ HX HV), (ntrn_eq _ _ _ _ HX HV). case_bool_decide as Hc.
      - replace (Z.of_nat k + 1) with (Z.of_nat (S k)) by lia.
        rewrite (rd_ok _ _ _ HV), (ib_first _ _ _ HB), starts_lookup by (try inrd; rewrite map_length; lia).
        cbn [mbind option_bind]. f_equal. rewrite Hs. lia.
      - f_equal. rewrite take_ge in Hs by (rewrite map_length; lia). rewrite tagged_length, Hs. lia. }
    cbn [mbind option_bind].
    rewrite (nths_seqz _ (sum (take k (map ntx bs)))) by (intros i; unfold nth_trans; rewrite Hr; cbn [mbind option_bind]; f_equal; lia).
    cbn [mbind option_bind].
    set (b' := copied_block u bs b). set (D := txs_of (take k (copied u bs))).
    assert (length (b_txs b') = ntx b) as Elen by (unfold b'; by rewrite copied_tag, map_length, tag_length).
    replace (seqz (sum (take k (map ntx bs))) (ntx b)) with (seqz (sum (take k (map ntx bs))) (length (number_txs D (b_txs b'))))
      by (by rewrite number_txs_length, Elen).
    rewrite (mapM_seqz (src_trans u vw)).
    - cbn [mbind option_bind]. unfold number_block. fold D. f_equal. f_equal. rewrite take_length. unfold copied. rewrite map_length. lia.
    - intros i x Hx. pose proof (lookup_lt_Some _ _ _ Hx) as Hi. rewrite number_txs_length, Elen in Hi.
      destruct (b_txs b !! i) as [t|] eqn:Ht; [|apply lookup_ge_None in Ht; unfold ntx in Hi; lia].
      assert (b_txs b' !! i = Some (copied_tx u bs (bool_decide (i = 0%nat)) t)) as Ht'.
      { unfold b'. cbn [copied_block b_txs]. by rewrite list_lookup_imap, Ht. }
      rewrite (number_txs_lookup _ _ _ _ Ht') in Hx. apply (inj Some) in Hx as <-.
      unfold D, b'. rewrite (take_txs k b i Hk ltac:(lia)). apply src_trans_ok.
      unfold tagged. assert (tag b !! i = Some (bool_decide (i = 0%nat), t)) as Hti. { unfold tag. by rewrite list_lookup_imap, Ht. }
      rewrite <- Hti. rewrite <- (lookup_concat_map tag bs k b i Hk) by (by eapply lookup_lt_Some).
      do 2 f_equal. f_equal. f_equal. apply map_ext. intros q. by rewrite tag_length.
  Qed.

  Lemma src_chain_ok fuel : bs <> [] -> (length bs <= fuel)%nat -> src_chain u vw fuel = Some (number_blocks [] (copied u bs)).
  Proof.
    intros Hne Hf. unfold src_chain, genesis. change 0 with (Z.of_nat 0).
    assert (length (number_blocks [] (copied u bs)) = length bs) as Hlen. { rewrite number_blocks_length. unfold copied. by rewrite map_length. }
    rewrite (walk_forward _ _ (number_blocks [] (copied u bs)) 0 fuel); [done| | | |lia].
    - intros i x Hx. pose proof (lookup_lt_Some _ _ _ Hx) as Hi. rewrite Hlen in Hi.
      destruct (bs !! i) as [b|] eqn:Hb; [|apply lookup_ge_None in Hb; lia].
      rewrite (number_blocks_lookup [] (copied u bs) i (copied_block u bs b)) in Hx by (unfold copied; by rewrite lookup_map, Hb).
      apply (inj Some) in Hx as <-. by apply src_block_ok.
    - intros i Hi. unfold next_block. rewrite (nblk_eq _ _ _ _ HX HV), Hlen. case_bool_decide; case_bool_decide; lia.
    - rewrite Hlen. destruct bs; [done|cbn; lia].
  Qed.
End Source.

(** ** What is copied can be stored, and is seen as before *)
Lemma shown_copied u u' bs : u_chi u' = false -> shown_chain u' (copied u bs) = shown_chain u bs.
Proof.
  intros HC. unfold shown_chain. unfold copied at 2. rewrite map_map. apply map_ext. intros b. unfold shown_block.
  cbn [copied_block b_hash b_txs]. f_equal. apply list_eq. intros n. rewrite !list_lookup_imap. destruct (b_txs b !! n) as [t|]; [|done].
  cbn [fmap option_fmap option_map]. f_equal. unfold shown_tx. cbn [copied_tx t_hash t_outs].
  assert (forall c, shown_ins u' c (copied_tx u bs (bool_decide (n = 0%nat)) t) = map (copied_in bs) (shown_ins u (bool_decide (n = 0%nat)) t)) as ->.
  { intros c. unfold shown_ins at 1. by rewrite HC. }
  by rewrite map_map.
Qed.
Lemma shown_ins_le u c t : (length (shown_ins u c t) <= lin t)%nat.
Proof. unfold shown_ins, lin. destruct (u_chi u), c; cbn; lia. Qed.
Lemma good_copied u ix bs u' ix' : good_chain u ix bs -> NoDup (tx_hashes bs) -> indexed ix' bs ->
  NoDup (u_blk u') -> NoDup (u_trn u') -> u_blk u' ⊆ u_blk u -> u_trn u' ⊆ u_trn u -> u_chi u' = false ->
  good_chain u' ix' (copied u bs).
Proof.
  intros [HX HS HB _] HT HX' HN1 HN2 Hb Ht HC. constructor.
  - unfold indexed. rewrite copied_block_hashes, copied_tx_hashes, copied_addr_hashes. done.
  - destruct HS as [S1 [S2 S2'] S3 S4 S5 S6 S7 S8 S9 S10]. constructor.
    + apply Forall_map. eapply Forall_impl; [exact S1|]. intros b Hne. cbn [copied_block b_txs]. destruct (b_txs b) eqn:Eq; [by destruct Hne|]. by rewrite imap_cons.
    + done.
    + apply Forall_map. eapply Forall_impl; [exact S3|]. intros b HF. rewrite !Forall_forall in *. intros n Hn.
      destruct (HF n (Hb n Hn)) as (v & Ev & Hv). exists v. cbn [copied_block b_ints]. rewrite (only_lookup _ _ _ (Hb n Hn) S2), Ev. done.
    + unfold copied. rewrite copied_txs. apply Forall_map. rewrite <- tagged_snd in S4. apply Forall_map in S4. eapply Forall_impl; [exact S4|].
      intros [c t] HF. cbn [snd] in HF. rewrite !Forall_forall in *. intros n Hn.
      destruct (HF n (Ht n Hn)) as (v & Ev & Hv). exists v. cbn [copied_tx t_ints fst snd]. rewrite (only_lookup _ _ _ (Ht n Hn) S2'), Ev. done.
    + unfold copied. rewrite copied_txs, map_length, <- (map_length snd), tagged_snd. done.
    + eapply Z.le_lt_trans; [|exact S6]. apply inj_le. unfold copied. rewrite copied_txs, length_concat, map_map, <- (tagged_snd bs), length_concat, !map_map.
      clear. induction (tagged bs) as [|[c t] D IH]; cbn [map foldr]; [done|]. pose proof (shown_ins_le u c t) as H. unfold lin in H.
      assert (length (t_ins (copied_tx u bs (c, t).1 (c, t).2)) <= length (t_ins (c, t).2))%nat; [|lia]. cbn [copied_tx t_ins fst snd]. rewrite map_length. lia.
    + by rewrite copied_outs.
    + by rewrite copied_addr_hashes.
    + intros k b' n t' i Hk Hn Hi. unfold copied in Hk. rewrite lookup_map in Hk. destruct (bs !! k) as [b|] eqn:Eb; [|done].
      cbn in Hk. injection Hk as <-. cbn [copied_block b_txs] in Hn. rewrite list_lookup_imap in Hn. destruct (b_txs b !! n) as [t|] eqn:Et; [|done].
      cbn in Hn. injection Hn as <-. unfold shown_ins in Hi at 1. rewrite HC in Hi. cbn [copied_tx t_ins] in Hi.
      apply elem_of_list_fmap in Hi as (x & -> & Hx). cbn [copied_in i_vout i_src source_number].
      destruct (S9 k b n t x Eb Et Hx) as (Q1 & Q2 & _). done.
    + by rewrite copied_outs.
  - by rewrite copied_block_hashes.
  - right. by rewrite copied_tx_hashes.
Qed.

Lemma count_create u pt ptr f : f ∈ fixed_files -> count f (c_create u pt ptr) = Some 0%nat.
Proof.
  intros Hf. destruct (create_Rep u pt ptr) as (HF & _). destruct (HF f (fixed_in u f Hf)) as (wf & E & Hi).
  unfold count. rewrite E. cbn [fmap option_fmap option_map]. by rewrite (wf_is_count _ _ _ Hi).
Qed.
Lemma view_sees_handed r u ix s A : Rep u s A -> sees (handed_over u) (view_of r ix s) ix A.
Proof.
  intros HR. destruct r; cbn [view_of]; [by apply as_readable_sees|].
  eapply sees_weaken; [|by apply open_sees]. intros f Hf. by apply elem_of_list_filter in Hf as [_ Hf].
Qed.

(** *** C101 *)
(** A stored chain without repeated transactions can be the source of another chain, and the copy shows what the
    original shows: blocks, ints and address histories. *)
Theorem C101_copy_shows_the_same :
  forall u ix bs prev_txo prev_trans u' ix' prev_txo' prev_trans',
  good_chain u ix bs -> bs <> [] -> prev_txo <= 0 -> prev_trans <= 0 -> prev_txo' <= 0 -> prev_trans' <= 0 ->
  NoDup (tx_hashes bs) -> indexed ix' bs ->
  u_deleg u' = false -> u_chi u' = false -> NoDup (u_blk u') -> NoDup (u_trn u') -> u_blk u' ⊆ u_blk u -> u_trn u' ⊆ u_trn u ->
  exists s s', run_chain u ix bs (c_create u prev_txo prev_trans) = Some s /\
    (forall r fuel, (length bs <= fuel)%nat -> exists nbs, src_chain u (view_of r ix s) fuel = Some nbs /\
       run_copy u' ix' nbs (c_create u' prev_txo' prev_trans') = Some s') /\
    (forall r r' fuel, (length bs <= fuel)%nat ->
       walk (next_block (view_of r ix s)) (read_block (view_of r ix s)) fuel genesis = Some (shown_chain u bs) /\
       walk (next_block (view_of r' ix' s')) (read_block (view_of r' ix' s')) fuel genesis = Some (shown_chain u bs)) /\
    (forall k b name, bs !! k = Some b -> name ∈ u_blk u' ->
       block_int (open_read_only ix' s') name (Z.of_nat k) = b_ints b !! name) /\
    (forall k b n t name, bs !! k = Some b -> b_txs b !! n = Some t -> name ∈ u_trn u' ->
       trans_int (open_read_only ix' s') name (trans_number bs (Z.of_nat k) (Z.of_nat n)) = t_ints t !! name) /\
    (forall r r' h, h ∈ addr_hashes bs ->
       address_txos (view_of r' ix' s') (hs_index (ix_adr ix') h) = address_txos (view_of r ix s) (hs_index (ix_adr ix) h)).
Proof.
  intros u ix bs pt ptr u' ix' pt' ptr' HG Hne Hp Hq Hp' Hq' HT HX' HD HC HN1 HN2 Hb Ht.
  pose proof (good_copied u ix bs u' ix' HG HT HX' HN1 HN2 Hb Ht HC) as HG'.
  destruct (run_whole u ix bs pt ptr HG Hp Hq) as (s & A & E & HR & HI).
  destruct (run_whole u' ix' (copied u bs) pt' ptr' HG' Hp' Hq') as (s' & A' & E' & HR' & HI').
  exists s, s'. pose proof HG as [HX HS HB _]. pose proof HG' as [_ HS' HB' HD'].
  assert (length (copied u bs) = length bs) as Hlen by (unfold copied; by rewrite map_length).
  split; [done|]. split; [|split; [|split; [|split]]].
  - intros r fuel Hf. exists (number_blocks [] (copied u bs)). split.
    + apply (src_chain_ok u ix bs _ A HX (view_sees_handed r u ix s A HR) HI HS fuel Hne Hf).
    + eapply (run_copy_ok u' ix' HD HC (copied u bs) []); [|exact E'|apply count_create; unfold fixed_files; set_solver..].
      intros k b' Hk n t Hn. cbn [app].
      destruct (tx_number u' ix' (copied u bs) (gc_indexed _ _ _ HG') HS' HB' HD' (take k (copied u bs)) b' (drop (S k) (copied u bs)) n t) as [?|Hix];
        [by rewrite take_drop_middle|done|congruence|]. by rewrite Hix, txs_length.
  - intros r r' fuel Hf. destruct (C44_blocks_read_back u ix bs pt ptr HG Hne Hp Hq) as (s1 & E1 & H1).
    rewrite E in E1. injection E1 as <-. split; [by apply H1|].
    destruct (C44_blocks_read_back u' ix' (copied u bs) pt' ptr' HG') as (s1 & E1 & H1'); [|done|done|].
    { intros Hc. rewrite Hc in Hlen. by destruct bs. }
    rewrite E' in E1. injection E1 as <-. rewrite (proj1 (H1' r' fuel ltac:(lia))). by rewrite (shown_copied u u' bs HC).
  - intros k b name Hk Hname. destruct (C44_ints_read_back u' ix' (copied u bs) pt' ptr' HG' Hp' Hq') as (s1 & E1 & H1).
    rewrite E' in E1. injection E1 as <-. destruct (H1 k (copied_block u bs b) name) as [H2 _]; [unfold copied; by rewrite lookup_map, Hk|].
    cbv zeta in H2. rewrite (H2 Hname). cbn [copied_block b_ints]. rewrite (only_lookup _ _ _ (Hb _ Hname) (proj1 (so_names _ _ HS))).
    pose proof (Forall_lookup_1 _ _ _ _ (so_blk_ints _ _ HS) Hk) as HF. cbv beta in HF. rewrite Forall_forall in HF.
    by destruct (HF name (Hb _ Hname)) as (v & -> & _).
  - intros k b n t name Hk Hn Hname. destruct (C44_ints_read_back u' ix' (copied u bs) pt' ptr' HG' Hp' Hq') as (s1 & E1 & H1).
    rewrite E' in E1. injection E1 as <-. destruct (H1 k (copied_block u bs b) name) as [_ H2]; [unfold copied; by rewrite lookup_map, Hk|].
    cbv zeta in H2. destruct (H2 n (copied_tx u bs (bool_decide (n = 0%nat)) t) Hname) as [_ H3].
    { cbn [copied_block b_txs]. by rewrite list_lookup_imap, Hn. }
    assert (trans_number (copied u bs) (Z.of_nat k) (Z.of_nat n) = trans_number bs (Z.of_nat k) (Z.of_nat n)) as <-.
    { unfold trans_number. rewrite Nat2Z.id. do 2 f_equal. unfold copied. rewrite firstn_map, copied_txs, map_length, <- (map_length snd), tagged_snd. done. }
    rewrite H3. cbn [copied_tx t_ints]. rewrite (only_lookup _ _ _ (Ht _ Hname) (proj2 (so_names _ _ HS))).
    pose proof (so_trn_ints _ _ HS) as HF. rewrite Forall_forall in HF.
    assert (t ∈ txs_of bs) as Hin.
    { unfold txs_of. apply elem_of_list_In, in_concat. exists (b_txs b). split; apply elem_of_list_In; [|by eapply elem_of_list_lookup_2].
      apply elem_of_list_fmap. exists b. split; [done|]. by eapply elem_of_list_lookup_2. }
    specialize (HF t Hin). cbv beta in HF. rewrite Forall_forall in HF. by destruct (HF name (Ht _ Hname)) as (v & -> & _).
  - intros r r' h Hh. destruct (C45_address_history_partial u ix bs pt ptr h HG Hp Hq Hh) as (s1 & E1 & H1).
    rewrite E in E1. injection E1 as <-.
    destruct (C45_address_history_partial u' ix' (copied u bs) pt' ptr' h HG' Hp' Hq' ltac:(by rewrite copied_addr_hashes)) as (s1 & E1 & H1').
    rewrite E' in E1. injection E1 as <-. rewrite copied_addr_hashes in H1'.
    specialize (H1 r). specialize (H1' r'). cbv zeta in H1, H1'. rewrite (proj2 H1), (proj2 H1').
    destruct HX as (_ & _ & (_ & -> & _)). destruct HX' as (_ & _ & (_ & -> & _)). done.
Qed.

(** The chain of two blocks of the examples of C44, stored by the handles interface with delegated indexing, and
    copied by the plain interface *)
Definition copy_u : setup := mk_setup false false [] [0%nat].
Example C101_copy_shows_the_same_nontrivial :
  exists s s', run_chain ex_u (ideal_stores ex_bs) ex_bs (c_create ex_u (-1) (-1)) = Some s /\
    (exists nbs, src_chain ex_u (open_read_only (ideal_stores ex_bs) s) 2 = Some nbs /\
       run_copy copy_u (ideal_stores ex_bs) nbs (c_create copy_u (-1) (-1)) = Some s') /\
    walk (next_block (open_read_only (ideal_stores ex_bs) s')) (read_block (open_read_only (ideal_stores ex_bs) s')) 2 genesis =
      Some [([1], [([10], [], [(5000000000, [100])])]);
            ([2], [([11], [], [(5000000000, [101])]); ([12], [(0, 0)], [(2000000000, [100]); (3000000000, [102])])])] /\
    trans_int (open_read_only (ideal_stores ex_bs) s') 0 1 = Some 2.
Proof.
  assert (NoDup (tx_hashes ex_bs)) as HN.
  { change (tx_hashes ex_bs) with [[10]; [11]; [12]]. repeat (apply NoDup_cons_2; [set_solver|]). apply NoDup_nil_2. }
  destruct (C101_copy_shows_the_same ex_u (ideal_stores ex_bs) ex_bs (-1) (-1) copy_u (ideal_stores ex_bs) (-1) (-1) ex_good
    ltac:(discriminate) ltac:(lia) ltac:(lia) ltac:(lia) ltac:(lia) HN (ideal_indexed ex_bs) eq_refl eq_refl (NoDup_nil_2)
    (NoDup_singleton 0%nat) ltac:(intros x Hx; exact Hx) ltac:(intros x Hx; exact Hx)) as (s & s' & E & H1 & H2 & H3 & H4 & H5).
  exists s, s'. split; [done|]. split; [apply (H1 Reopened 2%nat); cbn; lia|]. split.
  - pose proof (proj2 (H2 Reopened Reopened 2%nat ltac:(cbn; lia))) as HW. cbn [view_of] in HW. rewrite HW. reflexivity.
  - specialize (H4 1%nat _ 0%nat _ 0%nat eq_refl eq_refl). change (trans_number ex_bs (Z.of_nat 1) (Z.of_nat 0)) with 1 in H4.
    rewrite (H4 (elem_of_list_here 0%nat [])). reflexivity.
Qed.
Print Assumptions C101_copy_shows_the_same.

(** ** What cannot be copied *)
Lemma walk_visits {X} (visit : Z -> option X) step fuel (N : nat) : forall n l,
  (forall i : nat, (i < N)%nat -> step (Z.of_nat i) = if bool_decide (S i < N)%nat then Z.of_nat (S i) else -1) ->
  walk step visit fuel (Z.of_nat n) = Some l -> forall k, (n <= k < N)%nat -> visit (Z.of_nat k) <> None.
Proof.
  induction fuel as [|fuel IH]; intros n l Hs H k Hk; cbn [walk] in H; rewrite bool_decide_eq_false_2 in H by lia; [done|].
  destruct (visit (Z.of_nat n)) as [x|] eqn:Ev; [|done]. cbn [mbind option_bind] in H.
  destruct (decide (k = n)) as [->|Hne]; [by rewrite Ev|]. rewrite (Hs n ltac:(lia)), bool_decide_eq_true_2 in H by lia.
  destruct (walk step visit fuel (Z.of_nat (S n))) as [l'|] eqn:Ew; [|done]. apply (IH (S n) l' Hs Ew k). lia.
Qed.
Lemma mapM_fails {X Y} (f : X -> option Y) l x : x ∈ l -> f x = None -> mapM f l = None.
Proof.
  intros Hx Hf. destruct (mapM f l) as [k|] eqn:E; [|done]. apply mapM_Some in E.
  apply elem_of_list_lookup in Hx as [i Hi]. destruct (Forall2_lookup_l _ _ _ _ _ E Hi) as (y & _ & Hy). congruence.
Qed.
Lemma in_indices (n : nat) i : (i < n)%nat -> Z.of_nat i ∈ indices (Z.of_nat n).
Proof. intros Hi. unfold indices. rewrite Nat2Z.id. apply elem_of_list_fmap. exists i. split; [done|]. apply elem_of_seq. lia. Qed.

(** The hashes of a stored chain, needed before it can be copied, cannot be gathered from it: the first output stops
    the gathering. *)
Theorem C101_stored_chain_gives_no_hashes :
  forall u ix bs prev_txo prev_trans, good_chain u ix bs -> outs_of (txs_of bs) <> [] -> prev_txo <= 0 -> prev_trans <= 0 ->
  exists s, run_chain u ix bs (c_create u prev_txo prev_trans) = Some s /\
    forall r fuel, src_hashes (view_of r ix s) fuel = None.
Proof.
  intros u ix bs pt ptr HG Hne Hp Hq. destruct (run_whole u ix bs pt ptr HG Hp Hq) as (s & A & E & HR & HI).
  exists s. split; [done|]. intros r fuel. pose proof (view_sees r u ix s A HR) as HV. destruct HG as [HX HS _ _].
  set (vw := view_of r ix s) in *.
  assert (exists j c t o, tagged bs !! j = Some (c, t) /\ t_outs t !! 0%nat = Some o) as (j & c & t & o & Hj & Ho).
  { rewrite <- tagged_snd, <- outs_snd in Hne. clear -Hne. induction (tagged bs) as [|[c t] D IH]; [done|].
    destruct (t_outs t) as [|o os] eqn:Eo.
    - destruct IH as (j & c' & t' & o & Hj & Ho); [|by exists (S j), c', t', o].
      intros Hc. apply Hne. unfold outs in *. cbn [map concat snd]. by rewrite Eo, Hc.
    - exists 0%nat, c, t, o. by rewrite Eo. }
  assert (exists k b n, bs !! k = Some b /\ b_txs b !! n = Some t /\ j = (sum (take k (map ntx bs)) + n)%nat) as (k & b & n & Hk & Hn & Ej).
  { clear -Hj. assert (txs_of bs !! j = Some t) as H by (by rewrite <- tagged_snd, lookup_map, Hj). clear Hj. revert j H.
    induction bs as [|b bs IH]; intros j H; [done|]. unfold txs_of in H. cbn [map concat] in H. apply lookup_app_Some in H as [H|[Hl H]].
    - exists 0%nat, b, j. done.
    - destruct (IH _ H) as (k & b' & n & H1 & H2 & H3). exists (S k), b', n. split_and!; try done. cbn [map take foldr]. unfold ntx at 1. lia. }
  pose proof HI as [HB HT].
  assert (rd vw FirstTrans (Z.of_nat k) = Some (Z.of_nat (sum (take k (map ntx bs))))) as Hr.
  { rewrite (rd_ok _ _ _ HV), (ib_first _ _ _ HB), starts_lookup; [done|rewrite map_length; by eapply lookup_lt_Some|unfold read_files; set_solver]. }
  assert (src_hashes_trans vw (Z.of_nat j) = None) as Htr.
  { unfold src_hashes_trans. destruct (trans_hash vw (Z.of_nat j)); [|done]. cbn [mbind option_bind].
    destruct (counts_ok ix bs vw A HX HV FirstTxo TxoSats nout j (c, t)) as [F1 _];
      [unfold read_files; set_solver|unfold read_files; set_solver|apply HT|by rewrite (it_sats _ _ _ _ HT), map_length, sum_nout|done|].
    unfold txo_count. rewrite F1. cbn [mbind option_bind].
    rewrite (mapM_fails _ _ (Z.of_nat 0)); [done| |].
    - apply in_indices. unfold nout. cbn [snd]. by eapply lookup_lt_Some.
    - destruct (nth_txo vw (Z.of_nat j) (Z.of_nat 0)) as [x|]; [|done]. cbn [mbind option_bind].
      destruct (txo_address vw x); done. }
  assert (src_hashes_block vw (Z.of_nat k) = None) as Hbl.
  { unfold src_hashes_block. destruct (block_hash vw (Z.of_nat k)); [|done]. cbn [mbind option_bind].
    assert (map ntx bs !! k = Some (ntx b)) as Hl. { by rewrite lookup_map, Hk. }
    pose proof (sum_take_S _ _ _ Hl) as Hs. pose proof (lookup_lt_Some _ _ _ Hk) as Hlt.
    assert (trans_count vw (Z.of_nat k) = Some (Z.of_nat (ntx b))) as ->.
    { unfold trans_count. rewrite Hr. cbn [mbind option_bind]. rewrite (nblk_eq _ _ _ _ HX HV), (ntrn_eq _ _ _ _ HX HV). case_bool_decide as Hc.
      - replace (Z.of_nat k + 1) with (Z.of_nat (S k)) by lia.
        rewrite (rd_ok _ _ _ HV), (ib_first _ _ _ HB), starts_lookup by (try (unfold read_files; set_solver); rewrite map_length; lia).
        cbn [mbind option_bind]. f_equal. rewrite Hs. lia.
      - f_equal. rewrite take_ge in Hs by (rewrite map_length; lia). rewrite tagged_length, Hs. lia. }
    cbn [mbind option_bind]. case_bool_decide; [done|].
    rewrite (mapM_fails _ _ (Z.of_nat n)); [done| |].
    - apply in_indices. unfold ntx. by eapply lookup_lt_Some.
    - unfold nth_trans. rewrite Hr. cbn [mbind option_bind]. rewrite <- Nat2Z.inj_add, <- Ej. exact Htr. }
  unfold src_hashes, genesis. change 0 with (Z.of_nat 0). destruct (walk _ _ _ _) as [l|] eqn:Ew; [|done].
  refine (False_ind _ (walk_visits (src_hashes_block vw) (next_block vw) fuel (length bs) 0 l _ Ew k _ Hbl)).
  - intros i Hi. unfold next_block. rewrite (nblk_eq _ _ _ _ HX HV). case_bool_decide; case_bool_decide; lia.
  - split; [lia|]. by eapply lookup_lt_Some.
Qed.
Print Assumptions C101_stored_chain_gives_no_hashes.
Theorem C101_hashes_gathered_from_stored_chain_refuted :
  exists u ix bs s, good_chain u ix bs /\ run_chain u ix bs (c_create u (-1) (-1)) = Some s /\
    forall r fuel, src_hashes (view_of r ix s) fuel = None.
Proof.
  destruct (C101_stored_chain_gives_no_hashes ex_u (ideal_stores ex_bs) ex_bs (-1) (-1) ex_good) as (s & E & H); [discriminate|lia|lia|].
  exists ex_u, (ideal_stores ex_bs), ex_bs, s. exact (conj ex_good (conj E H)).
Qed.
Print Assumptions C101_hashes_gathered_from_stored_chain_refuted.

(** A chain in which a transaction hash occurs twice cannot be copied, whatever the state of the copy. *)
Lemma pseq_fails ps s : PFail ∈ ps -> exec (pseq ps) s = None.
Proof.
  revert s. induction ps as [|p ps IH]; intros s H; [by apply elem_of_nil in H|]. cbn [pseq]. rewrite exec_bind.
  apply elem_of_cons in H as [<-|H]; [done|]. destruct (exec p s) as [[s1 r1]|]; [|done]. by apply IH.
Qed.
Lemma q_frames_fails ix blk ts n t s : ts !! n = Some t -> n_no t <> hs_index (ix_trn ix) (t_hash (n_tx t)) ->
  exec (q_frames ix blk ts) s = None.
Proof.
  intros Hn Hne. assert (q_frame ix blk t = PFail) as Hf by (unfold q_frame; by rewrite bool_decide_eq_false_2).
  destruct ts as [|t0 ts]; [done|]. cbn [q_frames]. rewrite exec_bind. destruct n as [|n]; cbn in Hn.
  - injection Hn as ->. by rewrite Hf.
  - destruct (exec (q_frame ix blk t0) s) as [[s1 tn]|]; [|done]. cbn [exec]. destruct (do_act _ s1) as [[s2 r2]|]; [|done].
    destruct (do_act _ s2) as [[s3 r3]|]; [|done]. rewrite exec_bind, pseq_fails; [done|].
    apply elem_of_list_fmap. exists t. split; [done|]. by eapply elem_of_list_lookup_2.
Qed.
Lemma run_copy_fails u ix bs b s : b ∈ bs -> (forall s, exec (q_block u ix b) s = None) -> run_copy u ix bs s = None.
Proof.
  intros Hb Hf. revert s. induction bs as [|b0 bs IH]; intros s; [by apply elem_of_nil in Hb|]. cbn [run_copy].
  apply elem_of_cons in Hb as [<-|Hb]; [by rewrite Hf|]. destruct (exec _ s) as [[s1 r1]|]; [|done]. by apply IH.
Qed.
Theorem C101_repeated_transaction_stops_the_copy :
  forall u ix bs prev_txo prev_trans u' ix', good_chain u ix bs -> bs <> [] -> prev_txo <= 0 -> prev_trans <= 0 ->
  ~ NoDup (tx_hashes bs) -> indexed ix' bs ->
  exists s, run_chain u ix bs (c_create u prev_txo prev_trans) = Some s /\
    forall r fuel, (length bs <= fuel)%nat -> exists nbs, src_chain u (view_of r ix s) fuel = Some nbs /\
      forall s0, run_copy u' ix' nbs s0 = None.
Proof.
  intros u ix bs pt ptr u' ix' HG Hne Hp Hq HT HX'. destruct (run_whole u ix bs pt ptr HG Hp Hq) as (s & A & E & HR & HI).
  exists s. split; [done|]. intros r fuel Hf. pose proof HG as [HX HS _ _]. exists (number_blocks [] (copied u bs)).
  split; [apply (src_chain_ok u ix bs _ A HX (view_sees_handed r u ix s A HR) HI HS fuel Hne Hf)|]. intros s0.
  assert (exists j h, tx_hashes bs !! j = Some h /\ first_of (tx_hashes bs) h <> Z.of_nat j) as (j & h & Hj & Hfo).
  { clear -HT. set (L := tx_hashes bs) in *.
    destruct (decide (Forall (fun j => first_of L <$> L !! j = Some (Z.of_nat j)) (seq 0 (length L)))) as [HF|HF].
    - destruct HT. apply NoDup_alt. intros i j h Hi Hj. rewrite Forall_forall in HF.
      pose proof (HF i ltac:(apply elem_of_seq; apply lookup_lt_Some in Hi; lia)) as Fi. pose proof (HF j ltac:(apply elem_of_seq; apply lookup_lt_Some in Hj; lia)) as Fj.
      cbv beta in Fi, Fj. rewrite Hi in Fi. rewrite Hj in Fj. cbn [fmap option_fmap option_map] in Fi, Fj. apply (inj Some) in Fi, Fj. lia.
    - apply not_Forall_Exists in HF; [|intros; apply _]. apply Exists_exists in HF as (j & Hin & Hj). cbn beta in Hj. apply elem_of_seq in Hin.
      destruct (lookup_lt_is_Some_2 L j ltac:(lia)) as [h Eh]. exists j, h. split; [done|]. intros Hc. apply Hj. rewrite Eh. cbn [fmap option_fmap option_map]. by rewrite Hc. }
  assert (exists k b n t, bs !! k = Some b /\ b_txs b !! n = Some t /\ t_hash t = h /\ j = (sum (take k (map ntx bs)) + n)%nat) as (k & b & n & t & Hk & Hn & Eh & Ej).
  { clear -Hj. unfold tx_hashes in Hj. rewrite lookup_map in Hj. destruct (txs_of bs !! j) as [t|] eqn:H; [|done]. cbn in Hj. injection Hj as <-. revert j H.
    induction bs as [|b bs IH]; intros j H; [done|]. unfold txs_of in H. cbn [map concat] in H. apply lookup_app_Some in H as [H|[Hl H]].
    - exists 0%nat, b, j, t. done.
    - destruct (IH _ H) as (k & b' & n & t' & H1 & H2 & H3 & H4). exists (S k), b', n, t'. split_and!; try done. cbn [map take foldr]. unfold ntx at 1. lia. }
  assert (copied u bs !! k = Some (copied_block u bs b)) as Hk' by (unfold copied; by rewrite lookup_map, Hk).
  assert (b_txs (copied_block u bs b) !! n = Some (copied_tx u bs (bool_decide (n = 0%nat)) t)) as Hn'.
  { cbn [copied_block b_txs]. by rewrite list_lookup_imap, Hn. }
  pose proof (lookup_lt_Some _ _ _ Hn) as Hlt. pose proof (lookup_lt_Some _ _ _ Hj) as Hjl.
  eapply run_copy_fails; [apply elem_of_list_lookup; exists k; by apply number_blocks_lookup|].
  intros s1. set (c := bool_decide (n = 0%nat)) in Hn'. clearbody c. unfold q_block. case_bool_decide; [reflexivity|]. case_bool_decide; [reflexivity|].
  rewrite exec_bind. destruct (exec _ s1) as [[s2 r2]|]; [|done]. rewrite exec_bind.
  erewrite q_frames_fails; [done| |].
  - cbn [number_block n_txs app]. by apply number_txs_lookup.
  - cbn [number_tx n_no n_tx copied_tx t_hash]. destruct HX' as (_ & (_ & -> & _) & _). rewrite Eh.
    rewrite (take_txs u bs k b n Hk ltac:(unfold ntx; lia)), <- Ej.
    rewrite take_length. unfold copied. rewrite copied_txs, map_length.
    unfold tx_hashes in Hjl. rewrite map_length, <- tagged_snd, map_length in Hjl. rewrite Nat.min_l by lia. congruence.
Qed.
Print Assumptions C101_repeated_transaction_stops_the_copy.

(** A chain with a repeated transaction, as the real chain has two: it can be stored when the source indexes the
    transactions, but the stored chain cannot be copied. *)
Definition dup_bs : list cblock :=
  [mk_cblock [1] ∅ [mk_ctx [10] ∅ [] [mk_cout 5000000000 [100]]]; mk_cblock [2] ∅ [mk_ctx [10] ∅ [] [mk_cout 5000000000 [100]]]].
Example dup_good : good_chain lone_u (ideal_stores dup_bs) dup_bs.
Proof.
  constructor.
  - apply ideal_indexed.
  - constructor.
    + forall_list ltac:(discriminate).
    + split; apply NoDup_nil_2.
    + forall_list ltac:(apply Forall_nil_2).
    + change (txs_of dup_bs) with [mk_ctx [10] ∅ [] [mk_cout 5000000000 [100]]; mk_ctx [10] ∅ [] [mk_cout 5000000000 [100]]]. forall_list ltac:(apply Forall_nil_2).
    + vm_compute. done.
    + vm_compute. done.
    + vm_compute. done.
    + vm_compute. done.
    + intros k b n t i Hk Hn Hi. destruct k as [|[|k]]; cbn in Hk; [injection Hk as <-..|done]; cbn [b_txs] in Hn;
        (destruct n as [|n]; cbn in Hn; [injection Hn as <-|done]; cbn in Hi; by apply elem_of_nil in Hi).
    + change (outs_of (txs_of dup_bs)) with [mk_cout 5000000000 [100]; mk_cout 5000000000 [100]]. forall_list ltac:(cbn [o_sats]; lia).
  - change (block_hashes dup_bs) with [[1]; [2]]. apply NoDup_cons_2; [set_solver|apply NoDup_singleton].
  - by left.
Qed.
Theorem C101_every_stored_chain_can_be_copied_refuted :
  exists u ix bs s nbs, good_chain u ix bs /\ run_chain u ix bs (c_create u (-1) (-1)) = Some s /\
    src_chain u (open_read_only ix s) (length bs) = Some nbs /\
    forall u' ix' s0, indexed ix' bs -> run_copy u' ix' nbs s0 = None.
Proof.
  assert (~ NoDup (tx_hashes dup_bs)) as HN.
  { change (tx_hashes dup_bs) with [[10]; [10]]. intros H. apply NoDup_cons in H as [H _]. apply H. left. }
  pose proof (fun u' ix' => C101_repeated_transaction_stops_the_copy lone_u (ideal_stores dup_bs) dup_bs (-1) (-1) u' ix' dup_good
    ltac:(discriminate) ltac:(lia) ltac:(lia) HN) as H.
  destruct (H lone_u (ideal_stores dup_bs) (ideal_indexed dup_bs)) as (s & E & H1).
  destruct (H1 Reopened (length dup_bs) (le_n _)) as (nbs & H2 & _). cbn [view_of] in H2.
  exists lone_u, (ideal_stores dup_bs), dup_bs, s, nbs. split; [exact dup_good|]. split; [exact E|]. split; [exact H2|].
  intros u' ix' s0 HX. destruct (H u' ix' HX) as (s' & E' & H3). pose proof (eq_trans (eq_sym E) E') as Es. apply (inj Some) in Es as <-.
  destruct (H3 Reopened (length dup_bs) (le_n _)) as (nbs' & H4 & H5). cbn [view_of] in H4.
  pose proof (eq_trans (eq_sym H2) H4) as En. apply (inj Some) in En as <-. apply H5.
Qed.
Print Assumptions C101_every_stored_chain_can_be_copied_refuted.
