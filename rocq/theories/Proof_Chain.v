(** Lemmas about the chain storage: the word files as lists, and what the appending programs do to them. *)
From Verif Require Import Base Spec_Word Model_Word Proof_Word Spec_MapStore Model_MapStore Proof_MapStore Prop_MapStore
  Model_Chain Spec_Chain.

(** ** Abstract semantics: files as lists of numbers *)
Record ast := mk_ast { a_f : fid -> list Z; a_hist : list (Z * Z); a_pt : Z; a_ptr : Z }.
Definition fupd (F : fid -> list Z) (f : fid) (l : list Z) : fid -> list Z := fun g => if decide (g = f) then l else F g.
Lemma fupd_eq F f l : fupd F f l f = l.
Proof. unfold fupd. by rewrite decide_True. Qed.
Lemma fupd_ne F f l g : g <> f -> fupd F f l g = F g.
Proof. intros. unfold fupd. by rewrite decide_False. Qed.

Global Instance fits_dec w v : Decision (fits w v).
Proof. unfold fits, is_i64. destruct (decide _); apply _. Defined.

Definition do_aact (u : setup) (a : act) (A : ast) : option (ast * Z) :=
  match a with
  | ACount f => if decide (f ∈ all_files u) then Some (A, Z.of_nat (length (a_f A f))) else None
  | ARead f i =>
      if decide (f ∈ all_files u /\ 0 <= i) then v ← a_f A f !! Z.to_nat i; Some (A, v) else None
  | AWrite f v i =>
      if decide (f ∈ all_files u /\ 0 <= i /\ fits (width f) v)
      then Some (mk_ast (fupd (a_f A) f (rec_write 0 (a_f A f) (Z.to_nat i) v)) (a_hist A) (a_pt A) (a_ptr A), 0)
      else None
  | AMore k v =>
      if decide ((0 <= k < 2^63 /\ 0 <= v < 2^40) /\ Z.of_nat (length (a_hist A)) < more_limit)
      then Some (mk_ast (a_f A) (a_hist A ++ [(k, v)]) (a_pt A) (a_ptr A), 0) else None
  | ACheckTrans tr => if tr <? a_ptr A then None else Some (A, 0)
  | ACheckPrev n tr =>
      if bool_decide (a_pt A <> -1) && ((n <? a_pt A) || (tr <? a_ptr A)) then None else Some (A, 0)
  | ASetPrev n tr => Some (mk_ast (a_f A) (a_hist A) n tr, 0)
  end.
Fixpoint aexec (u : setup) (p : prog) (A : ast) : option (ast * Z) :=
  match p with
  | PRet v => Some (A, v)
  | PFail => None
  | PAct a k => match do_aact u a A with Some (A', r) => aexec u (k r) A' | None => None end
  end.

Definition wf_is (w : nat) (l : list Z) (wf : word_file) : Prop := wf_inv w l [] wf.
Definition Rep (u : setup) (s : cst) (A : ast) : Prop :=
  (forall f, f ∈ all_files u -> exists wf, s_files s !! f = Some wf /\ wf_is (width f) (a_f A f) wf) /\
  cms_reach more_cfg more_limit (a_hist A) (s_more s) /\ s_prev_txo s = a_pt A /\ s_prev_trans s = a_ptr A.

Lemma width_ok f : (0 < width f <= 8)%nat.
Proof. destruct f as [| | | | | | | | | | | |[|[|[|n]]]|n]; cbn; lia. Qed.

Lemma wf_is_write w l wf v off : (0 < w <= 8)%nat -> fits w v -> wf_is w l wf ->
  wf_is w (rec_write 0 l off v) (wf_write wf v off).
Proof.
  intros Hw Hf Hi. pose proof (wf_write_inv w l [] wf v off Hw Hf Hi) as H.
  unfold wf_is, wf_inv in *. rewrite arr_all_cons, arr_all_nil in H. rewrite arr_all_nil.
  destruct H as (H1 & H2 & H3 & H4 & H5 & H6). split_and!; try done.
  rewrite H3. cbn [arr_count]. rewrite rec_write_length. done.
Qed.
Lemma wf_is_read w l wf off v : (0 < w <= 8)%nat -> wf_is w l wf -> l !! off = Some v ->
  exists wf', wf_read wf off = (wf', WVal v) /\ wf_is w l wf'.
Proof.
  intros Hw Hi Hl. destruct (wf_read_inv w l [] wf off Hw Hi) as [H1 H2].
  destruct (wf_read wf off) as [wf' r]. cbn [fst snd] in *. subst r. exists wf'. split; [|done].
  unfold arr_get. cbn [arr_count arr_at]. rewrite decide_True by (eapply lookup_lt_Some; eauto). rewrite Hl. done.
Qed.
Lemma wf_is_read_none w l wf off : (0 < w <= 8)%nat -> wf_is w l wf -> l !! off = None ->
  (wf_read wf off).2 = WErr.
Proof.
  intros Hw Hi Hl. destruct (wf_read_inv w l [] wf off Hw Hi) as [_ H2]. rewrite H2.
  unfold arr_get. cbn [arr_count]. rewrite decide_False; [done|]. apply lookup_ge_None in Hl. lia.
Qed.
Lemma wf_is_count w l wf : wf_is w l wf -> wf_count wf = length l.
Proof. intros (_ & _ & H & _). done. Qed.

Lemma act_sim u a s A A' r : Rep u s A -> do_aact u a A = Some (A', r) ->
  exists s', do_act a s = Some (s', r) /\ Rep u s' A'.
Proof.
  intros (HF & HM & HP & HQ) E. destruct a as [f|f i|f v i|k v|tr|n tr|n tr]; cbn [do_aact do_act] in *.
  - destruct (decide _) as [Hin|]; [|done]. injection E as <- <-.
    destruct (HF f Hin) as (wf & Hl & Hi). rewrite Hl. cbn [mbind option_bind]. rewrite (wf_is_count _ _ _ Hi).
    exists s. done.
  - destruct (decide _) as [[Hin Hi0]|]; [|done]. destruct (HF f Hin) as (wf & Hl & Hi). rewrite Hl. cbn [mbind option_bind].
    destruct (a_f A f !! Z.to_nat i) as [v|] eqn:Ev; [|done]. cbn [mbind option_bind] in E. injection E as <- <-.
    destruct (Z.ltb_spec i 0); [lia|]. destruct (wf_is_read _ _ _ _ _ (width_ok f) Hi Ev) as (wf' & Er & Hi'). rewrite Er.
    eexists. split; [done|]. split_and!; try done. intros g Hg. cbn [with_files s_files].
    destruct (decide (g = f)) as [->|Hne].
    + exists wf'. rewrite lookup_insert. done.
    + rewrite lookup_insert_ne by done. apply HF, Hg.
  - destruct (decide _) as [(Hin & Hi0 & Hf)|]; [|done]. injection E as <- <-.
    destruct (HF f Hin) as (wf & Hl & Hi). rewrite Hl. cbn [mbind option_bind].
    destruct (Z.ltb_spec i 0); [lia|]. eexists. split; [done|]. split_and!; try done.
    intros g Hg. cbn [with_files s_files a_f]. destruct (decide (g = f)) as [->|Hne].
    + eexists. rewrite lookup_insert, fupd_eq. split; [done|]. apply wf_is_write; [apply width_ok|done|done].
    + rewrite lookup_insert_ne, fupd_ne by done. apply HF, Hg.
  - destruct (decide _) as [[[Hk Hv] Hlen]|]; [|done]. injection E as <- <-.
    destruct (C11_append_returns_below_limit_partial more_cfg more_limit (a_hist A) (s_more s) k v) as (m & Em);
      [cbn; lia|cbn; lia|done|done|done|]. rewrite Em. cbn [mbind option_bind].
    eexists. split; [done|]. split_and!; try done. cbn [a_hist s_more]. eapply kr_append; [exact HM| | |exact Em].
    + split; [done|]. cbn [snd]. left. cbn [more_cfg c_es]. split; [lia|]. change (pow256 5) with (2^40). done.
    + unfold more_limit in Hlen. lia.
  - rewrite HQ. destruct (tr <? a_ptr A); [done|]. injection E as <- <-. exists s. done.
  - rewrite HP, HQ. destruct (bool_decide _ && _); [done|]. injection E as <- <-. exists s. done.
  - injection E as <- <-. eexists. split; [done|]. split_and!; done.
Qed.

Lemma exec_sim u p s A A' r : Rep u s A -> aexec u p A = Some (A', r) ->
  exists s', exec p s = Some (s', r) /\ Rep u s' A'.
Proof.
  revert s A. induction p as [v| |a k IH]; intros s A HR E; cbn [aexec exec] in *.
  - injection E as <- <-. eauto.
  - done.
  - destruct (do_aact u a A) as [[A1 r1]|] eqn:Ea; [|done].
    destruct (act_sim u a s A A1 r1 HR Ea) as (s1 & E1 & HR1). rewrite E1. apply (IH r1 s1 A1 HR1 E).
Qed.

Lemma aexec_bind u p q A : aexec u (pbind p q) A =
  match aexec u p A with Some (A', r) => aexec u (q r) A' | None => None end.
Proof.
  revert A. induction p as [v| |a k IH]; intros A; cbn [aexec pbind]; [done..|].
  destruct (do_aact u a A) as [[A1 r1]|]; [apply IH|done].
Qed.
Lemma exec_bind p q s : exec (pbind p q) s =
  match exec p s with Some (s', r) => exec (q r) s' | None => None end.
Proof.
  revert s. induction p as [v| |a k IH]; intros s; cbn [exec pbind]; [done..|].
  destruct (do_act a s) as [[s1 r1]|]; [apply IH|done].
Qed.

Lemma create_Rep u pt ptr : Rep u (c_create u pt ptr) (mk_ast (fun _ => []) [] pt ptr).
Proof.
  split_and!; [|constructor|done|done]. intros f Hf. cbn [a_f c_create s_files].
  exists (Model_Word.wf_new [] (width f) 0). split.
  - induction (all_files u) as [|g l IH]; [by apply elem_of_nil in Hf|]. cbn [map list_to_map].
    destruct (decide (f = g)) as [->|Hne]; [by rewrite list_to_map_cons, lookup_insert|].
    rewrite list_to_map_cons, lookup_insert_ne by done. apply IH.
    apply elem_of_cons in Hf as [?|?]; done.
  - apply (wf_new_inv (width f) []); [apply width_ok|constructor].
Qed.

(** ** Lists *)
Fixpoint starts_from (a : nat) (l : list nat) : list Z :=
  match l with [] => [] | n :: l' => Z.of_nat a :: starts_from (a + n) l' end.
Fixpoint owners_from (i : nat) (l : list nat) : list Z :=
  match l with [] => [] | n :: l' => replicate n (Z.of_nat i) ++ owners_from (S i) l' end.
Notation starts := (starts_from 0).
Notation owners := (owners_from 0).
Notation sum := (foldr Nat.add 0%nat).

Lemma sum_app l1 l2 : sum (l1 ++ l2) = (sum l1 + sum l2)%nat.
Proof. induction l1 as [|n l1 IH]; cbn; [done|]. rewrite IH. lia. Qed.
Lemma starts_length a l : length (starts_from a l) = length l.
Proof. revert a. induction l as [|n l IH]; intros a; cbn; [done|]. by rewrite IH. Qed.
Lemma owners_length i l : length (owners_from i l) = sum l.
Proof. revert i. induction l as [|n l IH]; intros i; cbn; [done|]. by rewrite app_length, replicate_length, IH. Qed.
Lemma starts_snoc a l n : starts_from a (l ++ [n]) = starts_from a l ++ [Z.of_nat (a + sum l)].
Proof.
  revert a. induction l as [|m l IH]; intros a; cbn; [by rewrite Nat.add_0_r|]. rewrite IH. do 3 f_equal. lia.
Qed.
Lemma owners_snoc i l n : owners_from i (l ++ [n]) = owners_from i l ++ replicate n (Z.of_nat (i + length l)).
Proof.
  revert i. induction l as [|m l IH]; intros i; cbn; [by rewrite Nat.add_0_r, app_nil_r|].
  rewrite IH, <- app_assoc. do 3 f_equal. f_equal. lia.
Qed.
Lemma starts_lookup a l i : (i < length l)%nat -> starts_from a l !! i = Some (Z.of_nat (a + sum (take i l))).
Proof.
  revert a i. induction l as [|m l IH]; intros a i Hi; [cbn in Hi; lia|]. destruct i as [|i]; cbn [starts_from lookup list_lookup take foldr].
  - by rewrite Nat.add_0_r.
  - rewrite IH by (cbn in Hi; lia). do 2 f_equal. lia.
Qed.
Lemma owners_lookup i l k m j : l !! k = Some m -> (j < m)%nat ->
  owners_from i l !! (sum (take k l) + j)%nat = Some (Z.of_nat (i + k)).
Proof.
  revert i k. induction l as [|n l IH]; intros i k Hk Hj; [by rewrite lookup_nil in Hk|].
  destruct k as [|k]; cbn [lookup list_lookup take foldr owners_from] in *.
  - injection Hk as ->. rewrite lookup_app_l by (rewrite replicate_length; lia).
    rewrite lookup_replicate_2 by done. by rewrite Nat.add_0_r.
  - rewrite lookup_app_r by (rewrite replicate_length; lia). rewrite replicate_length.
    replace (n + sum (take k l) + j - n)%nat with (sum (take k l) + j)%nat by lia.
    rewrite IH by done. do 2 f_equal. lia.
Qed.
Lemma length_concat {A} (ls : list (list A)) : length (concat ls) = sum (map length ls).
Proof. induction ls as [|l ls IH]; cbn; [done|]. by rewrite app_length, IH. Qed.

(** ** [first_of] *)
Lemma first_of_cases l h :
  (h ∉ l /\ first_of l h = -1) \/
  (exists i, first_of l h = Z.of_nat i /\ l !! i = Some h /\ forall j, (j < i)%nat -> l !! j <> Some h).
Proof.
  unfold first_of. destruct (list_find (eq h) l) as [[i x]|] eqn:E.
  - right. apply list_find_Some in E as (E1 & <- & E2). exists i. split_and!; try done.
    intros j Hj Hl. by apply (E2 j h Hl Hj).
  - left. split; [|done]. apply list_find_None in E. intros Hin.
    rewrite Forall_forall in E. by apply (E h Hin).
Qed.
Lemma first_of_Some l h i : l !! i = Some h -> (forall j, (j < i)%nat -> l !! j <> Some h) -> first_of l h = Z.of_nat i.
Proof.
  intros H1 H2. destruct (first_of_cases l h) as [[Hn _]|(j & E & H3 & H4)].
  - destruct Hn. by eapply elem_of_list_lookup_2.
  - rewrite E. f_equal. destruct (Nat.lt_trichotomy i j) as [Hlt|[->|Hlt]]; [|done|].
    + by destruct (H4 i Hlt).
    + by destruct (H2 j Hlt).
Qed.
Lemma first_of_le l h i : l !! i = Some h -> 0 <= first_of l h <= Z.of_nat i.
Proof.
  intros H. destruct (first_of_cases l h) as [[Hn _]|(j & -> & H3 & H4)].
  - destruct Hn. by eapply elem_of_list_lookup_2.
  - split; [lia|]. destruct (decide (i < j)%nat) as [Hlt|]; [by destruct (H4 i Hlt)|lia].
Qed.
Lemma first_of_NoDup l h i : NoDup l -> l !! i = Some h -> first_of l h = Z.of_nat i.
Proof.
  intros Hn H. apply first_of_Some; [done|]. intros j Hj Hl. assert (j = i) by (eapply NoDup_lookup; eauto). lia.
Qed.
(** positions of first occurrences *)
Definition is_first (l : list hash) (i : nat) : Prop := exists h, l !! i = Some h /\ first_of l h = Z.of_nat i.
Lemma first_of_is_first l h i : l !! i = Some h -> is_first l (Z.to_nat (first_of l h)).
Proof.
  intros H. destruct (first_of_cases l h) as [[Hn _]|(j & E & H3 & H4)].
  - destruct Hn. by eapply elem_of_list_lookup_2.
  - rewrite E, Nat2Z.id. exists h. done.
Qed.

(** ** Inputs *)
Lemma rec_write_end {A} (d : A) l n v : n = length l -> rec_write d l n v = l ++ [v].
Proof. intros ->. apply rec_write_append. Qed.

Lemma fixed_in u f : f ∈ fixed_files -> f ∈ all_files u.
Proof. intros. unfold all_files. apply elem_of_app. by left. Qed.

Definition src_val (ix : stores) (ft : list Z) (s : source) : option Z :=
  match s with
  | SrcHeight h => Some h
  | SrcPath b n => if decide (0 <= b) then (fun v => v + n) <$> ft !! Z.to_nat b else None
  | SrcHash h => Some (hs_index (ix_trn ix) h)
  end.

Lemma fits_small w v : (0 < w < 8)%nat -> 0 <= v < pow256 w -> fits w v.
Proof. intros Hw Hv. unfold fits. rewrite decide_False by lia. done. Qed.

Ltac inall := apply fixed_in; unfold fixed_files; repeat (first [left | right]).

(** Changes nothing but the listed files *)
Definition same_but (fs : list fid) (A A' : ast) : Prop := forall f, f ∉ fs -> a_f A' f = a_f A f.
Lemma same_but_trans fs A B C : same_but fs A B -> same_but fs B C -> same_but fs A C.
Proof. intros H1 H2 f Hf. rewrite H2, H1; done. Qed.
Lemma same_but_weaken fs gs A B : fs ⊆ gs -> same_but fs A B -> same_but gs A B.
Proof. intros H1 H2 f Hf. apply H2. auto. Qed.

Ltac fsimp := repeat (rewrite fupd_eq || rewrite fupd_ne by discriminate).

Section Proofs.
  Context (u : setup) (ix : stores).

  Lemma step_count f A k : f ∈ all_files u ->
    aexec u (PAct (ACount f) k) A = aexec u (k (Z.of_nat (length (a_f A f)))) A.
  Proof. intros. cbn [aexec do_aact]. by rewrite decide_True. Qed.
  Lemma step_write f v i A k : f ∈ all_files u -> 0 <= i -> fits (width f) v ->
    aexec u (PAct (AWrite f v i) k) A =
    aexec u (k 0) (mk_ast (fupd (a_f A) f (rec_write 0 (a_f A f) (Z.to_nat i) v)) (a_hist A) (a_pt A) (a_ptr A)).
  Proof. intros. cbn [aexec do_aact]. by rewrite decide_True. Qed.
  Lemma step_read f i v A k : f ∈ all_files u -> 0 <= i -> a_f A f !! Z.to_nat i = Some v ->
    aexec u (PAct (ARead f i) k) A = aexec u (k v) A.
  Proof. intros ? ? E. cbn [aexec do_aact]. rewrite decide_True, E by done. done. Qed.

  Definition files_i : list fid := [TxiTx; TxiVout; ParTxi].
  Lemma txi_ok tr i src A :
    length (a_f A TxiVout) = length (a_f A TxiTx) -> length (a_f A ParTxi) = length (a_f A TxiTx) ->
    src_val ix (a_f A FirstTrans) (i_src i) = Some src -> 0 <= src < 2^32 -> 0 <= i_vout i < 2^32 -> 0 <= tr < 2^40 ->
    exists A' n, aexec u (p_txi ix tr i) A = Some (A', n) /\
      a_f A' TxiTx = a_f A TxiTx ++ [src] /\ a_f A' TxiVout = a_f A TxiVout ++ [i_vout i] /\
      a_f A' ParTxi = a_f A ParTxi ++ [tr] /\ same_but files_i A A' /\
      a_hist A' = a_hist A /\ a_pt A' = a_pt A /\ a_ptr A' = a_ptr A.
  Proof.
    intros H1 H2 Hs Hsr Hv Htr. unfold p_txi.
    assert (forall k, aexec u (p_source ix (i_src i) k) A = aexec u (k src) A) as Hsrc.
    { intros k. destruct (i_src i) as [h|b n|h]; cbn [p_source src_val] in *.
      - by injection Hs as ->.
      - destruct (decide (0 <= b)) as [Hb|]; [|done].
        destruct (a_f A FirstTrans !! Z.to_nat b) as [v|] eqn:Ev; [|done]. cbn in Hs. injection Hs as <-.
        rewrite (step_read FirstTrans b v); [done|inall|done|done].
      - by injection Hs as ->. }
    rewrite Hsrc. rewrite step_count by inall. rewrite step_write; [|inall|lia|apply fits_small; [cbn; lia|done]].
    rewrite step_write; [|inall|lia|apply fits_small; [cbn; lia|done]].
    rewrite step_write; [|inall|lia|apply fits_small; [cbn; lia|done]].
    cbn [aexec]. eexists _, _. split; [reflexivity|]. cbn [a_f a_hist a_pt a_ptr].
    rewrite !Nat2Z.id. fsimp. split_and!; try done.
    - apply rec_write_end. done.
    - apply rec_write_end. done.
    - apply rec_write_end. done.
    - intros f Hf. unfold files_i in Hf. rewrite !not_elem_of_cons in Hf. destruct Hf as (? & ? & ? & _).
      cbn [a_f]. rewrite !fupd_ne by done. done.
  Qed.

  Definition sources (bs : list cblock) (is : list cin) : list Z := map (fun i => source_number bs (i_src i)) is.
  Lemma ins_ok bs tr is A :
    length (a_f A TxiVout) = length (a_f A TxiTx) -> length (a_f A ParTxi) = length (a_f A TxiTx) -> 0 <= tr < 2^40 ->
    (forall i, i ∈ is -> 0 <= i_vout i < 2^32 /\ 0 <= source_number bs (i_src i) < 2^32 /\
        src_val ix (a_f A FirstTrans) (i_src i) = Some (source_number bs (i_src i))) ->
    exists A' n, aexec u (pseq (map (p_txi ix tr) is)) A = Some (A', n) /\
      a_f A' TxiTx = a_f A TxiTx ++ sources bs is /\ a_f A' TxiVout = a_f A TxiVout ++ map i_vout is /\
      a_f A' ParTxi = a_f A ParTxi ++ replicate (length is) tr /\ same_but files_i A A' /\
      a_hist A' = a_hist A /\ a_pt A' = a_pt A /\ a_ptr A' = a_ptr A.
  Proof.
    revert A. induction is as [|i is IH]; intros A H1 H2 Htr Hi; cbn [map pseq].
    - exists A, 0. cbn [aexec length replicate sources map]. rewrite !app_nil_r. split_and!; done.
    - rewrite aexec_bind. destruct (Hi i) as (Hv & Hsr & Hs); [left|].
      destruct (txi_ok tr i _ A H1 H2 Hs Hsr Hv Htr) as (A1 & n1 & -> & E1 & E2 & E3 & Hsb & E4 & E5 & E6).
      destruct (IH A1) as (A2 & n2 & -> & F1 & F2 & F3 & Hsb2 & F4 & F5 & F6).
      + rewrite E1, E2, !app_length. cbn. lia.
      + rewrite E1, E3, !app_length. cbn. lia.
      + done.
      + intros j Hj. rewrite (Hsb FirstTrans) by (unfold files_i; set_solver). apply Hi. by right.
      + exists A2, n2. split; [done|]. rewrite F1, F2, F3, E1, E2, E3, F4, F5, F6, E4, E5, E6, <- !app_assoc.
        split_and!; try done. eapply same_but_trans; done.
  Qed.

  (** ** Outputs *)
  Definition reused_upto (L : list hash) (n : nat) : list (Z * Z) :=
    omap (fun i => h ← L !! i; if decide (first_of L h = Z.of_nat i) then None else Some (first_of L h, Z.of_nat i)) (seq 0 n).
  Record addr_inv (L : list hash) (n : nat) (af : list Z) (hist : list (Z * Z)) : Prop := {
    ad_len : (length af <= n)%nat;
    ad_first : forall j, (j < length af)%nat -> is_first L j -> af !! j = Some (Z.of_nat j);
    ad_rest : forall j, (length af <= j < n)%nat -> ~ is_first L j;
    ad_hist : hist = reused_upto L n }.
  Lemma addr_inv_0 L : addr_inv L 0 [] [].
  Proof. constructor; cbn; try lia; try done. Qed.

  Lemma reused_upto_S L n h : L !! n = Some h ->
    reused_upto L (S n) = reused_upto L n ++ (if decide (first_of L h = Z.of_nat n) then [] else [(first_of L h, Z.of_nat n)]).
  Proof.
    intros Hh. unfold reused_upto. rewrite seq_S, omap_app. f_equal. cbn [omap list_omap Nat.add]. rewrite Hh. cbn [mbind option_bind].
    destruct (decide _); done.
  Qed.
  Lemma reused_upto_mono L n m : (n <= m)%nat -> (length (reused_upto L n) <= length (reused_upto L m))%nat.
  Proof.
    intros H. unfold reused_upto. replace m with (n + (m - n))%nat by lia. rewrite seq_app, omap_app, app_length. lia.
  Qed.

  Definition files_o : list fid := [TxoSats; ParTxo; TxoAddr; TxoSpent; AddrFirst].
  Lemma txo_ok L tr o A n :
    (forall h, hs_index (ix_adr ix) h = first_of L h) ->
    L !! n = Some (o_addr o) -> Z.of_nat (length L) < 2^40 -> Z.of_nat (length (reused_upto L (length L))) < more_limit ->
    length (a_f A TxoSats) = n -> length (a_f A ParTxo) = n -> length (a_f A TxoAddr) = n -> length (a_f A TxoSpent) = n ->
    addr_inv L n (a_f A AddrFirst) (a_hist A) -> 0 <= o_sats o < 2^56 -> 0 <= tr < 2^40 ->
    exists A' r, aexec u (p_txo ix tr o) A = Some (A', r) /\
      a_f A' TxoSats = a_f A TxoSats ++ [o_sats o] /\ a_f A' ParTxo = a_f A ParTxo ++ [tr] /\
      a_f A' TxoAddr = a_f A TxoAddr ++ [first_of L (o_addr o)] /\ a_f A' TxoSpent = a_f A TxoSpent ++ [0] /\
      addr_inv L (S n) (a_f A' AddrFirst) (a_hist A') /\
      same_but files_o A A' /\ a_pt A' = a_pt A /\ a_ptr A' = a_ptr A.
  Proof.
    intros Hix Hn HL HM H1 H2 H3 H4 Hai Hs Htr. unfold p_txo.
    assert (Z.of_nat n < 2^40) as Hn40. { apply lookup_lt_Some in Hn. lia. }
    rewrite step_count by inall. rewrite step_write; [|inall|lia|apply fits_small; [cbn; lia|done]].
    rewrite step_write; [|inall|lia|apply fits_small; [cbn; lia|done]].
    pose proof (first_of_le _ _ _ Hn) as Ha. rewrite Hix. set (a := first_of L (o_addr o)) in *.
    rewrite bool_decide_eq_false_2 by lia. rewrite step_count by inall. cbn [a_f a_hist]. fsimp. rewrite !Nat2Z.id, H1.
    pose proof (first_of_is_first L (o_addr o) n Hn) as Hif. fold a in Hif.
    destruct (decide (a < Z.of_nat (length (a_f A AddrFirst)))) as [Hlt|Hge].
    - rewrite bool_decide_eq_true_2 by done. cbn [aexec]. unfold do_aact at 1.
      assert (a <> Z.of_nat n) as Hane. { pose proof (ad_len _ _ _ _ Hai). lia. }
      assert (reused_upto L (S n) = reused_upto L n ++ [(a, Z.of_nat n)]) as Hru.
      { rewrite (reused_upto_S L n _ Hn). fold a. by rewrite decide_False. }
      rewrite decide_True; cycle 1.
      { split; [lia|]. cbn [a_hist]. rewrite (ad_hist _ _ _ _ Hai).
        assert (length (reused_upto L (S n)) <= length (reused_upto L (length L)))%nat as Hle.
        { apply reused_upto_mono. apply lookup_lt_Some in Hn. lia. }
        rewrite Hru, app_length in Hle. cbn in Hle. lia. }
      cbn [a_f a_hist a_pt a_ptr].
      match goal with |- context [do_aact u (AWrite TxoAddr a ?i) ?B] =>
        change (exists A' r, aexec u (PAct (AWrite TxoAddr a i) (fun _ => PAct (AWrite TxoSpent 0 i) (fun _ => PRet i))) B = Some (A', r) /\
          a_f A' TxoSats = a_f A TxoSats ++ [o_sats o] /\ a_f A' ParTxo = a_f A ParTxo ++ [tr] /\
          a_f A' TxoAddr = a_f A TxoAddr ++ [a] /\ a_f A' TxoSpent = a_f A TxoSpent ++ [0] /\
          addr_inv L (S n) (a_f A' AddrFirst) (a_hist A') /\
          same_but files_o A A' /\ a_pt A' = a_pt A /\ a_ptr A' = a_ptr A) end.
      rewrite step_write; [|inall|lia|apply fits_small; [cbn; lia|change (pow256 (width TxoAddr)) with (2^40); lia]].
      rewrite step_write; [|inall|lia|apply fits_small; [cbn; lia|done]].
      cbn [aexec]. eexists _, _. split; [reflexivity|]. cbn [a_f a_hist a_pt a_ptr]. fsimp. rewrite !Nat2Z.id.
      split_and!; try done; try (by apply rec_write_end).
      + destruct Hai as [G1 G2 G3 G4]. constructor; [lia|done| |].
        * intros j Hj. destruct (decide (j = n)) as [->|Hne]; [|apply G3; lia].
          intros (h & Hh & Hf). rewrite Hn in Hh. injection Hh as <-. fold a in Hf. lia.
        * by rewrite Hru, <- G4.
      + intros f Hf. unfold files_o in Hf. rewrite !not_elem_of_cons in Hf. destruct Hf as (? & ? & ? & ? & ? & _).
        cbn [a_f]. rewrite !fupd_ne by done. done.
    - rewrite bool_decide_eq_false_2 by done.
      assert (a = Z.of_nat n) as Hane.
      { destruct (decide (a = Z.of_nat n)); [done|]. exfalso. apply (ad_rest _ _ _ _ Hai (Z.to_nat a)); [lia|done]. }
      rewrite step_write; [|inall|lia|apply fits_small; [cbn; lia|change (pow256 (width AddrFirst)) with (2^40); lia]].
      cbn [a_f a_hist a_pt a_ptr]. fsimp.
      assert (addr_inv L (S n) (rec_write 0 (a_f A AddrFirst) (Z.to_nat a) (Z.of_nat n)) (a_hist A)) as Hai'.
      { destruct Hai as [G1 G2 G3 G4]. rewrite Hane, Nat2Z.id. constructor.
        - rewrite rec_write_length. lia.
        - intros j Hj Hfj. rewrite rec_write_length in Hj. destruct (decide (j = n)) as [->|Hne].
          + apply rec_write_eq.
          + destruct (decide (j < length (a_f A AddrFirst))%nat) as [Hjl|Hjl].
            * rewrite rec_write_ne by lia. auto.
            * destruct (G3 j); [lia|done].
        - intros j Hj. rewrite rec_write_length in Hj. lia.
        - rewrite (reused_upto_S L n _ Hn). fold a. rewrite decide_True by done. by rewrite app_nil_r. }
      set (af' := rec_write 0 (a_f A AddrFirst) (Z.to_nat a) (Z.of_nat n)) in *.
      match goal with |- context [aexec u (if _ then _ else ?rest) ?B] =>
        assert (forall p, p = rest -> aexec u (if bool_decide (a = test_point) then
           PAct (ARead AddrFirst a) (fun v => if bool_decide (v <> Z.of_nat n \/ v = 0) then PFail else p) else p) B = aexec u p B) as Htp end.
      { intros p _. case_bool_decide as Htp; [|done]. rewrite (step_read AddrFirst a (Z.of_nat n)); [|inall|lia|].
        - rewrite bool_decide_eq_false_2; [done|]. unfold test_point in Htp. lia.
        - cbn [a_f]. rewrite fupd_eq. unfold af'. rewrite Hane, Nat2Z.id. apply rec_write_eq. }
      rewrite (Htp _ eq_refl). clear Htp.
      rewrite step_write; [|inall|lia|apply fits_small; [cbn; lia|change (pow256 (width TxoAddr)) with (2^40); lia]].
      rewrite step_write; [|inall|lia|apply fits_small; [cbn; lia|done]].
      cbn [aexec]. eexists _, _. split; [reflexivity|]. cbn [a_f a_hist a_pt a_ptr]. fsimp. rewrite !Nat2Z.id.
      split_and!; try done; try (by apply rec_write_end).
      intros f Hf. unfold files_o in Hf. rewrite !not_elem_of_cons in Hf. destruct Hf as (? & ? & ? & ? & ? & _).
      cbn [a_f]. rewrite !fupd_ne by done. done.
  Qed.

  Definition addr_numbers (L : list hash) (os : list cout) : list Z := map (fun o => first_of L (o_addr o)) os.
  Lemma outs_ok L tr os A n :
    (forall h, hs_index (ix_adr ix) h = first_of L h) ->
    (forall i o, os !! i = Some o -> L !! (n + i)%nat = Some (o_addr o)) ->
    Z.of_nat (length L) < 2^40 -> Z.of_nat (length (reused_upto L (length L))) < more_limit ->
    length (a_f A TxoSats) = n -> length (a_f A ParTxo) = n -> length (a_f A TxoAddr) = n -> length (a_f A TxoSpent) = n ->
    addr_inv L n (a_f A AddrFirst) (a_hist A) -> Forall (fun o => 0 <= o_sats o < 2^56) os -> 0 <= tr < 2^40 ->
    exists A' r, aexec u (pseq (map (p_txo ix tr) os)) A = Some (A', r) /\
      a_f A' TxoSats = a_f A TxoSats ++ map o_sats os /\ a_f A' ParTxo = a_f A ParTxo ++ replicate (length os) tr /\
      a_f A' TxoAddr = a_f A TxoAddr ++ addr_numbers L os /\ a_f A' TxoSpent = a_f A TxoSpent ++ replicate (length os) 0 /\
      addr_inv L (n + length os) (a_f A' AddrFirst) (a_hist A') /\
      same_but files_o A A' /\ a_pt A' = a_pt A /\ a_ptr A' = a_ptr A.
  Proof.
    intros Hix. revert A n. induction os as [|o os IH]; intros A n Hn HL HM H1 H2 H3 H4 Hai Hs Htr; cbn [map pseq].
    - exists A, 0. cbn [aexec length replicate map addr_numbers]. rewrite !app_nil_r, Nat.add_0_r. split_and!; done.
    - apply Forall_cons in Hs as [Hs Hss]. rewrite aexec_bind.
      destruct (txo_ok L tr o A n) as (A1 & n1 & -> & E1 & E2 & E3 & E4 & E5 & Hsb & E6 & E7); try done.
      { rewrite <- (Nat.add_0_r n). by apply Hn. }
      destruct (IH A1 (S n)) as (A2 & n2 & -> & F1 & F2 & F3 & F4 & F5 & Hsb2 & F6 & F7); try done.
      + intros i o' Hi. rewrite Nat.add_succ_comm. by apply Hn.
      + rewrite E1, app_length. cbn. lia.
      + rewrite E2, app_length. cbn. lia.
      + rewrite E3, app_length. cbn. lia.
      + rewrite E4, app_length. cbn. lia.
      + exists A2, n2. split; [done|]. rewrite F1, F2, F3, F4, F6, F7, E1, E2, E3, E4, E6, E7, <- !app_assoc.
        cbn [length]. rewrite <- Nat.add_succ_comm. split_and!; try done. eapply same_but_trans; done.
  Qed.

  (** ** Loops *)
  Lemma loop_ok {B} (P : nat -> ast -> Prop) (g : nat -> B -> prog) (ts : list B) A :
    (forall i t A, ts !! i = Some t -> P i A -> exists A' r, aexec u (g i t) A = Some (A', r) /\ P (S i) A') ->
    P 0%nat A -> exists A' r, aexec u (pseq (imap g ts)) A = Some (A', r) /\ P (length ts) A'.
  Proof.
    revert P g A. induction ts as [|t ts IH]; intros P g A Hstep H0; cbn [imap pseq length].
    - exists A, 0. done.
    - destruct (Hstep 0%nat t A eq_refl H0) as (A1 & r1 & E1 & H1).
      rewrite aexec_bind, E1.
      destruct (IH (fun i => P (S i)) (fun i => g (S i)) A1) as (A2 & r2 & E2 & H2).
      + intros i t' A' Hi HP. apply (Hstep (S i) t' A' Hi HP).
      + done.
      + exists A2, r2. split; [exact E2|done].
  Qed.

  (** ** Non-essential ints *)
  Definition int_of (vals : gmap nat Z) (n : nat) : Z := default 0 (vals !! n).
  Lemma ints_ok names file vals i A : NoDup names -> (forall a b, file a = file b -> a = b) ->
    (forall n, n ∈ names -> file n ∈ all_files u) ->
    Forall (fun n => exists v, vals !! n = Some v /\ fits (width (file n)) v) names ->
    (forall n, n ∈ names -> length (a_f A (file n)) = i) ->
    exists A' r, aexec u (p_ints names file vals (Z.of_nat i)) A = Some (A', r) /\
      (forall n, n ∈ names -> a_f A' (file n) = a_f A (file n) ++ [int_of vals n]) /\
      (forall f, (forall n, n ∈ names -> f <> file n) -> a_f A' f = a_f A f) /\
      a_hist A' = a_hist A /\ a_pt A' = a_pt A /\ a_ptr A' = a_ptr A.
  Proof.
    intros Hnd Hinj. revert A. induction names as [|n names IH]; intros A Hin Hv Hlen; unfold p_ints; cbn [map pseq].
    - exists A, 0. split_and!; try done. intros n Hn. by apply not_elem_of_nil in Hn.
    - apply NoDup_cons in Hnd as [Hn Hnd]. apply Forall_cons in Hv as [(v & Ev & Hf) Hv].
      rewrite Ev. cbn [pbind]. rewrite step_write; [|apply Hin; left|lia|done].
      match goal with |- context [aexec u _ ?B] => set (A1 := B) end.
      assert (forall m, m ∈ names -> a_f A1 (file m) = a_f A (file m)) as Hsame.
      { intros m Hm. unfold A1. cbn [a_f]. apply fupd_ne. intros E%Hinj. subst m. done. }
      destruct (IH Hnd A1) as (A2 & r & E2 & H1 & H2 & H3).
      + intros m Hm. apply Hin. by right.
      + done.
      + intros m Hm. rewrite Hsame by done. apply Hlen. by right.
      + exists A2, r. split; [exact E2|]. split_and!; [| |apply H3..].
        * intros m Hm. destruct (decide (m = n)) as [->|Hne].
          -- rewrite H2 by (intros m' Hm' E%Hinj; subst m'; done). unfold A1. cbn [a_f]. rewrite fupd_eq, Nat2Z.id.
             unfold int_of. rewrite Ev. cbn [default]. rewrite <- (Hlen n) by left. apply rec_write_append.
          -- apply elem_of_cons in Hm as [->|Hm]; [done|]. rewrite H1, Hsame by done. done.
        * intros f Hf'. rewrite H2 by (intros m Hm; apply Hf'; by right). unfold A1. cbn [a_f].
          apply fupd_ne. apply Hf'. left.
  Qed.

  (** ** Transactions.  A transaction comes with whether it is the first of its block. *)
  Definition kept (p : bool * ctx) : list cin := kept_ins u p.1 p.2.
  Definition nin (p : bool * ctx) : nat := length (kept p).
  Definition nout (p : bool * ctx) : nat := length (t_outs p.2).
  Definition outs (D : list (bool * ctx)) : list cout := concat (map (fun p => t_outs p.2) D).
  Record InvT (bs : list cblock) (D : list (bool * ctx)) (A : ast) : Prop := {
    it_first_txi : a_f A FirstTxi = starts (map nin D);
    it_par_txi : a_f A ParTxi = owners (map nin D);
    it_txi_tx : a_f A TxiTx = concat (map (fun p => sources bs (kept p)) D);
    it_txi_vout : a_f A TxiVout = concat (map (fun p => map i_vout (kept p)) D);
    it_first_txo : a_f A FirstTxo = starts (map nout D);
    it_par_txo : a_f A ParTxo = owners (map nout D);
    it_sats : a_f A TxoSats = map o_sats (outs D);
    it_addr : a_f A TxoAddr = addr_numbers (addr_hashes bs) (outs D);
    it_spent : a_f A TxoSpent = replicate (length (outs D)) 0;
    it_ai : addr_inv (addr_hashes bs) (length (outs D)) (a_f A AddrFirst) (a_hist A);
    it_ints : forall n, n ∈ u_trn u -> a_f A (TrnInt n) = map (fun p => int_of (t_ints p.2) n) D;
    it_pt : a_pt A <= Z.of_nat (length (outs D));
    it_ptr : a_ptr A <= Z.of_nat (length D) }.

  Lemma outs_snoc D p : outs (D ++ [p]) = outs D ++ t_outs p.2.
  Proof. unfold outs. rewrite map_app, concat_app. cbn. by rewrite app_nil_r. Qed.
  Lemma concat_map_snoc {X Y} (f : X -> list Y) D p : concat (map f (D ++ [p])) = concat (map f D) ++ f p.
  Proof. rewrite map_app, concat_app. cbn. by rewrite app_nil_r. Qed.
  Lemma sum_nin D : sum (map nin D) = length (concat (map kept D)).
  Proof. rewrite length_concat, map_map. done. Qed.
  Lemma sum_nout D : sum (map nout D) = length (outs D).
  Proof. unfold outs. rewrite length_concat, map_map. done. Qed.
  Lemma len_sources bs D : length (concat (map (fun p => sources bs (kept p)) D)) = sum (map nin D).
  Proof.
    rewrite length_concat, map_map. f_equal. apply map_ext. intros p. unfold sources, nin. by rewrite map_length.
  Qed.
  Lemma len_vouts D : length (concat (map (fun p => map i_vout (kept p)) D)) = sum (map nin D).
  Proof. rewrite length_concat, map_map. f_equal. apply map_ext. intros p. unfold nin. by rewrite map_length. Qed.

  (** the files not touched by transaction contents *)
  Definition block_file (f : fid) : Prop := f = FirstTrans \/ f = ParBlk \/ exists n, f = BlkInt n.

  Lemma trn_in n : n ∈ u_trn u -> TrnInt n ∈ all_files u.
  Proof. intros. unfold all_files. rewrite !elem_of_app. right. right. apply elem_of_list_fmap. eauto. Qed.
  Lemma blk_in n : n ∈ u_blk u -> BlkInt n ∈ all_files u.
  Proof. intros. unfold all_files. rewrite !elem_of_app. right. left. apply elem_of_list_fmap. eauto. Qed.

  Record tx_ok (bs : list cblock) (ft : list Z) (D : list (bool * ctx)) (p : bool * ctx) : Prop := {
    tk_ins : forall i, i ∈ kept p -> 0 <= i_vout i < 2^32 /\ 0 <= source_number bs (i_src i) < 2^32 /\
        src_val ix ft (i_src i) = Some (source_number bs (i_src i));
    tk_outs : forall i o, t_outs p.2 !! i = Some o -> addr_hashes bs !! (length (outs D) + i)%nat = Some (o_addr o);
    tk_sats : Forall (fun o => 0 <= o_sats o < 2^56) (t_outs p.2);
    tk_ints : Forall (fun n => exists v, t_ints p.2 !! n = Some v /\ fits (width (TrnInt n)) v) (u_trn u);
    tk_nin : Z.of_nat (sum (map nin D)) < 2^40;
    tk_nout : Z.of_nat (length (outs D)) < 2^40;
    tk_ntx : Z.of_nat (length D) < 2^32 }.

  Lemma contents_ok bs D c t A :
    (forall h, hs_index (ix_adr ix) h = first_of (addr_hashes bs) h) -> NoDup (u_trn u) ->
    Z.of_nat (length (addr_hashes bs)) < 2^40 ->
    Z.of_nat (length (reused_upto (addr_hashes bs) (length (addr_hashes bs)))) < more_limit ->
    InvT bs D A -> tx_ok bs (a_f A FirstTrans) D (c, t) ->
    exists A' r, aexec u (p_contents u ix (Z.of_nat (length D)) c t) A = Some (A', r) /\
      InvT bs (D ++ [(c, t)]) A' /\ (forall f, block_file f -> a_f A' f = a_f A f).
  Proof.
    intros Hix Hnd HL HM HI HT. unfold p_contents. rewrite aexec_bind.
    destruct (ints_ok (u_trn u) TrnInt (t_ints t) (length D) A) as (A1 & r1 & -> & I1 & I2 & I3 & I4 & I5);
      [done|congruence|apply trn_in|apply (tk_ints _ _ _ _ HT)| |].
    { intros n Hn. rewrite (it_ints _ _ _ HI n Hn), map_length. done. }
    assert (forall f, f ∈ fixed_files \/ block_file f -> a_f A1 f = a_f A f) as Hfix.
    { intros f Hf. apply I2. intros n Hn ->. destruct Hf as [Hf|Hf].
      - unfold fixed_files in Hf. repeat (apply elem_of_cons in Hf as [?|Hf]; [discriminate|]). by apply elem_of_nil in Hf.
      - destruct Hf as [?|[?|[? ?]]]; discriminate. }
    rewrite aexec_bind. unfold p_ins.
    rewrite step_count by inall. rewrite step_write; [|inall|lia|]; cycle 1.
    { apply fits_small; [cbn; lia|]. rewrite Hfix by (left; unfold fixed_files; set_solver).
      rewrite (it_txi_tx _ _ _ HI), len_sources. pose proof (tk_nin _ _ _ _ HT).
      change (pow256 (width FirstTxi)) with (2^40). lia. }
    match goal with |- context [aexec u _ ?B] => set (A2 := B) end.
    assert (forall f, f <> FirstTxi -> a_f A2 f = a_f A1 f) as H2. { intros f Hf. unfold A2. cbn [a_f]. by apply fupd_ne. }
    change (kept_ins u c t) with (kept (c, t)).
    assert (forall f, f <> FirstTxi -> f ∈ fixed_files \/ block_file f -> a_f A2 f = a_f A f) as H2'.
    { intros f Hf Hf'. rewrite H2, Hfix by done. done. }
    destruct (ins_ok bs (Z.of_nat (length D)) (kept (c, t)) A2) as (A3 & r3 & -> & J1 & J2 & J3 & Jsb & J4 & J5 & J6).
    { rewrite !H2' by (try discriminate; left; unfold fixed_files; set_solver).
      rewrite (it_txi_tx _ _ _ HI), (it_txi_vout _ _ _ HI), len_sources, len_vouts. done. }
    { rewrite !H2' by (try discriminate; left; unfold fixed_files; set_solver).
      rewrite (it_txi_tx _ _ _ HI), (it_par_txi _ _ _ HI), len_sources, owners_length. done. }
    { pose proof (tk_ntx _ _ _ _ HT). lia. }
    { intros i Hi. rewrite H2' by (try discriminate; left; unfold fixed_files; set_solver).
      apply (tk_ins _ _ _ _ HT i Hi). }
    assert (forall f, f ∉ FirstTxi :: files_i -> f ∈ fixed_files \/ block_file f -> a_f A3 f = a_f A f) as H3.
    { intros f Hf Hf'. apply not_elem_of_cons in Hf as [Hf1 Hf2]. rewrite (Jsb f Hf2). by apply H2'. }
    assert (length (a_f A3 TxoSats) = length (outs D)) as Hno.
    { rewrite H3 by (unfold fixed_files, files_i; set_solver). by rewrite (it_sats _ _ _ HI), map_length. }
    unfold p_outs. rewrite step_count by inall. rewrite Hno. cbn [aexec]. unfold do_aact at 1.
    assert (a_pt A3 = a_pt A /\ a_ptr A3 = a_ptr A) as [Hpt Hptr].
    { rewrite J5, J6. unfold A2. cbn [a_pt a_ptr]. rewrite I4, I5. done. }
    rewrite Hpt, Hptr.
    assert (bool_decide (a_pt A <> -1) && ((Z.of_nat (length (outs D)) <? a_pt A) || (Z.of_nat (length D) <? a_ptr A)) = false) as ->.
    { pose proof (it_pt _ _ _ HI). pose proof (it_ptr _ _ _ HI). apply andb_false_iff. right. apply orb_false_iff.
      split; apply Z.ltb_ge; lia. }
    match goal with |- context [match do_aact u (AWrite FirstTxo ?v ?i) A3 with Some _ => _ | None => _ end] =>
      change (exists A' r, aexec u (PAct (AWrite FirstTxo v i) (fun _ => PAct (ASetPrev v i) (fun _ => pseq (map (p_txo ix i) (t_outs t))))) A3 = Some (A', r) /\
      InvT bs (D ++ [(c, t)]) A' /\ (forall f, block_file f -> a_f A' f = a_f A f)) end.
    rewrite step_write; [|inall|lia|]; cycle 1.
    { apply fits_small; [cbn; lia|]. pose proof (tk_nout _ _ _ _ HT). change (pow256 (width FirstTxo)) with (2^40). lia. }
    cbn [aexec do_aact]. cbn [a_f a_hist a_pt a_ptr].
    match goal with |- context [aexec u _ ?B] => set (A4 := B) end.
    assert (forall f, f ∉ FirstTxo :: FirstTxi :: files_i -> f ∈ fixed_files \/ block_file f -> a_f A4 f = a_f A f) as H4.
    { intros f Hf Hf'. apply not_elem_of_cons in Hf as [Hf1 Hf2]. unfold A4. cbn [a_f]. rewrite fupd_ne by done. by apply H3. }
    assert (a_hist A4 = a_hist A) as Hh4. { unfold A4, A2 in *. cbn [a_hist] in *. rewrite J4. done. }
    destruct (outs_ok (addr_hashes bs) (Z.of_nat (length D)) (t_outs t) A4 (length (outs D)))
      as (A5 & r5 & -> & K1 & K2 & K3 & K4 & K5 & Ksb & K6 & K7); try done.
    { apply (tk_outs _ _ _ _ HT). }
    { rewrite H4 by (unfold fixed_files, files_i; set_solver). by rewrite (it_par_txo _ _ _ HI), owners_length, sum_nout. }
    { rewrite H4 by (unfold fixed_files, files_i; set_solver). rewrite (it_addr _ _ _ HI). unfold addr_numbers. by rewrite map_length. }
    { rewrite H4 by (unfold fixed_files, files_i; set_solver). by rewrite (it_spent _ _ _ HI), replicate_length. }
    { rewrite H4, Hh4 by (unfold fixed_files, files_i; set_solver). apply HI. }
    { apply (tk_sats _ _ _ _ HT). }
    { pose proof (tk_ntx _ _ _ _ HT). lia. }
    exists A5, r5. split; [done|]. split.
    - constructor.
      + rewrite Ksb by (unfold files_o; set_solver). unfold A4. cbn [a_f]. rewrite fupd_ne by discriminate.
        rewrite Jsb by (unfold files_i; set_solver). unfold A2. cbn [a_f]. rewrite fupd_eq.
        rewrite !Hfix by (left; unfold fixed_files; set_solver). rewrite (it_txi_tx _ _ _ HI), len_sources, (it_first_txi _ _ _ HI).
        rewrite map_app. cbn [map]. rewrite starts_snoc, Nat2Z.id. apply rec_write_end. by rewrite starts_length, map_length.
      + rewrite Ksb by (unfold files_o; set_solver). unfold A4. cbn [a_f]. rewrite fupd_ne by discriminate.
        rewrite J3, H2' by (try discriminate; left; unfold fixed_files; set_solver). rewrite (it_par_txi _ _ _ HI).
        rewrite map_app. cbn [map]. rewrite owners_snoc, map_length. done.
      + rewrite Ksb by (unfold files_o; set_solver). unfold A4. cbn [a_f]. rewrite fupd_ne by discriminate.
        rewrite J1, H2' by (try discriminate; left; unfold fixed_files; set_solver). rewrite (it_txi_tx _ _ _ HI).
        by rewrite concat_map_snoc.
      + rewrite Ksb by (unfold files_o; set_solver). unfold A4. cbn [a_f]. rewrite fupd_ne by discriminate.
        rewrite J2, H2' by (try discriminate; left; unfold fixed_files; set_solver). rewrite (it_txi_vout _ _ _ HI).
        by rewrite concat_map_snoc.
      + rewrite Ksb by (unfold files_o; set_solver). unfold A4. cbn [a_f]. rewrite fupd_eq.
        rewrite H3 by (unfold fixed_files, files_i; set_solver). rewrite (it_first_txo _ _ _ HI).
        rewrite map_app. cbn [map]. rewrite starts_snoc, Nat2Z.id, sum_nout. apply rec_write_end. by rewrite starts_length, map_length.
      + rewrite K2, H4 by (unfold fixed_files, files_i; set_solver). rewrite (it_par_txo _ _ _ HI).
        rewrite map_app. cbn [map]. rewrite owners_snoc, map_length. done.
      + rewrite K1, H4 by (unfold fixed_files, files_i; set_solver). rewrite (it_sats _ _ _ HI), outs_snoc, map_app. done.
      + rewrite K3, H4 by (unfold fixed_files, files_i; set_solver). rewrite (it_addr _ _ _ HI), outs_snoc.
        unfold addr_numbers. rewrite map_app. done.
      + rewrite K4, H4 by (unfold fixed_files, files_i; set_solver). rewrite (it_spent _ _ _ HI), outs_snoc, app_length, replicate_add. done.
      + rewrite outs_snoc, app_length. exact K5.
      + intros n Hn. rewrite Ksb by (unfold files_o; set_solver). unfold A4. cbn [a_f]. rewrite fupd_ne by discriminate.
        rewrite Jsb by (unfold files_i; set_solver). rewrite H2 by discriminate. rewrite (I1 n Hn), (it_ints _ _ _ HI n Hn).
        by rewrite map_app.
      + rewrite K6. unfold A4. cbn [a_pt]. rewrite outs_snoc, app_length. lia.
      + rewrite K7. unfold A4. cbn [a_ptr]. rewrite app_length. cbn [length]. lia.
    - intros f Hf. assert (f ∉ files_o /\ f ∉ FirstTxo :: FirstTxi :: files_i) as [Q1 Q2].
      { unfold files_o, files_i. destruct Hf as [->|[->|[n ->]]]; set_solver. }
      rewrite Ksb by done. apply H4; [done|by right].
  Qed.
End Proofs.

(** ** Blocks *)
Definition tag (b : cblock) : list (bool * ctx) := imap (fun n t => (bool_decide (n = 0%nat), t)) (b_txs b).
Definition tagged (bs : list cblock) : list (bool * ctx) := concat (map tag bs).
Definition ntx (b : cblock) : nat := length (b_txs b).

Lemma tag_snd b : map snd (tag b) = b_txs b.
Proof.
  unfold tag. generalize (b_txs b). intros l. change (map snd) with (fmap (M := list) (@snd bool ctx)).
  rewrite fmap_imap. apply imap_id || (apply list_eq; intros i; rewrite list_lookup_imap; by destruct (l !! i)).
Qed.
Lemma tag_length b : length (tag b) = ntx b.
Proof. unfold tag, ntx. by rewrite imap_length. Qed.
Lemma tagged_snd bs : map snd (tagged bs) = txs_of bs.
Proof. unfold tagged, txs_of. rewrite concat_map, map_map. f_equal. apply map_ext. apply tag_snd. Qed.
Lemma tagged_length bs : length (tagged bs) = sum (map ntx bs).
Proof. unfold tagged. rewrite length_concat, map_map. f_equal. apply map_ext. apply tag_length. Qed.
Lemma txs_length bs : length (txs_of bs) = sum (map ntx bs).
Proof. rewrite <- tagged_snd, map_length. apply tagged_length. Qed.
Lemma tagged_app bs cs : tagged (bs ++ cs) = tagged bs ++ tagged cs.
Proof. unfold tagged. by rewrite map_app, concat_app. Qed.
Lemma tagged_snoc bs b : tagged (bs ++ [b]) = tagged bs ++ tag b.
Proof. unfold tagged. by rewrite concat_map_snoc. Qed.
Lemma outs_snd D : outs D = outs_of (map snd D).
Proof. unfold outs, outs_of. by rewrite map_map. Qed.
Lemma outs_app D E : outs (D ++ E) = outs D ++ outs E.
Proof. unfold outs. by rewrite map_app, concat_app. Qed.

Record InvB (u : setup) (pre : list cblock) (A : ast) : Prop := {
  ib_first : a_f A FirstTrans = starts (map ntx pre);
  ib_par : a_f A ParBlk = owners (map ntx pre);
  ib_ints : forall n, n ∈ u_blk u -> a_f A (BlkInt n) = map (fun b => int_of (b_ints b) n) pre }.

Lemma InvT_same u bs D A A' : InvT u bs D A -> (forall f, ~ block_file f -> a_f A' f = a_f A f) ->
  a_hist A' = a_hist A -> a_pt A' = a_pt A -> a_ptr A' = a_ptr A -> InvT u bs D A'.
Proof.
  intros [] HS E1 E2 E3.
  assert (forall f, f ∈ fixed_files -> f <> FirstTrans -> f <> ParBlk -> a_f A' f = a_f A f) as HF.
  { intros f Hf H1 H2. apply HS. intros [?|[?|[n ->]]]; try done.
    unfold fixed_files in Hf. repeat (apply elem_of_cons in Hf as [?|Hf]; [discriminate|]). by apply elem_of_nil in Hf. }
  constructor; try (rewrite HF by (try discriminate; unfold fixed_files; set_solver); done).
  - rewrite E1, HF by (try discriminate; unfold fixed_files; set_solver). done.
  - intros n Hn. rewrite HS; [auto|]. intros [?|[?|[? ?]]]; discriminate.
  - by rewrite E2.
  - by rewrite E3.
Qed.

Section Chain.
  Context (u : setup) (ix : stores) (bs : list cblock).
  Context (HX : indexed ix bs) (HS : storable u bs).
  Context (HB : NoDup (block_hashes bs)) (HD : u_deleg u = true \/ NoDup (tx_hashes bs)).

  Lemma kept_shown c t : kept u (c, t) = shown_ins u c t.
  Proof. unfold kept, kept_ins, shown_ins. cbn [fst snd]. destruct (u_chi u), c; done. Qed.

  Lemma sum_nin_le D : (sum (map (nin u) D) <= length (concat (map t_ins (map snd D))))%nat.
  Proof.
    rewrite length_concat, !map_map. induction D as [|[c t] D IH]; cbn [map foldr]; [done|].
    assert (nin u (c, t) <= length (t_ins (c, t).2))%nat; [|lia].
    unfold nin, kept, kept_ins. cbn [fst snd]. destruct (_ && _); cbn; lia.
  Qed.

  Lemma tx_ok_in pre b post i c t : bs = pre ++ b :: post -> tag b !! i = Some (c, t) ->
    tx_ok u ix bs (starts (map ntx (pre ++ [b]))) (tagged pre ++ take i (tag b)) (c, t).
  Proof.
    intros Ebs Ei. set (D := tagged pre ++ take i (tag b)).
    assert (exists E, tagged bs = (D ++ [(c, t)]) ++ E) as (E & HE).
    { exists (drop (S i) (tag b) ++ tagged post). rewrite Ebs, tagged_app. cbn [tagged map concat].
      unfold D. rewrite <- !app_assoc. f_equal. cbn [app]. rewrite <- (take_drop_middle _ _ _ Ei) at 1. by rewrite <- app_assoc. }
    pose proof (f_equal (map snd) HE) as HE2. rewrite tagged_snd, !map_app in HE2. cbn [map snd] in HE2.
    assert (outs_of (txs_of bs) = outs D ++ t_outs t ++ outs E) as HO.
    { rewrite <- tagged_snd, <- outs_snd, HE, !outs_app, <- app_assoc. do 2 f_equal. unfold outs. cbn. by rewrite app_nil_r. }
    assert (b_txs b !! i = Some t /\ c = bool_decide (i = 0%nat)) as [Hbi ->].
    { unfold tag in Ei. rewrite list_lookup_imap in Ei. destruct (b_txs b !! i) as [t'|]; [|done]. cbn in Ei. by injection Ei as <- <-. }
    constructor.
    - intros inp Hin. rewrite kept_shown in Hin.
      destruct (so_in _ _ HS (length pre) b i t inp) as (H1 & H2 & H3); [subst bs; by apply list_lookup_middle|done|done|].
      split_and!; [lia..|]. destruct HX as (_ & (_ & Hx & _) & _).
      unfold src_val, source_number. destruct (i_src inp) as [h|sb n|h]; [done| |by rewrite Hx].
      rewrite decide_True by lia. unfold trans_number. rewrite txs_length.
      rewrite starts_lookup by (rewrite map_length, app_length; cbn [length]; lia). cbn [fmap option_fmap option_map].
      rewrite firstn_map. rewrite Ebs. change (b :: post) with ([b] ++ post).
      rewrite app_assoc, (take_app_le (pre ++ [b])) by (rewrite app_length; cbn [length]; lia). done.
    - intros j o Hj. cbn [snd] in Hj. unfold addr_hashes. change (map o_addr) with (fmap (M := list) o_addr).
      rewrite list_lookup_fmap, HO, lookup_app_r by lia. rewrite lookup_app_l by (apply lookup_lt_Some in Hj; lia).
      replace (length (outs D) + j - length (outs D))%nat with j by lia. by rewrite Hj.
    - cbn [snd]. pose proof (so_out _ _ HS) as Ho. rewrite HO in Ho. apply Forall_app in Ho as [_ Ho]. by apply Forall_app in Ho as [Ho _].
    - cbn [snd]. pose proof (so_trn_ints _ _ HS) as Ho. rewrite HE2 in Ho. rewrite !Forall_app in Ho. destruct Ho as [[_ Ho] _].
      apply Forall_cons in Ho as [Ho _]. exact Ho.
    - pose proof (so_ins _ _ HS) as Ho. rewrite HE2, !map_app, !concat_app, !app_length in Ho. pose proof (sum_nin_le D). lia.
    - pose proof (so_outs _ _ HS) as Ho. rewrite HO, app_length in Ho. lia.
    - pose proof (so_txs _ _ HS) as Ho. rewrite HE2, !app_length, map_length in Ho. lia.
  Qed.

  Lemma tx_number pre b post i t : bs = pre ++ b :: post -> b_txs b !! i = Some t ->
    u_deleg u = true \/ hs_index (ix_trn ix) (t_hash t) = Z.of_nat (sum (map ntx pre) + i).
  Proof.
    intros Ebs Hi. destruct HD as [?|HD']; [by left|right]. destruct HX as (_ & (_ & Hx & _) & _). rewrite Hx.
    apply first_of_NoDup; [done|]. unfold tx_hashes. change (map t_hash) with (fmap (M := list) t_hash).
    rewrite list_lookup_fmap. subst bs. unfold txs_of. rewrite map_app, concat_app. cbn [map concat].
    rewrite lookup_app_r by (fold (txs_of pre); rewrite txs_length; lia). fold (txs_of pre). rewrite txs_length.
    rewrite lookup_app_l by (apply lookup_lt_Some in Hi; lia).
    replace (sum (map ntx pre) + i - sum (map ntx pre))%nat with i by lia. by rewrite Hi.
  Qed.

  Definition sofar (pre : list cblock) (A : ast) : Prop := InvB u pre A /\ InvT u bs (tagged pre) A.

  (** state in which block [b] has been indexed by its first [n] transactions *)
  Definition framed (pre : list cblock) (n : nat) (A0 A : ast) : Prop :=
    a_f A ParBlk = owners (map ntx pre) ++ replicate n (Z.of_nat (length pre)) /\
    (forall f, f <> ParBlk -> a_f A f = a_f A0 f) /\ a_hist A = a_hist A0 /\ a_pt A = a_pt A0 /\ a_ptr A = a_ptr A0.

  Lemma small_blk pre b post : bs = pre ++ b :: post ->
    (length pre <= sum (map ntx pre))%nat /\ Z.of_nat (sum (map ntx (pre ++ [b]))) < 2^32.
  Proof using HS. clear HX HB HD.
    intros Ebs. split.
    - pose proof (so_blocks _ _ HS) as Hb. rewrite Ebs in Hb. apply Forall_app in Hb as [Hb _]. clear Ebs.
      induction pre as [|b' pre IH]; cbn; [lia|]. apply Forall_cons in Hb as [Hb' Hb]. specialize (IH Hb).
      unfold ntx at 1. destruct (b_txs b'); [done|]. cbn. lia.
    - pose proof (so_txs _ _ HS) as Ho. rewrite txs_length, Ebs in Ho. rewrite map_app, sum_app in *. cbn [map foldr] in *. lia.
  Qed.

  Lemma par_write pre b post n A0 A k : bs = pre ++ b :: post -> (n < ntx b)%nat -> framed pre n A0 A ->
    exists A', aexec u (PAct (AWrite ParBlk (Z.of_nat (length pre)) (Z.of_nat (sum (map ntx pre) + n))) k) A = aexec u (k 0) A' /\
      framed pre (S n) A0 A'.
  Proof using HS. clear HX HB HD.
    intros Ebs Hn (H1 & H2 & H3 & H4 & H5). destruct (small_blk pre b post Ebs) as [Q1 Q2].
    rewrite map_app, sum_app in Q2. cbn [map foldr] in Q2.
    rewrite step_write; [|inall|lia|]; cycle 1.
    { apply fits_small; [cbn; lia|]. change (pow256 (width ParBlk)) with (2^32). lia. }
    eexists. split; [reflexivity|]. split_and!; cbn [a_f a_hist a_pt a_ptr]; try done.
    - rewrite fupd_eq, H1, Nat2Z.id. rewrite rec_write_end by (by rewrite app_length, owners_length, replicate_length).
      rewrite <- app_assoc. by rewrite <- replicate_S_end.
    - intros f Hf. rewrite fupd_ne by done. auto.
  Qed.

  Lemma gather_ok pre b post A : bs = pre ++ b :: post -> sofar pre A ->
    exists A' r, aexec u (p_gather u (Z.of_nat (length pre)) (Z.of_nat (sum (map ntx pre)) - 1) b) A = Some (A', r) /\
      (a_f A' FirstTrans = if u_deleg u then starts (map ntx (pre ++ [b])) else starts (map ntx pre)) /\
      (a_f A' ParBlk = if u_deleg u then owners (map ntx (pre ++ [b])) else owners (map ntx pre)) /\
      (forall n, n ∈ u_blk u -> a_f A' (BlkInt n) = map (fun b => int_of (b_ints b) n) pre) /\
      InvT u bs (tagged pre) A'.
  Proof using HS. clear HX HB HD.
    intros Ebs [[B1 B2 B3] HT]. destruct (small_blk pre b post Ebs) as [Q1 Q2]. unfold p_gather. destruct (u_deleg u) eqn:Eu; cycle 1.
    { exists A, 0. split_and!; done. }
    rewrite map_app, sum_app in Q2. cbn [map foldr] in Q2.
    replace (Z.of_nat (sum (map ntx pre)) - 1 + 1) with (Z.of_nat (sum (map ntx pre))) by lia.
    rewrite step_write; [|inall|lia|]; cycle 1.
    { apply fits_small; [cbn; lia|]. change (pow256 (width FirstTrans)) with (2^32). lia. }
    match goal with |- context [aexec u _ ?B] => set (A1 := B) end.
    destruct (loop_ok u (fun n A => framed pre n A1 A)
      (fun i (_ : ctx) => PAct (AWrite ParBlk (Z.of_nat (length pre)) (Z.of_nat (sum (map ntx pre)) + Z.of_nat i)) PRet)
      (b_txs b) A1) as (A2 & r & E2 & (F1 & F2 & F3 & F4 & F5)).
    { intros i t A' Hi HP. rewrite <- Nat2Z.inj_add.
      destruct (par_write pre b post i A1 A' PRet Ebs) as (A'' & E & HP'); [apply lookup_lt_Some in Hi; done|done|].
      exists A'', 0. rewrite E. done. }
    { split_and!; try done. rewrite app_nil_r. unfold A1. cbn [a_f]. by rewrite fupd_ne. }
    exists A2, r. split; [exact E2|]. split_and!.
    - rewrite F2 by discriminate. unfold A1. cbn [a_f]. rewrite fupd_eq, B1, map_app, Nat2Z.id. cbn [map].
      rewrite starts_snoc. apply rec_write_end. by rewrite starts_length, map_length.
    - rewrite F1, map_app. cbn [map]. rewrite owners_snoc, map_length. done.
    - intros n Hn. rewrite F2 by discriminate. unfold A1. cbn [a_f]. rewrite fupd_ne by discriminate. auto.
    - apply (InvT_same u bs _ A); [done| |done..].
      intros f Hf. rewrite F2 by (intros ->; apply Hf; unfold block_file; auto). unfold A1. cbn [a_f].
      apply fupd_ne. intros ->. apply Hf. unfold block_file. auto.
  Qed.

  Lemma frames_ok pre b post A : bs = pre ++ b :: post ->
    (a_f A FirstTrans = if u_deleg u then starts (map ntx (pre ++ [b])) else starts (map ntx pre)) ->
    (a_f A ParBlk = if u_deleg u then owners (map ntx (pre ++ [b])) else owners (map ntx pre)) ->
    InvT u bs (tagged pre) A ->
    exists A', aexec u (p_frames u ix (Z.of_nat (length pre)) (b_txs b)) A = Some (A', Z.of_nat (sum (map ntx pre))) /\
      a_f A' FirstTrans = starts (map ntx (pre ++ [b])) /\ a_f A' ParBlk = owners (map ntx (pre ++ [b])) /\
      (forall n, a_f A' (BlkInt n) = a_f A (BlkInt n)) /\ InvT u bs (tagged pre) A'.
  Proof.
    intros Ebs H1 H2 HT. destruct (small_blk pre b post Ebs) as [Q1 Q2].
    assert (b_txs b <> []) as Hne.
    { pose proof (so_blocks _ _ HS) as Hb. rewrite Ebs in Hb. apply Forall_app in Hb as [_ Hb]. by apply Forall_cons in Hb as [Hb _]. }
    assert (forall i t, b_txs b !! i = Some t -> u_deleg u = true \/ hs_index (ix_trn ix) (t_hash t) = Z.of_nat (sum (map ntx pre) + i)) as Hnum.
    { intros i t. apply (tx_number pre b post i t Ebs). }
    assert (forall n, (n < length (b_txs b))%nat -> forall A0 A k, framed pre n A0 A -> exists A', aexec u (PAct (AWrite ParBlk (Z.of_nat (length pre)) (Z.of_nat (sum (map ntx pre) + n))) k) A = aexec u (k 0) A' /\
      framed pre (S n) A0 A') as Hpw. { intros n Hn A0 A1 k HF. by apply (par_write pre b post). }
    assert (a_ptr A <= Z.of_nat (sum (map ntx pre))) as Hptr. { pose proof (it_ptr _ _ _ _ HT) as Hq. by rewrite tagged_length in Hq. }
    assert (starts (map ntx (pre ++ [b])) = starts (map ntx pre) ++ [Z.of_nat (sum (map ntx pre))]) as HSt by (rewrite map_app; cbn [map]; by rewrite starts_snoc).
    assert (owners (map ntx (pre ++ [b])) = owners (map ntx pre) ++ replicate (length (b_txs b)) (Z.of_nat (length pre))) as HOw
      by (rewrite map_app; cbn [map]; rewrite owners_snoc, map_length; done).
    destruct (b_txs b) as [|t0 ts] eqn:Et; [done|]. unfold p_frames. rewrite aexec_bind. unfold p_frame.
    destruct (u_deleg u) eqn:Eu.
    - assert (a_f A FirstTrans !! Z.to_nat (Z.of_nat (length pre)) = Some (Z.of_nat (sum (map ntx pre)))) as Hrd.
      { rewrite H1, Nat2Z.id, HSt, lookup_app_r, starts_length, map_length by (rewrite starts_length, map_length; lia). by rewrite Nat.sub_diag. }
      rewrite (step_read u FirstTrans (Z.of_nat (length pre)) _ _ _ ltac:(inall) ltac:(lia) Hrd). cbn [aexec do_aact]. rewrite Z.add_0_r.
      assert (Z.of_nat (sum (map ntx pre)) <? a_ptr A = false) as -> by (apply Z.ltb_ge; lia).
      rewrite aexec_bind. cbn [aexec]. rewrite aexec_bind.
      destruct (loop_ok u (fun _ A' => A' = A) (fun i (t : ctx) => PAct (ARead FirstTrans (Z.of_nat (length pre))) (fun v => PRet (v + (Z.of_nat i + 1)))) ts A) as (A2 & r & E2 & ->).
      { intros i t A' Hi ->. rewrite (step_read u FirstTrans (Z.of_nat (length pre)) _ _ _ ltac:(inall) ltac:(lia) Hrd). eauto. }
      { done. }
      rewrite E2. exists A. cbn [aexec]. split_and!; done.
    - assert (framed pre 0 A A) as HF0. { split_and!; try done. by rewrite app_nil_r, H2. }
      destruct (Hnum 0%nat t0 eq_refl) as [?|E0]; [done|]. rewrite E0.
      destruct (Hpw 0%nat ltac:(cbn; lia) A A (fun _ => PRet (Z.of_nat (sum (map ntx pre) + 0))) HF0) as (A1 & -> & HF1).
      cbn [aexec do_aact]. rewrite Nat.add_0_r. assert (a_ptr A1 = a_ptr A) as -> by apply HF1.
      assert (Z.of_nat (sum (map ntx pre)) <? a_ptr A = false) as -> by (apply Z.ltb_ge; lia).
      rewrite aexec_bind. rewrite map_app, sum_app in Q2. cbn [map foldr] in Q2.
      rewrite step_write; [|inall|lia|]; cycle 1.
      { apply fits_small; [cbn; lia|]. change (pow256 (width FirstTrans)) with (2^32). lia. }
      cbn [aexec]. rewrite aexec_bind.
      match goal with |- context [aexec u _ ?B] => set (A2 := B) end.
      destruct (loop_ok u (fun n A' => framed pre (S n) A2 A')
        (fun i (t : ctx) => PAct (AWrite ParBlk (Z.of_nat (length pre)) (hs_index (ix_trn ix) (t_hash t))) (fun _ => PRet (hs_index (ix_trn ix) (t_hash t)))) ts A2)
        as (A3 & r & E3 & HF3).
      { intros i t A' Hi HP. destruct (Hnum (S i) t Hi) as [?| ->]; [done|].
        destruct (Hpw (S i) ltac:(apply lookup_lt_Some in Hi; cbn [length]; lia) A2 A' (fun _ => PRet (Z.of_nat (sum (map ntx pre) + S i))) HP) as (A'' & -> & HP').
        eexists _, _. split; [reflexivity|done]. }
      { destruct HF1 as (G1 & G2 & G3). split_and!; try done. }
      rewrite E3. exists A3. cbn [aexec]. destruct HF3 as (K1 & K2 & K3 & K4 & K5). destruct HF1 as (G1 & G2 & G3 & G4 & G5).
      split_and!.
      + done.
      + rewrite K2 by discriminate. unfold A2. cbn [a_f]. rewrite fupd_eq, G2, H1, HSt, Nat2Z.id by discriminate.
        apply rec_write_end. by rewrite starts_length, map_length.
      + by rewrite K1, HOw.
      + intros n. rewrite K2 by discriminate. unfold A2. cbn [a_f]. rewrite fupd_ne, G2 by discriminate. done.
      + apply (InvT_same u bs _ A); [done| | | |].
        * intros f Hf. assert (f <> ParBlk /\ f <> FirstTrans) as [X1 X2] by (split; intros ->; apply Hf; unfold block_file; auto).
          rewrite K2 by done. unfold A2. cbn [a_f]. rewrite fupd_ne by done. by apply G2.
        * rewrite K3. exact G3.
        * rewrite K4. exact G4.
        * rewrite K5. exact G5.
  Qed.

  Lemma block_ok pre b post A : bs = pre ++ b :: post ->
    (a_f A FirstTrans = if u_deleg u then starts (map ntx (pre ++ [b])) else starts (map ntx pre)) ->
    (a_f A ParBlk = if u_deleg u then owners (map ntx (pre ++ [b])) else owners (map ntx pre)) ->
    (forall n, n ∈ u_blk u -> a_f A (BlkInt n) = map (fun b => int_of (b_ints b) n) pre) ->
    InvT u bs (tagged pre) A ->
    exists A' r, aexec u (p_block u ix (Z.of_nat (length pre)) b) A = Some (A', r) /\ sofar (pre ++ [b]) A'.
  Proof.
    intros Ebs H1 H2 H3 HT. destruct (small_blk pre b post Ebs) as [Q1 Q2].
    assert (hs_index (ix_blk ix) (b_hash b) = Z.of_nat (length pre)) as Hix.
    { destruct HX as ((_ & Hx & _) & _). rewrite Hx. apply first_of_NoDup; [done|]. unfold block_hashes.
      change (map b_hash) with (fmap (M := list) b_hash). rewrite list_lookup_fmap, Ebs, list_lookup_middle by done. done. }
    unfold p_block. rewrite Hix, bool_decide_eq_false_2 by lia. rewrite bool_decide_eq_false_2 by (intros F; by apply F).
    rewrite aexec_bind.
    destruct (ints_ok u (u_blk u) BlkInt (b_ints b) (length pre) A) as (A1 & r1 & -> & I1 & I2 & I3 & I4 & I5);
      [apply (so_names _ _ HS)|congruence|apply blk_in| | |].
    { pose proof (so_blk_ints _ _ HS) as Hb. rewrite Ebs in Hb. apply Forall_app in Hb as [_ Hb]. by apply Forall_cons in Hb as [Hb _]. }
    { intros n Hn. rewrite H3 by done. by rewrite map_length. }
    assert (InvT u bs (tagged pre) A1) as HT1.
    { apply (InvT_same u bs _ A); try done. intros f Hf. apply I2. intros n _ ->. apply Hf. unfold block_file. eauto. }
    rewrite aexec_bind. destruct (frames_ok pre b post A1 Ebs) as (A2 & -> & J1 & J2 & J3 & HT2); try done.
    { rewrite I2 by (intros ? _; discriminate). done. }
    { rewrite I2 by (intros ? _; discriminate). done. }
    assert (InvB u (pre ++ [b]) A2) as HB2.
    { constructor; try done. intros n Hn. rewrite J3, I1, H3, map_app by done. done. }
    destruct (loop_ok u (fun n A => InvB u (pre ++ [b]) A /\ InvT u bs (tagged pre ++ take n (tag b)) A)
       (fun t tx => p_contents u ix (Z.of_nat (sum (map ntx pre)) + Z.of_nat t) (bool_decide (t = 0%nat)) tx) (b_txs b) A2)
       as (A3 & r & E3 & HB3 & HT3).
    - intros i t A' Hi [HB' HT'].
      assert (tag b !! i = Some (bool_decide (i = 0%nat), t)) as Hti. { unfold tag. rewrite list_lookup_imap, Hi. done. }
      pose proof (tx_ok_in pre b post i _ t Ebs Hti) as Hok. rewrite <- (ib_first _ _ _ HB') in Hok.
      destruct (contents_ok u ix bs (tagged pre ++ take i (tag b)) (bool_decide (i = 0%nat)) t A') as (A'' & r & E & HT'' & Hbf).
      + apply HX.
      + apply (so_names _ _ HS).
      + unfold addr_hashes. rewrite map_length. apply (so_outs _ _ HS).
      + apply (so_reused _ _ HS).
      + done.
      + done.
      + rewrite app_length, tagged_length, take_length_le in E by (rewrite tag_length; apply lookup_lt_Some in Hi; unfold ntx; lia).
        rewrite Nat2Z.inj_add in E. exists A'', r. split; [done|]. split.
        * destruct HB' as [X1 X2 X3]. constructor.
          -- by rewrite Hbf by (unfold block_file; auto).
          -- by rewrite Hbf by (unfold block_file; auto).
          -- intros n Hn. rewrite Hbf by (unfold block_file; eauto). auto.
        * rewrite (take_S_r _ _ _ Hti), app_assoc. done.
    - split; [done|]. rewrite take_0, app_nil_r. done.
    - exists A3, r. split; [exact E3|]. split; [done|]. rewrite tagged_snoc.
      rewrite take_ge in HT3 by (rewrite tag_length; done). done.
  Qed.

  Lemma step_ok pre b post s A : bs = pre ++ b :: post -> Rep u s A -> sofar pre A ->
    exists s1 r1 s2 r2 A2, exec (p_gather u (Z.of_nat (length pre)) (Z.of_nat (sum (map ntx pre)) - 1) b) s = Some (s1, r1) /\
      exec (p_block u ix (Z.of_nat (length pre)) b) s1 = Some (s2, r2) /\ Rep u s2 A2 /\ sofar (pre ++ [b]) A2.
  Proof.
    intros Ebs HR HI. destruct (gather_ok pre b post A Ebs HI) as (A1 & r1 & E1 & G1 & G2 & G3 & G4).
    destruct (exec_sim u _ s A A1 r1 HR E1) as (s1 & X1 & HR1).
    destruct (block_ok pre b post A1 Ebs G1 G2 G3 G4) as (A2 & r2 & E2 & HI2).
    destruct (exec_sim u _ s1 A1 A2 r2 HR1 E2) as (s2 & X2 & HR2).
    exists s1, r1, s2, r2, A2. done.
  Qed.

  Lemma run_ok mid pre post s A : bs = pre ++ mid ++ post -> Rep u s A -> sofar pre A ->
    exists s' A', run_from u ix (Z.of_nat (length pre)) (Z.of_nat (sum (map ntx pre)) - 1) mid s = Some s' /\
      Rep u s' A' /\ sofar (pre ++ mid) A'.
  Proof.
    revert pre s A. induction mid as [|b mid IH]; intros pre s A Ebs HR HI; cbn [run_from].
    - exists s, A. rewrite app_nil_r. done.
    - destruct (step_ok pre b (mid ++ post) s A Ebs HR HI) as (s1 & r1 & s2 & r2 & A2 & -> & -> & HR2 & HI2).
      destruct (IH (pre ++ [b]) s2 A2) as (s3 & A3 & E3 & HR3 & HI3); [by rewrite <- app_assoc|done|done|].
      exists s3, A3. rewrite <- app_assoc in HI3. split_and!; try done. rewrite <- E3. rewrite app_length, map_app, sum_app. cbn [length map foldr].
      f_equal; unfold ntx; lia.
  Qed.

  Lemma sofar_create pt ptr : pt <= 0 -> ptr <= 0 -> sofar [] (mk_ast (fun _ => []) [] pt ptr).
  Proof. intros H1 H2. split; constructor; try done. apply addr_inv_0. Qed.

  Lemma run_chain_ok mid post pt ptr : bs = mid ++ post -> pt <= 0 -> ptr <= 0 ->
    exists s' A', run_chain u ix mid (c_create u pt ptr) = Some s' /\ Rep u s' A' /\ sofar mid A'.
  Proof.
    intros Ebs H1 H2. apply (run_ok mid [] post _ _ Ebs (create_Rep u pt ptr) (sofar_create pt ptr H1 H2)).
  Qed.
End Chain.

(** ** Reading back *)
Lemma lookup_map {X Y} (f : X -> Y) (l : list X) i : map f l !! i = f <$> l !! i.
Proof. apply list_lookup_fmap. Qed.
Lemma lookup_concat_map {X Y} (f : X -> list Y) D j p i : D !! j = Some p -> (i < length (f p))%nat ->
  concat (map f D) !! (sum (take j (map (fun q => length (f q)) D)) + i)%nat = f p !! i.
Proof.
  revert j. induction D as [|q D IH]; intros j Hj Hi; [by rewrite lookup_nil in Hj|].
  destruct j as [|j]; cbn [lookup list_lookup take foldr map concat] in *.
  - injection Hj as ->. cbn [Nat.add]. by rewrite lookup_app_l.
  - rewrite lookup_app_r by lia. rewrite <- (IH j Hj Hi). f_equal. lia.
Qed.
Lemma sum_take_S l j m : l !! j = Some m -> sum (take (S j) l) = (sum (take j l) + m)%nat.
Proof. intros H. rewrite (take_S_r _ _ _ H), sum_app. cbn. lia. Qed.
Lemma indices_mapM {X Y} (f : Z -> option Y) (g : nat -> X -> Y) (l : list X) :
  (forall i x, l !! i = Some x -> f (Z.of_nat i) = Some (g i x)) ->
  mapM f (indices (Z.of_nat (length l))) = Some (imap g l).
Proof.
  intros H. unfold indices. rewrite Nat2Z.id. apply mapM_Some. 
  apply Forall2_same_length_lookup_2.
  - by rewrite map_length, seq_length, imap_length.
  - intros i x y Hx Hy. change (map Z.of_nat) with (fmap (M := list) Z.of_nat) in Hx.
    rewrite list_lookup_fmap in Hx. destruct (seq 0 (length l) !! i) as [k|] eqn:E; [|done].
    apply lookup_seq in E as [-> Hi]. cbn in Hx. injection Hx as <-.
    rewrite list_lookup_imap in Hy. destruct (l !! i) as [z|] eqn:E; [|done]. cbn in Hy. injection Hy as <-. by apply H.
Qed.
Lemma imap_const {X Y} (g : X -> Y) (l : list X) : imap (fun _ => g) l = map g l.
Proof. induction l as [|x l IH]; cbn; [done|]. f_equal. apply IH. Qed.

(** a view that shows the lists of [A] in the files [F] *)
Definition sees (F : list fid) (vw : view) (ix : stores) (A : ast) : Prop :=
  v_ix vw = ix /\
  forall f, f ∈ F -> cnt vw f = Some (Z.of_nat (length (a_f A f))) /\ forall i : nat, rd vw f (Z.of_nat i) = a_f A f !! i.

Lemma rd_wf vw f wf l : v_files vw !! f = Some wf -> wf_is (width f) l wf ->
  cnt vw f = Some (Z.of_nat (length l)) /\ forall i : nat, rd vw f (Z.of_nat i) = l !! i.
Proof.
  intros Hl Hi. unfold cnt, rd. rewrite Hl. cbn [mbind option_bind]. split; [by rewrite (wf_is_count _ _ _ Hi)|].
  intros i. destruct (Z.ltb_spec (Z.of_nat i) 0); [lia|]. rewrite Nat2Z.id. destruct (l !! i) as [v|] eqn:E.
  - destruct (wf_is_read _ _ _ _ _ (width_ok f) Hi E) as (wf' & -> & _). done.
  - rewrite (wf_is_read_none _ _ _ _ (width_ok f) Hi E). done.
Qed.
Lemma wf_is_reopen w l wf : (0 < w <= 8)%nat -> wf_is w l wf ->
  exists wf', wf_open (wf_size wf) (wf_data wf) = Some wf' /\ wf_is w l wf'.
Proof.
  intros Hw (H1 & H2 & _ & _ & _ & H3). rewrite arr_all_nil in H1, H3. rewrite H1, H2, wf_open_words by lia.
  eexists. split; [done|]. by apply wf_new_inv.
Qed.
Lemma open_sees u ix s A : Rep u s A -> sees (all_files u) (open_read_only ix s) ix A.
Proof.
  intros (HF & _). split; [done|]. intros f Hf. destruct (HF f Hf) as (wf & E & Hi).
  destruct (wf_is_reopen _ _ _ (width_ok f) Hi) as (wf' & E' & Hi'). apply (rd_wf _ f wf'); [|done].
  cbn [open_read_only v_files]. by rewrite lookup_omap, E.
Qed.
Definition handed_over (u : setup) : list fid := filter (fun f => f <> ParBlk /\ f <> ParTxi /\ f <> ParTxo) (all_files u).
Lemma as_readable_sees u ix s A : Rep u s A -> sees (handed_over u) (as_readable ix s) ix A.
Proof.
  intros (HF & _). split; [done|]. intros f Hf. apply elem_of_list_filter in Hf as [(H1 & H2 & H3) Hf].
  destruct (HF f Hf) as (wf & E & Hi). apply (rd_wf _ f wf); [|done].
  cbn [as_readable v_files]. rewrite !lookup_delete_ne by done. done.
Qed.
Definition read_files : list fid := [FirstTrans; FirstTxi; FirstTxo; TxiTx; TxiVout; TxoSats; TxoAddr; TxoSpent; AddrFirst].
Lemma read_files_all u : read_files ⊆ all_files u.
Proof. intros f Hf. apply fixed_in. revert Hf. unfold read_files, fixed_files. set_solver. Qed.
Lemma read_files_handed u : read_files ⊆ handed_over u.
Proof.
  intros f Hf. apply elem_of_list_filter. split; [|by apply read_files_all].
  unfold read_files in Hf. repeat (apply elem_of_cons in Hf as [->|Hf]; [done|]). by apply elem_of_nil in Hf.
Qed.
Lemma sees_weaken F G vw ix A : F ⊆ G -> sees G vw ix A -> sees F vw ix A.
Proof. intros H1 [H2 H3]. split; [done|]. intros f Hf. apply H3, H1, Hf. Qed.

Section Read.
  Context (u : setup) (ix : stores) (bs : list cblock) (vw : view) (A : ast).
  Context (HX : indexed ix bs) (HV : sees read_files vw ix A) (HI : sofar u bs bs A).

  Lemma rd_ok f (i : nat) : f ∈ read_files -> rd vw f (Z.of_nat i) = a_f A f !! i.
  Proof. intros Hf. by apply (proj2 HV f Hf). Qed.
  Lemma cnt_ok f : f ∈ read_files -> cnt vw f = Some (Z.of_nat (length (a_f A f))).
  Proof. intros Hf. by apply (proj2 HV f Hf). Qed.
  Ltac inrd := unfold read_files; set_solver.

  Lemma nblk_eq : nblk vw = Z.of_nat (length bs).
  Proof. unfold nblk. rewrite (proj1 HV). destruct HX as ((-> & _) & _). unfold block_hashes. by rewrite map_length. Qed.
  Lemma ntrn_eq : ntrn vw = Z.of_nat (length (tagged bs)).
  Proof.
    unfold ntrn. rewrite (proj1 HV). destruct HX as (_ & (-> & _) & _). unfold tx_hashes.
    by rewrite map_length, txs_length, tagged_length.
  Qed.

  Definition in_start (j : nat) : nat := sum (take j (map (nin u) (tagged bs))).
  Definition out_start (j : nat) : nat := sum (take j (map nout (tagged bs))).

  Lemma counts_ok (f total : fid) (len : (bool * ctx) -> nat) j p :
    f ∈ read_files -> total ∈ read_files ->
    a_f A f = starts (map len (tagged bs)) -> length (a_f A total) = sum (map len (tagged bs)) -> tagged bs !! j = Some p ->
    (tot ← cnt vw total; first ← rd vw f (Z.of_nat j);
     if bool_decide (Z.of_nat j + 1 < ntrn vw) then (nxt ← rd vw f (Z.of_nat j + 1); Some (nxt - first)) else Some (tot - first))
    = Some (Z.of_nat (len p)) /\
    rd vw f (Z.of_nat j) = Some (Z.of_nat (sum (take j (map len (tagged bs))))).
  Proof.
    intros Hf Ht E1 E2 Hp. pose proof (lookup_lt_Some _ _ _ Hp) as Hj.
    assert (rd vw f (Z.of_nat j) = Some (Z.of_nat (sum (take j (map len (tagged bs)))))) as Hr.
    { rewrite rd_ok, E1, starts_lookup by (try done; by rewrite map_length). done. }
    split; [|done]. rewrite cnt_ok, E2 by done. cbn [mbind option_bind]. rewrite Hr. cbn [mbind option_bind]. rewrite ntrn_eq.
    assert (map len (tagged bs) !! j = Some (len p)) as Hl.
    { change (map len) with (fmap (M := list) len). by rewrite list_lookup_fmap, Hp. }
    pose proof (sum_take_S _ _ _ Hl) as Hs.
    case_bool_decide as Hc.
    - replace (Z.of_nat j + 1) with (Z.of_nat (S j)) by lia. rewrite rd_ok, E1, starts_lookup by (try done; rewrite map_length; lia).
      cbn [mbind option_bind]. f_equal. rewrite Hs. lia.
    - f_equal. rewrite take_ge in Hs by (rewrite map_length; lia). rewrite Hs. lia.
  Qed.

  Lemma read_trans_ok j c t : tagged bs !! j = Some (c, t) ->
    read_trans vw (Z.of_nat j) = Some (t_hash t, map (fun i => (source_number bs (i_src i), i_vout i)) (kept u (c, t)),
      map (fun o => (o_sats o, o_addr o)) (t_outs t)).
  Proof.
    intros Hj. destruct HI as [HB HT]. unfold read_trans.
    assert (trans_hash vw (Z.of_nat j) = Some (t_hash t)) as ->.
    { unfold trans_hash. rewrite (proj1 HV). destruct HX as (_ & (_ & _ & ->) & _). unfold tx_hashes.
      rewrite <- tagged_snd, map_map. by rewrite lookup_map, Hj. }
    cbn [mbind option_bind].
    destruct (counts_ok FirstTxi TxiTx (nin u) j (c, t)) as [E1 E2]; [inrd|inrd|apply HT| |done|].
    { by rewrite (it_txi_tx _ _ _ _ HT), len_sources. }
    unfold txi_count. rewrite E1. cbn [mbind option_bind].
    assert (mapM (fun i => ti ← nth_txi vw (Z.of_nat j) i; read_in vw ti) (indices (Z.of_nat (nin u (c, t)))) =
            Some (map (fun i => (source_number bs (i_src i), i_vout i)) (kept u (c, t)))) as ->.
    { unfold nin. rewrite <- imap_const. apply (indices_mapM _ (fun _ i => (source_number bs (i_src i), i_vout i))).
      intros i x Hx. unfold nth_txi. rewrite E2. cbn [mbind option_bind]. rewrite <- Nat2Z.inj_add.
      unfold read_in, txi_source. pose proof (lookup_lt_Some _ _ _ Hx) as Hi.
      rewrite !rd_ok by inrd. rewrite (it_txi_tx _ _ _ _ HT), (it_txi_vout _ _ _ _ HT).
      pose proof (lookup_concat_map (fun p => sources bs (kept u p)) (tagged bs) j (c, t) i Hj) as Q1.
      pose proof (lookup_concat_map (fun p => map i_vout (kept u p)) (tagged bs) j (c, t) i Hj) as Q2.
      cbv beta in Q1, Q2.
      assert (map (fun q => length (sources bs (kept u q))) (tagged bs) = map (nin u) (tagged bs)) as R1.
      { apply map_ext. intros q. unfold sources, nin. by rewrite map_length. }
      assert (map (fun q => length (map i_vout (kept u q))) (tagged bs) = map (nin u) (tagged bs)) as R2.
      { apply map_ext. intros q. unfold nin. by rewrite map_length. }
      rewrite R1 in Q1. rewrite R2 in Q2. rewrite Q1, Q2 by (unfold sources; by rewrite map_length). unfold sources.
      rewrite !lookup_map, Hx. done. }
    cbn [mbind option_bind].
    destruct (counts_ok FirstTxo TxoSats nout j (c, t)) as [F1 F2]; [inrd|inrd|apply HT| |done|].
    { by rewrite (it_sats _ _ _ _ HT), map_length, sum_nout. }
    unfold txo_count. rewrite F1. cbn [mbind option_bind].
    assert (mapM (fun i => to ← nth_txo vw (Z.of_nat j) i; read_out vw to) (indices (Z.of_nat (nout (c, t)))) =
            Some (map (fun o => (o_sats o, o_addr o)) (t_outs t))) as ->; [|done].
    unfold nout. rewrite <- imap_const. apply (indices_mapM _ (fun _ o => (o_sats o, o_addr o))).
    intros i o Ho. unfold nth_txo. rewrite F2. cbn [mbind option_bind]. rewrite <- Nat2Z.inj_add.
    pose proof (lookup_lt_Some _ _ _ Ho) as Hi.
    assert (outs (tagged bs) !! (sum (take j (map nout (tagged bs))) + i)%nat = Some o) as Hoo.
    { unfold outs. rewrite <- Ho. apply (lookup_concat_map (fun p => t_outs p.2) (tagged bs) j (c, t) i Hj). done. }
    unfold read_out, txo_sats, txo_address. rewrite !rd_ok by inrd. rewrite (it_sats _ _ _ _ HT), (it_addr _ _ _ _ HT).
    unfold addr_numbers. rewrite !lookup_map, Hoo. cbn [fmap option_fmap option_map mbind option_bind].
    assert (address_hash vw (first_of (addr_hashes bs) (o_addr o)) = Some (o_addr o)) as ->; [|done].
    unfold address_hash. rewrite (proj1 HV). destruct HX as (_ & _ & (_ & _ & Hat)).
    assert (addr_hashes bs !! (sum (take j (map nout (tagged bs))) + i)%nat = Some (o_addr o)) as HL.
    { unfold addr_hashes. rewrite <- tagged_snd, <- outs_snd. by rewrite lookup_map, Hoo. }
    destruct (first_of_cases (addr_hashes bs) (o_addr o)) as [[Hn _]|(k & Ek & Hk & _)].
    - destruct Hn. by eapply elem_of_list_lookup_2.
    - rewrite Ek. by apply Hat.
  Qed.

  Lemma read_block_ok k b : bs !! k = Some b -> read_block vw (Z.of_nat k) = Some (shown_block u bs b).
  Proof.
    intros Hk. destruct HI as [HB HT]. unfold read_block. pose proof (lookup_lt_Some _ _ _ Hk) as Hlt.
    assert (block_hash vw (Z.of_nat k) = Some (b_hash b)) as ->.
    { unfold block_hash. rewrite (proj1 HV). destruct HX as ((_ & _ & ->) & _). unfold block_hashes.
      by rewrite lookup_map, Hk. }
    cbn [mbind option_bind].
    assert (rd vw FirstTrans (Z.of_nat k) = Some (Z.of_nat (sum (take k (map ntx bs))))) as Hr.
    { rewrite rd_ok, (ib_first _ _ _ HB), starts_lookup by (try inrd; by rewrite map_length). done. }
    assert (map ntx bs !! k = Some (ntx b)) as Hl. { by rewrite lookup_map, Hk. }
    pose proof (sum_take_S _ _ _ Hl) as Hs.
    assert (trans_count vw (Z.of_nat k) = Some (Z.of_nat (ntx b))) as ->.
    { unfold trans_count. rewrite Hr. cbn [mbind option_bind]. rewrite nblk_eq, ntrn_eq. case_bool_decide as Hc.
      - replace (Z.of_nat k + 1) with (Z.of_nat (S k)) by lia.
        rewrite rd_ok, (ib_first _ _ _ HB), starts_lookup by (try inrd; rewrite map_length; lia).
        cbn [mbind option_bind]. f_equal. rewrite Hs. lia.
      - f_equal. rewrite take_ge in Hs by (rewrite map_length; lia). rewrite tagged_length, Hs. lia. }
    cbn [mbind option_bind].
    assert (mapM (fun i => t ← nth_trans vw (Z.of_nat k) i; read_trans vw t) (indices (Z.of_nat (ntx b))) =
            Some (imap (shown_tx u bs) (b_txs b))) as ->; [|done].
    apply (indices_mapM _ (shown_tx u bs)). intros i t Ht. unfold nth_trans. rewrite Hr. cbn [mbind option_bind].
    rewrite <- Nat2Z.inj_add. rewrite (read_trans_ok _ (bool_decide (i = 0%nat)) t).
    - unfold shown_tx. rewrite <- kept_shown. done.
    - unfold tagged. assert (tag b !! i = Some (bool_decide (i = 0%nat), t)) as Hti. { unfold tag. by rewrite list_lookup_imap, Ht. }
      rewrite <- Hti. rewrite <- (lookup_concat_map tag bs k b i Hk) by (by eapply lookup_lt_Some).
      do 2 f_equal. f_equal. f_equal. apply map_ext. intros q. by rewrite tag_length.
  Qed.

  Lemma address_read h first more : first_of (addr_hashes bs) h <> -1 ->
    first = first_of (addr_hashes bs) h -> v_more vw first = more ->
    address_hash vw first = Some h /\
    address_txos vw first = match more with Some (Some m) => Some (first :: m) | _ => None end.
  Proof.
    intros Hne -> Hm. destruct HI as [HB HT].
    destruct (first_of_cases (addr_hashes bs) h) as [[_ ?]|(k & Ek & Hk & Hmin)]; [done|]. rewrite Ek in *.
    assert (address_hash vw (Z.of_nat k) = Some h) as Ha.
    { unfold address_hash. rewrite (proj1 HV). destruct HX as (_ & _ & (_ & _ & Hat)). by apply Hat. }
    split; [done|]. unfold address_txos. rewrite Ha. cbn [mbind option_bind].
    rewrite rd_ok by inrd. pose proof (it_ai _ _ _ _ HT) as [G1 G2 G3 G4].
    assert (is_first (addr_hashes bs) k) as Hif by (exists h; done).
    assert (k < length (outs (tagged bs)))%nat as Hkl.
    { apply lookup_lt_Some in Hk. unfold addr_hashes in Hk. by rewrite map_length, <- tagged_snd, <- outs_snd in Hk. }
    destruct (decide (k < length (a_f A AddrFirst))%nat) as [Hl|Hl]; [|destruct (G3 k); [lia|done]].
    rewrite (G2 k Hl Hif). cbn [mbind option_bind]. rewrite Hm. done.
  Qed.
End Read.

(** ** Walks *)
Lemma walk_forward {X} (visit : Z -> option X) step (l : list X) n fuel :
  (forall i x, l !! i = Some x -> visit (Z.of_nat i) = Some x) ->
  (forall i : nat, (i < length l)%nat -> step (Z.of_nat i) = if bool_decide (S i < length l)%nat then Z.of_nat (S i) else -1) ->
  (n < length l)%nat -> (length l <= n + fuel)%nat -> walk step visit fuel (Z.of_nat n) = Some (drop n l).
Proof.
  intros Hv Hs. revert n. induction fuel as [|fuel IH]; intros n Hn Hf; [lia|]. cbn [walk].
  rewrite bool_decide_eq_false_2 by lia. destruct (lookup_lt_is_Some_2 l n Hn) as [x Hx].
  rewrite (Hv n x Hx). cbn [mbind option_bind]. rewrite (Hs n Hn), (drop_S l x n Hx).
  case_bool_decide as Hc.
  - rewrite IH by lia. done.
  - rewrite drop_ge by lia. destruct fuel; cbn [walk]; rewrite bool_decide_eq_true_2 by done; done.
Qed.
Lemma walk_backward {X} (visit : Z -> option X) (l : list X) n fuel :
  (forall i x, l !! i = Some x -> visit (Z.of_nat i) = Some x) ->
  (n < length l)%nat -> (n < fuel)%nat -> walk parent_block visit fuel (Z.of_nat n) = Some (rev (take (S n) l)).
Proof.
  intros Hv. revert n. induction fuel as [|fuel IH]; intros n Hn Hf; [lia|]. cbn [walk].
  rewrite bool_decide_eq_false_2 by lia. destruct (lookup_lt_is_Some_2 l n Hn) as [x Hx].
  rewrite (Hv n x Hx). cbn [mbind option_bind]. assert (parent_block (Z.of_nat n) = Z.of_nat n - 1) as -> by (unfold parent_block; by rewrite bool_decide_eq_false_2 by lia).
  rewrite (take_S_r _ _ _ Hx), rev_app_distr. cbn [rev app]. destruct n as [|n].
  - cbn [Z.of_nat Z.sub]. destruct fuel; cbn [walk]; rewrite bool_decide_eq_true_2 by done; done.
  - replace (Z.of_nat (S n) - 1) with (Z.of_nat n) by lia. rewrite IH by lia. done.
Qed.
