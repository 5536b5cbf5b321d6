From Verif Require Import Base Model_Folders.

Lemma atoi_acc l acc :
  fold_left (fun acc c => 10 * acc + match c with Dig d => d | _ => 0 end) l acc
  = acc * 10 ^ Z.of_nat (length l) + atoi l.
Proof.
  unfold atoi. revert acc. induction l as [|c l IH]; intros acc; cbn [fold_left length].
  - change (Z.of_nat 0) with 0. rewrite Z.pow_0_r. lia.
  - rewrite IH, (IH (10 * 0 + _)). rewrite Nat2Z.inj_succ, Z.pow_succ_r by lia. ring.
Qed.

Lemma atoi_app l k : atoi (l ++ k) = atoi l * 10 ^ Z.of_nat (length k) + atoi k.
Proof. unfold atoi at 1. rewrite fold_left_app, atoi_acc. done. Qed.

Lemma atoi_ex n : atoi (replicate n Ex) = 0.
Proof.
  unfold atoi. induction n as [|n IH]; [done|]. cbn [replicate fold_left].
  change (10 * 0 + 0) with 0. exact IH.
Qed.

Lemma digits_lsb_length n b : length (digits_lsb n b) = n.
Proof. revert b. induction n as [|n IH]; intros b; cbn; [done|]. rewrite IH. done. Qed.

Lemma bigit_str_length n b : (1 <= n)%nat -> length (bigit_str n b) = n.
Proof. intros H. destruct n; [lia|]. unfold bigit_str. rewrite reverse_length, digits_lsb_length. done. Qed.

Lemma atoi_digits n b : 0 <= b < 10 ^ Z.of_nat n -> atoi (reverse (digits_lsb n b)) = b.
Proof.
  revert b. induction n as [|n IH]; intros b Hb; cbn [digits_lsb].
  - change (Z.of_nat 0) with 0 in Hb. rewrite Z.pow_0_r in Hb. cbn. lia.
  - rewrite Nat2Z.inj_succ, Z.pow_succ_r in Hb by lia.
    rewrite reverse_cons, atoi_app. cbn [length].
    rewrite IH by (split; [apply Z.div_pos; lia|apply Z.div_lt_upper_bound; lia]).
    change (10 ^ Z.of_nat 1) with 10. unfold atoi. cbn [fold_left].
    pose proof (Z.div_mod b 10). lia.
Qed.

Lemma atoi_bigit n b : (1 <= n)%nat -> 0 <= b < 10 ^ Z.of_nat n -> atoi (bigit_str n b) = b.
Proof. intros Hn Hb. destruct n; [lia|]. apply atoi_digits, Hb. Qed.

Lemma pow10_pos n : 0 < 10 ^ Z.of_nat n.
Proof. apply Z.pow_pos_nonneg; lia. Qed.

Lemma sub_mod_div num e : 0 < e -> (num - num mod e) / e = num / e.
Proof.
  intros He. pose proof (Z.div_mod num e). replace (num - num mod e) with (num / e * e) by lia.
  apply Z.div_mul. lia.
Qed.

(** Bigits of a positive number after the first position: they spell the number *)
Lemma bigits_rest fuel dd fd num : (1 <= dd)%nat -> 0 <= num < 10 ^ Z.of_nat fuel ->
  exists arr, bigits (S fuel) fd dd false num = Some arr /\ atoi (concat (reverse arr)) = num /\ arr <> [].
Proof.
  intros Hdd. revert num. induction fuel as [|fuel IH]; intros num Hn.
  - change (Z.of_nat 0) with 0 in Hn. rewrite Z.pow_0_r in Hn. assert (num = 0) as -> by lia.
    pose proof (pow10_pos dd).
    cbn [bigits andb]. rewrite Z.mod_0_l, Z.div_0_l by lia. cbn.
    exists [bigit_str dd 0]. split_and!; [done| |done]. rewrite reverse_singleton. cbn [concat]. rewrite app_nil_r. apply atoi_bigit; [done|lia].
  - pose proof (pow10_pos dd) as Hp.
    assert (10 <= 10 ^ Z.of_nat dd) as H10.
    { change 10 with (10 ^ 1) at 1. apply Z.pow_le_mono_r; lia. }
    rewrite Nat2Z.inj_succ, Z.pow_succ_r in Hn by lia.
    remember (S fuel) as f1. cbn [bigits andb]. rewrite sub_mod_div by done.
    pose proof (Z.mod_pos_bound num (10 ^ Z.of_nat dd) Hp) as Hm.
    destruct (Z.ltb_spec 0 (num / 10 ^ Z.of_nat dd)) as [Hq|Hq].
    + destruct (IH (num / 10 ^ Z.of_nat dd)) as (arr & E & Ha & Hne).
      { split; [lia|]. apply Z.div_lt_upper_bound; [done|]. pose proof (pow10_pos fuel). nia. }
      subst f1. rewrite E. cbn [fmap option_fmap option_map]. eexists. split_and!; [done| |done].
      rewrite reverse_cons, concat_app, atoi_app. cbn [concat]. rewrite app_nil_r, Ha.
      rewrite bigit_str_length, atoi_bigit by done.
      pose proof (Z.div_mod num (10 ^ Z.of_nat dd)). lia.
    + eexists. split_and!; [done| |done]. rewrite reverse_singleton. cbn [concat]. rewrite app_nil_r, atoi_bigit by done.
      pose proof (Z.div_pos num (10 ^ Z.of_nat dd)). pose proof (Z.div_mod num (10 ^ Z.of_nat dd)). lia.
Qed.

Lemma bigits_fd0 fuel dd first num : bigits fuel 0 dd first num = bigits fuel 0 dd false num.
Proof. destruct fuel, first; reflexivity. Qed.

(** The part of the gathered bigits that depends only on the file slot. *)
Lemma bigits_first k fd dd num : (1 <= dd)%nat -> 0 <= num < 10 ^ Z.of_nat (S k) ->
  exists s t, bigits (S (S k)) fd dd true num = Some (s :: t) /\
    (fd = 0%nat -> atoi (concat (reverse (s :: t))) = num) /\
    ((0 < fd)%nat ->
       (if 0 <? num / 10 ^ Z.of_nat fd then bigits (S k) fd dd false (num / 10 ^ Z.of_nat fd) = Some t
        else t = []) /\
       atoi (concat (reverse t)) = num / 10 ^ Z.of_nat fd).
Proof.
  intros Hdd Hn. destruct fd as [|fd].
  - destruct (bigits_rest (S k) dd 0 num Hdd Hn) as (arr & E & Ha & Hne).
    destruct arr as [|s t]; [done|]. exists s, t. split_and!.
    + rewrite bigits_fd0. exact E.
    + done.
    + lia.
  - pose proof (pow10_pos (S fd)) as Hp.
    remember (S fd) as f. assert (0 < f)%nat as Hf by lia.
    remember (S k) as k19. cbn [bigits]. rewrite (proj2 (Nat.ltb_lt 0 f) Hf). cbn [andb].
    rewrite sub_mod_div by done.
    assert (10 <= 10 ^ Z.of_nat f) as H10.
    { change 10 with (10 ^ 1) at 1. apply Z.pow_le_mono_r; lia. }
    destruct (Z.ltb_spec 0 (num / 10 ^ Z.of_nat f)) as [Hq|Hq].
    + destruct (bigits_rest k dd f (num / 10 ^ Z.of_nat f)) as (arr & E & Ha & Hne); [done| |].
      { split; [lia|]. apply Z.div_lt_upper_bound; [done|].
        subst k19. rewrite Nat2Z.inj_succ, Z.pow_succ_r in Hn by lia. pose proof (pow10_pos k). nia. }
      subst k19. rewrite E. cbn [fmap option_fmap option_map].
      eexists _, arr. split_and!; [done|lia|]. intros _. split; done.
    + eexists _, []. split_and!; [done|lia|]. intros _. split; [done|].
      pose proof (Z.div_pos num (10 ^ Z.of_nat f)).
      change (atoi (concat (reverse []))) with 0. lia.
Qed.

Lemma imap_const_tail {A} (f : nat -> A -> A) s t :
  (forall i b, f (S i) b = b) -> imap f (s :: t) = f 0%nat s :: t.
Proof.
  intros H. rewrite imap_cons. f_equal. rewrite (imap_ext _ (fun _ b => b)).
  - clear. induction t as [|b t IH]; [done|]. rewrite imap_cons. cbn. f_equal. exact IH.
  - intros i b _. apply H.
Qed.

Lemma file_name_cons fd s t :
  file_name fd (s :: t) = concat (reverse t) ++ (if (0 <? fd)%nat then replicate fd Ex else s).
Proof.
  unfold file_name. rewrite imap_const_tail by done. cbn [Nat.eqb andb].
  rewrite reverse_cons, concat_app. cbn [concat]. rewrite app_nil_r. done.
Qed.

Lemma folder_name_tail fd dd s s' t level :
  folder_name fd dd (s :: t) level = folder_name fd dd (s' :: t) level.
Proof.
  unfold folder_name. f_equal. cbn [length]. apply map_ext_in. intros sig _.
  destruct sig as [|sig]; done.
Qed.

Lemma folder_path_tail fd dd s s' t : folder_path fd dd (s :: t) = folder_path fd dd (s' :: t).
Proof.
  unfold folder_path. f_equal. cbn [length]. apply map_ext_in. intros level _. apply folder_name_tail.
Qed.

Lemma number_to_path_spec fd dd num : (1 <= dd)%nat -> 0 <= num < 10 ^ 19 ->
  exists folders file, number_to_path fd dd num = Some (folders, file, num - num mod 10 ^ Z.of_nat fd).
Proof.
  intros Hdd Hn. destruct (bigits_first 18 fd dd num Hdd Hn) as (s & t & E & H0 & H1).
  unfold number_to_path. rewrite E. eexists _, _. f_equal. f_equal.
  rewrite file_name_cons. pose proof (pow10_pos fd) as Hp.
  destruct fd as [|fd].
  - change (0 <? 0)%nat with false. cbv iota. change (Z.of_nat 0) with 0. rewrite Z.pow_0_r, Z.mod_1_r, Z.sub_0_r.
    rewrite <- (H0 eq_refl) at 1. rewrite reverse_cons, concat_app. cbn [concat]. rewrite app_nil_r. done.
  - destruct (H1 ltac:(lia)) as [_ Ha].
    destruct (Nat.ltb_spec 0 (S fd)); [|lia].
    rewrite atoi_app, Ha, atoi_ex, replicate_length, Z.add_0_r.
    pose proof (Z.div_mod num (10 ^ Z.of_nat (S fd))). lia.
Qed.

Lemma number_to_path_same fd dd a b : (1 <= dd)%nat -> 0 <= a < 10 ^ 19 -> 0 <= b < 10 ^ 19 ->
  a / 10 ^ Z.of_nat fd = b / 10 ^ Z.of_nat fd -> number_to_path fd dd a = number_to_path fd dd b.
Proof.
  intros Hdd Ha Hb Hq. destruct fd as [|fd].
  { change (Z.of_nat 0) with 0 in Hq. rewrite Z.pow_0_r, !Z.div_1_r in Hq. subst. done. }
  destruct (bigits_first 18 (S fd) dd a Hdd Ha) as (s & t & E & _ & H1).
  destruct (bigits_first 18 (S fd) dd b Hdd Hb) as (s' & t' & E' & _ & H1').
  destruct (H1 ltac:(lia)) as [Ht _]. destruct (H1' ltac:(lia)) as [Ht' _].
  rewrite Hq in Ht. assert (t = t') as ->.
  { destruct (0 <? b / 10 ^ Z.of_nat (S fd)); congruence. }
  unfold number_to_path. rewrite E, E'.
  assert (file_name (S fd) (s :: t') = file_name (S fd) (s' :: t')) as ->.
  { rewrite !file_name_cons. done. }
  rewrite (folder_path_tail (S fd) dd s s' t'). done.
Qed.

(** File names contain no path separator. *)
Lemma bigit_str_nosep n b : Sep ∉ bigit_str n b.
Proof.
  unfold bigit_str. destruct n as [|n]; [intros ?%elem_of_list_singleton; done|].
  rewrite elem_of_reverse. remember (S n) as m. clear. revert b.
  induction m as [|m IH]; intros b; cbn [digits_lsb]; [apply not_elem_of_nil|].
  rewrite not_elem_of_cons. split; [done|apply IH].
Qed.

Lemma bigits_nosep fuel fd dd first num arr :
  bigits fuel fd dd first num = Some arr -> Forall (fun s => Sep ∉ s) arr.
Proof.
  revert first num arr. induction fuel as [|fuel IH]; intros first num arr; cbn [bigits]; [done|].
  destruct (0 <? _).
  - intros (arr' & E & ->)%fmap_Some. constructor; [apply bigit_str_nosep|]. eapply IH, E.
  - intros [= <-]. constructor; [apply bigit_str_nosep|constructor].
Qed.

Lemma concat_nosep (l : list (list chr)) : Forall (fun s => Sep ∉ s) l -> Sep ∉ concat l.
Proof.
  induction 1 as [|s l Hs Hl IH]; cbn; [apply not_elem_of_nil|]. rewrite not_elem_of_app. done.
Qed.

Lemma replicate_nosep n : Sep ∉ replicate n Ex.
Proof. intros [? _]%elem_of_replicate. done. Qed.

Lemma file_name_nosep fd arr : Forall (fun s => Sep ∉ s) arr -> Sep ∉ file_name fd arr.
Proof.
  intros H. destruct H as [|s t Hs Ht]; [apply not_elem_of_nil|].
  rewrite file_name_cons, not_elem_of_app. split.
  - apply concat_nosep, Forall_reverse, Ht.
  - destruct (0 <? fd)%nat; [apply replicate_nosep|exact Hs].
Qed.

Lemma number_to_path_nosep fd dd num folders file n :
  number_to_path fd dd num = Some (folders, file, n) -> Sep ∉ file.
Proof.
  unfold number_to_path. destruct (bigits 20 fd dd true num) as [arr|] eqn:E; [|done].
  intros [= <- <- <-]. apply file_name_nosep. eapply bigits_nosep, E.
Qed.

(** Splitting a path at its last separator. *)
Lemma last_sep_split (a b f g : list chr) : Sep ∉ f -> Sep ∉ g ->
  a ++ Sep :: f = b ++ Sep :: g -> a = b /\ f = g.
Proof.
  revert b. induction a as [|c a IH]; intros [|d b] Hf Hg E; cbn in E.
  - injection E as ->. done.
  - injection E as <- ->. exfalso. apply Hf. apply elem_of_app. right. left.
  - injection E as -> <-. exfalso. apply Hg. apply elem_of_app. right. left.
  - injection E as -> E. destruct (IH _ Hf Hg E) as [-> ->]. done.
Qed.

Lemma last_sep_none (b f g : list chr) : Sep ∉ f -> f <> b ++ Sep :: g.
Proof. intros Hf ->. apply Hf. apply elem_of_app. right. left. Qed.

Lemma number_to_path_atoi fd dd num folders file n :
  number_to_path fd dd num = Some (folders, file, n) -> n = atoi file.
Proof.
  unfold number_to_path. generalize (bigits 20 fd dd true num). intros [arr|] E; [|discriminate].
  injection E as <- <- <-. reflexivity.
Qed.

Lemma bigits_small fuel fd dd k : (1 <= fd)%nat -> 0 <= k < 10 ^ Z.of_nat fd ->
  bigits (S fuel) fd dd true k = Some [bigit_str fd k].
Proof.
  intros Hf Hk. cbn [bigits]. destruct (Nat.ltb_spec 0 fd); [|lia]. cbn [andb].
  rewrite Z.mod_small by lia. rewrite Z.sub_diag, Z.div_0_l by lia. done.
Qed.

Lemma number_to_path_small fd dd k folders file n : (1 <= fd)%nat -> 0 <= k < 10 ^ Z.of_nat fd ->
  number_to_path fd dd k = Some (folders, file, n) -> folders = [].
Proof.
  intros Hf Hk. unfold number_to_path. rewrite (bigits_small 19) by done.
  generalize (file_name fd [bigit_str fd k]). intros l E. injection E as <- _ _.
  unfold folder_path. cbn [length]. destruct (Nat.eqb_spec fd 0); [lia|]. done.
Qed.

(** ** The shape of the folders *)

(** the big digits after the first are [dd] digits wide, the first [fd] (or [dd] if [fd] is 0) *)
Lemma bigits_widths fuel fd dd first num arr : (1 <= dd)%nat ->
  bigits fuel fd dd first num = Some arr ->
  exists s t, arr = s :: t /\ length s = (if first && (0 <? fd)%nat then fd else dd) /\ Forall (fun x => length x = dd) t.
Proof.
  intros Hdd. revert first num arr. induction fuel as [|fuel IH]; intros first num arr; cbn [bigits]; [done|].
  set (n := if first && (0 <? fd)%nat then fd else dd).
  assert (1 <= n)%nat as Hn.
  { unfold n. destruct first; cbn [andb]; [|done]. destruct (Nat.ltb_spec 0 fd); lia. }
  destruct (0 <? _).
  - intros (arr' & E & ->)%fmap_Some. destruct (IH _ _ _ E) as (s & t & -> & Hs & Ht). cbn [andb] in Hs.
    eexists _, _. split; [done|]. split; [by apply bigit_str_length|]. by constructor.
  - intros [= <-]. eexists _, _. split; [done|]. split; [by apply bigit_str_length|constructor].
Qed.

Lemma concat_width (l : list (list chr)) dd : Forall (fun x => length x = dd) l -> length (concat l) = (length l * dd)%nat.
Proof. induction 1 as [|x l Hx _ IH]; cbn [concat length]; [done|]. rewrite app_length, IH, Hx. lia. Qed.

Lemma reverse_map_ {A B} (f : A -> B) l : map f (reverse l) = reverse (map f l).
Proof. induction l as [|x l IH]; [done|]. cbn [map]. rewrite !reverse_cons, map_app, IH. done. Qed.

(** blanking the last [k] characters *)
Definition blanked (k : nat) (l : list chr) : list chr := take (length l - k) l ++ replicate k Ex.

Lemma concat_blank (l : list (list chr)) dd j (b : nat) : (j <= length l)%nat ->
  concat (map (fun sig => if (sig =? 0)%nat then replicate b Ex
     else if (sig <=? j)%nat then replicate dd Ex else default [] (([] :: l) !! sig)) (reverse (seq 0 (S (length l)))))
  = concat (reverse (drop j l)) ++ replicate (b + j * dd) Ex.
Proof.
  revert j. induction l as [|x l IH] using rev_ind; intros j Hj.
  - cbn in Hj. assert (j = 0)%nat as -> by lia. cbn. rewrite app_nil_r. f_equal. lia.
  - rewrite app_length in Hj. cbn [length] in Hj.
    rewrite app_length. cbn [length]. rewrite Nat.add_1_r. rewrite (seq_S (S (length l)) 0), Nat.add_0_l.
    rewrite reverse_app, reverse_singleton. cbn [app map concat].
    change (S (length l) =? 0)%nat with false. cbv iota.
    destruct (Nat.leb_spec (S (length l)) j) as [Hle|Hlt].
    + assert (j = S (length l)) as -> by lia.
      rewrite (drop_ge (l ++ [x])) by (rewrite app_length; cbn [length]; lia).
      rewrite (map_ext_in _ (fun sig => if (sig =? 0)%nat then replicate b Ex
        else if (sig <=? length l)%nat then replicate dd Ex else default [] (([] :: l) !! sig))).
      2:{ intros sig Hin%elem_of_list_In. apply elem_of_reverse, elem_of_seq in Hin.
          destruct (Nat.eqb_spec sig 0); [done|].
          destruct (Nat.leb_spec sig (S (length l))); [|lia]. destruct (Nat.leb_spec sig (length l)); [done|lia]. }
      rewrite IH by lia. rewrite drop_all, (reverse_nil (A := list chr)). cbn [concat app].
      rewrite <- replicate_add. f_equal. lia.
    + rewrite (drop_app_le l) by lia. rewrite reverse_app, reverse_singleton. cbn [app concat].
      rewrite <- app_assoc, <- IH by lia. f_equal.
      { change ([] :: l ++ [x]) with (([] :: l) ++ [x]). rewrite lookup_app_r by (cbn [length]; lia).
        cbn [length]. rewrite Nat.sub_diag. done. }
      f_equal. apply map_ext_in. intros sig Hin%elem_of_list_In. apply elem_of_reverse, elem_of_seq in Hin.
      destruct (Nat.eqb_spec sig 0); [done|]. destruct (sig <=? j)%nat; [done|].
      change ([] :: l ++ [x]) with (([] :: l) ++ [x]). rewrite lookup_app_l by (cbn [length]; lia). done.
Qed.

Lemma folder_name_shape fd dd s t j : (j <= length t)%nat ->
  folder_name fd dd (s :: t) j = concat (reverse (drop j t)) ++ replicate ((if (fd =? 0)%nat then dd else fd) + j * dd) Ex.
Proof.
  intros Hj. rewrite <- concat_blank by done. rewrite (folder_name_tail fd dd s [] t). reflexivity.
Qed.

Lemma take_blank (l : list (list chr)) (f : list chr) dd j : Forall (fun x => length x = dd) l -> (j <= length l)%nat ->
  blanked (length f + j * dd) (concat (reverse l) ++ f) = concat (reverse (drop j l)) ++ replicate (length f + j * dd) Ex.
Proof.
  intros Hw Hj. unfold blanked. f_equal. rewrite <- (take_drop j l) at 1 2.
  rewrite reverse_app, concat_app, <- app_assoc.
  assert (length (concat (reverse (take j l)) ++ f) = length f + j * dd)%nat as Hl.
  { rewrite app_length, (concat_width _ dd) by (apply Forall_reverse, Forall_take, Hw).
    rewrite reverse_length, take_length. rewrite (Nat.min_l j) by lia. lia. }
  rewrite app_length, Hl. rewrite Nat.add_sub. apply take_app.
Qed.

Lemma folder_names_shape fd dd num folders file n : (1 <= dd)%nat ->
  number_to_path fd dd num = Some (folders, file, n) ->
  exists m, length file = (fd + m * dd)%nat /\
    folders = join (map (fun j => blanked (fd + j * dd) file) (reverse (seq 1 m))).
Proof.
  intros Hdd. unfold number_to_path. destruct (bigits 20 fd dd true num) as [arr|] eqn:E; [|done].
  intros E'. apply (inj Some) in E'. apply pair_equal_spec in E' as [E' _]. apply pair_equal_spec in E' as [E1 E2].
  destruct (bigits_widths _ _ _ _ _ _ Hdd E) as (s & t & -> & Hs & Ht). cbn [andb] in Hs.
  subst folders file. rewrite file_name_cons. unfold folder_path.
  destruct (Nat.eqb_spec fd 0) as [->|Hfd].
  - change (0 <? 0)%nat with false in *. cbv iota in *. exists (S (length t)). split.
    { rewrite app_length, (concat_width _ dd), reverse_length by (apply Forall_reverse, Ht). lia. }
    f_equal. cbn [length]. rewrite <- fmap_S_seq. change (fmap S (seq 0 (S (length t)))) with (map S (seq 0 (S (length t)))).
    rewrite <- (reverse_map_ S), map_map. apply map_ext_in. intros j Hin%elem_of_list_In. apply elem_of_reverse, elem_of_seq in Hin.
    rewrite folder_name_shape by lia. change (0 =? 0)%nat with true. cbv iota.
    replace (0 + S j * dd)%nat with (length s + j * dd)%nat by lia.
    rewrite take_blank by (done || lia). rewrite Hs. done.
  - destruct (Nat.ltb_spec 0 fd); [|lia]. exists (length t). split.
    { rewrite app_length, (concat_width _ dd), reverse_length, replicate_length by (apply Forall_reverse, Ht). lia. }
    f_equal. cbn [length]. rewrite Nat.sub_succ, Nat.sub_0_r.
    apply map_ext_in. intros j Hin%elem_of_list_In. apply elem_of_reverse, elem_of_seq in Hin.
    rewrite folder_name_shape by lia. destruct (Nat.eqb_spec fd 0); [lia|].
    pose proof (take_blank t (replicate fd Ex) dd j Ht ltac:(lia)) as Hb. rewrite replicate_length in Hb. rewrite Hb. done.
Qed.

Lemma blanked_nosep k l : Sep ∉ l -> Sep ∉ blanked k l.
Proof.
  intros H. unfold blanked. rewrite not_elem_of_app. split; [|apply replicate_nosep].
  intros Hin. apply H. rewrite <- (take_drop (length l - k) l). apply elem_of_app. by left.
Qed.
