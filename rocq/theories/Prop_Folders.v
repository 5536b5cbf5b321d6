(** Property C09: numbered folders. *)
From Verif Require Import Base Model_Folders Proof_Folders.

(** C09. Every key has a folder and file; the base number reported for the file is the key with the
    digits kept inside the file cleared. *)
Theorem C09_file_number_is_the_base_of_the_slot :
  forall (fd dd : nat) (num : Z), (1 <= dd)%nat -> 0 <= num < 2^63 ->
    exists folders file,
      number_to_path fd dd num = Some (folders, file, num - num mod 10 ^ Z.of_nat fd).
Proof. intros fd dd num Hd Hn. apply number_to_path_spec; lia. Qed.

(** C09. Two keys get the same file exactly when they agree in all but the low digits. *)
Theorem C09_same_file_iff_same_slot :
  forall (fd dd : nat) (a b : Z) fa na ia fb nb ib,
    (1 <= dd)%nat -> 0 <= a < 2^63 -> 0 <= b < 2^63 ->
    number_to_path fd dd a = Some (fa, na, ia) ->
    number_to_path fd dd b = Some (fb, nb, ib) ->
    ((fa, na) = (fb, nb) <-> a / 10 ^ Z.of_nat fd = b / 10 ^ Z.of_nat fd) /\
    (na = nb <-> a / 10 ^ Z.of_nat fd = b / 10 ^ Z.of_nat fd).
Proof.
  intros fd dd a b fa na ia fb nb ib Hd Ha Hb Ea Eb.
  pose proof (number_to_path_spec fd dd a Hd ltac:(lia)) as (x & y & Ea').
  pose proof (number_to_path_spec fd dd b Hd ltac:(lia)) as (x' & y' & Eb').
  pose proof (pow10_pos fd) as Hp.
  pose proof (number_to_path_atoi _ _ _ _ _ _ Ea) as ->.
  pose proof (number_to_path_atoi _ _ _ _ _ _ Eb) as ->.
  rewrite Ea in Ea'. rewrite Eb in Eb'. injection Ea' as _ _ Ha'. injection Eb' as _ _ Hb'.
  assert (na = nb -> a / 10 ^ Z.of_nat fd = b / 10 ^ Z.of_nat fd) as Hinj.
  { intros ->. assert (a - a mod 10 ^ Z.of_nat fd = b - b mod 10 ^ Z.of_nat fd) as E by lia.
    rewrite <- (sub_mod_div a), <- (sub_mod_div b) by done. rewrite E. done. }
  assert (a / 10 ^ Z.of_nat fd = b / 10 ^ Z.of_nat fd -> (fa, na) = (fb, nb)) as Hsame.
  { intros E. pose proof (number_to_path_same fd dd a b Hd ltac:(lia) ltac:(lia) E) as E'.
    rewrite Ea, Eb in E'. injection E' as -> -> _. done. }
  split; split; intros E; auto; [injection E as -> ->; auto|].
  specialize (Hsame E). injection Hsame as _ ->. done.
Qed.

(** The path string built by the map stores: folder/name[/folders]/filename (the ".iaa" suffix is
    the same for all). *)
Definition whole_path (base folders file : list chr) : list chr :=
  match folders with [] => base ++ [Sep] ++ file | _ => base ++ [Sep] ++ folders ++ [Sep] ++ file end.

(** C09. The whole path string (the key used by the caches) separates slots too. *)
Theorem C09_path_string_determines_slot :
  forall (fd dd : nat) (a b : Z) fa na ia fb nb ib base,
    (1 <= dd)%nat -> 0 <= a < 2^63 -> 0 <= b < 2^63 ->
    number_to_path fd dd a = Some (fa, na, ia) ->
    number_to_path fd dd b = Some (fb, nb, ib) ->
    whole_path base fa na = whole_path base fb nb ->
    a / 10 ^ Z.of_nat fd = b / 10 ^ Z.of_nat fd.
Proof.
  intros fd dd a b fa na ia fb nb ib base Hd Ha Hb Ea Eb E.
  assert (na = nb) as Hn.
  2:{ eapply (C09_same_file_iff_same_slot fd dd a b); [..|exact Hn]; eassumption. }
  pose proof (number_to_path_nosep _ _ _ _ _ _ Ea) as Sa.
  pose proof (number_to_path_nosep _ _ _ _ _ _ Eb) as Sb.
  assert (forall f n, whole_path base f n =
    (match f with [] => base | _ => base ++ [Sep] ++ f end) ++ Sep :: n) as Hw.
  { intros [|c f] n; unfold whole_path; [done|]. rewrite <- !app_assoc. done. }
  rewrite !Hw in E. apply last_sep_split in E as [_ E]; done.
Qed.

(** C09. The key is the base number of its file plus its index within the file. *)
Theorem C09_key_from_file_and_index :
  forall (fd dd : nat) (num : Z) folders file base, (1 <= dd)%nat -> 0 <= num < 2^63 ->
    number_to_path fd dd num = Some (folders, file, base) ->
    num = base + num mod 10 ^ Z.of_nat fd /\ 0 <= num mod 10 ^ Z.of_nat fd < 10 ^ Z.of_nat fd.
Proof.
  intros fd dd num folders file base Hd Hn E.
  destruct (number_to_path_spec fd dd num Hd ltac:(lia)) as (x & y & E').
  pose proof (Z.mod_pos_bound num _ (pow10_pos fd)). split; [|lia].
  rewrite E in E'. injection E' as _ _ E'. lia.
Qed.

(** The names in a path: the stretches between separators; an empty path names nothing. *)
Fixpoint cut (l : list chr) : list chr * list (list chr) :=
  match l with
  | [] => ([], [])
  | Sep :: l' => let '(a, r) := cut l' in ([], a :: r)
  | c :: l' => let '(a, r) := cut l' in (c :: a, r)
  end.
Definition names (l : list chr) : list (list chr) :=
  match l with [] => [] | _ => let '(a, r) := cut l in a :: r end.
(** a file name whose last [k] characters are hidden *)
Definition hidden (k : nat) (l : list chr) : list chr := take (length l - k) l ++ replicate k Ex.

Lemma cut_nosep a : Sep ∉ a -> cut a = (a, []).
Proof.
  induction a as [|c a IH]; intros H; [done|]. apply not_elem_of_cons in H as [H1 H2].
  cbn [cut]. rewrite IH by done. destruct c; done.
Qed.
Lemma cut_sep a l : Sep ∉ a -> cut (a ++ Sep :: l) = (a, (cut l).1 :: (cut l).2).
Proof.
  induction a as [|c a IH]; intros H; [cbn [app cut]; destruct (cut l); done|].
  apply not_elem_of_cons in H as [H1 H2]. cbn [app cut]. rewrite IH by done. destruct c; done.
Qed.
Lemma names_join l : Forall (fun a => a <> [] /\ Sep ∉ a) l -> names (join l) = l.
Proof.
  intros H. assert (forall a k, Forall (fun a => a <> [] /\ Sep ∉ a) (a :: k) -> cut (join (a :: k)) = (a, k)) as Hc.
  { intros a k. revert a. induction k as [|b k IH]; intros a Hk.
    - apply cut_nosep. by apply Forall_cons in Hk as [[_ ?] _].
    - apply Forall_cons in Hk as [[_ Ha] Hk]. change (join (a :: b :: k)) with (a ++ Sep :: join (b :: k)).
      rewrite cut_sep by done. rewrite IH by done. done. }
  destruct l as [|a k]; [done|]. unfold names. rewrite Hc by done.
  destruct (join (a :: k)) eqn:E; [|done]. exfalso.
  apply Forall_cons in H as [[Hn _] _]. destruct a as [|c a]; [done|]. destruct k; discriminate E.
Qed.

(** C09. The folders of a file are its own name with ever fewer digits hidden: the outermost hides
    every digit, each further one shows one big digit more, and the innermost hides the last big digit
    above those kept inside the file. *)
Theorem C09_folders_show_ever_more_digits :
  forall (fd dd : nat) (num : Z) folders file base, (1 <= dd)%nat -> 0 <= num < 2^63 ->
    number_to_path fd dd num = Some (folders, file, base) ->
    exists m, length file = (fd + m * dd)%nat /\
      names folders = map (fun j => hidden (fd + j * dd) file) (reverse (seq 1 m)).
Proof.
  intros fd dd num folders file base Hd Hn E.
  destruct (folder_names_shape fd dd num folders file base Hd E) as (m & Hl & ->).
  exists m. split; [done|]. apply names_join. apply Forall_forall. intros a Ha.
  apply elem_of_list_In, in_map_iff in Ha as (j & <- & Hj%elem_of_list_In). apply elem_of_reverse, elem_of_seq in Hj. split.
  - unfold blanked. intros [_ H]%app_nil. apply (f_equal length) in H. rewrite replicate_length in H. cbn in H. nia.
  - apply blanked_nosep. eapply number_to_path_nosep, E.
Qed.

Example C09_example_2 :
  names [Ex;Ex;Ex;Ex;Ex;Ex;Ex;Ex;Sep;Dig 0;Dig 0;Dig 1;Ex;Ex;Ex;Ex;Ex] =
    [hidden 8 [Dig 0;Dig 0;Dig 1;Dig 2;Dig 3;Dig 4;Ex;Ex]; hidden 5 [Dig 0;Dig 0;Dig 1;Dig 2;Dig 3;Dig 4;Ex;Ex]].
Proof. reflexivity. Qed.

Example C09_example_1 :
  number_to_path 2 3 123456 =
  Some ([Ex;Ex;Ex;Ex;Ex;Ex;Ex;Ex;Sep;Dig 0;Dig 0;Dig 1;Ex;Ex;Ex;Ex;Ex] , [Dig 0;Dig 0;Dig 1;Dig 2;Dig 3;Dig 4;Ex;Ex], 123400).
Proof. vm_compute. reflexivity. Qed.

Print Assumptions C09_file_number_is_the_base_of_the_slot.
Print Assumptions C09_same_file_iff_same_slot.
Print Assumptions C09_path_string_determines_slot.
Print Assumptions C09_key_from_file_and_index.
Print Assumptions C09_folders_show_ever_more_digits.
