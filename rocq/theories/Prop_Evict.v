(** Property C11, continued: appends that have to evict files from the cache. *)
From Verif Require Import Base Model_Codec Model_Folders Model_MapStore Spec_MapStore Proof_Codec Proof_Folders Proof_MapStore
  Prop_MapStore Proof_Evict.

(** Appends one after the other; [None]: one of them never returned. *)
Fixpoint appends (s : cms) (l : list (Z * Z)) : option cms :=
  match l with
  | [] => Some s
  | (k, v) :: l' => match cms_append s k v with Some s' => appends s' l' | None => None end
  end.

Global Instance same_file_dec fd a b : Decision (same_file fd a b).
Proof. unfold same_file. apply _. Defined.
(** The number of elements kept in the file of a key *)
Definition held (fd : nat) (hist : list (Z * Z)) (k : Z) : Z :=
  Z.of_nat (length (filter (fun kv => same_file fd kv.1 k) hist)).

Lemma held_slot c hist k p : (1 <= c_dd c)%nat -> Forall (good_append (c_es c)) hist -> 0 <= k < 2^63 -> key_path c k = Some p ->
  slot_size c hist p = held (c_fd c) hist k.
Proof.
  intros Hd Hg Hk Hp. unfold slot_size, held. f_equal. f_equal. induction Hg as [|kv hist H Hg IH]; [done|].
  rewrite !filter_cons, IH. assert (key_path c kv.1 = Some p <-> same_file (c_fd c) kv.1 k) as Hx.
  { rewrite <- Hp. apply key_path_same_file; [done|apply H|done]. }
  destruct (decide (key_path c kv.1 = Some p)), (decide (same_file (c_fd c) kv.1 k)); tauto.
Qed.

Lemma appends_since c lim : (1 <= c_dd c)%nat -> (c_es c <= 8)%nat ->
  forall l hist n last s s', cms_reach c lim hist s -> since c hist n last s ->
    Forall (good_append (c_es c)) l -> Z.of_nat (length hist + length l) < 2^63 -> appends s l = Some s' ->
    cms_reach c lim (hist ++ l) s' /\
    exists last', since c (hist ++ l) (n + Z.of_nat (length l)) last' s' /\
      match list.last l with Some kv => last' = key_path c kv.1 | None => last' = last end.
Proof.
  intros Hd He. induction l as [|[k v] l IH]; intros hist n lst s s' Hr Hs Hg Hlen E; cbn [appends] in E.
  - injection E as <-. cbn [length]. rewrite app_nil_r, Z.add_0_r. split; [done|]. exists lst. done.
  - destruct (cms_append s k v) as [s1|] eqn:E1; [|done]. apply Forall_cons in Hg as [G1 G2]. cbn [length] in Hlen.
    destruct (cms_reach_inv c lim hist s (conj Hd He) Hr) as (Hi & Hh & Ha & _).
    destruct (key_path_spec c k Hd (proj1 G1)) as (p & Hp & _).
    pose proof (append_since c hist n lst s k v s1 p (conj Hd He) Hh Hi Ha (proj1 G1) Hp Hs E1) as Hs1.
    assert (cms_reach c lim (hist ++ [(k, v)]) s1) as Hr1 by (apply (kr_append c lim hist s k v s1); [done|done|lia|done]).
    destruct (IH _ _ _ _ s' Hr1 Hs1 G2) as (R & last' & S' & L); [rewrite app_length; cbn [length]; lia|done|].
    rewrite <- app_assoc in R, S'. cbn [app] in R, S'. split; [done|]. exists last'. split.
    + cbn [length]. replace (n + Z.of_nat (S (length l))) with (n + 1 + Z.of_nat (length l)) by lia. done.
    + destruct l as [|kv l]; [cbn in L |- *; congruence|]. change (last ((k, v) :: kv :: l)) with (last (kv :: l)).
      destruct (last (kv :: l)) eqn:El; [exact L|]. by apply last_None in El.
Qed.

(** C11. An append returns, however many files it has to evict, if three things together stay below the limit: the
    appends since the store was last flushed, the elements in the wanted file, and the elements in the file used last. *)
Theorem C11_append_returns_evicting_partial :
  forall c lim hist s0 l s k v, (1 <= c_dd c)%nat -> (c_es c <= 8)%nat -> cms_reach c lim hist s0 ->
    Forall (good_append (c_es c)) l -> Z.of_nat (length hist + length l) < 2^63 -> appends (cms_flush s0) l = Some s ->
    0 <= k < 2^63 ->
    Z.of_nat (length l) + held (c_fd c) (hist ++ l) k +
      match last l with Some kv => held (c_fd c) (hist ++ l) kv.1 | None => 0 end < lim ->
    exists s', cms_append s k v = Some s'.
Proof.
  intros c lim hist s0 l s k v Hd He Hr Hg Hlen E Hk Hlim.
  pose proof (kr_flush c lim hist s0 Hr) as Hr1.
  destruct (appends_since c lim Hd He l hist 0 None (cms_flush s0) s Hr1) as (Hr2 & lst & Hs & Hl); [|done|done|done|].
  { unfold since, tallies. cbn. split_and!; [done|constructor|constructor]. }
  destruct (cms_reach_inv c lim _ s (conj Hd He) Hr2) as (Hi & Hh & Ha & HL & _).
  destruct (key_path_spec c k Hd Hk) as (p & Hp & _).
  apply (append_since_total c (hist ++ l) _ lst s k v p (conj Hd He) Hh Hi Ha Hk Hp Hs).
  rewrite HL, (held_slot c (hist ++ l) k p Hd (proj1 Hh) Hk Hp). rewrite Z.add_0_l.
  destruct (last l) as [kv|] eqn:El.
  - assert (good_append (c_es c) kv) as Gk.
    { rewrite Forall_forall in Hg. apply Hg. apply last_Some in El as [l' ->]. apply elem_of_app. right. left. }
    destruct (key_path_spec c kv.1 Hd (proj1 Gk)) as (q & Hq & _). rewrite Hl, Hq.
    rewrite (held_slot c (hist ++ l) kv.1 q Hd (proj1 Hh) (proj1 Gk) Hq). lia.
  - rewrite Hl. lia.
Qed.

(** Appends with a limit of eight, three files; the last append evicts the first file and returns, which without
    lowering the count by what the file held it would not. *)
Example C11_example_2 :
  (s1 ← appends (cms_open c10_cfg 8 create_disk) [(3, 1); (3, 2); (4, 3); (3, 4); (3, 5)];
   s2 ← appends (cms_flush s1) [(3, 6); (14, 7); (14, 8)];
   s3 ← appends s2 [(25, 9)];
   r ← cms_get s3 3;
   Some (k_count s2, length (k_entries s2), k_count s3, length (k_entries s3), snd r))
  = Some (8, 2%nat, 4, 2%nat, Some [1; 2; 4; 5; 6]).
Proof. vm_compute. reflexivity. Qed.

(** The hypotheses of the theorem hold there. *)
Definition ex_hist : list (Z * Z) := [(3, 1); (3, 2); (4, 3); (3, 4); (3, 5)].
Definition ex_more : list (Z * Z) := [(3, 6); (14, 7); (14, 8)].
Lemma ex_runs :
  match appends (cms_open c10_cfg 8 create_disk) ex_hist with
  | Some s0 => match appends (cms_flush s0) ex_more with Some _ => True | None => False end
  | None => False end.
Proof. vm_compute. exact I. Qed.
Lemma ex_appends : Forall (good_append (c_es c10_cfg)) (ex_hist ++ ex_more).
Proof.
  change (c_es c10_cfg) with 2%nat. unfold ex_hist, ex_more, good_append, elem_fits. cbn [app]. change (pow256 2) with 65536.
  repeat (apply Forall_cons; split; [cbn [fst snd]; split; [lia|left; lia]|]). constructor.
Qed.
Lemma ex_sizes : Z.of_nat (length ex_more) + held (c_fd c10_cfg) (ex_hist ++ ex_more) 25 +
  match last ex_more with Some kv => held (c_fd c10_cfg) (ex_hist ++ ex_more) kv.1 | None => 0 end = 5.
Proof. vm_compute. reflexivity. Qed.
Example C11_example_3 :
  exists s0 s s', cms_reach c10_cfg 8 ex_hist s0 /\ appends (cms_flush s0) ex_more = Some s /\ cms_append s 25 9 = Some s'.
Proof.
  pose proof ex_runs as X. destruct (proj1 (Forall_app _ _ _) ex_appends) as [G1 G2].
  assert (1 <= c_dd c10_cfg)%nat as Hd by (cbn; lia). assert (c_es c10_cfg <= 8)%nat as He by (cbn; lia).
  pose proof ex_sizes as Hz. assert (Z.of_nat (length (@nil (Z * Z)) + length ex_hist) < 2^63) as L1 by (vm_compute; reflexivity).
  assert (Z.of_nat (length ex_hist + length ex_more) < 2^63) as L2 by (vm_compute; reflexivity).
  assert (since c10_cfg [] 0 None (cms_open c10_cfg 8 create_disk)) as S0.
  { unfold since, tallies. cbn. split; [done|]. split; constructor. }
  destruct (appends (cms_open c10_cfg 8 create_disk) ex_hist) as [s0|] eqn:E0; [|destruct X].
  pose proof (appends_since c10_cfg 8 Hd He ex_hist [] 0 None (cms_open c10_cfg 8 create_disk) s0 (kr_create _ _) S0 G1 L1 E0) as [R0 _].
  change ([] ++ ex_hist) with ex_hist in R0.
  destruct (appends (cms_flush s0) ex_more) as [s|] eqn:E1; [|destruct X].
  assert (0 <= 25 < 2^63) as Hk by lia.
  destruct (C11_append_returns_evicting_partial c10_cfg 8 ex_hist s0 ex_more s 25 9 Hd He R0 G2 L2 E1 Hk) as [s' E2].
  { rewrite Hz. reflexivity. }
  exact (ex_intro _ s0 (ex_intro _ s (ex_intro _ s' (conj R0 (conj E1 E2))))).
Qed.

(** C11. An append evicts the files used least recently, and only when its own file is not in the cache: every file it
    evicts was used before every other file it keeps. *)
Theorem C11_least_recently_used_go_first :
  forall c lim hist s k v s' p, (1 <= c_dd c)%nat -> (c_es c <= 8)%nat -> cms_reach c lim hist s -> 0 <= k < 2^63 ->
    cms_append s k v = Some s' -> number_to_path (c_fd c) (c_dd c) k = Some (p, k - k mod 10 ^ Z.of_nat (c_fd c)) ->
    let cached t e := e ∈ k_entries t in
    let kept e := ce_path e ∈ map ce_path (k_entries s') in
    (forall e e', cached s e -> cached s e' -> ~ kept e -> kept e' -> ce_path e' <> p -> ce_access e < ce_access e') /\
    ((exists e, cached s e /\ ~ kept e) -> forall e, cached s e -> ce_path e <> p) /\
    (exists e, cached s' e /\ ce_path e = p /\ forall e', cached s' e' -> e' <> e -> ce_access e' < ce_access e).
Proof.
  intros c lim hist s k v s' p Hd He Hr Hk E Hn cached kept.
  destruct (cms_reach_inv c lim hist s (conj Hd He) Hr) as (Hi & Hh & Ha & _).
  destruct (key_path_spec c k Hd Hk) as (p' & Hp & _ & Hn'). assert (p' = p) as -> by congruence.
  destruct (append_oldest c hist s k v s' p (conj Hd He) Hh Hi Ha Hk Hp E) as [O1 O2].
  split; [exact O1|]. split.
  - intros X e Hce Hp'. apply (O2 X). rewrite <- Hp'. apply elem_of_map_ce, Hce.
  - destruct (cms_append_inv c hist s k v s' (conj Hd He) Hh Hi Hk E) as (_ & Ha' & _). destruct (Ha' Ha) as (B1 & _ & B3).
    unfold cms_append in E. rewrite (ci_cfg _ _ _ _ Hi), Hn in E.
    destruct (load_into_cache s p) as [s1|] eqn:El; [|done].
    destruct (load_into_cache_inv c hist s p s1 (conj Hd He) Hh Hi El) as (_ & Hin & _).
    apply elem_of_map_inv in Hin as (x & Hx & Ex). injection E as <-. cbn [k_entries k_counter] in *. unfold cached. cbn [k_entries].
    match goal with |- context [map ?f (k_entries s1)] => set (upd := f) in * end.
    exists (upd x). assert (ce_path (upd x) = p /\ ce_access (upd x) = k_counter s1 + 1) as [U1 U2].
    { unfold upd. rewrite decide_True by done. done. }
    assert (upd x ∈ map upd (k_entries s1)) as Hu by (apply (elem_of_list_fmap_1 upd), Hx).
    split; [exact Hu|]. split; [exact U1|]. intros e' He' Hne. rewrite Forall_forall in B3. pose proof (B3 e' He') as B.
    rewrite U2. destruct (Z.eq_dec (ce_access e') (k_counter s1 + 1)) as [Q|Q]; [|lia].
    destruct Hne. apply (nodup_access_eq _ _ _ B1 He' Hu). congruence.
Qed.

(** In the run above the first file goes, not the one used last. *)
Example C11_example_4 :
  (s1 ← appends (cms_open c10_cfg 8 create_disk) ex_hist; s2 ← appends (cms_flush s1) ex_more; s3 ← appends s2 [(25, 9)];
   Some (map ce_access (k_entries s2), map ce_access (k_entries s3),
         bool_decide (map ce_path (drop 1 (k_entries s2)) = map ce_path (take 1 (k_entries s3)))))
  = Some ([1; 3], [3; 4], true).
Proof. vm_compute. reflexivity. Qed.

Print Assumptions C11_append_returns_evicting_partial.
Print Assumptions C11_least_recently_used_go_first.
