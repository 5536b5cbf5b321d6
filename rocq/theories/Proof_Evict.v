(** Eviction in the cached map store: what the element count is made of, and when the loop that evicts ends. *)
From Verif Require Import Base Model_Codec Model_Folders Model_MapStore Spec_MapStore Proof_Codec Proof_Folders Proof_MapStore.

Definition tal (e : centry) : Z := iaa_tally (ce_a e).
Definition tallies (s : cms) : Z := zsum (map tal (k_entries s)).

Lemma pick_none counter excl l : pick_oldest counter excl l = None ->
  forall e, e ∈ l -> ce_path e <> excl -> counter <= ce_access e.
Proof.
  unfold pick_oldest.
  set (f := fun best e => if bool_decide (ce_access e < match best with Some b => ce_access b | None => counter end /\ ce_path e <> excl) then Some e else best).
  assert (forall l b, exists b', fold_left f l (Some b) = Some b') as G.
  { induction l0 as [|x l0 IH]; intros b; [by exists b|]. cbn [fold_left].
    unfold f at 2. case_bool_decide; apply IH. }
  induction l as [|x l IH]; intros E e He Hne; [by apply not_elem_of_nil in He|]. cbn [fold_left] in E.
  destruct (f None x) as [b|] eqn:Ex.
  { destruct (G l b) as [b' Hb]. congruence. }
  apply elem_of_cons in He as [->|He]; [|by apply IH].
  unfold f in Ex. case_bool_decide as Hx; [done|]. destruct (Z.le_gt_cases counter (ce_access x)); [done|].
  destruct Hx. split; [lia|done].
Qed.

Lemma zsum_delete l e : NoDup (map ce_path l) -> e ∈ l ->
  zsum (map tal (ce_delete (ce_path e) l)) = zsum (map tal l) - tal e /\
  (length (ce_delete (ce_path e) l) < length l)%nat.
Proof.
  intros Hn He. unfold ce_delete. induction l as [|x l IH]; [by apply not_elem_of_nil in He|].
  cbn [map] in Hn. apply NoDup_cons in Hn as [Hx Hn]. rewrite filter_cons.
  cbn [map length]. change (zsum (tal x :: map tal l)) with (tal x + zsum (map tal l)).
  destruct (decide (ce_path x <> ce_path e)) as [D|D].
  - apply elem_of_cons in He as [->|He]; [done|]. destruct (IH Hn He) as [H1 H2]. cbn [map length].
    change (zsum (tal x :: ?k)) with (tal x + zsum k). lia.
  - apply dec_stable in D. assert (e = x) as ->.
    { apply elem_of_cons in He as [->|He]; [done|]. destruct Hx. rewrite D. apply elem_of_map_ce, He. }
    assert (filter (fun e => ce_path e <> ce_path x) l = l) as ->.
    { clear -Hx. induction l as [|y l IH]; [done|]. cbn [map] in Hx. apply not_elem_of_cons in Hx as [H1 H2].
      rewrite filter_cons, decide_True by done. f_equal. by apply IH. }
    lia.
Qed.

(** Evicting keeps the count equal to a fixed part and the sizes of the entries. *)
Lemma trim_count p fuel : forall s s', NoDup (map ce_path (k_entries s)) -> trim_loop fuel p s = Some s' ->
  k_count s' - tallies s' = k_count s - tallies s /\ sublist (k_entries s') (k_entries s) /\ k_counter s' = k_counter s.
Proof.
  induction fuel as [|fuel IH]; intros s s' Hn E; cbn [trim_loop] in E;
    (destruct (k_count s <? k_limit s); [by injection E as <-|]); [done|].
  destruct (pick_oldest _ p _) as [e|] eqn:Ep; [|done]. apply pick_oldest_spec in Ep as (Hin & _).
  destruct (write_file _ _ _) as [d2|]; [|done]. destruct (zsum_delete _ _ Hn Hin) as [Hz _].
  apply IH in E as (E1 & E2 & E3); [|apply map_filter_nodup, Hn]. cbn [k_counter k_entries] in *. split_and!; [|etrans; [exact E2|apply ce_delete_sublist]|done].
  rewrite E1. unfold tallies. cbn [k_count k_entries]. rewrite Hz. unfold tal at 2. lia.
Qed.

Lemma zsum_two l p A B ctr : 0 <= A -> 0 <= B -> NoDup (map ce_path l) -> NoDup (map ce_access l) ->
  (forall e, e ∈ l -> ce_path e = p -> tal e <= A) -> (forall e, e ∈ l -> ce_path e <> p -> ce_access e = ctr /\ tal e <= B) ->
  zsum (map tal l) <= (if decide (p ∈ map ce_path l) then A else 0) + (if decide (ctr ∈ map ce_access l) then B else 0).
Proof.
  intros HA HB. induction l as [|x l IH]; intros Np Na H1 H2; [cbn; repeat destruct (decide _); lia|].
  cbn [map] in *. apply NoDup_cons in Np as [Hp Np]. apply NoDup_cons in Na as [Ha Na].
  change (zsum (tal x :: ?k)) with (tal x + zsum k).
  specialize (IH Np Na ltac:(intros e He; apply H1; by right) ltac:(intros e He; apply H2; by right)).
  destruct (decide (ce_path x = p)) as [E|E].
  - pose proof (H1 x ltac:(left) E) as Hx. rewrite (decide_True (P := p ∈ _ :: _)) by (rewrite E; left).
    rewrite (decide_False (P := p ∈ map ce_path l)) in IH by congruence.
    destruct (decide (ctr ∈ map ce_access l)) as [D|D]; [rewrite decide_True by (by right); lia|].
    destruct (decide (ctr ∈ _ :: _)); lia.
  - destruct (H2 x ltac:(left) E) as [Hc Hx]. rewrite (decide_True (P := ctr ∈ _ :: _)) by (rewrite Hc; left).
    rewrite (decide_False (P := ctr ∈ map ce_access l)) in IH by congruence.
    destruct (decide (p ∈ map ce_path l)) as [D|D]; [rewrite decide_True by (by right); lia|].
    destruct (decide (p ∈ _ :: _)); lia.
Qed.

(** The loop ends if the fixed part of the count, the wanted file and the file used last are below the limit. *)
Lemma trim_total p fuel : forall s A B, (length (k_entries s) <= fuel)%nat -> 0 <= A -> 0 <= B ->
  NoDup (map ce_path (k_entries s)) -> NoDup (map ce_access (k_entries s)) ->
  (forall e, e ∈ k_entries s -> ce_access e <= k_counter s) ->
  (forall e, e ∈ k_entries s -> ce_path e = p -> tal e <= A) ->
  (forall e, e ∈ k_entries s -> ce_path e <> p -> ce_access e = k_counter s -> tal e <= B) ->
  k_count s - tallies s + A + B < k_limit s -> exists s', trim_loop fuel p s = Some s'.
Proof.
  induction fuel as [|fuel IH]; intros s A B Hf HA HB Np Na Hle H1 H2 Hlim; cbn [trim_loop];
    (destruct (Z.ltb_spec (k_count s) (k_limit s)); [eauto|]).
  - destruct (k_entries s) eqn:E; [|cbn in Hf; lia]. unfold tallies in Hlim. rewrite E in Hlim. cbn in Hlim. lia.
  - destruct (pick_oldest _ p _) as [e|] eqn:Ep.
    + apply pick_oldest_spec in Ep as (Hin & Hne & _). destruct (zsum_delete _ _ Np Hin) as [Hz Hl].
      destruct (write_file_ok (mkdir_all (k_disk s) (ce_path e).1) (ce_path e) (iaa_save (ce_a e)) (mkdir_in _ _)) as [d2 Ew].
      rewrite Ew. apply (IH _ A B); cbn [k_entries k_counter k_limit k_count]; try done.
      * lia.
      * apply map_filter_nodup, Np.
      * apply map_filter_nodup, Na.
      * intros x [_ Hx]%ce_delete_in. by apply Hle.
      * intros x [_ Hx]%ce_delete_in. by apply H1.
      * intros x [_ Hx]%ce_delete_in. by apply H2.
      * unfold tallies in *. cbn [k_entries]. rewrite Hz. unfold tal at 2. lia.
    + pose proof (pick_none _ _ _ Ep) as Hn. exfalso.
      pose proof (zsum_two (k_entries s) p A B (k_counter s) HA HB Np Na H1) as Hz. unfold tallies in Hlim.
      assert (zsum (map tal (k_entries s)) <= A + B); [|lia]. etrans; [apply Hz|].
      * intros e He Hne. assert (ce_access e = k_counter s) as Ha by (specialize (Hle e He); specialize (Hn e He Hne); lia).
        split; [done|]. by apply H2.
      * destruct (decide _), (decide _); lia.
Qed.

Lemma slot_size_nonneg c hist p : 0 <= slot_size c hist p.
Proof. unfold slot_size. lia. Qed.

(** [n] appends since the last flush, [last] the file of the latest of them *)
Definition since (c : cfg) (hist : list (Z * Z)) (n : Z) (last : option path) (s : cms) : Prop :=
  k_count s = n + tallies s /\
  Forall (fun e => tal e <= slot_size c hist (ce_path e)) (k_entries s) /\
  Forall (fun e => ce_access e = k_counter s -> last = Some (ce_path e)) (k_entries s).

Lemma load_since c hist n last s p s1 : cfg_ok c -> good_hist c hist -> cms_inv c hist None s ->
  since c hist n last s -> load_into_cache s p = Some s1 ->
  k_count s1 = n + tallies s1 /\ Forall (fun e => tal e <= slot_size c hist (ce_path e)) (k_entries s1).
Proof.
  intros Hc Hg Hi (S1 & S2 & S3) E. unfold load_into_cache in E.
  destruct (ce_find p (k_entries s)) as [e|] eqn:Ef; [by injection E as <-|].
  apply ce_find_none in Ef. rewrite (ci_cfg _ _ _ _ Hi) in E.
  destruct (load_file_ok c hist (k_disk s) p (c_new c)) as (a & e & Hlf & _ & _ & Hty);
    [done|done|apply (ci_disk _ _ _ _ Hi), Ef|].
  change (foldr Z.add 0 ?l) with (zsum l) in Hty. rewrite tally_slot_size in Hty. rewrite Hlf in E.
  apply trim_count in E as (E1 & E2 & _).
  - unfold tallies in *. cbn [k_count k_entries] in *. rewrite map_app, zsum_app in E1. cbn [map] in E1.
    change (zsum [tal (mk_ce p a 0)]) with (iaa_tally a + 0) in E1. split; [lia|].
    apply Forall_forall. intros x Hx. eapply sublist_in in Hx; [|exact E2]. apply elem_of_app in Hx as [Hx|Hx].
    + rewrite Forall_forall in S2. by apply S2.
    + apply elem_of_list_singleton in Hx as ->. unfold tal. cbn. lia.
  - cbn [k_entries]. rewrite map_app. apply NoDup_app. split_and!; [apply Hi| |apply NoDup_singleton].
    intros q Hq ->%elem_of_list_singleton. done.
Qed.

Lemma append_since c hist n last s k v s' p : cfg_ok c -> good_hist c hist -> cms_inv c hist None s -> access_inv s ->
  0 <= k < 2^63 -> key_path c k = Some p -> since c hist n last s -> cms_append s k v = Some s' ->
  since c (hist ++ [(k,v)]) (n + 1) (Some p) s'.
Proof.
  intros Hc Hg Hi (A1 & A2 & A3) Hk Hp Hs E. unfold cms_append in E. rewrite (ci_cfg _ _ _ _ Hi) in E.
  destruct (key_path_spec c k ltac:(apply Hc) Hk) as (p' & Hp' & _ & Hn). assert (p' = p) as -> by congruence. rewrite Hn in E.
  destruct (load_into_cache s p) as [s1|] eqn:El; [|done].
  destruct (load_into_cache_inv c hist s p s1 Hc Hg Hi El) as (_ & _ & Hcnt & _ & x & Hsub & Hx & _).
  destruct (load_since c hist n last s p s1 Hc Hg Hi Hs El) as [L1 L2].
  injection E as <-. unfold since, tallies. cbn [k_count k_entries k_counter].
  match goal with |- context [map ?f (k_entries s1)] => set (upd := f) end.
  assert (forall e, ce_path (upd e) = ce_path e /\ tal (upd e) = tal e) as Hu.
  { intros e. subst upd. cbn beta. destruct (decide (ce_path e = p)); done. }
  split_and!.
  - rewrite map_map, (map_ext _ tal) by (intros e; apply Hu). unfold tallies in L1. lia.
  - apply Forall_forall. intros y (z & Hz & ->)%elem_of_map_inv. destruct (Hu z) as [-> ->].
    rewrite slot_size_snoc. rewrite Forall_forall in L2. specialize (L2 z Hz). destruct (decide _); lia.
  - apply Forall_forall. intros y (z & Hz & ->)%elem_of_map_inv. intros Ha.
    eapply sublist_in in Hz; [|exact Hsub].
    assert (ce_access z <= k_counter s1).
    { apply elem_of_app in Hz as [Hz|Hz]; [rewrite Forall_forall in A3; apply A3 in Hz; lia|].
      rewrite Forall_forall in Hx. apply Hx in Hz. lia. }
    subst upd. cbn beta in *. destruct (decide (ce_path z = p)) as [D|D]; [done|]. lia.
Qed.

Lemma append_since_total c hist n last s k v p : cfg_ok c -> good_hist c hist -> cms_inv c hist None s -> access_inv s ->
  0 <= k < 2^63 -> key_path c k = Some p -> since c hist n last s ->
  n + slot_size c hist p + match last with Some q => slot_size c hist q | None => 0 end < k_limit s ->
  exists s', cms_append s k v = Some s'.
Proof.
  intros Hc Hg Hi (A1 & A2 & A3) Hk Hp (S1 & S2 & S3) Hlim. unfold cms_append. rewrite (ci_cfg _ _ _ _ Hi).
  destruct (key_path_spec c k ltac:(apply Hc) Hk) as (p' & Hp' & _ & Hn). assert (p' = p) as -> by congruence. rewrite Hn.
  assert (exists s1, load_into_cache s p = Some s1) as [s1 ->]; [|eauto].
  unfold load_into_cache. destruct (ce_find p (k_entries s)) as [e|] eqn:Ef; [eauto|].
  apply ce_find_none in Ef. rewrite (ci_cfg _ _ _ _ Hi).
  destruct (load_file_ok c hist (k_disk s) p (c_new c)) as (a & e & Hlf & _ & _ & Hty);
    [done|done|apply (ci_disk _ _ _ _ Hi), Ef|].
  change (foldr Z.add 0 ?l) with (zsum l) in Hty. rewrite tally_slot_size in Hty. rewrite Hlf.
  rewrite Forall_forall in S2. rewrite Forall_forall in S3. rewrite Forall_forall in A3.
  apply (trim_total p _ _ (slot_size c hist p) (match last with Some q => slot_size c hist q | None => 0 end));
    cbn [k_entries k_counter k_limit k_count].
  - done.
  - apply slot_size_nonneg.
  - destruct last; [apply slot_size_nonneg|done].
  - rewrite map_app. apply NoDup_app. split_and!; [apply Hi| |apply NoDup_singleton].
    intros q Hq ->%elem_of_list_singleton. done.
  - rewrite map_app. apply NoDup_app. split_and!; [done| |apply NoDup_singleton].
    intros y (z & Hz & ->)%elem_of_map_inv Hy%elem_of_list_singleton. cbn in Hy. apply A3 in Hz. lia.
  - intros x [Hx|Hx]%elem_of_app; [apply A3 in Hx; lia|]. apply elem_of_list_singleton in Hx as ->. cbn. lia.
  - intros x [Hx|Hx]%elem_of_app Hxp.
    + destruct Ef. rewrite <- Hxp. apply elem_of_map_ce, Hx.
    + apply elem_of_list_singleton in Hx as ->. unfold tal. cbn. lia.
  - intros x [Hx|Hx]%elem_of_app Hxp Ha.
    + rewrite (S3 x Hx Ha). by apply S2.
    + apply elem_of_list_singleton in Hx as ->. done.
  - unfold tallies in *. cbn [k_entries]. rewrite map_app, zsum_app. cbn [map].
    change (zsum [tal (mk_ce p a 0)]) with (iaa_tally a + 0). lia.
Qed.

(** ** Who is evicted *)

Lemma pick_min counter excl l e : pick_oldest counter excl l = Some e ->
  forall x, x ∈ l -> ce_path x <> excl -> ce_access e <= ce_access x.
Proof.
  unfold pick_oldest.
  set (f := fun best e => if bool_decide (ce_access e < match best with Some b => ce_access b | None => counter end /\ ce_path e <> excl) then Some e else best).
  assert (forall l best, fold_left f l best = Some e ->
    (forall b, best = Some b -> ce_access e <= ce_access b) /\
    ((exists b, best = Some b) \/ ce_access e < counter) /\
    forall x, x ∈ l -> ce_path x <> excl -> ce_access e <= ce_access x) as G.
  { clear l. induction l as [|y l IH]; intros best E; cbn [fold_left] in E.
    - split_and!; [intros b ->; injection E as ->; lia|left; eauto|intros x Hx; by apply not_elem_of_nil in Hx].
    - destruct (IH _ E) as (I1 & I2 & I3). unfold f in I1, I2. case_bool_decide as Hy.
      + specialize (I1 y eq_refl). split_and!.
        * intros b ->. lia.
        * destruct best; [left; eauto|right; lia].
        * intros x [->|Hx]%elem_of_cons Hne; [lia|by apply I3].
      + split_and!; [done|done|]. intros x [->|Hx]%elem_of_cons Hne; [|by apply I3].
        destruct best as [b|].
        * specialize (I1 b eq_refl). destruct (Z.le_gt_cases (ce_access b) (ce_access y)); [lia|]. destruct Hy. split; [lia|done].
        * destruct I2 as [[b [=]]|I2]. destruct (Z.le_gt_cases counter (ce_access y)); [lia|]. destruct Hy. split; [lia|done]. }
  intros E. by apply G in E as (_ & _ & H).
Qed.

Lemma nodup_access_eq l e1 e2 : NoDup (map ce_access l) -> e1 ∈ l -> e2 ∈ l -> ce_access e1 = ce_access e2 -> e1 = e2.
Proof.
  induction l as [|e l IH]; cbn [map]; intros Hn H1 H2 E; [by apply not_elem_of_nil in H1|].
  apply NoDup_cons in Hn as [Hn1 Hn2].
  apply elem_of_cons in H1 as [->|H1]; apply elem_of_cons in H2 as [->|H2]; auto.
  - destruct Hn1. rewrite E. apply elem_of_map_ce, H2.
  - destruct Hn1. rewrite <- E. apply elem_of_map_ce, H1.
Qed.

Lemma trim_oldest p fuel : forall s s', NoDup (map ce_path (k_entries s)) -> NoDup (map ce_access (k_entries s)) ->
  trim_loop fuel p s = Some s' ->
  (forall e e', e ∈ k_entries s -> e ∉ k_entries s' -> e' ∈ k_entries s' -> ce_path e' <> p -> ce_access e < ce_access e') /\
  (forall e, e ∈ k_entries s -> e ∉ k_entries s' -> ce_path e <> p) /\
  (s' = s \/ k_limit s <= k_count s).
Proof.
  induction fuel as [|fuel IH]; intros s s' Np Na E; cbn [trim_loop] in E;
    (destruct (Z.ltb_spec (k_count s) (k_limit s)); [injection E as <-; split; [done|]; split; [done|auto]|]); [done|].
  destruct (pick_oldest _ p _) as [x|] eqn:Ep; [|done]. pose proof (pick_min _ _ _ _ Ep) as Hm.
  apply pick_oldest_spec in Ep as (Hin & Hne & _).
  destruct (write_file _ _ _) as [d2|]; [|done].
  pose proof E as E0. apply trim_count in E0 as (_ & Hsub & _); [|apply map_filter_nodup, Np]. cbn [k_entries] in Hsub.
  apply IH in E as (E1 & E2 & _); [|apply map_filter_nodup, Np|apply map_filter_nodup, Na]. cbn [k_entries] in *.
  split; [|split; [|auto]].
  - intros e e' He Hn He' Hp. destruct (decide (ce_path e = ce_path x)) as [D|D].
    + assert (e = x) as -> by (eapply nodup_path_eq; done).
      eapply sublist_in in He'; [|exact Hsub]. apply ce_delete_in in He' as [Hd He']. specialize (Hm e' He' Hp).
      destruct (Z.eq_dec (ce_access x) (ce_access e')) as [Q|Q]; [|lia].
      destruct Hd. by rewrite (nodup_access_eq _ _ _ Na Hin He' Q).
    + apply E1; [by apply ce_delete_in|done..].
  - intros e He Hn. destruct (decide (ce_path e = ce_path x)) as [->|D]; [done|]. apply E2; [by apply ce_delete_in|done].
Qed.

Lemma append_oldest c hist s k v s' p : cfg_ok c -> good_hist c hist -> cms_inv c hist None s -> access_inv s ->
  0 <= k < 2^63 -> key_path c k = Some p -> cms_append s k v = Some s' ->
  (forall e e', e ∈ k_entries s -> e' ∈ k_entries s -> ce_path e ∉ map ce_path (k_entries s') ->
     ce_path e' ∈ map ce_path (k_entries s') -> ce_path e' <> p -> ce_access e < ce_access e') /\
  ((exists e, e ∈ k_entries s /\ ce_path e ∉ map ce_path (k_entries s')) -> p ∉ map ce_path (k_entries s)).
Proof.
  intros Hc Hg Hi (A1 & A2 & A3) Hk Hp E. unfold cms_append in E. rewrite (ci_cfg _ _ _ _ Hi) in E.
  destruct (key_path_spec c k ltac:(apply Hc) Hk) as (p' & Hp' & _ & Hn). assert (p' = p) as -> by congruence. rewrite Hn in E.
  destruct (load_into_cache s p) as [s1|] eqn:El; [|done]. injection E as <-. cbn [k_entries].
  match goal with |- context [map ?f (k_entries s1)] => set (upd := f) end.
  assert (map ce_path (map upd (k_entries s1)) = map ce_path (k_entries s1)) as ->.
  { rewrite map_map. apply map_ext. intros e. subst upd. cbn. destruct (decide _) as [<-|]; done. }
  clear upd. unfold load_into_cache in El. destruct (ce_find p (k_entries s)) as [x|] eqn:Ef.
  { injection El as <-. split.
    - intros e e' He _ Hx. destruct Hx. by apply elem_of_map_ce.
    - intros (e & He & Hx). destruct Hx. by apply elem_of_map_ce. }
  apply ce_find_none in Ef. split; [|done].
  destruct (load_file _ _ _) as [[a b]|]; [|done].
  assert (NoDup (map ce_path (k_entries s ++ [mk_ce p a 0]))) as N1.
  { rewrite map_app. apply NoDup_app. split_and!; [apply Hi| |apply NoDup_singleton].
    intros q Hq ->%elem_of_list_singleton. done. }
  rewrite Forall_forall in A3.
  assert (NoDup (map ce_access (k_entries s ++ [mk_ce p a 0]))) as N2.
  { rewrite map_app. apply NoDup_app. split_and!; [done| |apply NoDup_singleton].
    intros y (z & Hz & ->)%elem_of_map_inv Hy%elem_of_list_singleton. cbn in Hy. apply A3 in Hz. lia. }
  pose proof El as E0. apply trim_count in E0 as (_ & Hsub & _); [|exact N1]. apply trim_oldest in El as (T1 & _); [|exact N1|exact N2].
  cbn [k_entries] in *. intros e e' He He' Hx Hy Hpe. apply elem_of_map_inv in Hy as (z & Hz & Ez).
  assert (z ∈ k_entries s ++ [mk_ce p a 0]) as Hz' by (by eapply sublist_in).
  assert (e' = z) as -> by (eapply nodup_path_eq; [exact N1|apply elem_of_app; by left|done|done]).
  apply T1; [apply elem_of_app; by left| |done|done]. intros Hin. apply Hx, elem_of_map_ce, Hin.
Qed.
