(** Lemmas about the 16-bit tree. *)
From Verif Require Import Base Model_Tree Spec_Tree Proof_Tree Model_Pool Spec_Pool.

Lemma u16_small z : 0 <= z < 65536 -> u16 z = z.
Proof. intros H. unfold u16. by apply Z.mod_small. Qed.
Lemma put_same f v x : put f v x v = x.
Proof. unfold put. by rewrite Z.eqb_refl. Qed.
Lemma put_other f v w x : w <> v -> put f v x w = f w.
Proof. intros H. unfold put. by rewrite (proj2 (Z.eqb_neq _ _)). Qed.

(** ** The lowest number *)
Lemma lowest_spec (l : list thash) : l <> [] -> (exists x, x ∈ l /\ th_pi x = lowest l) /\ forall x, x ∈ l -> lowest l <= th_pi x.
Proof.
  destruct l as [|x l]; [done|]. intros _. cbn [lowest].
  assert (H : forall m, let r := foldl (fun m y => if th_pi y <? m then th_pi y else m) m l in
    (r = m \/ exists y, y ∈ l /\ th_pi y = r) /\ r <= m /\ forall y, y ∈ l -> r <= th_pi y).
  { induction l as [|y l IH]; intros m; cbn [foldl].
    - cbv zeta. split_and!; [by left|lia|]. intros y Hy. by apply elem_of_nil in Hy.
    - destruct (IH (if th_pi y <? m then th_pi y else m)) as (H1 & H2 & H3). cbv zeta in *. destruct (Z.ltb_spec (th_pi y) m) as [Hlt|Hge].
      + split_and!; [|lia|].
        * destruct H1 as [H1|(z & Hz & E)]; right; [exists y; split; [left|congruence]|exists z; split; [by right|done]].
        * intros z Hz. apply elem_of_cons in Hz as [->|Hz]; [lia|by apply H3].
      + split_and!; [|lia|].
        * destruct H1 as [H1|(z & Hz & E)]; [by left|right; exists z; split; [by right|done]].
        * intros z Hz. apply elem_of_cons in Hz as [->|Hz]; [lia|by apply H3]. }
  destruct (H (th_pi x)) as (H1 & H2 & H3). cbv zeta in *. split.
  - destruct H1 as [H1|(y & Hy & E)]; [exists x; split; [left|done]|exists y; split; [by right|done]].
  - intros z Hz. apply elem_of_cons in Hz as [->|Hz]; [lia|by apply H3].
Qed.

Lemma filter_le {A} (P Q : A -> Prop) `{HP : !forall x, Decision (P x)} `{HQ : !forall x, Decision (Q x)} (l : list A) :
  (forall x, P x -> Q x) -> (length (filter P l) <= length (filter Q l))%nat.
Proof.
  intros H. induction l as [|z l IH]; [done|]. destruct (decide (P z)) as [Hz|Hz].
  - rewrite (filter_cons_True P) by done. rewrite (filter_cons_True Q) by (by apply H). cbn [length]. lia.
  - rewrite (filter_cons_False P) by done. destruct (decide (Q z)); [rewrite (filter_cons_True Q) by done; cbn [length]; lia|by rewrite (filter_cons_False Q) by done].
Qed.

Lemma buckets_le {A} (f : A -> Z) (l : list A) (vs : list nat) : NoDup vs ->
  (sum_list_with (fun v => length (filter (fun x => f x = Z.of_nat v) l)) vs <= length l)%nat.
Proof.
  intros Hd. induction l as [|x l IH].
  - clear Hd. induction vs as [|v vs IHv]; [done|]. cbn [sum_list_with]. exact IHv.
  - assert (H : (sum_list_with (fun v => length (filter (fun x => f x = Z.of_nat v) (x :: l))) vs <= 1 + sum_list_with (fun v => length (filter (fun x => f x = Z.of_nat v) l)) vs)%nat /\
      ((forall v, v ∈ vs -> f x <> Z.of_nat v) -> (sum_list_with (fun v => length (filter (fun x => f x = Z.of_nat v) (x :: l))) vs <= sum_list_with (fun v => length (filter (fun x => f x = Z.of_nat v) l)) vs)%nat)).
    { clear IH. induction vs as [|v vs IHv]; [cbn [sum_list_with]; split; [lia|done]|]. apply NoDup_cons in Hd as [Hv Hd]. destruct (IHv Hd) as [I1 I2]. cbn [sum_list_with].
      destruct (decide (f x = Z.of_nat v)) as [Ev|Ev].
      - rewrite (filter_cons_True (fun x => f x = Z.of_nat v)) by done. cbn [length]. split.
        + assert (Hn : forall u, u ∈ vs -> f x <> Z.of_nat u) by (intros u Hu Eu; apply Hv; assert (u = v) as -> by lia; done). specialize (I2 Hn). lia.
        + intros Hn. exfalso. apply (Hn v); [left|done].
      - rewrite (filter_cons_False (fun x => f x = Z.of_nat v)) by done. split; [lia|]. intros Hn. assert (Hn' : forall u, u ∈ vs -> f x <> Z.of_nat u) by (intros u Hu; apply Hn; by right). specialize (I2 Hn'). lia. }
    destruct H as [H _]. cbn [length]. lia.
Qed.

Section Pool.
  Context (ent : list thash -> nat -> Z) (Hent : entropy_ok ent) (srt : nat -> list thash -> list thash) (Hsrt : sort_ok srt) (first count : Z).
  Notation group := (group srt).

  (** the nodes below [idx] stand for the hashes [l] *)
  Fixpoint rep (n : nat) (ns : list pnode) (idx level : nat) (l : list thash) (fl : list bool) : Prop :=
    match n with
    | O => False
    | S n' =>
        match choose ent l fl with
        | None => ns !! idx = Some (dead_end first l level)
        | Some bi =>
            exists look, ns !! idx = Some (mk_pnode level bi look) /\
              (forall v, 0 <= v < 256 -> group bi v l = [] -> look v = 0) /\
              (forall v x, 0 <= v < 256 -> group bi v l = [x] -> look v = u16 (th_pi x - first + 1)) /\
              (forall v, 0 <= v < 256 -> (2 <= length (group bi v l))%nat ->
                 exists c, (idx < c)%nat /\ Z.of_nat c + count < 65536 /\ look v = 65536 - Z.of_nat c /\ rep n' ns c (S level) (group bi v l) (flip bi fl))
        end
    end.

  Lemma rep_lookup n ns idx level l fl : rep n ns idx level l fl -> (idx < length ns)%nat.
  Proof using. destruct n as [|n]; [done|]. cbn [rep]. destruct (choose ent l fl); [intros (look & H & _)|intros H]; by eapply lookup_lt_Some. Qed.
  Lemma rep_mono n : forall ns ns' idx level l fl, (forall j, (idx <= j)%nat -> (j < length ns)%nat -> ns' !! j = ns !! j) ->
    rep n ns idx level l fl -> rep n ns' idx level l fl.
  Proof using.
    induction n as [|n IH]; intros ns ns' idx level l fl H R; [done|]. pose proof (rep_lookup _ _ _ _ _ _ R) as Hlt. cbn [rep] in *.
    destruct (choose ent l fl) as [bi|].
    - destruct R as (look & H1 & H2 & H3 & H4). exists look. split_and!; [by rewrite H|done|done|].
      intros v Hv Hl. destruct (H4 v Hv Hl) as (c & C1 & C2 & C3 & C4). exists c. split_and!; [done|done|done|].
      eapply IH; [|exact C4]. intros j Hj Hj'. apply H; lia.
    - by rewrite H.
  Qed.

  (** *** Filling the slots of a node *)
  Definition slot_ok (n : nat) (ns : list pnode) (idx level : nat) (fl : list bool) (l : list thash) (e : Z) : Prop :=
    match l with
    | [] => e = 0
    | [x] => e = u16 (th_pi x - first + 1)
    | _ => exists c, (idx < c)%nat /\ Z.of_nat c + count < 65536 /\ e = 65536 - Z.of_nat c /\ rep n ns c (S level) l fl
    end.
  Lemma slot_mono n ns ns' idx level fl l e : (forall j, (idx < j)%nat -> (j < length ns)%nat -> ns' !! j = ns !! j) ->
    slot_ok n ns idx level fl l e -> slot_ok n ns' idx level fl l e.
  Proof using.
    intros H. unfold slot_ok. destruct l as [|x [|y l]]; [done|done|]. intros (c & C1 & C2 & C3 & C4). exists c. split_and!; [done|done|done|].
    eapply rep_mono; [|exact C4]. intros j Hj Hj'. apply H; lia.
  Qed.

  Definition child_ok (n level : nat) (fl : list bool) (child : list thash -> list pnode -> option (list pnode)) (l' : list thash) : Prop :=
    forall m m', child l' m = Some m' -> Z.of_nat (length m) + count < 65536 ->
      (length m < length m')%nat /\ Z.of_nat (length m') + count <= 65536 /\ (forall j, (j < length m)%nat -> m' !! j = m !! j) /\
      rep n m' (length m) (S level) l' fl.

  Lemma fill_ok n level fl child bi s idx : forall vs look ns look' ns',
    0 < count -> fill first count child bi s vs look ns = Some (look', ns') -> NoDup vs ->
    (forall v, v ∈ vs -> (2 <= length (run bi (Z.of_nat v) s))%nat -> child_ok n level fl child (run bi (Z.of_nat v) s)) ->
    Z.of_nat (length ns) + count <= 65536 -> (idx < length ns)%nat ->
    (length ns <= length ns')%nat /\ Z.of_nat (length ns') + count <= 65536 /\ (forall j, (j < length ns)%nat -> ns' !! j = ns !! j) /\
    (forall w, (forall v, v ∈ vs -> w <> Z.of_nat v) -> look' w = look w) /\
    (forall v, v ∈ vs -> slot_ok n ns' idx level fl (run bi (Z.of_nat v) s) (look' (Z.of_nat v))).
  Proof using.
    induction vs as [|v vs IH]; intros look ns look' ns' Hc E Hd HC Hn Hidx; cbn [fill] in E.
    { injection E as <- <-. split_and!; try done. intros v Hv. by apply elem_of_nil in Hv. }
    apply NoDup_cons in Hd as [Hv Hd].
    assert (HC' : forall u, u ∈ vs -> (2 <= length (run bi (Z.of_nat u) s))%nat -> child_ok n level fl child (run bi (Z.of_nat u) s)) by (intros u Hu; apply HC; by right).
    assert (Hne : forall u, u ∈ vs -> Z.of_nat v <> Z.of_nat u) by (intros u Hu E'; apply Nat2Z.inj in E' as ->; done).
    assert (HS : forall e ns1, (length ns <= length ns1)%nat -> Z.of_nat (length ns1) + count <= 65536 -> (forall j, (j < length ns)%nat -> ns1 !! j = ns !! j) ->
      fill first count child bi s vs (put look (Z.of_nat v) e) ns1 = Some (look', ns') ->
      slot_ok n ns1 idx level fl (run bi (Z.of_nat v) s) e ->
      (length ns <= length ns')%nat /\ Z.of_nat (length ns') + count <= 65536 /\ (forall j, (j < length ns)%nat -> ns' !! j = ns !! j) /\
      (forall w, (forall u, u ∈ v :: vs -> w <> Z.of_nat u) -> look' w = look w) /\
      (forall u, u ∈ v :: vs -> slot_ok n ns' idx level fl (run bi (Z.of_nat u) s) (look' (Z.of_nat u)))).
    { intros e ns1 L1 L2 L3 E1 Hs. destruct (IH _ _ _ _ Hc E1 Hd HC' L2 ltac:(lia)) as (A1 & A2 & A3 & A4 & A5). split_and!.
      - lia.
      - done.
      - intros j Hj. rewrite A3 by lia. by apply L3.
      - intros w Hw. rewrite A4 by (intros u Hu; apply Hw; by right). apply put_other. apply Hw. left.
      - intros u Hu. apply elem_of_cons in Hu as [->|Hu]; [|by apply A5]. rewrite A4 by done. rewrite put_same.
        eapply slot_mono; [|exact Hs]. intros j _ Hj. by apply A3. }
    destruct (run bi (Z.of_nat v) s) as [|x [|y l']] eqn:Er.
    - eapply (HS 0 ns); [done|done|done|exact E|done].
    - eapply (HS _ ns); [done|done|done|exact E|done].
    - destruct (child (x :: y :: l') ns) as [ns1|] eqn:Ec; [|done]. destruct (Z.leb_spec (u16 (65536 - Z.of_nat (length ns))) count) as [|Hgt]; [done|].
      assert (Hb : Z.of_nat (length ns) + count < 65536).
      { unfold u16 in Hgt. rewrite Z.mod_small in Hgt by lia. lia. }
      destruct (HC v ltac:(left) ltac:(rewrite Er; cbn [length]; lia) ns ns1) as (C1 & C2 & C3 & C4); [by rewrite Er|done|]. rewrite Er in C4.
      eapply (HS _ ns1); [lia|done|done|exact E|]. exists (length ns). split_and!; [done|done|rewrite u16_small; lia|done].
  Qed.

  Lemma grow_rep fuel : forall l fl level ns ns', 0 < count -> grow ent srt first count fuel l fl level ns = Some ns' -> Z.of_nat (length ns) + count < 65536 ->
    (length ns < length ns')%nat /\ Z.of_nat (length ns') + count <= 65536 /\ (forall j, (j < length ns)%nat -> ns' !! j = ns !! j) /\ rep fuel ns' (length ns) level l fl.
  Proof using.
    induction fuel as [|fuel IH]; intros l fl level ns ns' Hc E Hn; [done|]. cbn [grow] in E. cbn [rep].
    destruct (choose ent l fl) as [bi|].
    - destruct (fill _ _ _ _ _ _ _ _) as [[look ns1]|] eqn:Ef; [|done]. injection E as <-.
      destruct (fill_ok fuel level (flip bi fl) _ bi (srt bi l) (length ns) _ _ _ _ _ Hc Ef) as (A1 & A2 & A3 & A4 & A5).
      + apply NoDup_seq.
      + intros v Hv Hl m m' Em Hm. by apply (IH _ _ _ _ _ Hc Em Hm).
      + rewrite app_length. cbn [length]. lia.
      + rewrite app_length. cbn [length]. lia.
      + rewrite app_length in A1, A3. cbn [length] in A1, A3. rewrite insert_length. split_and!; [lia|done| |].
        * intros j Hj. rewrite list_lookup_insert_ne by lia. rewrite A3 by lia. by rewrite lookup_app_l.
        * exists look. assert (HH : forall v, 0 <= v < 256 -> slot_ok fuel (<[length ns:=mk_pnode level bi look]> ns1) (length ns) level (flip bi fl) (group bi v l) (look v)).
          { intros v Hv. specialize (A5 (Z.to_nat v)). rewrite Z2Nat.id in A5 by lia. eapply slot_mono; [|apply A5; apply elem_of_seq; lia].
            intros j Hj _. by rewrite list_lookup_insert_ne by lia. }
          split; [apply list_lookup_insert; lia|]. split_and!.
          -- intros v Hv Eg. specialize (HH v Hv). rewrite Eg in HH. exact HH.
          -- intros v x Hv Eg. specialize (HH v Hv). rewrite Eg in HH. exact HH.
          -- intros v Hv Hl. specialize (HH v Hv). destruct (group bi v l) as [|x [|y l']]; [cbn [length] in Hl; lia|cbn [length] in Hl; lia|exact HH].
    - injection E as <-. rewrite app_length. cbn [length]. split_and!; [lia|lia| |].
      + intros j Hj. by rewrite lookup_app_l.
      + by rewrite lookup_app_r, Nat.sub_diag by lia.
  Qed.

  (** *** Walking *)
  Record alike (l : list thash) (fl : list bool) : Prop := mk_alike {
    al_ok : hashes_ok (length fl) l;
    al_agree : forall x y j, x ∈ l -> y ∈ l -> fl !! j = Some false -> th_hash x !!! j = th_hash y !!! j
  }.
  Lemma alike_group l fl bi v : alike l fl -> fl !! bi = Some true -> 0 <= v -> alike (group bi v l) (flip bi fl).
  Proof using Hsrt.
    intros [H1 H3] Hbi Hv. pose proof (lookup_lt_Some _ _ _ Hbi) as Hlt. split.
    - rewrite flip_length. intros x Hx. apply (group_elem srt Hsrt bi v l _ x H1 Hlt Hv) in Hx as [Hx _]. by apply H1.
    - intros x y j Hx Hy Hj. apply (group_elem srt Hsrt bi v l _ x H1 Hlt Hv) in Hx as [Hx Ex]. apply (group_elem srt Hsrt bi v l _ y H1 Hlt Hv) in Hy as [Hy Ey].
      destruct (decide (bi = j)) as [<-|Hne]; [congruence|]. rewrite flip_other in Hj by done. by apply H3.
  Qed.
  Lemma alike_eq l fl x y : alike l fl -> x ∈ l -> y ∈ l -> (forall j, fl !! j = Some true -> th_hash x !!! j = th_hash y !!! j) -> th_hash x = th_hash y.
  Proof using.
    intros [H1 H3] Hx Hy H. destruct (H1 x Hx) as [E1 _], (H1 y Hy) as [E2 _]. apply list_eq_same_length with (length fl); [done|done|].
    intros j a b Hj Ha Hb. rewrite <- (list_lookup_total_correct _ _ _ Ha), <- (list_lookup_total_correct _ _ _ Hb).
    destruct (lookup_lt_is_Some_2 fl j Hj) as [[|] Hf]; [by apply H|by apply H3].
  Qed.
  Lemma set_count_pos fl j : fl !! j = Some true -> (0 < set_count fl)%nat.
  Proof using. intros H. pose proof (flip_count j fl H). lia. Qed.

  (** the numbers fit *)
  Definition fits (l : list thash) : Prop := forall x, x ∈ l -> 0 <= th_pi x - first < count.

  Lemma group_shorter l fl bi v : alike l fl -> l <> [] -> choose ent l fl = Some bi -> 0 <= v -> (length (group bi v l) < length l)%nat.
  Proof using Hent Hsrt.
    intros A Hne E Hv.
    destruct (choose_some ent Hent l fl bi Hne E) as (Hbi & a & b & Ha & Hb & Hab). pose proof (lookup_lt_Some _ _ _ Hbi) as Hlt. pose proof (al_ok _ _ A) as H1.
    pose proof (group_spec srt Hsrt bi v l (length fl) H1 Hlt Hv) as Hp. rewrite Hp.
    assert (exists c, c ∈ l /\ th_hash c !!! bi <> v) as (c & Hc & Hcv).
    { destruct (decide (th_hash a !!! bi = v)) as [Ea|Ea]; [exists b; split; [done|congruence]|by exists a]. }
    clear -Hc Hcv. induction l as [|z l IH]; [by apply elem_of_nil in Hc|]. apply elem_of_cons in Hc as [->|Hc].
    - rewrite filter_cons_False by done. cbn [length]. pose proof (filter_length (fun x => th_hash x !!! bi = v) l). lia.
    - specialize (IH Hc). destruct (decide (th_hash z !!! bi = v)); [rewrite filter_cons_True by done|rewrite filter_cons_False by done]; cbn [length]; lia.
  Qed.

  Lemma same_hash_group l fl bi x y : alike l fl -> fl !! bi = Some true -> x ∈ l -> y ∈ l -> th_hash x = th_hash y -> y ∈ group bi (th_hash x !!! bi) l.
  Proof using Hsrt.
    intros [H1 _] Hbi Hx Hy E. pose proof (lookup_lt_Some _ _ _ Hbi) as Hlt. pose proof (byte_of x l _ bi H1 Hlt Hx).
    apply (group_elem srt Hsrt bi _ l _ y H1 Hlt); [lia|]. split; [done|congruence].
  Qed.

  Lemma earliest_group l fl bi x pi : alike l fl -> fl !! bi = Some true -> x ∈ l -> earliest (group bi (th_hash x !!! bi) l) (th_hash x) pi -> earliest l (th_hash x) pi.
  Proof using Hsrt.
    intros A Hbi Hx [(y & Hy & E1 & E2) H]. pose proof A as [H1 _]. pose proof (lookup_lt_Some _ _ _ Hbi) as Hlt. pose proof (byte_of x l _ bi H1 Hlt Hx). split.
    - exists y. apply (group_elem srt Hsrt bi _ l _ y H1 Hlt) in Hy as [Hy _]; [|lia]. done.
    - intros z Hz Ez. apply H; [|done]. by eapply same_hash_group.
  Qed.

  Lemma copies_eq_group l fl bi x : alike l fl -> fl !! bi = Some true -> x ∈ l -> copies (group bi (th_hash x !!! bi) l) (th_hash x) = copies l (th_hash x).
  Proof using Hsrt.
    intros [H1 _] Hbi Hx. pose proof (lookup_lt_Some _ _ _ Hbi) as Hlt. pose proof (byte_of x l _ bi H1 Hlt Hx) as [Hv _].
    pose proof (group_spec srt Hsrt bi (th_hash x !!! bi) l (length fl) H1 Hlt Hv) as Hp. unfold copies. rewrite Hp, list_filter_filter.
    apply Nat.le_antisymm; apply filter_le; [by intros z [? _]|]. intros z Ez. split; [done|]. by rewrite Ez.
  Qed.
  Lemma copies_all l h : (forall x, x ∈ l -> th_hash x = h) -> copies l h = length l.
  Proof using. intros H. unfold copies. by rewrite filter_all. Qed.

  Lemma walk_spec n : forall ns idx level l fl x, 0 < count < 65536 ->
    rep (S n) ns idx level l fl -> alike l fl -> fits l -> x ∈ l -> length fl = 32%nat -> set_count fl = n -> (2 <= length l \/ level = 0 /\ n <> 0)%nat ->
    (exists pi b, walk (mk_pool first count ns) n idx (th_hash x) = Some (pi, b) /\ earliest l (th_hash x) pi /\ (b = true <-> 2 <= copies l (th_hash x))%nat) \/
    walk (mk_pool first count ns) n idx (th_hash x) = Some (-1, true) /\ (2 <= copies l (th_hash x))%nat /\ (n + 2 <= length l)%nat.
  Proof using Hent Hsrt.
    induction n as [|n IH]; intros ns idx level l fl x Hc R A Hf Hx H32 Hn Hl.
    - right. split; [done|]. rewrite copies_all; [lia|]. intros y Hy. symmetry. apply (alike_eq l fl x y A Hx Hy).
      intros j Hj. apply set_count_pos in Hj. lia.
    - assert (Hne : l <> []) by (intros ->; by apply elem_of_nil in Hx). cbn [walk t_nodes t_count t_first]. revert R. cbn [rep]. fold rep. destruct (choose ent l fl) as [bi|] eqn:E.
      + intros (look & E1 & R0 & R1 & R2). rewrite E1. cbn [mbind option_bind n_byte n_look].
        destruct (choose_some ent Hent l fl bi Hne E) as (Hbi & _). pose proof (lookup_lt_Some _ _ _ Hbi) as Hlt. pose proof (al_ok _ _ A) as H1.
        rewrite (proj2 (Nat.eqb_neq bi 32)) by lia. pose proof (byte_of x l _ bi H1 Hlt Hx) as Hv. set (v := th_hash x !!! bi) in *.
        pose proof (same_hash_group l fl bi x x A Hbi Hx Hx eq_refl) as Hxg. fold v in Hxg.
        assert (HG : forall y, y ∈ group bi v l -> y ∈ l) by (intros y Hy; by apply (group_elem srt Hsrt bi v l _ y H1 Hlt) in Hy as [Hy _]; [|lia]).
        destruct (group bi v l) as [|y [|z l']] eqn:Eg.
        * by apply elem_of_nil in Hxg.
        * apply elem_of_list_singleton in Hxg as <-. rewrite (R1 v x Hv Eg). pose proof (Hf x Hx). rewrite u16_small by lia.
          rewrite (proj2 (Z.eqb_neq _ _)) by lia. rewrite (proj2 (Z.leb_le _ _)) by lia. left. eexists _, _. split; [reflexivity|].
          assert (Hone : forall y, y ∈ l -> th_hash y = th_hash x -> y = x).
          { intros y Hy Ey. pose proof (same_hash_group l fl bi x y A Hbi Hx Hy (eq_sym Ey)) as Hyg. fold v in Hyg. rewrite Eg in Hyg. by apply elem_of_list_singleton in Hyg. }
          split.
          -- split; [exists x; split_and!; [done|done|lia]|]. intros y Hy Ey. rewrite (Hone y Hy Ey). lia.
          -- split; [done|]. intros H2. exfalso. pose proof (copies_eq_group l fl bi x A Hbi Hx) as Hcp. fold v in Hcp. rewrite Eg in Hcp.
             rewrite <- Hcp in H2. unfold copies in H2. pose proof (filter_length (fun y => th_hash y = th_hash x) [x]). cbn [length] in *. lia.
        * destruct (R2 v Hv) as (c & C1 & C2 & C3 & C4); [rewrite Eg; cbn [length]; lia|]. rewrite C3.
          rewrite (proj2 (Z.eqb_neq _ _)) by lia. rewrite (proj2 (Z.leb_gt _ _)) by lia. rewrite u16_small by lia.
          replace (Z.to_nat (65536 - (65536 - Z.of_nat c))) with c by lia. rewrite Eg in C4.
          pose proof (alike_group l fl bi v A Hbi ltac:(lia)) as A'. rewrite Eg in A'.
          pose proof (group_shorter l fl bi v A Hne E ltac:(lia)) as Hsh. rewrite Eg in Hsh.
          destruct (IH ns c (S level) (y :: z :: l') (flip bi fl) x Hc C4 A') as [(pi & b & W & W1 & W2)|(W & W1 & W2)].
          -- intros u Hu. apply Hf. by apply HG.
          -- done.
          -- by rewrite flip_length.
          -- pose proof (flip_count bi fl Hbi). lia.
          -- left. cbn [length]. lia.
          -- left. exists pi, b. split; [done|]. rewrite <- Eg in W1, W2. split; [by apply (earliest_group l fl bi x pi)|]. unfold v in W2. by rewrite (copies_eq_group l fl bi x A Hbi Hx) in W2.
          -- right. split; [done|]. rewrite <- Eg in W1. unfold v in W1. rewrite (copies_eq_group l fl bi x A Hbi Hx) in W1. split; [done|lia].
      + intros E1. rewrite E1. cbn [mbind option_bind].
        assert (Hall : forall y, y ∈ l -> th_hash y = th_hash x).
        { intros y Hy. symmetry. apply (alike_eq l fl x y A Hx Hy). intros j Hj. by apply (choose_none ent Hent l fl Hne E j x y). }
        left. pose proof (lowest_spec l Hne) as [(w & Hw & Ew) Hlow]. pose proof (Hf w Hw) as Hfw.
        assert (He : earliest l (th_hash x) (lowest l)) by (split; [exists w; auto|intros y Hy _; by apply Hlow]).
        assert (Hdec : (exists y, l = [y] /\ level = 0%nat) \/ ~ exists y, l = [y] /\ level = 0%nat).
        { destruct l as [|y [|z l']]; [by right; intros (? & ? & _)| |by right; intros (? & ? & _)]. destruct level; [left; by exists y|right; by intros (? & _ & ?)]. }
        destruct Hdec as [(y & -> & ->)|Hno].
        * apply elem_of_list_singleton in Hx as <-. cbn [dead_end n_byte n_look Nat.eqb]. rewrite put_same. cbn [lowest foldl] in *. pose proof (Hf x ltac:(left)). rewrite u16_small by lia.
          rewrite (proj2 (Z.eqb_neq _ _)) by lia. rewrite (proj2 (Z.leb_le _ _)) by lia. eexists _, _. split; [reflexivity|]. replace (first + (th_pi x - first + 1 - 1)) with (th_pi x) by lia.
          split; [done|]. rewrite copies_all by done. cbn [length]. split; [done|lia].
        * assert (Ed : dead_end first l level = mk_pnode level 32 (put blank 0 (u16 (lowest l - first + 1)))).
          { unfold dead_end. destruct l as [|y [|z l']]; [done| |done]. destruct level; [|done]. exfalso. apply Hno. by exists y. }
          rewrite Ed. cbn [n_byte n_look]. rewrite Nat.eqb_refl, put_same, u16_small by lia. rewrite (proj2 (Z.eqb_neq _ _)) by lia. rewrite (proj2 (Z.leb_le _ _)) by lia.
          eexists _, _. split; [reflexivity|]. replace (first + (lowest l - first + 1 - 1)) with (lowest l) by lia. split; [done|]. rewrite copies_all by done. split; [|done]. intros _.
          destruct Hl as [Hl|[-> _]]; [done|]. destruct l as [|y [|z l']]; [done| |cbn [length]; lia]. exfalso. apply Hno. by exists y.
  Qed.
  (** *** Nothing makes the walk fail *)
  Lemma walk_total n : forall ns idx level l fl q, 0 < count < 65536 -> rep (S n) ns idx level l fl -> alike l fl -> fits l -> l <> [] -> length fl = 32%nat ->
    length q = 32%nat -> bytes q -> set_count fl = n ->
    exists pi b, walk (mk_pool first count ns) n idx q = Some (pi, b) /\ (pi = -1 \/ exists x, x ∈ l /\ th_pi x = pi).
  Proof using Hent Hsrt.
    induction n as [|n IH]; intros ns idx level l fl q Hc R A Hf Hne H32 Hq Hqb Hn.
    - eexists _, _. split; [reflexivity|by left].
    - cbn [walk t_nodes t_count t_first]. revert R. cbn [rep]. fold rep. destruct (choose ent l fl) as [bi|] eqn:E.
      + intros (look & E1 & R0 & R1 & R2). rewrite E1. cbn [mbind option_bind n_byte n_look].
        destruct (choose_some ent Hent l fl bi Hne E) as (Hbi & _). pose proof (lookup_lt_Some _ _ _ Hbi) as Hlt. pose proof (al_ok _ _ A) as H1.
        rewrite (proj2 (Nat.eqb_neq bi 32)) by lia.
        assert (Hv : 0 <= q !!! bi < 256).
        { destruct (lookup_lt_is_Some_2 q bi ltac:(lia)) as [w Hw]. rewrite (list_lookup_total_correct _ _ _ Hw). exact (Forall_lookup_1 _ _ _ _ Hqb Hw). }
        set (v := q !!! bi) in *.
        assert (HG : forall y, y ∈ group bi v l -> y ∈ l) by (intros y Hy; by apply (group_elem srt Hsrt bi v l _ y H1 Hlt) in Hy as [Hy _]; [|lia]).
        destruct (group bi v l) as [|y [|z l']] eqn:Eg.
        * rewrite (R0 v Hv Eg). eexists _, _. split; [reflexivity|by left].
        * rewrite (R1 v y Hv Eg). pose proof (HG y ltac:(left)) as Hy. pose proof (Hf y Hy). rewrite u16_small by lia.
          rewrite (proj2 (Z.eqb_neq _ _)) by lia. rewrite (proj2 (Z.leb_le _ _)) by lia. eexists _, _. split; [reflexivity|]. right. exists y. split; [done|lia].
        * destruct (R2 v Hv) as (c & C1 & C2 & C3 & C4); [rewrite Eg; cbn [length]; lia|]. rewrite C3.
          rewrite (proj2 (Z.eqb_neq _ _)) by lia. rewrite (proj2 (Z.leb_gt _ _)) by lia. rewrite u16_small by lia.
          replace (Z.to_nat (65536 - (65536 - Z.of_nat c))) with c by lia. rewrite Eg in C4.
          pose proof (alike_group l fl bi v A Hbi ltac:(lia)) as A'. rewrite Eg in A'.
          destruct (IH ns c (S level) (y :: z :: l') (flip bi fl) q Hc C4 A') as (pi & b & W & W1); try done.
          -- intros u Hu. apply Hf. by apply HG.
          -- by rewrite flip_length.
          -- pose proof (flip_count bi fl Hbi). lia.
          -- exists pi, b. split; [done|]. destruct W1 as [->|(u & Hu & Eu)]; [by left|right]. exists u. split; [by apply HG|done].
      + intros E1. rewrite E1. cbn [mbind option_bind]. pose proof (lowest_spec l Hne) as [(w & Hw & Ew) Hlow]. pose proof (Hf w Hw) as Hfw.
        assert (Hbig : dead_end first l level = mk_pnode level 32 (put blank 0 (u16 (lowest l - first + 1))) \/
          exists y, l = [y] /\ dead_end first l level = mk_pnode 0 0 (put blank (th_hash y !!! 0%nat) (u16 (th_pi y - first + 1)))).
        { unfold dead_end. destruct l as [|y [|z l']]; [done| |by left]. destruct level; [right; by exists y|by left]. }
        destruct Hbig as [->|(y & -> & ->)]; cbn [n_byte n_look Nat.eqb].
        * rewrite put_same, u16_small by lia. rewrite (proj2 (Z.eqb_neq _ _)) by lia. rewrite (proj2 (Z.leb_le _ _)) by lia.
          eexists _, _. split; [reflexivity|]. right. exists w. split; [done|lia].
        * pose proof (Hf y ltac:(left)). unfold put, blank. destruct (Z.eqb_spec (q !!! 0%nat) (th_hash y !!! 0%nat)) as [_|_].
          -- rewrite u16_small by lia. rewrite (proj2 (Z.eqb_neq _ _)) by lia. rewrite (proj2 (Z.leb_le _ _)) by lia. eexists _, _. split; [reflexivity|]. right. exists y. split; [left|lia].
          -- rewrite Z.eqb_refl. eexists _, _. split; [reflexivity|by left].
  Qed.

  (** *** A repeated hash with a near miss for every byte *)
  Definition trap (l : list thash) (fl : list bool) (h : list Z) : Prop :=
    (2 <= copies l h)%nat /\ forall j, fl !! j = Some true -> exists y, y ∈ l /\ th_hash y !!! j <> h !!! j /\ forall k, k <> j -> th_hash y !!! k = h !!! k.
  Lemma copies_in l h : (1 <= copies l h)%nat -> exists x, x ∈ l /\ th_hash x = h.
  Proof using.
    unfold copies. intros H. destruct (filter _ l) as [|x r] eqn:E; [cbn [length] in H; lia|]. exists x.
    assert (Hx : x ∈ x :: r) by left. rewrite <- E in Hx. apply elem_of_list_filter in Hx as [? ?]. done.
  Qed.
  Lemma copies_le l h : (copies l h <= length l)%nat.
  Proof using. apply filter_length. Qed.

  Lemma walk_trap n : forall ns idx level l fl h, 0 < count < 65536 -> rep (S n) ns idx level l fl -> alike l fl -> length fl = 32%nat -> set_count fl = n -> trap l fl h ->
    walk (mk_pool first count ns) n idx h = Some (-1, true).
  Proof using Hent Hsrt.
    induction n as [|n IH]; intros ns idx level l fl h Hc R A H32 Hn [T1 T2]; [done|].
    destruct (copies_in l h ltac:(lia)) as (x & Hx & Ex). assert (Hne : l <> []) by (intros ->; by apply elem_of_nil in Hx).
    cbn [walk t_nodes t_count t_first]. revert R. cbn [rep]. fold rep. destruct (choose ent l fl) as [bi|] eqn:E.
    - intros (look & E1 & R0 & R1 & R2). rewrite E1. cbn [mbind option_bind n_byte n_look].
      destruct (choose_some ent Hent l fl bi Hne E) as (Hbi & _). pose proof (lookup_lt_Some _ _ _ Hbi) as Hlt. pose proof (al_ok _ _ A) as H1.
      rewrite (proj2 (Nat.eqb_neq bi 32)) by lia. pose proof (byte_of x l _ bi H1 Hlt Hx) as Hv. pose proof (copies_eq_group l fl bi x A Hbi Hx) as Hcp. rewrite Ex in Hv, Hcp.
      pose proof (copies_le (group bi (h !!! bi) l) h) as Hle. destruct (R2 (h !!! bi) Hv ltac:(lia)) as (c & C1 & C2 & C3 & C4). rewrite C3.
      rewrite (proj2 (Z.eqb_neq _ _)) by lia. rewrite (proj2 (Z.leb_gt _ _)) by lia. rewrite u16_small by lia.
      replace (Z.to_nat (65536 - (65536 - Z.of_nat c))) with c by lia.
      apply (IH ns c (S level) (group bi (h !!! bi) l) (flip bi fl)); try done.
      + apply alike_group; [done|done|lia].
      + by rewrite flip_length.
      + pose proof (flip_count bi fl Hbi). lia.
      + split; [lia|]. intros j Hj. destruct (decide (bi = j)) as [<-|Hd]; [rewrite flip_same in Hj by done; done|]. rewrite flip_other in Hj by done.
        destruct (T2 j Hj) as (y & Hy & Y1 & Y2). exists y. split_and!; [|done|done]. apply (group_elem srt Hsrt bi _ l _ y H1 Hlt); [lia|]. split; [done|by apply Y2].
    - exfalso. assert (exists j, fl !! j = Some true) as (j & Hj).
      { unfold set_count in Hn. destruct (filter _ fl) as [|u r] eqn:Ef; [done|]. assert (Hu : u ∈ u :: r) by left. rewrite <- Ef in Hu.
        apply elem_of_list_filter in Hu as [-> Hu]. by apply elem_of_list_lookup in Hu. }
      destruct (T2 j Hj) as (y & Hy & Y1 & _). apply Y1. rewrite <- Ex. by apply (choose_none ent Hent l fl Hne E j y x).
  Qed.

  (** *** Few hashes fit *)
  Definition weight (bi : nat) (s : list thash) (vs : list nat) : nat := sum_list_with (fun v => length (run bi (Z.of_nat v) s)) vs.
  Lemma weight_le bi l k : hashes_ok k l -> (bi < k)%nat -> forall vs, NoDup vs -> (weight bi (srt bi l) vs <= length l)%nat.
  Proof using Hsrt.
    intros H1 Hlt vs Hd. transitivity (sum_list_with (fun v => length (filter (fun x : thash => th_hash x !!! bi = Z.of_nat v) l)) vs).
    - unfold weight. clear Hd. induction vs as [|v vs IHv]; [done|]. cbn [sum_list_with].
      pose proof (group_spec srt Hsrt bi (Z.of_nat v) l k H1 Hlt ltac:(lia)) as Hp. apply Permutation_length in Hp. unfold Proof_Tree.group in Hp. lia.
    - by apply buckets_le.
  Qed.

  Lemma fill_fits n child bi s : forall vs look ns, 0 < count -> (0 < length ns)%nat ->
    (forall v m, v ∈ vs -> (2 <= length (run bi (Z.of_nat v) s))%nat -> 2 * (Z.of_nat (length m) + count) + 2 + Z.of_nat (n * length (run bi (Z.of_nat v) s)) <= 131072 ->
       exists m', child (run bi (Z.of_nat v) s) m = Some m' /\ (length m <= length m')%nat /\ (2 * length m' <= 2 * length m + 2 + n * length (run bi (Z.of_nat v) s))%nat) ->
    2 * (Z.of_nat (length ns) + count) + Z.of_nat (S n * weight bi s vs) <= 131072 ->
    exists look' ns', fill first count child bi s vs look ns = Some (look', ns') /\ (length ns <= length ns')%nat /\ (2 * length ns' <= 2 * length ns + S n * weight bi s vs)%nat.
  Proof using.
    induction vs as [|v vs IH]; intros look ns Hc Hp HC Hb; cbn [fill].
    { eexists _, _. split; [reflexivity|]. lia. }
    assert (HC' : forall u m, u ∈ vs -> (2 <= length (run bi (Z.of_nat u) s))%nat -> 2 * (Z.of_nat (length m) + count) + 2 + Z.of_nat (n * length (run bi (Z.of_nat u) s)) <= 131072 ->
       exists m', child (run bi (Z.of_nat u) s) m = Some m' /\ (length m <= length m')%nat /\ (2 * length m' <= 2 * length m + 2 + n * length (run bi (Z.of_nat u) s))%nat) by (intros u m Hu; apply HC; by right).
    pose proof (HC v) as HCv. assert (Hw : weight bi s (v :: vs) = (length (run bi (Z.of_nat v) s) + weight bi s vs)%nat) by done. rewrite Hw in *. clear Hw HC.
    assert (Hm : (S n * (length (run bi (Z.of_nat v) s) + weight bi s vs) = n * length (run bi (Z.of_nat v) s) + length (run bi (Z.of_nat v) s) + S n * weight bi s vs)%nat) by lia. rewrite Hm in *. clear Hm.
    destruct (run bi (Z.of_nat v) s) as [|x [|y l']].
    - cbn [length] in *. destruct (IH (put look (Z.of_nat v) 0) ns Hc Hp HC' ltac:(lia)) as (look' & ns' & E & Hn & Hn'). eexists _, _. split; [exact E|lia].
    - cbn [length] in *. destruct (IH (put look (Z.of_nat v) (u16 (th_pi x - first + 1))) ns Hc Hp HC' ltac:(lia)) as (look' & ns' & E & Hn & Hn'). eexists _, _. split; [exact E|lia].
    - set (g := x :: y :: l') in *. assert (Hg : (2 <= length g)%nat) by (cbn [g length]; lia). clearbody g.
      destruct (HCv ns ltac:(left) Hg ltac:(lia)) as (ns1 & E1 & L0 & L1). rewrite E1.
      assert (Hbb : Z.of_nat (length ns) + count < 65536) by lia. rewrite u16_small by lia. rewrite (proj2 (Z.leb_gt _ _)) by lia.
      destruct (IH (put look (Z.of_nat v) (65536 - Z.of_nat (length ns))) ns1 Hc ltac:(lia) HC' ltac:(lia)) as (look' & ns' & E & Hn & Hn'). eexists _, _. split; [exact E|lia].
  Qed.

  Lemma grow_fits n : forall l fl level ns fuel, 0 < count -> alike l fl -> l <> [] -> set_count fl = n -> (n < fuel)%nat ->
    2 * (Z.of_nat (length ns) + count) + 2 + Z.of_nat (n * length l) <= 131072 ->
    exists ns', grow ent srt first count fuel l fl level ns = Some ns' /\ (length ns <= length ns')%nat /\ (2 * length ns' <= 2 * length ns + 2 + n * length l)%nat.
  Proof using Hent Hsrt.
    induction n as [|n IH]; intros l fl level ns fuel Hc A Hne Hn Hfu Hb; (destruct fuel as [|fuel]; [lia|]); cbn [grow]; destruct (choose ent l fl) as [bi|] eqn:E.
    - destruct (choose_some ent Hent l fl bi Hne E) as (Hbi & _). pose proof (flip_count bi fl Hbi). lia.
    - eexists. split; [reflexivity|]. rewrite app_length. cbn [length]. lia.
    - destruct (choose_some ent Hent l fl bi Hne E) as (Hbi & _). pose proof (lookup_lt_Some _ _ _ Hbi) as Hlt. pose proof (al_ok _ _ A) as H1. pose proof (flip_count bi fl Hbi) as Hfc.
      pose proof (weight_le bi l _ H1 Hlt (seq 0 256) (NoDup_seq _ _)) as Hw. assert (Hw' : (S n * weight bi (srt bi l) (seq 0 256) <= S n * length l)%nat) by (apply Nat.mul_le_mono_l; exact Hw).
      destruct (fill_fits n (fun l' ns' => grow ent srt first count fuel l' (flip bi fl) (S level) ns') bi (srt bi l) (seq 0 256) blank (ns ++ [mk_pnode level bi blank]) Hc ltac:(rewrite app_length; cbn [length]; lia)) as (look & ns1 & E1 & L0 & L1).
      + intros v m Hv Hg Hm. apply IH; [done| |intros Eg; rewrite Eg in Hg; cbn [length] in Hg; lia|lia|lia|done]. by apply (alike_group l fl bi (Z.of_nat v)); [..|lia].
      + rewrite app_length. cbn [length]. clear -Hb Hw'. lia.
      + rewrite E1. eexists. split; [reflexivity|]. rewrite insert_length. rewrite app_length in L0, L1. cbn [length] in L0, L1. clear -L0 L1 Hw'. lia.
    - eexists. split; [reflexivity|]. rewrite app_length. cbn [length]. lia.
  Qed.
End Pool.

(** ** The whole tree *)
Section Whole.
  Context (ent : list thash -> nat -> Z) (Hent : entropy_ok ent) (srt : nat -> list thash -> list thash) (Hsrt : sort_ok srt).

  Lemma numbered_fits first input : numbered first input -> fits first (Z.of_nat (length input)) input.
  Proof using. intros H x Hx. apply elem_of_list_lookup in Hx as (i & Hi). pose proof (lookup_lt_Some _ _ _ Hi). rewrite (H i x Hi). lia. Qed.
  Lemma numbered_head first x input : numbered first (x :: input) -> th_pi x = first.
  Proof using. intros H. rewrite (H 0%nat x eq_refl). lia. Qed.
  Lemma alike_init input : hashes_ok 32 input -> alike input (flags_init 32 0).
  Proof using.
    intros H. assert (Hl : length (flags_init 32 0) = 32%nat) by (apply flags_init_length; lia). split; [by rewrite Hl|].
    intros x y j Hx Hy Hj. pose proof (lookup_lt_Some _ _ _ Hj) as Hlt. rewrite Hl in Hlt. rewrite flags_init_lookup in Hj by lia. done.
  Qed.
  Lemma init_length : length (flags_init 32 0) = 32%nat.
  Proof using. apply flags_init_length; lia. Qed.
  Lemma init_count : set_count (flags_init 32 0) = 32%nat.
  Proof using. by rewrite set_count_init by lia. Qed.

  Lemma generated first input t : input <> [] -> numbered first input -> pool_generate ent srt input = Some t ->
    0 < Z.of_nat (length input) < 65536 /\ t_first t = first /\ t_count t = Z.of_nat (length input) /\
    Z.of_nat (length (t_nodes t)) + t_count t <= 65536 /\
    rep ent srt first (Z.of_nat (length input)) 33 (t_nodes t) 0 0 input (flags_init 32 0).
  Proof using.
    intros Hne Hnum E. unfold pool_generate in E. destruct input as [|x input]; [done|]. pose proof (numbered_head _ _ _ Hnum) as Hx.
    remember (x :: input) as l eqn:El. assert (Hlen : (0 < length l)%nat) by (rewrite El; cbn [length]; lia).
    destruct (Z.leb_spec 65536 (Z.of_nat (length l))) as [|Hlt]; [done|].
    destruct (grow ent srt (th_pi x) (Z.of_nat (length l)) 33 l (flags_init 32 0) 0 []) as [ns|] eqn:Eg; [|done]. cbn [mbind option_bind] in E. apply (inj Some) in E as <-.
    cbn [t_first t_count t_nodes]. rewrite Hx in Eg. apply grow_rep in Eg as (G1 & G2 & G3 & G4); [|lia|cbn [length]; lia]. cbn [length] in *. split_and!; [lia|lia|done|done|done|done].
  Qed.

  Lemma lookup_walk t q : 0 < t_count t -> pool_lookup t q = walk (mk_pool (t_first t) (t_count t) (t_nodes t)) 32 0 q.
  Proof using. intros H. unfold pool_lookup. rewrite (proj2 (Z.eqb_neq _ _)) by lia. by destruct t. Qed.

  Lemma pool_found first input t x : hashes_ok 32 input -> numbered first input -> pool_generate ent srt input = Some t -> x ∈ input ->
    (exists pi b, pool_lookup t (th_hash x) = Some (pi, b) /\ earliest input (th_hash x) pi /\ (b = true <-> 2 <= copies input (th_hash x))%nat) \/
    pool_lookup t (th_hash x) = Some (-1, true) /\ (2 <= copies input (th_hash x))%nat /\ (34 <= length input)%nat.
  Proof using Hent Hsrt.
    intros H1 H2 E Hx. assert (Hne : input <> []) by (intros ->; by apply elem_of_nil in Hx).
    destruct (generated first input t Hne H2 E) as (G1 & <- & G3 & G4 & G5). rewrite lookup_walk by lia. rewrite G3.
    apply (walk_spec ent Hent srt Hsrt (t_first t) (Z.of_nat (length input)) 32 (t_nodes t) 0 0 input (flags_init 32 0) x G1 G5 (alike_init _ H1) (numbered_fits _ _ H2) Hx init_length init_count).
    right. lia.
  Qed.

  Lemma pool_total first input t q : hashes_ok 32 input -> numbered first input -> pool_generate ent srt input = Some t -> length q = 32%nat -> bytes q ->
    exists pi b, pool_lookup t q = Some (pi, b) /\ (pi = -1 \/ exists x, x ∈ input /\ th_pi x = pi).
  Proof using Hent Hsrt.
    intros H1 H2 E Hq Hb. destruct input as [|x input].
    - cbn in E. apply (inj Some) in E as <-. exists (-1), false. split; [done|by left].
    - remember (x :: input) as l eqn:El. assert (Hne : l <> []) by (by rewrite El). clear El.
      destruct (generated first l t Hne H2 E) as (G1 & <- & G3 & G4 & G5). rewrite lookup_walk by lia. rewrite G3.
      exact (walk_total ent Hent srt Hsrt (t_first t) (Z.of_nat (length l)) 32 (t_nodes t) 0 0 l (flags_init 32 0) q G1 G5 (alike_init _ H1) (numbered_fits _ _ H2) Hne init_length Hq Hb init_count).
  Qed.

  Lemma pool_fits input : hashes_ok 32 input -> 17 * Z.of_nat (length input) < 65536 -> exists t, pool_generate ent srt input = Some t.
  Proof using Hent Hsrt.
    intros H1 H2. unfold pool_generate. destruct input as [|x input]; [by eexists|]. remember (x :: input) as l eqn:El.
    assert (Hlen : (0 < length l)%nat) by (rewrite El; cbn [length]; lia). rewrite (proj2 (Z.leb_gt _ _)) by lia.
    destruct (grow_fits ent Hent srt Hsrt (th_pi x) (Z.of_nat (length l)) 32 l (flags_init 32 0) 0 [] 33) as (ns & E & _).
    - lia.
    - by apply alike_init.
    - by rewrite El.
    - exact init_count.
    - lia.
    - cbn [length]. lia.
    - rewrite E. by eexists.
  Qed.
End Whole.
