From Verif Require Import Base Model_Seq Spec_Seq.

Section seqp.
  Context {T : Type} (num : T -> Z).
  Implicit Types (s : sq (T:=T)) (l out : list T).

  Lemma consecutive_snoc f n : consecutive f (S n) = consecutive f n ++ [f + Z.of_nat n].
  Proof. unfold consecutive. rewrite seq_S. rewrite fmap_app. done. Qed.
  Lemma consecutive_length f n : length (consecutive f n) = n.
  Proof. unfold consecutive. by rewrite fmap_length, seq_length. Qed.
  Lemma elem_of_consecutive f n k : k ∈ consecutive f n <-> f <= k < f + Z.of_nat n.
  Proof.
    unfold consecutive. rewrite elem_of_list_fmap. split.
    - intros (i & -> & H%elem_of_seq). lia.
    - intros H. exists (Z.to_nat (k - f)). split; [lia|]. apply elem_of_seq. lia.
  Qed.
  Lemma NoDup_consecutive f n : NoDup (consecutive f n).
  Proof. unfold consecutive. apply NoDup_fmap_2; [|apply NoDup_seq]. intros a b. lia. Qed.

  (** Everything received so far is either sent or kept under its number. *)
  Record sinv (first : Z) (seen out : list T) s : Prop := {
    si_seq : in_sequence num first out;
    si_next : sq_next s = first + Z.of_nat (length out);
    si_out : forall v, v ∈ out -> v ∈ seen;
    si_map : forall k v, sq_map s !! k = Some v -> num v = k /\ v ∈ seen;
    si_bl : (1 <= sq_bc s)%nat -> sq_bloated s = true <-> (sq_bc s <= size (sq_map s))%nat;
  }.
  Definition conserved (seen out : list T) s : Prop :=
    out ++ (map_to_list (sq_map s)).*2 ≡ₚ seen.

  Lemma in_sequence_snoc first out v :
    in_sequence num first out -> num v = first + Z.of_nat (length out) -> in_sequence num first (out ++ [v]).
  Proof.
    unfold in_sequence. intros H E. rewrite app_length. cbn [length].
    replace (length out + 1)%nat with (S (length out)) by lia.
    rewrite consecutive_snoc, fmap_app, H. cbn. by rewrite E.
  Qed.

  Lemma send_next_spec first seen out s v s' :
    sinv first seen out s -> send_next s = Some (v, s') ->
    sinv first seen (out ++ [v]) s' /\ S (size (sq_map s')) = size (sq_map s) /\ sq_bc s' = sq_bc s /\
    (conserved seen out s -> conserved seen (out ++ [v]) s').
  Proof.
    intros I. unfold send_next. destruct (sq_map s !! sq_next s) as [w|] eqn:E; [|done].
    intros H. injection H as -> <-.
    assert (Hsz : S (size (delete (sq_next s) (sq_map s))) = size (sq_map s)).
    { rewrite <-(insert_delete _ _ _ E) at 2. rewrite map_size_insert_None; [done|apply lookup_delete]. }
    destruct I as [I1 I2 I3 I4 I5]. destruct (I4 _ _ E) as [Hn Hs].
    split; [|split; [|split]]; [constructor|..]; cbn [sq_next sq_map sq_bc sq_bloated].
    - apply in_sequence_snoc; [done|]. by rewrite Hn.
    - rewrite app_length. cbn [length]. lia.
    - intros x. rewrite elem_of_app, elem_of_list_singleton. intros [?| ->]; auto.
    - intros k x Hk. apply lookup_delete_Some in Hk as [_ Hk]. auto.
    - intros Hb. specialize (I5 Hb). destruct (decide _) as [Hd|Hd]; [split; [done|lia]|]. rewrite I5. lia.
    - done.
    - done.
    - unfold conserved; cbn [sq_map]. intros C. rewrite <-C. rewrite <-app_assoc. f_equiv.
      rewrite <-(insert_delete _ _ _ E) at 2.
      rewrite map_to_list_insert by apply lookup_delete. done.
  Qed.

  Lemma drain_spec fuel : forall first seen out s,
    sinv first seen out s -> (size (sq_map s) < fuel)%nat ->
    let '(o, s') := drain fuel s in
    sinv first seen (out ++ o) s' /\ sq_map s' !! sq_next s' = None /\ sq_bc s' = sq_bc s /\
    (conserved seen out s -> conserved seen (out ++ o) s').
  Proof.
    induction fuel as [|fuel IH]; intros first seen out s I Hf; [lia|].
    cbn [drain]. destruct (send_next s) as [[v s1]|] eqn:E.
    - destruct (send_next_spec _ _ _ _ _ _ I E) as (I1 & Hs & Hb & C).
      specialize (IH first seen (out ++ [v]) s1 I1 ltac:(lia)).
      destruct (drain fuel s1) as [o s2]. destruct IH as (I2 & Hn & Hb2 & C2).
      rewrite <-app_assoc in I2, C2. split; [done|]. split; [done|]. split; [congruence|]. auto.
    - rewrite app_nil_r. split; [done|]. split; [|split; [done|tauto]].
      unfold send_next in E. destruct (sq_map s !! sq_next s); done.
  Qed.

  Lemma sinv_more first seen out s v : sinv first seen out s -> sinv first (seen ++ [v]) out s.
  Proof.
    intros [I1 I2 I3 I4 I5]. constructor; auto.
    - intros x Hx. apply elem_of_app. auto.
    - intros k x Hk. destruct (I4 _ _ Hk). split; [done|]. apply elem_of_app. auto.
  Qed.

  Lemma arrive_spec first seen out s v :
    sinv first seen out s -> sq_map s !! sq_next s = None ->
    let '(o, s') := arrive num s v in
    sinv first (seen ++ [v]) (out ++ o) s' /\ sq_map s' !! sq_next s' = None /\ sq_bc s' = sq_bc s /\
    (num v ∉ num <$> seen -> conserved seen out s -> conserved (seen ++ [v]) (out ++ o) s').
  Proof.
    intros I Hnone. unfold arrive. destruct (decide (num v = sq_next s)) as [E|E].
    - set (s1 := mk_sq (sq_next s + 1) (sq_map s) (sq_bc s) (sq_bloated s)).
      assert (I1 : sinv first (seen ++ [v]) (out ++ [v]) s1).
      { pose proof (sinv_more _ _ _ _ v I) as [J1 J2 J3 J4 J5]. constructor; unfold s1; cbn [sq_next sq_map sq_bc sq_bloated]; auto.
        - apply in_sequence_snoc; [done|lia].
        - rewrite app_length. cbn [length]. lia.
        - intros x. rewrite elem_of_app, elem_of_list_singleton. intros [?| ->]; [auto|].
          apply elem_of_app. right. by apply elem_of_list_singleton. }
      pose proof (drain_spec (S (size (sq_map s1))) _ _ _ _ I1 ltac:(lia)) as D.
      unfold drain_all. destruct (drain _ s1) as [o s2]. destruct D as (D1 & D2 & D3 & D4).
      rewrite <-app_assoc in D1, D4. split; [done|]. split; [done|]. split; [done|].
      intros _ C. apply D4. unfold conserved in *. unfold s1; cbn [sq_map]. rewrite <-C.
      rewrite <-!app_assoc. f_equiv. apply Permutation_app_comm.
    - rewrite app_nil_r. split; [|split; [|split]]; cbn [sq_next sq_map sq_bc sq_bloated].
      + pose proof (sinv_more _ _ _ _ v I) as [J1 J2 J3 J4 J5]. constructor; cbn [sq_next sq_map sq_bc sq_bloated]; auto.
        * intros k x Hk. apply lookup_insert_Some in Hk as [[<- <-]|[_ Hk]]; [|auto].
          split; [done|]. apply elem_of_app. right. by apply elem_of_list_singleton.
        * intros Hb. specialize (J5 Hb). destruct (decide _) as [Hd|Hd]; [split; [lia|done]|]. rewrite J5.
          destruct (sq_map s !! num v) eqn:El.
          -- rewrite map_size_insert_Some; [done|eauto].
          -- rewrite map_size_insert_None in *; [|done..]. lia.
      + rewrite lookup_insert_ne by done. done.
      + done.
      + intros Hf C. unfold conserved in *; cbn [sq_map].
        rewrite map_to_list_insert.
        * rewrite <-C. cbn. rewrite <-app_assoc. f_equiv. apply Permutation_cons_append.
        * destruct (sq_map s !! num v) as [w|] eqn:El; [|done]. exfalso.
          destruct (si_map _ _ _ _ I _ _ El) as [Hw Hin]. apply Hf. rewrite <-Hw. by apply elem_of_list_fmap_1.
  Qed.

  Lemma arrivals_spec l : forall first seen out s,
    sinv first seen out s -> sq_map s !! sq_next s = None ->
    let '(o, s') := arrivals num s l in
    sinv first (seen ++ l) (out ++ o) s' /\ sq_map s' !! sq_next s' = None /\ sq_bc s' = sq_bc s /\
    (NoDup (num <$> (seen ++ l)) -> conserved seen out s -> conserved (seen ++ l) (out ++ o) s').
  Proof.
    induction l as [|v l IH]; intros first seen out s I Hn; cbn [arrivals].
    - rewrite !app_nil_r. tauto.
    - pose proof (arrive_spec _ _ _ _ v I Hn) as A. destruct (arrive num s v) as [o1 s1].
      destruct A as (A1 & A2 & A3 & A4). specialize (IH _ _ _ _ A1 A2).
      destruct (arrivals num s1 l) as [o2 s2]. destruct IH as (B1 & B2 & B3 & B4).
      rewrite <-!app_assoc in B1, B4. cbn [app] in B1, B4. split; [done|]. split; [done|].
      split; [congruence|].
      intros Hd C. apply B4; [done|]. apply A4; [|done].
      rewrite fmap_app in Hd. apply NoDup_app in Hd as (_ & Hd & _). intros Hin.
      apply (Hd _ Hin). cbn. left.
  Qed.

  Lemma sinv_new first bc : sinv first [] [] (sq_new first bc).
  Proof.
    constructor; cbn; try done.
    - lia.
    - intros Hb. rewrite map_size_empty. split; [done|lia].
  Qed.

  Lemma conserved_new first bc : conserved [] [] (sq_new first bc).
  Proof. unfold conserved, sq_new. cbn [sq_map]. by rewrite map_to_list_empty. Qed.

  Lemma drain_none s fuel : sq_map s !! sq_next s = None -> drain fuel s = ([], s).
  Proof. intros H. destruct fuel; [done|]. cbn [drain]. unfold send_next. by rewrite H. Qed.

  Lemma sq_close_none s : sq_map s !! sq_next s = None ->
    sq_close s = if decide (size (sq_map s) = 0%nat) then Some [] else None.
  Proof. intros H. unfold sq_close, drain_all. by rewrite drain_none. Qed.
End seqp.
