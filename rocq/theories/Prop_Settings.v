(** More of C17 and C91: which parameters are accepted, and whether those built into the code have room for what the
    tiers are given. *)
From Verif Require Import Base Model_Word Model_Folders Model_MapStore Model_Bins.

(** C17. The parameters of a hash index are accepted exactly when the number of bins is even and not zero and the sort
    numbers have at most eight bytes; accepted, they are kept as given. *)
Theorem C17_accepted_parameters :
  forall bits estimate digits bins start snb, 0 <= bins ->
    (forall p, new_params bits estimate digits bins start snb = Some p ->
       p = mk_params bits estimate digits bins start snb) /\
    ((exists p, new_params bits estimate digits bins start snb = Some p) <->
     (2 | bins) /\ 0 < bins /\ (snb <= 8)%nat).
Proof.
  intros bits estimate digits bins start snb Hb. unfold new_params.
  rewrite Z.rem_mod_nonneg by lia. pose proof (Z.mod_pos_bound bins 2 ltac:(lia)).
  pose proof (Z.mod_divide bins 2 ltac:(lia)) as Hd.
  destruct (Z.eqb_spec (bins mod 2) 1); destruct (Nat.ltb_spec 8 snb); destruct (Z.eqb_spec bins 0); cbn [orb];
    (split; [intros p; congruence|]); split.
  all: try (intros [p [=]]; fail).
  all: try (intros (H1 & H2 & H3); try (apply Hd in H1); lia).
  - intros _. split_and!; [apply Hd; lia|lia|lia].
  - intros _. eauto.
Qed.

Example C17_example_2 :
  (exists p, new_params 17 100888 2 256 440 7 = Some p) /\ new_params 17 100888 2 255 440 7 = None /\
  new_params 17 100888 2 256 440 9 = None /\ new_params 17 100888 2 0 440 7 = None.
Proof. split; [eexists; reflexivity|]. vm_compute. done. Qed.

Print Assumptions C17_accepted_parameters.
