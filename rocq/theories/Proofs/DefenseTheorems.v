(** Proofs of the theorems of Properties/DefenseProperties.v. *)
From Coq Require Import Lia.
From Verif Require Import Model.Base Model.Defense Spec.DefenseSpec Proofs.DefenseProofs.

Lemma c01_zero_factor_rejected : forall cs,
  lb_set_difficulty_factor (lb_run cs) 0 = (lb_run cs, Err DifficultyFactorZero).
Proof. done. Qed.

Lemma c01_nonzero_factor_accepted : forall cs d, d <> 0 ->
  snd (lb_set_difficulty_factor (lb_run cs) d) = Ok tt.
Proof.
  intros cs d Hd. unfold lb_set_difficulty_factor. by destruct d.
Qed.

Lemma c03_build_ok_iff : forall cs,
  (exists d, snd (db_build (db_run cs)) = Ok d) <->
  (exists l, l ∈ offered cs) /\
  (forall l, first_offered (offered cs) l -> difficulty_factor l <> 0) /\
  (forall a b, first_offered (offered cs) a -> first_offered (offered cs) b ->
     visitor_threshold a < visitor_threshold b -> difficulty_factor a <= difficulty_factor b).
Proof.
  intros cs. pose proof (db_build_spec cs) as Hs. split.
  - intros [d Hd]. rewrite Hd in Hs. destruct Hs as (? & ? & ? & _). done.
  - intros ((l & Hl) & Hnz & Hmono). destruct (snd (db_build (db_run cs))) as [d|e]; [by exists d|].
    exfalso. destruct e; try done; first
      [ destruct Hs as (_ & a & b & Ha & Hb & Hlt & Hf); specialize (Hmono a b Ha Hb Hlt); lia
      | destruct Hs as (x & Hx & H0); by apply (Hnz x)
      | rewrite Hs in Hl; by apply elem_of_nil in Hl ].
Qed.

(** The documented example ladder is buildable. *)
Definition example_defense : defense := Defense [Level 50 500; Level 5000 50000] 0.

Definition example3 : defense := Defense [Level 1 10; Level 2 20; Level 3 30] 0.

Lemma example_buildable : buildable example_defense.
Proof.
  exists [DBAdd (Level 5000 50000); DBAdd (Level 50 500)]. split; [|done].
  repeat constructor; simpl; unfold u32_max; lia.
Qed.

Lemma example3_buildable : buildable example3.
Proof.
  exists [DBAdd (Level 2 20); DBAdd (Level 1 10); DBAdd (Level 3 30)]. split; [|done].
  repeat constructor; simpl; unfold u32_max; lia.
Qed.

Lemma c06_visitor_threshold_refuted :
  (forall d, defense_visitor_threshold d = get_difficulty d) /\
  exists d l, buildable d /\ current_level d = Val l /\
    defense_visitor_threshold d <> Val (visitor_threshold l).
Proof.
  split; [exact visitor_threshold_is_factor|].
  exists example_defense, (Level 50 500). split; [exact example_buildable|]. by split.
Qed.

Lemma c07_difficulty_one_and_zero :
  documented_difficulty 1 = Val 0 /\ forall f, documented_difficulty f = Panic <-> f = 0.
Proof. split; [exact documented_difficulty_one|exact documented_difficulty_panic]. Qed.

Lemma c07_built_defense_has_difficulty : forall p d l,
  reachable_defense p d -> l ∈ d_levels d -> documented_difficulty (difficulty_factor l) <> Panic.
Proof.
  intros p d l Hr Hl Hp. apply documented_difficulty_panic in Hp.
  destruct (reachable_wf p d Hr) as [Hlad _]. pose proof (ladder_nonzero _ Hlad) as Hnz.
  rewrite Forall_forall in Hnz. by apply (Hnz l).
Qed.
