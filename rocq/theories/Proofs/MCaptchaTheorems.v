(** Proofs of the theorems of Properties/MCaptchaProperties.v. *)
From Coq Require Import Lia.
From Verif Require Import Model.Base Model.Defense Model.MCaptcha
  Spec.DefenseSpec Spec.MCaptchaSpec Proofs.DefenseProofs Proofs.MCaptchaProofs
  Proofs.DefenseTheorems.

(** Concrete values used by the witnesses. *)
Definition ex_m : mcaptcha := MCaptcha 0 example_defense 30.

Definition ex_m3 : mcaptcha := MCaptcha 0 example3 30.

Lemma ex_m_fresh : fresh_mcaptcha ex_m.
Proof.
  exists [MBDefense example_defense; MBDuration 30], example_defense.
  split; [done|]. split; [done|exact example_buildable].
Qed.

Lemma ex_m3_fresh : fresh_mcaptcha ex_m3.
Proof.
  exists [MBDuration 30; MBDefense example3], example3.
  split; [done|]. split; [done|exact example3_buildable].
Qed.

(** Every count up to u32::MAX is reachable, so the overflow hypothesis is
    met by some reachable value. *)
Lemma every_count_reachable p m n :
  built_mcaptcha p m -> N.of_nat n <= u32_max ->
  exists m', reachable_mcaptcha p m' /\ m_get_visitors m' = N.of_nat n.
Proof.
  intros Hb Hn.
  destruct (visitor_count_exact p m (replicate n MAdd) Hb) as (m' & Hr & Hv & _).
  { intros pre post Heq.
    assert (length (replicate n MAdd) = length (pre ++ post)) as Hlen by by rewrite Heq.
    rewrite replicate_length, app_length in Hlen.
    assert (replicate (length pre) MAdd = pre) as <-.
    { assert (take (length pre) (replicate n MAdd) = pre) as Ht by (rewrite Heq; apply take_app).
      rewrite take_replicate, Nat.min_l in Ht by lia. done. }
    rewrite count_after_adds. lia. }
  exists m'. split; [by exists m, (replicate n MAdd)|]. rewrite Hv, count_after_adds. lia.
Qed.

Lemma c12_difficulty_oscillates_refuted :
  (** general mechanism *)
  (forall p m (i : nat) a b,
     reachable_mcaptcha p m ->
     d_levels (m_defense m) !! i = Some a -> d_levels (m_defense m) !! (i + 1)%nat = Some b ->
     current_level (m_defense m) = Val a ->
     visitor_threshold a < m_visitors m + 1 -> m_visitors m + 2 <= visitor_threshold b ->
     exists m1 m2,
       add_visitor p m = Val m1 /\ current_level (m_defense m1) = Val b /\
       add_visitor p m1 = Val m2 /\ current_level (m_defense m2) = Val a) /\
  (** the documented example: visitors 51, 52, 53 *)
  (forall p, exists m51 m52 m53,
     fresh_mcaptcha ex_m /\
     m_run p ex_m (replicate 51 MAdd) = Val m51 /\ m_get_difficulty m51 = Val 50000 /\
     add_visitor p m51 = Val m52 /\ m_get_difficulty m52 = Val 500 /\
     add_visitor p m52 = Val m53 /\ m_get_difficulty m53 = Val 50000).
Proof.
  split; [exact alternation|]. intros p.
  exists (MCaptcha 51 (Defense (d_levels example_defense) 1) 30),
    (MCaptcha 52 (Defense (d_levels example_defense) 0) 30),
    (MCaptcha 53 (Defense (d_levels example_defense) 1) 30).
  split; [exact ex_m_fresh|]. destruct p; vm_compute; done.
Qed.

Lemma c14_not_lowest_after_quiet_refuted :
  (** departures never change the difficulty *)
  (forall p m cs, Forall (fun c => exists n, c = MDec n) cs ->
     exists m', m_run p m cs = Val m' /\ m_get_difficulty m' = m_get_difficulty m /\
       m_defense m' = m_defense m) /\
  (** the first visitor afterwards is served one level below, not at the bottom *)
  (forall p m (i : nat) l l',
     reachable_mcaptcha p m -> m_visitors m = 0 ->
     d_levels (m_defense m) !! (i + 1)%nat = Some l -> current_level (m_defense m) = Val l ->
     d_levels (m_defense m) !! i = Some l' ->
     exists m', add_visitor p m = Val m' /\ m_visitors m' = 1 /\
       m_get_difficulty m' = Val (difficulty_factor l')) /\
  (** witness: three levels, four visitors arrive and leave, the next one gets 20 *)
  (forall p, exists m0 m1,
     m_run p ex_m3 (replicate 4 MAdd ++ replicate 4 (MDec 1)) = Val m0 /\
     fresh_mcaptcha ex_m3 /\ m_visitors m0 = 0 /\
     add_visitor p m0 = Val m1 /\ m_get_difficulty m1 = Val 20 /\
     m_get_difficulty ex_m3 = Val 10).
Proof.
  split; [exact departures_keep_difficulty|]. split; [exact first_visitor_after_quiet|].
  intros p. exists (MCaptcha 0 (Defense (d_levels example3) 2) 30),
    (MCaptcha 1 (Defense (d_levels example3) 1) 30).
  split; [by destruct p|]. split; [exact ex_m3_fresh|]. by destruct p.
Qed.
