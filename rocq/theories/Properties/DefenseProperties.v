(** C01-C07: levels, the defense builder, the ladder. *)
From Coq Require Import Lia.
From Verif Require Import Model.Base Model.Defense Spec.DefenseSpec Proofs.DefenseProofs.
From Verif Require Export Proofs.DefenseTheorems.

(** ** C01 *)
Theorem C01_level_builder : forall cs : list lb_call,
  lb_build (lb_run cs) =
    match threshold_set cs, factor_set cs with
    | None, _ => Err SetVisitorThreshold
    | Some _, None => Err SetDifficultyFactor
    | Some v, Some d => Ok (Level v d)
    end.
Proof. exact level_builder_spec. Qed.
Print Assumptions C01_level_builder.

Theorem C01_zero_factor_rejected : forall cs,
  lb_set_difficulty_factor (lb_run cs) 0 = (lb_run cs, Err DifficultyFactorZero).
Proof. exact c01_zero_factor_rejected. Qed.
Print Assumptions C01_zero_factor_rejected.

Theorem C01_nonzero_factor_accepted : forall cs d, d <> 0 ->
  snd (lb_set_difficulty_factor (lb_run cs) d) = Ok tt.
Proof. exact c01_nonzero_factor_accepted. Qed.
Print Assumptions C01_nonzero_factor_accepted.

Example C01_witness :
  lb_build (lb_run [LBFactor 7; LBThreshold 3; LBFactor 0; LBThreshold 50; LBFactor 500; LBFactor 0])
  = Ok (Level 50 500) /\
  lb_build (lb_run [LBThreshold 3; LBFactor 0]) = Err SetDifficultyFactor /\
  lb_build (lb_run [LBFactor 3]) = Err SetVisitorThreshold.
Proof. done. Qed.

(** ** C02 *)
Theorem C02_add_level : forall cs l,
  db_add_level (db_run cs) l =
    (if bool_decide (Exists (fun x => visitor_threshold x = visitor_threshold l) (offered cs))
     then (db_run cs, Err DuplicateVisitorCount)
     else (DefenseBuilder (db_levels (db_run cs) ++ [l]), Ok tt)).
Proof. exact db_add_level_spec. Qed.
Print Assumptions C02_add_level.

Theorem C02_no_two_levels_share_a_threshold : forall cs,
  NoDup (visitor_threshold <$> db_levels (db_run cs)) /\
  forall l, l ∈ db_levels (db_run cs) <-> first_offered (offered cs) l.
Proof. exact db_run_levels. Qed.
Print Assumptions C02_no_two_levels_share_a_threshold.

Example C02_witness :
  let cs := [DBAdd (Level 50 500); DBBuild; DBAdd (Level 10 5); DBAdd (Level 50 9)] in
  db_levels (db_run cs) = [Level 50 500; Level 10 5] /\
  snd (db_add_level (db_run cs) (Level 10 77)) = Err DuplicateVisitorCount /\
  snd (db_add_level (db_run cs) (Level 11 77)) = Ok tt.
Proof. done. Qed.

(** ** C03: the four outcomes, with mutually exclusive and exhaustive
    conditions on what was offered; no other error and no panic. *)
Theorem C03_build : forall cs,
  match snd (db_build (db_run cs)) with
  | Ok d =>
      (exists l, l ∈ offered cs) /\
      (forall l, first_offered (offered cs) l -> difficulty_factor l <> 0) /\
      (forall a b, first_offered (offered cs) a -> first_offered (offered cs) b ->
         visitor_threshold a < visitor_threshold b -> difficulty_factor a <= difficulty_factor b) /\
      (forall l, l ∈ d_levels d <-> first_offered (offered cs) l) /\
      ascending (d_levels d) /\
      (exists l0, current_level d = Val l0 /\ first_offered (offered cs) l0 /\
         forall l, first_offered (offered cs) l -> visitor_threshold l0 <= visitor_threshold l)
  | Err LevelEmpty => offered cs = []
  | Err DifficultyFactorZero =>
      exists l, first_offered (offered cs) l /\ difficulty_factor l = 0
  | Err DecreaseingDifficultyFactor =>
      (forall l, first_offered (offered cs) l -> difficulty_factor l <> 0) /\
      exists a b, first_offered (offered cs) a /\ first_offered (offered cs) b /\
        visitor_threshold a < visitor_threshold b /\ difficulty_factor b < difficulty_factor a
  | Err _ => False
  end.
Proof. exact db_build_spec. Qed.
Print Assumptions C03_build.

(** The conditions are sufficient as well. *)
Theorem C03_build_ok_iff : forall cs,
  (exists d, snd (db_build (db_run cs)) = Ok d) <->
  (exists l, l ∈ offered cs) /\
  (forall l, first_offered (offered cs) l -> difficulty_factor l <> 0) /\
  (forall a b, first_offered (offered cs) a -> first_offered (offered cs) b ->
     visitor_threshold a < visitor_threshold b -> difficulty_factor a <= difficulty_factor b).
Proof. exact c03_build_ok_iff. Qed.
Print Assumptions C03_build_ok_iff.

Example C03_witness :
  snd (db_build (db_run [DBAdd (Level 50 500); DBAdd (Level 10 5); DBAdd (Level 50 1)]))
    = Ok (Defense [Level 10 5; Level 50 500] 0) /\
  snd (db_build (db_run [])) = Err LevelEmpty /\
  snd (db_build (db_run [DBAdd (Level 5 10); DBAdd (Level 7 0)])) = Err DifficultyFactorZero /\
  snd (db_build (db_run [DBAdd (Level 5 10); DBAdd (Level 3 11)])) = Err DecreaseingDifficultyFactor.
Proof. done. Qed.

(** ** C04 *)
Theorem C04_navigation : forall p d cs,
  buildable d ->
  exists d' l,
    d_run p d cs = Val d' /\ d_levels d' = d_levels d /\
    d_levels d !! nav (length (d_levels d)) cs = Some l /\
    current_level d' = Val l /\ get_difficulty d' = Val (difficulty_factor l).
Proof. exact navigation_spec. Qed.
Print Assumptions C04_navigation.

Example C04_witness :
  buildable example3 /\
  nav 3 [DLoosen; DTighten; DTighten; DTighten; DLoosen] = 1%nat /\
  d_run Debug example3 [DLoosen; DTighten; DTighten; DTighten; DLoosen]
    = Val (Defense (d_levels example3) 1).
Proof. split; [exact example3_buildable|done]. Qed.

(** ** C05 *)
Theorem C05_monotone : forall p d,
  reachable_defense p d ->
  exists f, get_difficulty d = Val f /\
    (exists d' f', tighten_up p d = Val d' /\ get_difficulty d' = Val f' /\ f <= f') /\
    (exists f', get_difficulty (loosen_up d) = Val f' /\ f' <= f) /\
    (exists d' f', max_defense p d = Val d' /\ get_difficulty d' = Val f' /\
       (exists l, l ∈ d_levels d /\ difficulty_factor l = f') /\
       forall l, l ∈ d_levels d -> difficulty_factor l <= f') /\
    (exists f', get_difficulty (min_defense d) = Val f' /\
       (exists l, l ∈ d_levels d /\ difficulty_factor l = f') /\
       forall l, l ∈ d_levels d -> f' <= difficulty_factor l).
Proof. exact tighten_loosen_monotone. Qed.
Print Assumptions C05_monotone.

Example C05_witness : forall p,
  reachable_defense p (Defense (d_levels example3) 1) /\
  tighten_up p (Defense (d_levels example3) 1) = Val (Defense (d_levels example3) 2).
Proof.
  intros p. split; [|by destruct p]. exists example3, [DTighten]. split; [exact example3_buildable|by destruct p].
Qed.

(** ** C06 *)
Theorem C06_visitor_threshold_refuted :
  (forall d, defense_visitor_threshold d = get_difficulty d) /\
  exists d l, buildable d /\ current_level d = Val l /\
    defense_visitor_threshold d <> Val (visitor_threshold l).
Proof. exact c06_visitor_threshold_refuted. Qed.
Print Assumptions C06_visitor_threshold_refuted.

(** ** C07 *)
Theorem C07_difficulty_strict : forall f g,
  1 <= f -> f < g -> g <= u32_max ->
  exists a b, documented_difficulty f = Val a /\ documented_difficulty g = Val b /\ a < b.
Proof. exact documented_difficulty_strict. Qed.
Print Assumptions C07_difficulty_strict.

Theorem C07_difficulty_one_and_zero :
  documented_difficulty 1 = Val 0 /\ forall f, documented_difficulty f = Panic <-> f = 0.
Proof. exact c07_difficulty_one_and_zero. Qed.
Print Assumptions C07_difficulty_one_and_zero.

Theorem C07_built_defense_has_difficulty : forall p d l,
  reachable_defense p d -> l ∈ d_levels d -> documented_difficulty (difficulty_factor l) <> Panic.
Proof. exact c07_built_defense_has_difficulty. Qed.
Print Assumptions C07_built_defense_has_difficulty.

Example C07_witness :
  documented_difficulty 2 = Val 170141183460469231731687303715884105728 /\
  documented_difficulty 4294967295 = Val 340282366841710300930663525760219742206.
Proof. vm_compute. done. Qed.
