(** C08-C15: the in-memory visitor accounting and difficulty adaptation. *)
From Coq Require Import Lia.
From Verif Require Import Model.Base Model.Defense Model.MCaptcha
  Spec.DefenseSpec Spec.MCaptchaSpec Proofs.DefenseProofs Proofs.MCaptchaProofs
  Properties.DefenseProperties.
From Verif Require Export Proofs.MCaptchaTheorems.

(** ** C08 *)
Theorem C08_mcaptcha_builder : forall cs,
  mb_build (mb_run cs) =
    match duration_set cs, defense_set cs with
    | None, _ => Err (PleaseSetValue "duration")
    | Some _, None => Err (PleaseSetValue "defense")
    | Some n, Some d => if n =? 0 then Err CaptchaDurationZero else Ok (MCaptcha 0 d n)
    end.
Proof. exact mcaptcha_builder_spec. Qed.
Print Assumptions C08_mcaptcha_builder.

Example C08_witness :
  mb_build (mb_run [MBDuration 0; MBDefense example3; MBDuration 30; MBDefense example_defense]) = Ok ex_m /\
  mb_build (mb_run [MBDefense example3]) = Err (PleaseSetValue "duration") /\
  mb_build (mb_run [MBDuration 0]) = Err (PleaseSetValue "defense") /\
  mb_build (mb_run [MBDuration 0; MBDefense example3]) = Err CaptchaDurationZero.
Proof. done. Qed.

(** ** C09 *)
Theorem C09_visitor_count_exact : forall p m cs,
  built_mcaptcha p m -> fits 0 cs ->
  exists m', m_run p m cs = Val m' /\
    m_get_visitors m' = count_after 0 cs /\
    m_get_duration m' = m_get_duration m /\
    d_levels (m_get_defense m') = d_levels (m_get_defense m).
Proof. exact visitor_count_exact. Qed.
Print Assumptions C09_visitor_count_exact.

Theorem C09_visitor_count_overflow : forall p m,
  reachable_mcaptcha p m -> m_get_visitors m = u32_max ->
  match p with
  | Debug => add_visitor p m = Panic
  | Release => exists m', add_visitor p m = Val m' /\ m_get_visitors m' = 0
  end.
Proof. exact visitor_count_overflow. Qed.
Print Assumptions C09_visitor_count_overflow.

Example C09_witness_overflow : forall p,
  exists m, reachable_mcaptcha p m /\ m_get_visitors m = u32_max.
Proof.
  intros p. destruct (every_count_reachable p ex_m (N.to_nat u32_max)) as (m & Hr & Hv).
  - apply fresh_built, ex_m_fresh.
  - rewrite N2Nat.id. lia.
  - exists m. split; [done|]. rewrite Hv. apply N2Nat.id.
Qed.

Example C09_witness :
  built_mcaptcha Debug ex_m /\
  count_after 0 [MAdd; MAdd; MAdd; MDec 2; MAdd; MDec 9; MAdd] = 1 /\
  (m' ← (match m_run Debug ex_m [MAdd; MAdd; MAdd; MDec 2; MAdd; MDec 9; MAdd] with Val x => Some x | Panic => None end);
   Some (m_get_visitors m')) = Some 1.
Proof. split; [apply fresh_built, ex_m_fresh|done]. Qed.

(** ** C10 *)
Theorem C10_difficulty_from_ladder : forall p m,
  reachable_mcaptcha p m ->
  exists l lo hi,
    current_level (m_defense m) = Val l /\ l ∈ d_levels (m_defense m) /\
    m_get_difficulty m = Val (difficulty_factor l) /\ difficulty_factor l <> 0 /\
    head (d_levels (m_defense m)) = Some lo /\ last (d_levels (m_defense m)) = Some hi /\
    difficulty_factor lo <= difficulty_factor l <= difficulty_factor hi.
Proof. exact difficulty_from_ladder. Qed.
Print Assumptions C10_difficulty_from_ladder.

Theorem C10_one_level_per_visitor : forall p m,
  reachable_mcaptcha p m -> m_visitors m < u32_max ->
  let ls := d_levels (m_defense m) in
  exists (i : nat) l l' m',
    ls !! i = Some l /\ current_level (m_defense m) = Val l /\
    add_visitor p m = Val m' /\ m_visitors m' = m_visitors m + 1 /\
    d_levels (m_defense m') = ls /\ m_duration m' = m_duration m /\
    current_level (m_defense m') = Val l' /\
    ls !! (if (visitor_threshold l <? m_visitors m + 1)%N
           then Nat.min (i + 1) (length ls - 1) else i - 1)%nat = Some l'.
Proof. exact add_visitor_moves_one. Qed.
Print Assumptions C10_one_level_per_visitor.

Theorem C10_departures_keep_level : forall m n,
  m_defense (decrement_visitor_by m n) = m_defense m /\
  m_duration (decrement_visitor_by m n) = m_duration m /\
  m_visitors (decrement_visitor_by m n) = m_visitors m - n.
Proof. exact decrement_keeps_level. Qed.
Print Assumptions C10_departures_keep_level.

Example C10_witness : forall p, exists m,
  reachable_mcaptcha p m /\ m_visitors m = 2 /\ m_get_difficulty m = Val 20.
Proof.
  intros p. exists (MCaptcha 2 (Defense (d_levels example3) 1) 30). split; [|done].
  exists ex_m3, [MAdd; MAdd]. split; [apply fresh_built, ex_m3_fresh|by destruct p].
Qed.

(** ** C11 *)
Theorem C11_arrivals_only_band : forall p m n,
  fresh_mcaptcha m -> N.of_nat n <= u32_max ->
  exists m' (i : nat) l,
    m_run p m (replicate n MAdd) = Val m' /\ m_visitors m' = N.of_nat n /\
    current_level (m_defense m') = Val l /\ d_levels (m_defense m) !! i = Some l /\
    let K := thresholds_below (N.of_nat n) (d_levels (m_defense m)) in
    (i <= K <= i + 1)%nat.
Proof. exact arrivals_only_band. Qed.
Print Assumptions C11_arrivals_only_band.

Example C11_witness :
  fresh_mcaptcha ex_m3 /\ thresholds_below 3 (d_levels example3) = 2%nat /\
  m_run Debug ex_m3 (replicate 3 MAdd) = Val (MCaptcha 3 (Defense (d_levels example3) 2) 30).
Proof. split; [exact ex_m3_fresh|done]. Qed.

(** ** C12: the level oscillates inside a gap. *)
Theorem C12_difficulty_oscillates_refuted :
  (** general mechanism *)
  (forall p m (i : nat) a b,
     reachable_mcaptcha p m ->
     d_levels (m_defense m) !! i = Some a -> d_levels (m_defense m) !! (i + 1)%nat = Some b ->
     current_level (m_defense m) = Val a ->
     visitor_threshold a < m_visitors m + 1 -> m_visitors m + 2 <= visitor_threshold b ->
     exists m1 m2,
       add_visitor p m = Val m1 /\ current_level (m_defense m1) = Val b /\
       add_visitor p m1 = Val m2 /\ current_level (m_defense m2) = Val a) /\
  (** the documented example: visitors 51, 52, 53 *)
  (forall p, exists m51 m52 m53,
     fresh_mcaptcha ex_m /\
     m_run p ex_m (replicate 51 MAdd) = Val m51 /\ m_get_difficulty m51 = Val 50000 /\
     add_visitor p m51 = Val m52 /\ m_get_difficulty m52 = Val 500 /\
     add_visitor p m52 = Val m53 /\ m_get_difficulty m53 = Val 50000).
Proof. exact c12_difficulty_oscillates_refuted. Qed.
Print Assumptions C12_difficulty_oscillates_refuted.

(** ** C13 *)
Theorem C13_surge_reaches_top : forall p m cs top,
  reachable_mcaptcha p m -> fits (m_visitors m) cs ->
  last (d_levels (m_defense m)) = Some top ->
  at_each_arrival (fun v => visitor_threshold top < v) (m_visitors m) cs ->
  (length (d_levels (m_defense m)) - 1 <= arrivals cs)%nat ->
  exists m', m_run p m cs = Val m' /\ current_level (m_defense m') = Val top /\
    m_get_difficulty m' = Val (difficulty_factor top).
Proof. exact surge_reaches_top. Qed.
Print Assumptions C13_surge_reaches_top.

Theorem C13_calm_reaches_bottom : forall p m cs bot,
  reachable_mcaptcha p m -> fits (m_visitors m) cs ->
  head (d_levels (m_defense m)) = Some bot ->
  at_each_arrival (fun v => v <= visitor_threshold bot) (m_visitors m) cs ->
  (length (d_levels (m_defense m)) - 1 <= arrivals cs)%nat ->
  exists m', m_run p m cs = Val m' /\ current_level (m_defense m') = Val bot /\
    m_get_difficulty m' = Val (difficulty_factor bot).
Proof. exact calm_reaches_bottom. Qed.
Print Assumptions C13_calm_reaches_bottom.

(** A state in the middle of the ladder with 4 visitors, and a history with a
    departure: both hypotheses of the first theorem hold. *)
Example C13_witness : forall p, exists m,
  reachable_mcaptcha p m /\ m_visitors m = 4 /\ m_get_difficulty m = Val 30 /\
  fits (m_visitors m) [MAdd; MDec 1; MAdd] /\
  at_each_arrival (fun v => 3 < v) (m_visitors m) [MAdd; MDec 1; MAdd] /\
  at_each_arrival (fun v => v <= 1) 0 [MAdd; MDec 1; MAdd].
Proof.
  intros p. exists (MCaptcha 4 (Defense (d_levels example3) 2) 30).
  split. { exists ex_m3, (replicate 4 MAdd). split; [apply fresh_built, ex_m3_fresh|by destruct p]. }
  split; [done|]. split; [done|]. split.
  { repeat (apply fits_cons; split; [done|]). by apply fits_nil. }
  split; intros pre post Heq.
  - do 4 (try (destruct pre as [|? pre]; simplify_eq/=; try (vm_compute; done))).
  - do 4 (try (destruct pre as [|? pre]; simplify_eq/=; try (vm_compute; done))).
Qed.

(** ** C14 *)
Theorem C14_not_lowest_after_quiet_refuted :
  (** departures never change the difficulty *)
  (forall p m cs, Forall (fun c => exists n, c = MDec n) cs ->
     exists m', m_run p m cs = Val m' /\ m_get_difficulty m' = m_get_difficulty m /\
       m_defense m' = m_defense m) /\
  (** the first visitor afterwards is served one level below, not at the bottom *)
  (forall p m (i : nat) l l',
     reachable_mcaptcha p m -> m_visitors m = 0 ->
     d_levels (m_defense m) !! (i + 1)%nat = Some l -> current_level (m_defense m) = Val l ->
     d_levels (m_defense m) !! i = Some l' ->
     exists m', add_visitor p m = Val m' /\ m_visitors m' = 1 /\
       m_get_difficulty m' = Val (difficulty_factor l')) /\
  (** witness: three levels, four visitors arrive and leave, the next one gets 20 *)
  (forall p, exists m0 m1,
     m_run p ex_m3 (replicate 4 MAdd ++ replicate 4 (MDec 1)) = Val m0 /\
     fresh_mcaptcha ex_m3 /\ m_visitors m0 = 0 /\
     add_visitor p m0 = Val m1 /\ m_get_difficulty m1 = Val 20 /\
     m_get_difficulty ex_m3 = Val 10).
Proof. exact c14_not_lowest_after_quiet_refuted. Qed.
Print Assumptions C14_not_lowest_after_quiet_refuted.

(** ** C15 *)
Theorem C15_create_payload : forall p m,
  reachable_mcaptcha p m ->
  let c := mcaptcha_into_create m in
  cm_levels c = d_levels (m_defense m) /\ cm_duration c = m_duration m /\
  cm_duration c <> 0 /\ ascending (cm_levels c) /\
  exists d, snd (db_build (db_run (DBAdd <$> cm_levels c))) = Ok d /\
    mb_build (mb_run [MBDefense d; MBDuration (cm_duration c)]) =
      Ok (MCaptcha 0 (Defense (d_levels (m_defense m)) 0) (m_duration m)).
Proof. exact create_payload_spec. Qed.
Print Assumptions C15_create_payload.

Example C15_witness : forall p, exists m,
  reachable_mcaptcha p m /\ m_visitors m = 2 /\
  mcaptcha_into_create m = CreateMCaptcha [Level 1 10; Level 2 20; Level 3 30] 30.
Proof.
  intros p. exists (MCaptcha 2 (Defense (d_levels example3) 1) 30). split; [|done].
  exists ex_m3, [MAdd; MAdd]. split; [apply fresh_built, ex_m3_fresh|by destruct p].
Qed.
