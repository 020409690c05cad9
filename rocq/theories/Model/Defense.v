(** Model of /repo/src/defense.rs. *)
From Verif Require Import Model.Base.

(** defense.rs:49-53 [Level]. *)
Record level := Level { visitor_threshold : N; difficulty_factor : N }.
Global Instance level_eq_dec : EqDecision level.
Proof. solve_decision. Defined.

(** defense.rs:57-60 [LevelBuilder]. *)
Record level_builder := LevelBuilder {
  lb_visitor_threshold : option N;
  lb_difficulty_factor : option N }.

(** defense.rs:62-69 [LevelBuilder::default]. *)
Definition lb_default : level_builder := LevelBuilder None None.

(** defense.rs:73-76 [LevelBuilder::visitor_threshold]. *)
Definition lb_set_visitor_threshold (b : level_builder) (v : N) : level_builder :=
  LevelBuilder (Some v) (lb_difficulty_factor b).

(** defense.rs:85-92 [LevelBuilder::difficulty_factor]; the builder is behind
    [&mut self], so the pair returns its value after the call together with the
    returned Result ([Ok(self)] is [Ok tt]). *)
Definition lb_set_difficulty_factor (b : level_builder) (d : N)
  : level_builder * result unit :=
  if 0 <? d then (LevelBuilder (lb_visitor_threshold b) (Some d), Ok tt)
  else (b, Err DifficultyFactorZero).

(** defense.rs:95-106 [LevelBuilder::build]; the two unwraps follow is_none
    tests, so they are the match arms. *)
Definition lb_build (b : level_builder) : result level :=
  match lb_visitor_threshold b with
  | None => Err SetVisitorThreshold
  | Some v =>
      match lb_difficulty_factor b with
      | None => Err SetDifficultyFactor
      | Some d => Ok (Level v d)
      end
  end.

(** defense.rs:111-119 [DefenseBuilder] and its default. *)
Record defense_builder := DefenseBuilder { db_levels : list level }.
Definition db_default : defense_builder := DefenseBuilder [].

(** defense.rs:124-128: the duplicate scan. *)
Fixpoint has_threshold (v : N) (ls : list level) : bool :=
  match ls with
  | [] => false
  | i :: r => if visitor_threshold i =? v then true else has_threshold v r
  end.

(** defense.rs:123-131 [DefenseBuilder::add_level]. *)
Definition db_add_level (b : defense_builder) (l : level)
  : defense_builder * result unit :=
  if has_threshold (visitor_threshold l) (db_levels b)
  then (b, Err DuplicateVisitorCount)
  else (DefenseBuilder (db_levels b ++ [l]), Ok tt).

(** defense.rs:137 [slice::sort_by_key(|a| a.visitor_threshold)]: the standard
    library's stable sort, modelled by stable insertion sort. *)
Fixpoint insert_level (l : level) (ls : list level) : list level :=
  match ls with
  | [] => [l]
  | h :: r => if visitor_threshold l <=? visitor_threshold h
              then l :: h :: r else h :: insert_level l r
  end.
Fixpoint sort_levels (ls : list level) : list level :=
  match ls with
  | [] => []
  | h :: r => insert_level h (sort_levels r)
  end.

(** defense.rs:139-143: first zero difficulty factor. *)
Fixpoint has_zero_factor (ls : list level) : bool :=
  match ls with
  | [] => false
  | h :: r => if difficulty_factor h =? 0 then true else has_zero_factor r
  end.

(** defense.rs:147-151: [for i in 0..len-1] comparing neighbours [i], [i+1].
    The indexing is structural recursion here: both indices are in range. *)
Fixpoint has_decrease (ls : list level) : bool :=
  match ls with
  | a :: ((b :: _) as r) =>
      if difficulty_factor b <? difficulty_factor a then true else has_decrease r
  | _ => false
  end.

(** defense.rs:165-169 [Defense]; [d_current] is the field
    [current_visitor_threshold] (an index). *)
Record defense := Defense { d_levels : list level; d_current : N }.
Global Instance defense_eq_dec : EqDecision defense.
Proof. solve_decision. Defined.

(** defense.rs:134-160 [DefenseBuilder::build].  The builder's own level vector
    is sorted in place before validation, also when an error is returned. *)
Definition db_build (b : defense_builder) : defense_builder * result defense :=
  match db_levels b with
  | [] => (b, Err LevelEmpty)
  | _ :: _ =>
      let ls := sort_levels (db_levels b) in
      let b' := DefenseBuilder ls in
      if has_zero_factor ls then (b', Err DifficultyFactorZero)
      else if has_decrease ls then (b', Err DecreaseingDifficultyFactor)
      else (b', Ok (Defense ls 0))
  end.

(** defense.rs:171-175 [From<Defense> for Vec<Level>]. *)
Definition defense_into_levels (d : defense) : list level := d_levels d.

(** defense.rs:215-217 [Defense::current_level]. *)
Definition current_level (d : defense) : outcome level :=
  vindex (d_levels d) (d_current d).

(** defense.rs:185-187 [Defense::get_difficulty]. *)
Definition get_difficulty (d : defense) : outcome N :=
  olet l := vindex (d_levels d) (d_current d) in Val (difficulty_factor l).

(** defense.rs:220-222 [Defense::visitor_threshold] (returns the difficulty
    factor, as the code does). *)
Definition defense_visitor_threshold (d : defense) : outcome N :=
  olet l := vindex (d_levels d) (d_current d) in Val (difficulty_factor l).

(** defense.rs:191-195 [Defense::tighten_up]. *)
Definition tighten_up (p : profile) (d : defense) : outcome defense :=
  olet last := usize_sub p (vlen (d_levels d)) 1 in
  if d_current d <? last
  then olet c := usize_add p (d_current d) 1 in Val (Defense (d_levels d) c)
  else Val d.

(** defense.rs:198-202 [Defense::loosen_up]. *)
Definition loosen_up (d : defense) : defense :=
  if 0 <? d_current d then Defense (d_levels d) (d_current d - 1) else d.

(** defense.rs:205-207 [Defense::max_defense]. *)
Definition max_defense (p : profile) (d : defense) : outcome defense :=
  olet last := usize_sub p (vlen (d_levels d)) 1 in
  Val (Defense (d_levels d) last).

(** defense.rs:210-212 [Defense::min_defense]. *)
Definition min_defense (d : defense) : defense := Defense (d_levels d) 0.

(** defense.rs:80-84 and 178-182: the documented difficulty formula
    [u128::max_value() - u128::max_value() / difficulty_factor]; division by
    zero panics. *)
Definition u128_max : N := 340282366920938463463374607431768211455.
Definition documented_difficulty (factor : N) : outcome N :=
  if factor =? 0 then Panic else Val (u128_max - u128_max / factor).

(** Call histories of the three APIs above. The methods called are those of defense.rs:72-106, 122-160, 185-222.
    *)
Inductive lb_call := LBThreshold (v : N) | LBFactor (d : N).
Definition lb_apply (b : level_builder) (c : lb_call) : level_builder :=
  match c with
  | LBThreshold v => lb_set_visitor_threshold b v
  | LBFactor d => fst (lb_set_difficulty_factor b d)
  end.
Definition lb_run (cs : list lb_call) : level_builder := fold_left lb_apply cs lb_default.

(** defense.rs:122-160, as above. *)
Inductive db_call := DBAdd (l : level) | DBBuild.
Definition db_apply (b : defense_builder) (c : db_call) : defense_builder :=
  match c with
  | DBAdd l => fst (db_add_level b l)
  | DBBuild => fst (db_build b)
  end.
Definition db_run (cs : list db_call) : defense_builder := fold_left db_apply cs db_default.

(** defense.rs:185-222, as above. *)
Inductive d_call := DTighten | DLoosen | DMax | DMin.
Definition d_apply (p : profile) (d : defense) (c : d_call) : outcome defense :=
  match c with
  | DTighten => tighten_up p d
  | DLoosen => Val (loosen_up d)
  | DMax => max_defense p d
  | DMin => Val (min_defense d)
  end.
Fixpoint d_run (p : profile) (d : defense) (cs : list d_call) : outcome defense :=
  match cs with
  | [] => Val d
  | c :: r => olet d' := d_apply p d c in d_run p d' r
  end.
