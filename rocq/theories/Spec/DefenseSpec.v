(** Specification vocabulary for defense.rs: what a call history *means*.
    Uses only the data types of the model, none of its functions. *)
From Coq Require Import Sorted.
From Verif Require Import Model.Base Model.Defense.

(** The last value satisfying a test in a list of optional values. *)
Definition last_some {A B} (f : A -> option B) (cs : list A) : option B :=
  last (omap f cs).

(** The threshold last set / the non-zero factor last set by a call history. *)
Definition threshold_set (cs : list lb_call) : option N :=
  last_some (fun c => match c with LBThreshold v => Some v | _ => None end) cs.
Definition factor_set (cs : list lb_call) : option N :=
  last_some (fun c => match c with
                      | LBFactor d => if N.eqb d 0 then None else Some d
                      | _ => None end) cs.

(** Levels offered to a DefenseBuilder, in order. *)
Definition offered (cs : list db_call) : list level :=
  omap (fun c => match c with DBAdd l => Some l | DBBuild => None end) cs.

(** [l] is the first level offered for its threshold. *)
Definition first_offered (ls : list level) (l : level) : Prop :=
  exists pre post, ls = pre ++ l :: post /\
    (forall x, x ∈ pre -> visitor_threshold x <> visitor_threshold l).

(** Strictly ascending thresholds / non-decreasing factors along a ladder. *)
Definition ascending (ls : list level) : Prop :=
  StronglySorted (fun a b => visitor_threshold a < visitor_threshold b) ls.
Definition factors_nondecreasing (ls : list level) : Prop :=
  StronglySorted (fun a b => difficulty_factor a <= difficulty_factor b) ls.

(** The fields of [Level] are u32. *)
Definition u32_level (l : level) : Prop :=
  visitor_threshold l <= u32_max /\ difficulty_factor l <= u32_max.

(** The ladder position after navigation calls, on a ladder of [n] levels. *)
Definition nav1 (n pos : nat) (c : d_call) : nat :=
  match c with
  | DTighten => Nat.min (pos + 1) (n - 1)
  | DLoosen => pos - 1
  | DMax => n - 1
  | DMin => 0
  end%nat.
Definition nav (n : nat) (cs : list d_call) : nat := fold_left (nav1 n) cs 0%nat.

(** Values obtainable through the public API (levels are u32). *)
Definition buildable (d : defense) : Prop :=
  exists cs, Forall u32_level (offered cs) /\ snd (db_build (db_run cs)) = Ok d.
Definition reachable_defense (p : profile) (d : defense) : Prop :=
  exists d0 cs, buildable d0 /\ d_run p d0 cs = Val d.
