(** Specification vocabulary for mcaptcha.rs. *)
From Verif Require Import Model.Base Model.Defense Model.MCaptcha Spec.DefenseSpec.

(** Values last set by a builder call history. *)
Definition defense_set (cs : list mb_call) : option defense :=
  last_some (fun c => match c with MBDefense d => Some d | _ => None end) cs.
Definition duration_set (cs : list mb_call) : option N :=
  last_some (fun c => match c with MBDuration n => Some n | _ => None end) cs.

(** The visitor count a history should produce (unbounded numbers; [-] on [N]
    is truncated at 0). *)
Definition count1 (v : N) (c : m_call) : N :=
  match c with MAdd => v + 1 | MDec n => v - n end.
Definition count_after (v : N) (cs : list m_call) : N := fold_left count1 cs v.

(** The count fits in a u32 all along. *)
Definition fits (v : N) (cs : list m_call) : Prop :=
  forall pre post, cs = pre ++ post -> count_after v pre <= u32_max.

(** Number of arrivals in a history. *)
Fixpoint arrivals (cs : list m_call) : nat :=
  match cs with
  | [] => 0
  | MAdd :: r => S (arrivals r)
  | MDec _ :: r => arrivals r
  end%nat.

(** Every arrival is counted as visitor number satisfying [P]. *)
Definition at_each_arrival (P : N -> Prop) (v : N) (cs : list m_call) : Prop :=
  forall pre post, cs = pre ++ MAdd :: post -> P (count_after v pre + 1).

(** Number of thresholds strictly below the count [v]. *)
Fixpoint thresholds_below (v : N) (ls : list level) : nat :=
  match ls with
  | [] => 0
  | l :: r => if (visitor_threshold l <? v)%N then S (thresholds_below v r) else thresholds_below v r
  end%nat.

(** MCaptcha values obtainable from the builder: with a Defense fresh from its
    builder, or one that was navigated first. *)
Definition fresh_mcaptcha (m : mcaptcha) : Prop :=
  exists cs d, mb_build (mb_run cs) = Ok m /\ m_defense m = d /\ buildable d.
Definition built_mcaptcha (p : profile) (m : mcaptcha) : Prop :=
  exists cs d, mb_build (mb_run cs) = Ok m /\ m_defense m = d /\ reachable_defense p d.
Definition reachable_mcaptcha (p : profile) (m : mcaptcha) : Prop :=
  exists m0 cs, built_mcaptcha p m0 /\ m_run p m0 cs = Val m.
