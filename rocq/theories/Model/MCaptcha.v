(** Model of /repo/src/mcaptcha.rs and of AddVisitorResult / CreateMCaptcha in
    /repo/src/master/mod.rs. *)
From Verif Require Import Model.Base Model.Defense.

(** mcaptcha.rs:74-79 [MCaptcha]; [m_visitors] is the field
    [visitor_threshold] (the current visitor count). *)
Record mcaptcha := MCaptcha {
  m_visitors : N;
  m_defense : defense;
  m_duration : N }.
Global Instance mcaptcha_eq_dec : EqDecision mcaptcha.
Proof. solve_decision. Defined.

(** mcaptcha.rs:25-30 [MCaptchaBuilder]. *)
Record mcaptcha_builder := MCaptchaBuilder {
  mb_visitors : N;
  mb_defense : option defense;
  mb_duration : option N }.

(** mcaptcha.rs:32-40. *)
Definition mb_default : mcaptcha_builder := MCaptchaBuilder 0 None None.

(** mcaptcha.rs:44-47 [defense]. *)
Definition mb_set_defense (b : mcaptcha_builder) (d : defense) : mcaptcha_builder :=
  MCaptchaBuilder (mb_visitors b) (Some d) (mb_duration b).

(** mcaptcha.rs:50-53 [duration]. *)
Definition mb_set_duration (b : mcaptcha_builder) (d : N) : mcaptcha_builder :=
  MCaptchaBuilder (mb_visitors b) (mb_defense b) (Some d).

(** mcaptcha.rs:56-71 [build]; [self.duration <= Some(0)] with a duration that
    is not None is [duration <= 0]. *)
Definition mb_build (b : mcaptcha_builder) : result mcaptcha :=
  match mb_duration b with
  | None => Err (PleaseSetValue "duration")
  | Some dur =>
      match mb_defense b with
      | None => Err (PleaseSetValue "defense")
      | Some def =>
          if dur <=? 0 then Err CaptchaDurationZero
          else Ok (MCaptcha (mb_visitors b) def dur)
      end
  end.

(** mcaptcha.rs:93-101 [add_visitor]. *)
Definition add_visitor (p : profile) (m : mcaptcha) : outcome mcaptcha :=
  olet v := u32_add p (m_visitors m) 1 in
  olet l := current_level (m_defense m) in
  if visitor_threshold l <? v
  then olet d := tighten_up p (m_defense m) in Val (MCaptcha v d (m_duration m))
  else Val (MCaptcha v (loosen_up (m_defense m)) (m_duration m)).

(** mcaptcha.rs:105-113 [decrement_visitor_by]. *)
Definition decrement_visitor_by (m : mcaptcha) (count : N) : mcaptcha :=
  if 0 <? m_visitors m then
    if count <=? m_visitors m
    then MCaptcha (m_visitors m - count) (m_defense m) (m_duration m)
    else MCaptcha 0 (m_defense m) (m_duration m)
  else m.

(** mcaptcha.rs:117-119, 123-125, 129-131, 135-137: getters. *)
Definition m_get_difficulty (m : mcaptcha) : outcome N := get_difficulty (m_defense m).
Definition m_get_duration (m : mcaptcha) : N := m_duration m.
Definition m_get_visitors (m : mcaptcha) : N := m_visitors m.
Definition m_get_defense (m : mcaptcha) : defense := m_defense m.

(** master/mod.rs:45-48 [CreateMCaptcha] and mcaptcha.rs:81-88 the conversion. *)
Record create_mcaptcha := CreateMCaptcha { cm_levels : list level; cm_duration : N }.
Definition mcaptcha_into_create (m : mcaptcha) : create_mcaptcha :=
  CreateMCaptcha (defense_into_levels (m_defense m)) (m_duration m).

(** master/mod.rs:54-67 [AddVisitorResult] and its constructor. *)
Record add_visitor_result := AddVisitorResult {
  avr_duration : N; avr_difficulty_factor : N }.
Global Instance add_visitor_result_eq_dec : EqDecision add_visitor_result.
Proof. solve_decision. Defined.
Definition avr_new (m : mcaptcha) : outcome add_visitor_result :=
  olet d := m_get_difficulty m in Val (AddVisitorResult (m_get_duration m) d).

(** Call histories. The methods called are those of mcaptcha.rs:50-138. *)
Inductive mb_call := MBDefense (d : defense) | MBDuration (n : N).
Definition mb_apply (b : mcaptcha_builder) (c : mb_call) : mcaptcha_builder :=
  match c with
  | MBDefense d => mb_set_defense b d
  | MBDuration n => mb_set_duration b n
  end.
Definition mb_run (cs : list mb_call) : mcaptcha_builder := fold_left mb_apply cs mb_default.

(** As above; methods of mcaptcha.rs. *)
Inductive m_call := MAdd | MDec (n : N).
Definition m_apply (p : profile) (m : mcaptcha) (c : m_call) : outcome mcaptcha :=
  match c with
  | MAdd => add_visitor p m
  | MDec n => Val (decrement_visitor_by m n)
  end.
Fixpoint m_run (p : profile) (m : mcaptcha) (cs : list m_call) : outcome mcaptcha :=
  match cs with
  | [] => Val m
  | c :: r => olet m' := m_apply p m c in m_run p m' r
  end.
