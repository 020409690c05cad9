(** What users of errors and of message builders rely on. *)
From Verif Require Import Model.Base Model.Defense Model.MCaptcha Model.HashCache Model.Builders.

(** Text that comes from outside the library. *)
Definition foreign (e : captcha_error) : Prop := exists s, e = RedisError s.

(** [v] was given in some call, and not replaced in a later one: [get] picks the
    value a call gives to the field in question. *)
Definition given {C A} (get : C -> option A) (cs : list C) (v : A) : Prop :=
  exists pre c post, cs = pre ++ c :: post /\ get c = Some v /\ forall c', c' ∈ post -> get c' = None.
Definition never_given {C A} (get : C -> option A) (cs : list C) : Prop :=
  forall c, c ∈ cs -> get c = None.

Definition pow_string c := match c with PbString s => Some s | _ => None end.
Definition pow_difficulty c := match c with PbDifficulty n => Some n | _ => None end.
Definition pow_duration c := match c with PbDuration n => Some n | _ => None end.
Definition pow_key c := match c with PbKey s => Some s | _ => None end.
Definition res_token c := match c with RbToken s => Some s | _ => None end.
Definition res_key c := match c with RbKey s => Some s | _ => None end.
Definition res_duration c := match c with RbDuration n => Some n | _ => None end.
Definition add_id c := match c with AbId s => Some s | _ => None end.
Definition add_mcaptcha c := match c with AbMcaptcha m => Some m | _ => None end.
Definition ren_name c := match c with NbName s => Some s | _ => None end.
Definition ren_to c := match c with NbRenameTo s => Some s | _ => None end.
