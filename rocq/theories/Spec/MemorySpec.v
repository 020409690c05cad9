(** Specification vocabulary for C111: what is left in memory. *)
From Verif Require Import Model.Base Model.HashCache.

(** When the entries a cache history has stored are to be forgotten: one
    deadline per storing message, in the order of the messages. *)
Fixpoint deadlines (t : N) (es : list cache_event) : list (N * deletion) :=
  match es with
  | [] => []
  | HeTick d :: r => deadlines (t + d) r
  | HeMsg (HmCachePoW m) :: r => (t + cp_duration m * NS, DeletePoW (cp_string m)) :: deadlines t r
  | HeMsg (HmCacheResult m) :: r =>
      (t + cr_duration m * NS, DeleteCaptchaResult (cr_token m)) :: deadlines t r
  | _ :: r => deadlines t r
  end.

(** Those that still lie ahead. *)
Definition ahead (now : N) (l : list (N * deletion)) : list (N * deletion) :=
  filter (fun x => now < x.1) l.

(** Those of challenges, and those of tokens. *)
Definition of_challenges (l : list (N * deletion)) : list string :=
  omap (fun x => match x.2 with DeletePoW s => Some s | _ => None end) l.
Definition of_tokens (l : list (N * deletion)) : list string :=
  omap (fun x => match x.2 with DeleteCaptchaResult s => Some s | _ => None end) l.
