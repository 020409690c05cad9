(** Specification vocabulary for honest visitors of [System]s on one Redis: what,
    other than their work, can go wrong. *)
From Verif Require Import Model.Base Model.HashCache Model.Pow Model.System Model.Redis Model.RedisActor Model.RedisTokens
  Model.SystemProgram Model.SystemShared Spec.RedisSpec Spec.ProgramSpec Spec.SharedSpec.

(** Call [n] of verify_pow ended with [r] because Redis did not hand the challenge
    out, the queue did not take the work, the work was lost with its runner, or
    Redis did not take the token. *)
Definition setback (n : nat) (tr : list shout) (r : ret) : Prop :=
  (exists t m a f e, XoDid n t (PeRetrieve m a) f ∈ tr /\ failed a e /\ r = RVerifyPow (Err e)) \/
  (exists t ip q a f, XoDid n t (PeSubmit ip q a) f ∈ tr /\
     ((a = SuPanic /\ r = RPanic) \/ exists e, a = SuDone (Err e) /\ r = RVerifyPow (Err e))) \/
  (exists t q f, XoDid n t (PeVerdict q None) f ∈ tr /\ r = RVerifyPow (Err InsuffiencientDifficulty)) \/
  (exists t m a f e, XoDid n t (PeCacheResult m a) f ∈ tr /\ failed a e /\ r = RVerifyPow (Err e)).

(** Somebody checks or removes what Redis keeps under key [k]. *)
Definition takes (k : string) (te : token_event) : Prop :=
  te_fate te <> NotSent /\ token_key (about (te_call te)).1 (about (te_call te)).2 = k /\
  forall m, te_call te <> TkAdd m.
