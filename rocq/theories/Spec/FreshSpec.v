(** Specification for property C108: how old a pass can be. *)
From Verif Require Import Model.Base Model.HashCache Model.System Spec.CacheSpec Spec.SystemSpec.

(** The cache's clock after a trace that started at [t]. *)
Definition clock_after (t : N) (tr : list sout) : N := cache_clock t (ctrace tr).*1.

(** Whenever the cache handles a message, no expiry is overdue. *)
Definition on_time (t : N) (tr : list sout) : Prop :=
  forall tr1 w m r tr2 h os,
    tr = tr1 ++ SoCache w (HeMsg m) r :: tr2 ->
    cache_run (cache_start t) (ctrace tr1).*1 = Some (h, os) -> nothing_overdue h.
