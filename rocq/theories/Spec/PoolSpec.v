(** Specification vocabulary for several [System]s on one in-memory cache:
    histories only. *)
From Verif Require Import Model.Base Model.MCaptcha Model.HashCache Model.Pow Model.System Model.SystemProgram
  Model.SystemPool Spec.CacheSpec Spec.ProgramSpec.

(** What the cache sees, and what it answers. *)
Definition cache_seen (o : plout) : option (cache_event * option cache_reply) :=
  match o with
  | LoDid _ e => match cache_talk e with Some (m, Some r) => Some (HeMsg m, Some r) | _ => None end
  | LoLate _ m r | LoOther m r => Some (HeMsg m, Some r)
  | LoExpire due d => Some (HeExpire due d, None)
  | LoTick d => Some (HeTick d, None)
  | _ => None
  end.
Definition pool_cache (tr : list plout) : list (cache_event * option cache_reply) := omap cache_seen tr.
Definition pool_clock (t : N) (tr : list plout) : N := cache_clock t (pool_cache tr).*1.

(** The requests call [n] made, with their answers. *)
Definition pl_requests (n : nat) (tr : list plout) : list pev :=
  omap (fun o => match o with LoDid n' e => if decide (n = n') then Some e else None | _ => None end) tr.

(** Only the Systems put challenges and tokens into the cache (others may still
    take them, check them and delete them). *)
Definition no_forging (tr : list plout) : Prop :=
  forall m r, LoOther m r ∈ tr ->
    match m with HmCachePoW _ | HmCacheResult _ => False | _ => True end.

(** An observation is that call [n] stores challenge or token [m] (perhaps after
    its future was dropped). *)
Definition pl_issues (o : plout) : option (nat * cache_pow) :=
  match o with
  | LoDid n (PeCachePoW m (An _)) | LoLate n (HmCachePoW m) _ => Some (n, m)
  | _ => None
  end.
Definition pl_stores (o : plout) : option (nat * cache_result) :=
  match o with
  | LoDid n (PeCacheResult m (An _)) | LoLate n (HmCacheResult m) _ => Some (n, m)
  | _ => None
  end.
(** Calls, on whichever System, that stored challenge [x], that were given it, that
    stored token [t], that were told that [t] is good. *)
Definition pl_issuers (x : string) (tr : list plout) : list nat :=
  omap (fun o => match pl_issues o with Some (n, m) => if decide (cp_string m = x) then Some n else None | None => None end) tr.
Definition pl_consumers (x : string) (tr : list plout) : list nat :=
  omap (fun o => match o with
    | LoDid n (PeRetrieve m (An (Ok (Some _)))) => if decide (vr_token m = x) then Some n else None
    | _ => None end) tr.
Definition pl_minters (t : string) (tr : list plout) : list nat :=
  omap (fun o => match pl_stores o with Some (n, m) => if decide (cr_token m = t) then Some n else None | None => None end) tr.
Definition pl_acceptors (t : string) (tr : list plout) : list nat :=
  omap (fun o => match o with
    | LoDid n (PeVerify m (An (Ok true))) => if decide (vr_token m = t) then Some n else None
    | _ => None end) tr.

(** Call [n] of verify_pow ended with [r] because the cache was gone, the queue did
    not take the work, or the work was lost with its runner. *)
Definition pl_setback (n : nat) (tr : list plout) (r : ret) : Prop :=
  (exists m a e, LoDid n (PeRetrieve m a) ∈ tr /\ unanswered a /\ failed a e /\ r = RVerifyPow (Err e)) \/
  (exists ip q a, LoDid n (PeSubmit ip q a) ∈ tr /\
     ((a = SuPanic /\ r = RPanic) \/ exists e, a = SuDone (Err e) /\ r = RVerifyPow (Err e))) \/
  (exists q, LoDid n (PeVerdict q None) ∈ tr /\ r = RVerifyPow (Err InsuffiencientDifficulty)) \/
  (exists m a e, LoDid n (PeCacheResult m a) ∈ tr /\ unanswered a /\ failed a e /\ r = RVerifyPow (Err e)).

(** After the observed [tr], no expiry that is due is outstanding. *)
Definition expiries_done (t : N) (tr : list plout) : Prop :=
  exists h os, cache_run (cache_start t) (pool_cache tr).*1 = Some (h, os) /\ nothing_overdue h.
