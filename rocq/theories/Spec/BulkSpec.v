(** Specification vocabulary for challenges and tokens obtained in bulk: which
    calls belong to which registration, and when they happened. *)
From Verif Require Import Model.Base Model.Defense Model.MCaptcha Model.Counter Model.Master
  Model.HashCache Model.Queue Model.Pow Model.System
  Spec.CounterSpec Spec.CacheSpec Spec.MasterSpec Spec.SystemSpec.

(** The time after the observations [tr] of a System started at [t]. *)
Fixpoint ticks (es : list mevent) : N :=
  match es with
  | [] => 0
  | MeTick d :: r => d + ticks r
  | _ :: r => ticks r
  end.
Definition clock (t : N) (tr : list sout) : N := t + ticks (mtrace tr).

(** Client [n]'s get_pow asked for registration [c] no earlier than [t1] and had
    challenge [m] cached before [t2]. *)
Definition issued (t : N) (tr : list sout) (c : nat) (t1 t2 : N) (n : nat) (m : cache_pow) : Prop :=
  exists tr1 id os tr2 r tr3,
    tr = tr1 ++ SoMaster (Some n) (MeReq (RqAddVisitor id)) os :: tr2 ++
         SoCache (Some n) (HeMsg (HmCachePoW m)) r :: tr3 /\
    bound (hist (mouts tr1)) id = Some c /\
    t1 <= clock t tr1 /\ clock t (tr1 ++ SoMaster (Some n) (MeReq (RqAddVisitor id)) os :: tr2) < t2.

(** Client [n] took from the cache the challenge [m] client [n0] had put there. *)
Definition solves (tr : list sout) (n0 : nat) (m : cache_pow) (n : nat) : Prop :=
  exists r0 tr1 tr2 m' c tr3,
    tr = tr1 ++ SoCache (Some n0) (HeMsg (HmCachePoW m)) r0 :: tr2 ++
         SoCache (Some n) (HeMsg (HmRetrivePoW m')) (Some (HrPoW (Ok (Some c)))) :: tr3 /\
    vr_token m' = cp_string m /\ Forall (fun e => about_challenge (cp_string m) e = None) (ctrace tr2).*1.
(** Client [n]'s validation was answered true for the token [m] client [n1] had
    put into the cache. *)
Definition presents (tr : list sout) (n1 : nat) (m : cache_result) (n : nat) : Prop :=
  exists r1 tr1 tr2 m' tr3,
    tr = tr1 ++ SoCache (Some n1) (HeMsg (HmCacheResult m)) r1 :: tr2 ++
         SoCache (Some n) (HeMsg (HmVerifyCaptchaResult m')) (Some (HrBool (Ok true))) :: tr3 /\
    vr_token m' = cr_token m /\ Forall (fun e => about_token (cr_token m) e = None) (ctrace tr2).*1.
