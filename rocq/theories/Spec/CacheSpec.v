(** Specification vocabulary for the in-memory cache: histories. *)
From Verif Require Import Model.Base Model.HashCache.

(** What one event means for challenge [s]: [None] nothing, [Some None] the
    challenge is gone, [Some (Some c)] it is now stored with parameters [c]. *)
Definition about_challenge (s : string) (e : cache_event) : option (option cached_pow) :=
  match e with
  | HeMsg (HmCachePoW m) =>
      if decide (cp_string m = s)
      then Some (Some (CachedPoWConfig (cp_key m) (cp_difficulty_factor m) (cp_duration m)))
      else None
  | HeMsg (HmRetrivePoW m) => if decide (vr_token m = s) then Some None else None
  | HeMsg (HmDelete (DeletePoW x)) | HeExpire _ (DeletePoW x) =>
      if decide (x = s) then Some None else None
  | _ => None
  end.

(** What one event means for token [t]; the stored value is the site key. *)
Definition about_token (t : string) (e : cache_event) : option (option string) :=
  match e with
  | HeMsg (HmCacheResult m) => if decide (cr_token m = t) then Some (Some (cr_key m)) else None
  | HeMsg (HmVerifyCaptchaResult m) => if decide (vr_token m = t) then Some None else None
  | HeMsg (HmDelete (DeleteCaptchaResult x)) | HeExpire _ (DeleteCaptchaResult x) =>
      if decide (x = t) then Some None else None
  | _ => None
  end.

(** The state a history leaves behind: the meaning of its last relevant event. *)
Definition stored {V} (about : cache_event -> option (option V)) (es : list cache_event) : option V :=
  match last (omap about es) with Some v => v | None => None end.

(** Clock at the end of a history. *)
Fixpoint cache_clock (t : N) (es : list cache_event) : N :=
  match es with
  | [] => t
  | HeTick d :: r => cache_clock (t + d) r
  | _ :: r => cache_clock t r
  end.

(** No expiry may be delivered now. *)
Definition nothing_overdue (s : cache_sys) : Prop :=
  forall due d, cache_step s (HeExpire due d) = None.

(** What RetrivePoW and VerifyCaptchaResult answer in a state. *)
Definition retrieves (s : cache_sys) (token key : string) (r : option cached_pow) : Prop :=
  exists s', cache_step s (HeMsg (HmRetrivePoW (VerifyCaptchaResult token key))) =
             Some (s', Some (HrPoW (Ok r))).
Definition validates (s : cache_sys) (token key : string) (b : bool) : Prop :=
  exists s', cache_step s (HeMsg (HmVerifyCaptchaResult (VerifyCaptchaResult token key))) =
             Some (s', Some (HrBool (Ok b))).

(** Events that create or remove challenge [s] / token [t] by a message (not by
    expiry). *)
Definition touches_challenge (s : string) (e : cache_event) : Prop :=
  match e with
  | HeMsg (HmCachePoW m) => cp_string m = s
  | HeMsg (HmRetrivePoW m) => vr_token m = s
  | HeMsg (HmDelete (DeletePoW x)) => x = s
  | _ => False
  end.
Definition touches_token (t : string) (e : cache_event) : Prop :=
  match e with
  | HeMsg (HmCacheResult m) => cr_token m = t
  | HeMsg (HmVerifyCaptchaResult m) => vr_token m = t
  | HeMsg (HmDelete (DeleteCaptchaResult x)) => x = t
  | _ => False
  end.
(** Events that cache challenge [s] / token [t]. *)
Definition caches_challenge (s : string) (e : cache_event) : Prop :=
  match e with HeMsg (HmCachePoW m) => cp_string m = s | _ => False end.
Definition caches_token (t : string) (e : cache_event) : Prop :=
  match e with HeMsg (HmCacheResult m) => cr_token m = t | _ => False end.

(** What an event after the history [es] is answered with. *)
Definition cache_answer (es : list cache_event) (e : cache_event) : option cache_reply :=
  match e with
  | HeMsg (HmCachePoW _) | HeMsg (HmCacheResult _) | HeMsg (HmDelete _) => Some (HrUnit (Ok tt))
  | HeMsg (HmRetrivePoW m) => Some (HrPoW (Ok (stored (about_challenge (vr_token m)) es)))
  | HeMsg (HmVerifyCaptchaResult m) =>
      Some (HrBool (Ok (bool_decide (stored (about_token (vr_token m)) es = Some (vr_key m)))))
  | HeTick _ | HeExpire _ _ => None
  end.

Definition subject (e : cache_event) : option (bool * string) :=
  match e with
  | HeMsg (HmCachePoW m) => Some (true, cp_string m)
  | HeMsg (HmRetrivePoW m) => Some (true, vr_token m)
  | HeMsg (HmDelete (DeletePoW x)) | HeExpire _ (DeletePoW x) => Some (true, x)
  | HeMsg (HmCacheResult m) => Some (false, cr_token m)
  | HeMsg (HmVerifyCaptchaResult m) => Some (false, vr_token m)
  | HeMsg (HmDelete (DeleteCaptchaResult x)) | HeExpire _ (DeleteCaptchaResult x) => Some (false, x)
  | HeTick _ => None
  end.
