(** One history of uses of tokens, on the in-memory cache and on Redis. *)
From Verif Require Import Model.Base Model.HashCache Model.RedisTokens Spec.CacheSpec.

(** A token is stored or checked; with the time in milliseconds. *)
Inductive use := Store (m : cache_result) | Check (m : verify_captcha_result).
Notation uses := (list (N * use)).
(** The calls on Redis, all of them answered. *)
Definition on_redis (h : uses) : list token_event :=
  (fun x => TokenEvent x.1 (match x.2 with Store m => TkAdd m | Check m => TkGet m end) Answered) <$> h.
(** The uses in an execution of the in-memory cache, with the times (ns). *)
Fixpoint uses_in (t : N) (es : list cache_event) : list (N * use) :=
  match es with
  | [] => []
  | HeTick d :: r => uses_in (t + d) r
  | HeMsg (HmCacheResult m) :: r => (t, Store m) :: uses_in t r
  | HeMsg (HmVerifyCaptchaResult m) :: r => (t, Check m) :: uses_in t r
  | _ :: r => uses_in t r
  end.
Definition in_memory (h : uses) : list (N * use) := (fun x => (x.1 * 1000000, x.2)) <$> h.
(** Nobody sends the expiry message by hand. *)
Definition by_hand (e : cache_event) : Prop :=
  match e with HeMsg (HmDelete (DeleteCaptchaResult _)) => True | _ => False end.

(** No token is given out twice. *)
Definition fresh_tokens (h : uses) : Prop :=
  forall i j n n' m m', h !! i = Some (n, Store m) -> h !! j = Some (n', Store m') -> cr_token m = cr_token m' -> i = j.
(** Tokens are checked for the site they were stored for. *)
Definition right_sites (h : uses) : Prop :=
  forall n m n' c, (n, Store m) ∈ h -> (n', Check c) ∈ h -> vr_token c = cr_token m -> vr_key c = cr_key m.
