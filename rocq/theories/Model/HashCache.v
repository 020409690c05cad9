(** Model of /repo/src/cache/hashcache.rs and of the messages in
    /repo/src/cache/mod.rs. *)
From Verif Require Import Model.Base.

(** cache/mod.rs:60-69 [CachePoW]. *)
Record cache_pow := CachePoW {
  cp_string : string; cp_difficulty_factor : N; cp_duration : N; cp_key : string }.
(** cache/mod.rs:78-83 [CachedPoWConfig]. *)
Record cached_pow := CachedPoWConfig {
  cc_key : string; cc_difficulty_factor : N; cc_duration : N }.
(** cache/mod.rs:95-100 [CacheResult]. *)
Record cache_result := CacheResult {
  cr_token : string; cr_key : string; cr_duration : N }.
(** cache/mod.rs:119-122 [VerifyCaptchaResult]. *)
Record verify_captcha_result := VerifyCaptchaResult { vr_token : string; vr_key : string }.
Global Instance cache_pow_eq_dec : EqDecision cache_pow.
Proof. solve_decision. Defined.
Global Instance cached_pow_eq_dec : EqDecision cached_pow.
Proof. solve_decision. Defined.
Global Instance cache_result_eq_dec : EqDecision cache_result.
Proof. solve_decision. Defined.
Global Instance verify_captcha_result_eq_dec : EqDecision verify_captcha_result.
Proof. solve_decision. Defined.

(** cache/mod.rs:102-113 [From<CachedPoWConfig> for CacheResult]; the token is
    [get_random(32)], passed in by the environment. *)
Definition cached_into_result (c : cached_pow) (token : string) : cache_result :=
  CacheResult token (cc_key c) (cc_duration c).

(** cache/mod.rs:89, 127-129: the two deletion messages (also sent by the
    expiry timers). *)
Inductive deletion := DeletePoW (s : string) | DeleteCaptchaResult (token : string).
Global Instance deletion_eq_dec : EqDecision deletion.
Proof. solve_decision. Defined.

(** cache/mod.rs:57-129: the public messages. *)
Inductive cache_msg :=
| HmCachePoW (m : cache_pow)
| HmRetrivePoW (m : verify_captcha_result)
| HmCacheResult (m : cache_result)
| HmVerifyCaptchaResult (m : verify_captcha_result)
| HmDelete (d : deletion).
Global Instance cache_msg_eq_dec : EqDecision cache_msg.
Proof. solve_decision. Defined.
Inductive cache_reply :=
| HrUnit (r : result unit)
| HrPoW (r : result (option cached_pow))
| HrBool (r : result bool).
Global Instance cache_reply_eq_dec : EqDecision cache_reply.
Proof. solve_decision. Defined.

(** hashcache.rs:29-33 [HashCache], plus the sleeping futures of the running
    actor: earliest wake-up time and the deletion message to send. *)
Record hashcache := HashCache {
  hc_difficulty_map : gmap string cached_pow;
  hc_result_map : gmap string string;
  hc_timers : list (N * deletion) }.

(** hashcache.rs:28 [Default]. *)
Definition hc_default : hashcache := HashCache ∅ ∅ [].

(** hashcache.rs:36-47 [save_pow_config]. *)
Definition save_pow_config (h : hashcache) (m : cache_pow) : hashcache * result unit :=
  (HashCache
     (<[cp_string m := CachedPoWConfig (cp_key m) (cp_difficulty_factor m) (cp_duration m)]>
        (hc_difficulty_map h))
     (hc_result_map h) (hc_timers h), Ok tt).

(** hashcache.rs:61-64 [remove_pow_config]. *)
Definition remove_pow_config (h : hashcache) (s : string) : hashcache * option cached_pow :=
  (HashCache (delete s (hc_difficulty_map h)) (hc_result_map h) (hc_timers h),
   hc_difficulty_map h !! s).

(** hashcache.rs:49-59 [retrive_pow_config]; the key in the message is ignored. *)
Definition retrive_pow_config (h : hashcache) (m : verify_captcha_result)
  : hashcache * result (option cached_pow) :=
  let '(h', r) := remove_pow_config h (vr_token m) in
  match r with Some c => (h', Ok (Some c)) | None => (h', Ok None) end.

(** hashcache.rs:66-70 [save_captcha_result]. *)
Definition save_captcha_result (h : hashcache) (m : cache_result) : hashcache * result unit :=
  (HashCache (hc_difficulty_map h) (<[cr_token m := cr_key m]> (hc_result_map h)) (hc_timers h),
   Ok tt).

(** hashcache.rs:85-88 [remove_cache_result]. *)
Definition remove_cache_result (h : hashcache) (s : string) : hashcache * option string :=
  (HashCache (hc_difficulty_map h) (delete s (hc_result_map h)) (hc_timers h),
   hc_result_map h !! s).

(** hashcache.rs:72-83 [verify_captcha_result]. *)
Definition verify_result (h : hashcache) (m : verify_captcha_result) : hashcache * result bool :=
  let '(h', r) := remove_cache_result h (vr_token m) in
  match r with
  | Some captcha_id => if decide (captcha_id = vr_key m) then (h', Ok true) else (h', Ok false)
  | None => (h', Ok false)
  end.

(** [ctx.spawn(async { sleep(Duration::new(secs,0)).await; addr.send(d) })]. *)
Definition hc_spawn (now : N) (h : hashcache) (secs : N) (d : deletion) : hashcache :=
  HashCache (hc_difficulty_map h) (hc_result_map h) (hc_timers h ++ [(now + secs * NS, d)]).

(** hashcache.rs:123-129, 170-176: handling of deletion messages. *)
Definition hc_delete (h : hashcache) (d : deletion) : hashcache :=
  match d with
  | DeletePoW s => fst (remove_pow_config h s)
  | DeleteCaptchaResult t => fst (remove_cache_result h t)
  end.

(** hashcache.rs:97-187: the handlers. The oneshot reply is sent before the
    receiver is handed out, so its unwrap cannot fail. *)
Definition hc_handle (now : N) (h : hashcache) (msg : cache_msg) : hashcache * cache_reply :=
  match msg with
  | HmCachePoW m =>
      let h1 := hc_spawn now h (cp_duration m) (DeletePoW (cp_string m)) in
      let '(h2, r) := save_pow_config h1 m in (h2, HrUnit r)
  | HmRetrivePoW m => let '(h1, r) := retrive_pow_config h m in (h1, HrPoW r)
  | HmCacheResult m =>
      let h1 := hc_spawn now h (cr_duration m) (DeleteCaptchaResult (cr_token m)) in
      let '(h2, r) := save_captcha_result h1 m in (h2, HrUnit r)
  | HmVerifyCaptchaResult m => let '(h1, r) := verify_result h m in (h1, HrBool r)
  | HmDelete d => (hc_delete h d, HrUnit (Ok tt))
  end.

(** The futures spawned in hashcache.rs:115, 162 as a list; taking one out of it is bookkeeping of the model. *)
Fixpoint remove_first (x : N * deletion) (ts : list (N * deletion)) : list (N * deletion) :=
  match ts with
  | [] => []
  | y :: r => if decide (x = y) then r else y :: remove_first x r
  end.

(** A sleeping future with wake-up time [due <= now] delivers its message. hashcache.rs:109-114, 156-161. *)
Definition hc_expire (now : N) (h : hashcache) (due : N) (d : deletion) : option hashcache :=
  if decide ((due, d) ∈ hc_timers h) then
    if due <=? now
    then Some (hc_delete (HashCache (hc_difficulty_map h) (hc_result_map h)
                            (remove_first (due, d) (hc_timers h))) d)
    else None
  else None.

(** The cache with a clock under an arbitrary environment. The messages are those of hashcache.rs:97-188; clock
    and schedule are the environment. *)
Record cache_sys := CacheSys { hs_now : N; hs_cache : hashcache }.
Inductive cache_event :=
| HeMsg (m : cache_msg)
| HeTick (d : N)
| HeExpire (due : N) (d : deletion).
Global Instance cache_event_eq_dec : EqDecision cache_event.
Proof. solve_decision. Defined.
Definition cache_step (s : cache_sys) (e : cache_event) : option (cache_sys * option cache_reply) :=
  match e with
  | HeMsg m => let '(h, r) := hc_handle (hs_now s) (hs_cache s) m in
               Some (CacheSys (hs_now s) h, Some r)
  | HeTick d => Some (CacheSys (hs_now s + d) (hs_cache s), None)
  | HeExpire due d =>
      match hc_expire (hs_now s) (hs_cache s) due d with
      | Some h => Some (CacheSys (hs_now s) h, None)
      | None => None
      end
  end.
Fixpoint cache_run (s : cache_sys) (es : list cache_event)
  : option (cache_sys * list (option cache_reply)) :=
  match es with
  | [] => Some (s, [])
  | e :: r =>
      match cache_step s e with
      | None => None
      | Some (s1, o) =>
          match cache_run s1 r with
          | None => None
          | Some (s2, os) => Some (s2, o :: os)
          end
      end
  end.
Definition cache_start (t : N) : cache_sys := CacheSys t hc_default.
