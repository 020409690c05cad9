(** Properties C32-C37: the in-memory cache. *)
From Coq Require Import ZifyBool ZifyN ZifyNat Lia.
From Verif Require Import Model.Base Model.HashCache Spec.CacheSpec Proofs.CacheProofs.
From Verif Require Export Proofs.CacheTheorems.

Definition ex_pow : cache_pow := CachePoW "str" 50 30 "site".

Definition ex_res : cache_result := CacheResult "tok" "site" 30.

(** C32 *)
Theorem C32_challenge_exact t es s os token key :
  cache_run (cache_start t) es = Some (s, os) ->
  (forall r, retrieves s token key r <-> r = stored (about_challenge token) es) /\
  (forall c, retrieves s token key (Some c) <->
     exists pre m post, es = pre ++ HeMsg (HmCachePoW m) :: post /\ cp_string m = token /\
       c = CachedPoWConfig (cp_key m) (cp_difficulty_factor m) (cp_duration m) /\
       Forall (fun e => about_challenge token e = None) post).
Proof. exact (@c32_challenge_exact t es s os token key). Qed.
Print Assumptions C32_challenge_exact.

Theorem C32_at_most_once t es s os token key key' s' o post s'' os' :
  cache_run (cache_start t) es = Some (s, os) ->
  cache_step s (HeMsg (HmRetrivePoW (VerifyCaptchaResult token key))) = Some (s', o) ->
  cache_run s' post = Some (s'', os') ->
  Forall (fun e => ¬ caches_challenge token e) post ->
  retrieves s'' token key' None.
Proof. exact (@c32_at_most_once t es s os token key key' s' o post s'' os'). Qed.
Print Assumptions C32_at_most_once.

Example C32_witness :
  (exists s os, cache_run (cache_start 0) [HeMsg (HmCachePoW ex_pow); HeTick 5] = Some (s, os) /\
     retrieves s "str" "anything" (Some (CachedPoWConfig "site" 50 30))) /\
  (exists s os, cache_run (cache_start 0)
       [HeMsg (HmCachePoW ex_pow); HeMsg (HmRetrivePoW (VerifyCaptchaResult "str" "x"))] = Some (s, os) /\
     os = [Some (HrUnit (Ok tt)); Some (HrPoW (Ok (Some (CachedPoWConfig "site" 50 30))))] /\
     retrieves s "str" "site" None).
Proof.
  split; eexists _, _; (split; [reflexivity|]); [by apply retrieves_iff|].
  split; [done|]. by apply retrieves_iff.
Qed.

(** C33 *)
Theorem C33_token_exact t es s os token key :
  cache_run (cache_start t) es = Some (s, os) ->
  (exists b, validates s token key b) /\
  (validates s token key true <->
     exists pre m post, es = pre ++ HeMsg (HmCacheResult m) :: post /\ cr_token m = token /\
       cr_key m = key /\ Forall (fun e => about_token token e = None) post).
Proof. exact (@c33_token_exact t es s os token key). Qed.
Print Assumptions C33_token_exact.

(** A second validation of the same token, under any key, is answered false
    unless the token is cached again. *)
Theorem C33_at_most_once t es s os token key key' s' o post s'' os' :
  cache_run (cache_start t) es = Some (s, os) ->
  cache_step s (HeMsg (HmVerifyCaptchaResult (VerifyCaptchaResult token key))) = Some (s', o) ->
  cache_run s' post = Some (s'', os') ->
  Forall (fun e => ¬ caches_token token e) post ->
  validates s'' token key' false.
Proof. exact (@c33_at_most_once t es s os token key key' s' o post s'' os'). Qed.
Print Assumptions C33_at_most_once.

Example C33_witness :
  exists s os, cache_run (cache_start 0) [HeMsg (HmCacheResult ex_res); HeTick 5] = Some (s, os) /\
     validates s "tok" "site" true /\ validates s "tok" "other" false /\ validates s "zzz" "site" false.
Proof.
  eexists _, _; (split; [reflexivity|]). split; [by apply validates_iff|].
  split; by apply validates_iff.
Qed.

(** C34 *)
Theorem C34_challenge_not_after t es s os x key c :
  cache_run (cache_start t) es = Some (s, os) -> nothing_overdue s ->
  retrieves s x key (Some c) ->
  exists pre m post, es = pre ++ HeMsg (HmCachePoW m) :: post /\ cp_string m = x /\
    c = CachedPoWConfig (cp_key m) (cp_difficulty_factor m) (cp_duration m) /\
    Forall (fun e => about_challenge x e = None) post /\
    cache_clock t es < cache_clock t pre + cp_duration m * NS.
Proof. exact (@c34_challenge_not_after t es s os x key c). Qed.
Print Assumptions C34_challenge_not_after.

Theorem C34_token_not_after t es s os x key :
  cache_run (cache_start t) es = Some (s, os) -> nothing_overdue s ->
  validates s x key true ->
  exists pre m post, es = pre ++ HeMsg (HmCacheResult m) :: post /\ cr_token m = x /\ cr_key m = key /\
    Forall (fun e => about_token x e = None) post /\
    cache_clock t es < cache_clock t pre + cr_duration m * NS.
Proof. exact (@c34_token_not_after t es s os x key). Qed.
Print Assumptions C34_token_not_after.

Theorem C34_challenge_not_before t pre m post s os key :
  Forall (fun e => ¬ caches_challenge (cp_string m) e) pre ->
  Forall (fun e => ¬ touches_challenge (cp_string m) e) post ->
  cache_run (cache_start t) (pre ++ HeMsg (HmCachePoW m) :: post) = Some (s, os) ->
  cache_clock t (pre ++ HeMsg (HmCachePoW m) :: post) < cache_clock t pre + cp_duration m * NS ->
  retrieves s (cp_string m) key
    (Some (CachedPoWConfig (cp_key m) (cp_difficulty_factor m) (cp_duration m))).
Proof. exact (@c34_challenge_not_before t pre m post s os key). Qed.
Print Assumptions C34_challenge_not_before.

Theorem C34_token_not_before t pre m post s os :
  Forall (fun e => ¬ caches_token (cr_token m) e) pre ->
  Forall (fun e => ¬ touches_token (cr_token m) e) post ->
  cache_run (cache_start t) (pre ++ HeMsg (HmCacheResult m) :: post) = Some (s, os) ->
  cache_clock t (pre ++ HeMsg (HmCacheResult m) :: post) < cache_clock t pre + cr_duration m * NS ->
  validates s (cr_token m) (cr_key m) true.
Proof. exact (@c34_token_not_before t pre m post s os). Qed.
Print Assumptions C34_token_not_before.

(** A history in which the challenge and the token expire on time, with a
    point just before and a point just after. *)
Example C34_witness :
  (exists s os, cache_run (cache_start 7)
     [HeMsg (HmCachePoW ex_pow); HeMsg (HmCacheResult ex_res); HeTick (30 * NS - 1)] = Some (s, os) /\
     nothing_overdue s /\
     retrieves s "str" "k" (Some (CachedPoWConfig "site" 50 30)) /\ validates s "tok" "site" true) /\
  (exists s os, cache_run (cache_start 7)
     [HeMsg (HmCachePoW ex_pow); HeMsg (HmCacheResult ex_res); HeTick (30 * NS);
      HeExpire (7 + 30 * NS) (DeletePoW "str");
      HeExpire (7 + 30 * NS) (DeleteCaptchaResult "tok")] = Some (s, os) /\ nothing_overdue s /\
     retrieves s "str" "k" None /\ validates s "tok" "site" false).
Proof.
  split; eexists _, _; (split; [vm_compute; reflexivity|]).
  - split; [|split; [by apply retrieves_iff|by apply validates_iff]].
    intros due d. unfold cache_step, hc_expire. cbn [hs_now hs_cache hc_timers].
    destruct (decide _) as [H|]; [|done].
    apply elem_of_cons in H as [[= -> ->]|H]; [done|].
    apply elem_of_cons in H as [[= -> ->]|H]; [done|]. by apply elem_of_nil in H.
  - split; [|split; [by apply retrieves_iff|by apply validates_iff]].
    intros due d. unfold cache_step, hc_expire. cbn [hs_now hs_cache hc_timers].
    destruct (decide _) as [H|]; [|done]. by apply elem_of_nil in H.
Qed.

(** C35: for every string, key, factor and duration of at least one second,
    re-caching one nanosecond before the first expiry loses the challenge one
    nanosecond later. *)
Theorem C35_recache_refuted t x d1 d2 k f :
  0 < d1 -> 0 < d2 ->
  let m1 := CachePoW x f d1 k in
  let m2 := CachePoW x f d2 k in
  exists s1 os1 s2 os2,
    cache_run (cache_start t) [HeMsg (HmCachePoW m1); HeTick (d1 * NS - 1); HeMsg (HmCachePoW m2)]
      = Some (s1, os1) /\
    hs_now s1 = t + (d1 * NS - 1) /\
    retrieves s1 x k (Some (CachedPoWConfig k f d2)) /\
    cache_run s1 [HeTick 1; HeExpire (t + d1 * NS) (DeletePoW x)] = Some (s2, os2) /\
    hs_now s2 < hs_now s1 + d2 * NS /\
    retrieves s2 x k None.
Proof. exact (@c35_recache_refuted t x d1 d2 k f). Qed.
Print Assumptions C35_recache_refuted.

(** With the defaults of the documentation (30 s): re-cached after 29.999999999 s. *)
Example C35_witness :
  exists s1 os1, cache_run (cache_start 0)
    [HeMsg (HmCachePoW ex_pow); HeTick (30 * NS - 1); HeMsg (HmCachePoW ex_pow);
     HeTick 1; HeExpire (30 * NS) (DeletePoW "str")] = Some (s1, os1) /\ retrieves s1 "str" "site" None.
Proof. eexists _, _. split; [vm_compute; reflexivity|]. by apply retrieves_iff. Qed.

(** C36: two histories that agree on the events about a challenge (token)
    answer alike for it. *)
Theorem C36_challenge_noninterference t1 t2 es1 es2 s1 s2 os1 os2 x k1 k2 :
  cache_run (cache_start t1) es1 = Some (s1, os1) ->
  cache_run (cache_start t2) es2 = Some (s2, os2) ->
  omap (about_challenge x) es1 = omap (about_challenge x) es2 ->
  forall r, retrieves s1 x k1 r <-> retrieves s2 x k2 r.
Proof. exact (@c36_challenge_noninterference t1 t2 es1 es2 s1 s2 os1 os2 x k1 k2). Qed.
Print Assumptions C36_challenge_noninterference.

Theorem C36_token_noninterference t1 t2 es1 es2 s1 s2 os1 os2 x k :
  cache_run (cache_start t1) es1 = Some (s1, os1) ->
  cache_run (cache_start t2) es2 = Some (s2, os2) ->
  omap (about_token x) es1 = omap (about_token x) es2 ->
  forall b, validates s1 x k b <-> validates s2 x k b.
Proof. exact (@c36_token_noninterference t1 t2 es1 es2 s1 s2 os1 os2 x k). Qed.
Print Assumptions C36_token_noninterference.

(** One step: an event about challenges leaves every token answer alone and
    vice versa, and an event about one string leaves the others alone. *)
Theorem C36_one_step s e s' o x k :
  cache_step s e = Some (s', o) ->
  (subject e <> Some (true, x) -> forall r, retrieves s x k r <-> retrieves s' x k r) /\
  (subject e <> Some (false, x) -> forall b, validates s x k b <-> validates s' x k b).
Proof. exact (@c36_one_step s e s' o x k). Qed.
Print Assumptions C36_one_step.

(** The same string as a challenge and as a token: neither affects the other. *)
Example C36_witness :
  exists s os, cache_run (cache_start 0)
    [HeMsg (HmCachePoW (CachePoW "x" 5 30 "site")); HeMsg (HmCacheResult (CacheResult "x" "other" 30));
     HeMsg (HmVerifyCaptchaResult (VerifyCaptchaResult "x" "bad"))] = Some (s, os) /\
    retrieves s "x" "site" (Some (CachedPoWConfig "site" 5 30)) /\ validates s "x" "other" false.
Proof.
  eexists _, _. split; [vm_compute; reflexivity|]. split; [by apply retrieves_iff|by apply validates_iff].
Qed.

(** C37: in every state in which the token is valid for its site, an attempt
    with any other key is answered false and makes the token invalid. *)
Theorem C37_wrong_key_refuted s token key wrong :
  validates s token key true -> wrong <> key ->
  exists s', cache_step s (HeMsg (HmVerifyCaptchaResult (VerifyCaptchaResult token wrong)))
               = Some (s', Some (HrBool (Ok false))) /\
    forall k, validates s' token k false.
Proof. exact (@c37_wrong_key_refuted s token key wrong). Qed.
Print Assumptions C37_wrong_key_refuted.

Example C37_witness :
  exists s os s2 os2, cache_run (cache_start 0) [HeMsg (HmCacheResult ex_res)] = Some (s, os) /\
    validates s "tok" "site" true /\
    cache_run s [HeMsg (HmVerifyCaptchaResult (VerifyCaptchaResult "tok" "evil"));
                 HeMsg (HmVerifyCaptchaResult (VerifyCaptchaResult "tok" "site"))] = Some (s2, os2) /\
    os2 = [Some (HrBool (Ok false)); Some (HrBool (Ok false))].
Proof.
  do 4 eexists. split; [reflexivity|]. split; [by apply validates_iff|]. split; reflexivity.
Qed.

(** C76: the answers to all messages of a history, in order. *)
Theorem C76_all_answers t es s os :
  cache_run (cache_start t) es = Some (s, os) ->
  length os = length es /\
  (forall i e o, es !! i = Some e -> os !! i = Some o -> o = cache_answer (take i es) e) /\
  (forall m, is_Some (cache_step s (HeMsg m))).
Proof. exact (@c76_all_answers t es s os). Qed.
Print Assumptions C76_all_answers.

Example C76_witness :
  exists s os, cache_run (cache_start 0)
    [HeMsg (HmCachePoW ex_pow); HeMsg (HmRetrivePoW (VerifyCaptchaResult "str" "site"));
     HeMsg (HmRetrivePoW (VerifyCaptchaResult "str" "site")); HeMsg (HmCacheResult ex_res); HeTick 5;
     HeMsg (HmVerifyCaptchaResult (VerifyCaptchaResult "tok" "site"));
     HeMsg (HmVerifyCaptchaResult (VerifyCaptchaResult "tok" "site"))] = Some (s, os) /\
    os = [Some (HrUnit (Ok tt)); Some (HrPoW (Ok (Some (CachedPoWConfig "site" 50 30))));
          Some (HrPoW (Ok None)); Some (HrUnit (Ok tt)); None; Some (HrBool (Ok true)); Some (HrBool (Ok false))].
Proof. eexists _, _. split; reflexivity. Qed.
