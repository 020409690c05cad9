(** C95: tokens on the in-memory cache and on Redis. *)
From Coq Require Import ZifyBool ZifyN ZifyNat Lia.
From Verif Require Import Model.Base Model.HashCache Model.Redis Model.RedisActor Model.RedisTokens
  Spec.CacheSpec Spec.RedisSpec Spec.ParitySpec Properties.CacheProperties Properties.RedisProperties.
From Verif Require Export Proofs.ParityTheorems.

(** Both caches answer alike, at any moment but the one at which the token's
    lifetime ends. *)
Theorem C95_same_answer : forall h t es s os now token key,
  (** the same uses on both *)
  cache_run (cache_start t) es = Some (s, os) -> uses_in t es = in_memory h ->
  cache_clock t es = now * 1000000 -> Forall (fun e => ~ by_hand e) es ->
  fresh_tokens h -> right_sites h ->
  (** what Redis can hold, and names without colons *)
  no_colon key ->
  (forall n m, (n, Store m) ∈ h -> storable n (cr_duration m) /\ no_colon (cr_key m)) ->
  (forall n c, (n, Check c) ∈ h -> no_colon (vr_key c)) ->
  (** expiry messages have been delivered, and no lifetime ends just now *)
  nothing_overdue s ->
  (forall n m, (n, Store m) ∈ h -> cr_token m = token -> n + cr_duration m * 1000 <> now) ->
  exists b, validates s token key b /\
    outcome_of (on_redis h) (TokenEvent now (TkGet (VerifyCaptchaResult token key)) Answered) = Val (RoBool (Ok b)).
Proof. exact c95_same_answer. Qed.
Print Assumptions C95_same_answer.

Example C95_witness :
  let m := CacheResult "tok" "site" 30 in
  let c := VerifyCaptchaResult "tok" "site" in
  let h := [(1000, Store m); (2000, Check (VerifyCaptchaResult "x" "site"))] in
  let es := [HeMsg (HmCacheResult m); HeTick 1000000000; HeMsg (HmVerifyCaptchaResult (VerifyCaptchaResult "x" "site"));
             HeTick 28999000000] in
  exists s os, cache_run (cache_start 1000000000) es = Some (s, os) /\ uses_in 1000000000 es = in_memory h /\
    cache_clock 1000000000 es = 30999 * 1000000 /\ fresh_tokens h /\ right_sites h /\ nothing_overdue s /\
    validates s "tok" "site" true /\
    outcome_of (on_redis h) (TokenEvent 30999 (TkGet c) Answered) = Val (RoBool (Ok true)).
Proof.
  intros m c h es. eexists _, _. split; [reflexivity|]. split; [done|]. split; [done|].
  split. { intros [|[|i]] [|[|j]] n n' a b; cbn; try done. }
  split. { intros n a n' b Ha Hb. unfold h in Ha, Hb. rewrite !elem_of_cons in Ha, Hb.
    destruct Ha as [[= _ ->]|[[=]|[]%elem_of_nil]]. destruct Hb as [[=]|[[= _ ->]|[]%elem_of_nil]]. done. }
  split. { intros due d. cbn -[N.leb]. unfold hc_expire. cbn -[N.leb]. destruct (decide _) as [Hin|]; [|done].
    apply elem_of_list_singleton in Hin. injection Hin as -> _. done. }
  split; [by eexists; vm_compute|by vm_compute].
Qed.
