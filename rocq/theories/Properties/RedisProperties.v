(** Properties of the Redis client: tokens, replies, module check, challenges. *)
From Coq Require Import Ascii.
From Coq Require Import ZifyBool ZifyN ZifyNat Lia.
From Verif Require Import Model.Base Model.Defense Model.MCaptcha Model.HashCache Model.Master Model.Queue Model.Pow
  Model.System Model.Json Model.Serde Model.Redis Model.RedisActor Model.RedisTokens
  Spec.DefenseSpec Spec.MCaptchaSpec Spec.SerdeSpec Spec.RedisSpec Spec.ReplySpec Proofs.JsonProofs Proofs.SerdeProofs
  Proofs.MCaptchaProofs Proofs.RedisProofs Proofs.ReplyProofs.
From Verif Require Export Proofs.RedisTheorems.

(** C59: get_token answers true iff a token under the same Redis key is alive. *)
Theorem C59_validates_iff_alive : forall h now key token,
  exists b, outcome_of h (TokenEvent now (TkGet (VerifyCaptchaResult token key)) Answered) = Val (RoBool (Ok b)) /\
    (b = true <-> live (fun x => token_key x.1 x.2 = token_key key token) now h).
Proof. exact c59_validates_iff_alive. Qed.
Print Assumptions C59_validates_iff_alive.

(** If no site name has a colon: iff this token of this site is alive. *)
Theorem C59_own_site_only : forall h now key token,
  no_colon key -> Forall (fun e => no_colon (about (te_call e)).1) h ->
  exists b, outcome_of h (TokenEvent now (TkGet (VerifyCaptchaResult token key)) Answered) = Val (RoBool (Ok b)) /\
    (b = true <-> live (fun x => x = (key, token)) now h).
Proof. exact c59_own_site_only. Qed.
Print Assumptions C59_own_site_only.

(** At most once: between two acceptances under one Redis key lies a store. *)
Theorem C59_once : forall h1 h2 now1 now2 key token key' token',
  let e1 := TokenEvent now1 (TkGet (VerifyCaptchaResult token key)) Answered in
  let e2 := TokenEvent now2 (TkGet (VerifyCaptchaResult token' key')) Answered in
  token_key key token = token_key key' token' ->
  outcome_of h1 e1 = Val (RoBool (Ok true)) ->
  outcome_of (h1 ++ e1 :: h2) e2 = Val (RoBool (Ok true)) ->
  exists e m, e ∈ h2 /\ te_call e = TkAdd m /\ effective e /\
    token_key (cr_key m) (cr_token m) = token_key key token.
Proof. exact c59_once. Qed.
Print Assumptions C59_once.

(** The answer to get_token does not depend on whether later answers arrive; and
    an expired token is refused at any later moment. *)
Theorem C59_expired : forall h now key token,
  (forall e m, e ∈ h -> te_call e = TkAdd m -> token_key (cr_key m) (cr_token m) = token_key key token ->
     te_now e + cr_duration m * 1000 < now) ->
  outcome_of h (TokenEvent now (TkGet (VerifyCaptchaResult token key)) Answered) = Val (RoBool (Ok false)).
Proof. exact c59_expired. Qed.
Print Assumptions C59_expired.

Example C59_witness :
  let m := CacheResult "tok" "site" 30 in
  let v := VerifyCaptchaResult "tok" "site" in
  let h := [TokenEvent 1000 (TkAdd m) Answered; TokenEvent 2000 (TkGet (VerifyCaptchaResult "tok" "other")) Answered;
            TokenEvent 2500 (TkGet v) NotSent] in
  outcome_of h (TokenEvent 31000 (TkGet v) Answered) = Val (RoBool (Ok true)) /\
  outcome_of h (TokenEvent 31001 (TkGet v) Answered) = Val (RoBool (Ok false)) /\
  outcome_of (h ++ [TokenEvent 3000 (TkGet v) AnswerLost]) (TokenEvent 3001 (TkGet v) Answered) = Val (RoBool (Ok false)) /\
  outcome_of (h ++ [TokenEvent 3000 (TkGet v) Answered; TokenEvent 3000 (TkAdd m) AnswerLost])
    (TokenEvent 3001 (TkGet v) Answered) = Val (RoBool (Ok true)).
Proof. vm_compute. done. Qed.

(** C60: the Redis key does not identify site and token. *)
Theorem C60_ambiguous_refuted :
  (** a token t of site "a:b" is accepted for site "a" as token "b:t", and is then used up *)
  (forall h a b t now dur later, storable now dur -> later <= now + dur * 1000 ->
     let site := a +:+ ":" +:+ b in
     let stored := h ++ [TokenEvent now (TkAdd (CacheResult t site dur)) Answered] in
     let forged := TokenEvent later (TkGet (VerifyCaptchaResult (b +:+ ":" +:+ t) a)) Answered in
     site <> a /\
     outcome_of stored forged = Val (RoBool (Ok true)) /\
     forall again, outcome_of (stored ++ [forged]) (TokenEvent again (TkGet (VerifyCaptchaResult t site)) Answered)
       = Val (RoBool (Ok false))) /\
  (** without colons in site names the key is unambiguous *)
  (forall k k' t t', no_colon k -> no_colon k' -> token_key k t = token_key k' t' -> k = k' /\ t = t').
Proof. exact c60_ambiguous_refuted. Qed.
Print Assumptions C60_ambiguous_refuted.

Example C60_witness :
  storable 1000 30 /\
  outcome_of [TokenEvent 1000 (TkAdd (CacheResult "t" "a:b" 30)) Answered]
    (TokenEvent 1001 (TkGet (VerifyCaptchaResult "b:t" "a")) Answered) = Val (RoBool (Ok true)).
Proof. split; [unfold storable; lia|by vm_compute]. Qed.

(** C61: replies. Redis integers are 64 bits wide. *)
Theorem C61_captcha_exists : forall c z, i64 z ->
  ro_reply (r_check_captcha_exists c) (RrVal (RvInt z)) =
    Val (if decide (z = 1%Z) then Ok false else if decide (z = 0%Z) then Ok true else Err MCaptchaRedisModuleError).
Proof. exact c61_captcha_exists. Qed.
Print Assumptions C61_captcha_exists.

Theorem C61_get_token : forall m z,
  (ro_reply (r_get_token m) (RrVal (RvInt z)) =
     Val (if decide (z mod 4294967296 = 1)%Z then Ok true
          else if decide (z mod 4294967296 = 0)%Z then Ok false else Err MCaptchaRedisModuleError)) /\
  (i32 z -> ro_reply (r_get_token m) (RrVal (RvInt z)) =
     Val (if decide (z = 1%Z) then Ok true else if decide (z = 0%Z) then Ok false else Err MCaptchaRedisModuleError)).
Proof. exact c61_get_token. Qed.
Print Assumptions C61_get_token.

(** Errors of the server or of the connection reach the caller of every
    operation, except that add_token panics on them. *)
Theorem C61_errors : forall e,
  (forall id, ro_reply (r_add_visitor id) (RrErr e) = Val (Err (RedisError e))) /\
  (forall id m, ro_reply (r_add_mcaptcha id m) (RrErr e) = Val (Err (RedisError e))) /\
  (forall c, ro_reply (r_check_captcha_exists c) (RrErr e) = Val (Err (RedisError e))) /\
  (forall c, ro_reply (r_delete_captcha c) (RrErr e) = Val (Err (RedisError e))) /\
  (forall a b, ro_reply (r_rename_captcha a b) (RrErr e) = Val (Err (RedisError e))) /\
  (forall c x, ro_reply (r_add_challenge c x) (RrErr e) = Val (Err (RedisError e))) /\
  (forall m, ro_reply (r_get_challenge m) (RrErr e) = Val (Err (RedisError e))) /\
  (forall m, ro_reply (r_delete_challenge m) (RrErr e) = Val (Err (RedisError e))) /\
  (forall c, ro_reply (r_get_visitors c) (RrErr e) = Val (Err (RedisError e))) /\
  (forall m, ro_reply (r_get_token m) (RrErr e) = Val (Err (RedisError e))) /\
  (forall m, ro_reply (r_delete_token m) (RrErr e) = Val (Err (RedisError e))) /\
  (forall m, ro_reply (r_add_token m) (RrErr e) = Panic).
Proof. exact c61_errors. Qed.
Print Assumptions C61_errors.

(** A visit or a challenge sent as JSON by the module, members in either order,
    is read as such; text that is not a visit panics. *)
Theorem C61_visit_replies : forall id m v r,
  ok_visit v ->
  (ro_reply (r_add_visitor id) (RrVal (RvBulk (to_string encode_visit v))) = Val (Ok (Some v)) /\
   ro_reply (r_get_challenge m) (RrVal (RvBulk (to_string encode_visit v))) = Val (Ok v)) /\
  (to_str r = None -> exists e, ro_reply (r_add_visitor id) (RrVal r) = Val (Err e) /\
     ro_reply (r_get_challenge m) (RrVal r) = Val (Err e)) /\
  (forall s, to_str r = Some s -> from_str decode_visit s = None ->
     ro_reply (r_add_visitor id) (RrVal r) = Panic /\ ro_reply (r_get_challenge m) (RrVal r) = Panic).
Proof. exact c61_visit_replies. Qed.
Print Assumptions C61_visit_replies.

(** Text replies: read as the decimal number they are, if it fits the type; an
    error otherwise. *)
Theorem C61_text_numbers : forall c m t v, v = RvBulk t \/ v = RvSimple t ->
  let bad := RedisError "type" in
  ro_reply (r_get_visitors c) (RrVal v) =
    Val (match unsigned_text t with
         | Some n => if decide (n <= 18446744073709551615) then Ok n else Err bad
         | None => Err bad
         end) /\
  ro_reply (r_check_captcha_exists c) (RrVal v) =
    Val (match unsigned_text t with
         | Some n => if decide (n = 0) then Ok true else if decide (n = 1) then Ok false
                     else if decide (n <= 18446744073709551615) then Err MCaptchaRedisModuleError else Err bad
         | None => Err bad
         end) /\
  ro_reply (r_get_token m) (RrVal v) =
    Val (match signed_text t with
         | Some z => if decide (z = 0%Z) then Ok false else if decide (z = 1%Z) then Ok true
                     else if decide (i32 z) then Err MCaptchaRedisModuleError else Err bad
         | None => Err bad
         end).
Proof. exact c61_text_numbers. Qed.
Print Assumptions C61_text_numbers.

(** Replies that are neither integers nor text are errors to whoever expects a
    number. *)
Theorem C61_no_numbers : forall c m v, (forall z, v <> RvInt z) -> (forall t, v <> RvBulk t) -> (forall t, v <> RvSimple t) ->
  ro_reply (r_get_visitors c) (RrVal v) = Val (Err (RedisError "type")) /\
  ro_reply (r_check_captcha_exists c) (RrVal v) = Val (Err (RedisError "type")) /\
  ro_reply (r_get_token m) (RrVal v) = Val (Err (RedisError "type")).
Proof. exact c61_no_numbers. Qed.
Print Assumptions C61_no_numbers.

(** [ping] is true exactly when Redis replies PONG as a status. *)
Theorem C61_ping : forall r, ping_reply r = true <-> r = RrVal (RvSimple "PONG").
Proof. exact c61_ping. Qed.
Print Assumptions C61_ping.

Example C61_witness :
  i64 (-1) /\ i32 7 /\ ok_visit (AddVisitorResult 30 50) /\
  ro_reply (r_check_captcha_exists "x") (RrVal (RvInt (-1))) = Val (Err MCaptchaRedisModuleError) /\
  ro_reply (r_get_token (VerifyCaptchaResult "t" "k")) (RrVal (RvInt 4294967297)) = Val (Ok true) /\
  ro_reply (r_get_visitors "x") (RrVal (RvBulk "+17")) = Val (Ok 17) /\
  ro_reply (r_add_visitor "x") (RrVal (RvBulk "[30,50]")) = Val (Ok (Some (AddVisitorResult 30 50))) /\
  ro_reply (r_add_visitor "x") (RrVal (RvBulk "{}")) = Panic /\
  ro_reply (r_get_visitors "x") (RrVal (RvBulk "18446744073709551615")) = Val (Ok 18446744073709551615) /\
  ro_reply (r_get_visitors "x") (RrVal (RvBulk "18446744073709551616")) = Val (Err (RedisError "type")) /\
  ro_reply (r_get_token (VerifyCaptchaResult "t" "k")) (RrVal (RvSimple "-2147483648")) = Val (Err MCaptchaRedisModuleError) /\
  ro_reply (r_get_token (VerifyCaptchaResult "t" "k")) (RrVal (RvSimple "-2147483649")) = Val (Err (RedisError "type")) /\
  ping_reply (RrVal RvOkay) = false.
Proof.
  unfold i64, i32, ok_visit, u64, u32, u32_max, u64_max. cbn [avr_duration avr_difficulty_factor].
  split_and!; try lia; by vm_compute.
Qed.

(** C62: the module check looks at the first loaded module only. *)
Theorem C62_first_entry_only_refuted :
  (** whatever comes after the first entry, and whichever commands there are *)
  (forall dbg first rest info, ~ names_module dbg first ->
     is_module_loaded dbg (RrVal (RvArray (first :: rest))) info = Val (Err MCaptchaRedisModuleIsNotLoaded)) /\
  (** so a server with the module loaded second and all its commands is refused *)
  exists dbg first second info,
    names_module dbg second /\ Forall (command_there info) required_commands /\
    is_module_loaded dbg (RrVal (RvArray [first; second])) info = Val (Err MCaptchaRedisModuleIsNotLoaded).
Proof. exact c62_first_entry_only_refuted. Qed.
Print Assumptions C62_first_entry_only_refuted.

(** When it is the first one (or the reply is not a list) the check succeeds iff
    every command is there. *)
Theorem C62_first_entry_checked : forall dbg first rest info,
  names_module dbg first ->
  (is_module_loaded dbg (RrVal (RvArray (first :: rest))) info = Val (Ok tt) <->
   Forall (command_there info) required_commands).
Proof. exact c62_first_entry_checked. Qed.
Print Assumptions C62_first_entry_checked.

(** The check looks for all commands of the module that the client can send, and
    for no other. *)
Theorem C62_all_commands : forall c,
  (c ∈ required_commands <-> c <> "SET"%string /\ c <> "DEL"%string /\
     exists args, client_sends (c :: args)).
Proof. exact c62_all_commands. Qed.
Print Assumptions C62_all_commands.

Example C62_witness :
  let dbg := fun v => match v with RvBulk s => s | _ => EmptyString end in
  names_module dbg (RvArray [RvBulk "name"; RvBulk "mcaptcha_cache"; RvInt 1]) /\
  is_module_loaded dbg (RrVal (RvArray [RvArray [RvBulk "name"; RvBulk "mcaptcha_cache"]]))
    (fun c => if String.eqb c "MCAPTCHA_CACHE.GET" then RrVal (RvArray [RvNil]) else RrVal (RvArray [RvArray []]))
  = Val (Err (MCaptchaRediSModuleCommandNotFound "MCAPTCHA_CACHE.GET")).
Proof.
  split; [|by vm_compute]. exists [RvBulk "name"; RvBulk "mcaptcha_cache"; RvInt 1], (RvBulk "mcaptcha_cache").
  split; [done|]. split; [by right; left|by vm_compute].
Qed.

(** C63: the Redis cache returns a challenge under the key it was asked for, so
    verify_pow's key check cannot fail; a missing challenge is an error of Redis. *)
Theorem C63_redis_retrieve : forall w r,
  let m := VerifyCaptchaResult (w_string w) (w_key w) in
  ro_cmd (r_retrive_pow m) = ["MCAPTCHA_CACHE.GET_CHALLENGE"; w_key w; w_string w]%string /\
  ro_reply (r_retrive_pow m) r <> Val (Ok None) /\
  forall c, ro_reply (r_retrive_pow m) r = Val (Ok (Some c)) -> cc_key c = w_key w.
Proof. exact c63_redis_retrieve. Qed.
Print Assumptions C63_redis_retrieve.

(** The in-memory cache ignores the key, consumes the challenge and lets the
    check fail. *)
Theorem C63_memory_retrieve : forall p l s n w ip rnd cfg s' os,
  sy_clients s !! n = Some (VpStart w ip) ->
  hc_difficulty_map (sy_c s) !! w_string w = Some cfg -> cc_key cfg <> w_key w ->
  s_step p l s (SeAct n rnd) = Some (s', os) ->
  SoRet n (RVerifyPow (Err MCaptchaKeyValidationFail)) ∈ os /\
  hc_difficulty_map (sy_c s') !! w_string w = None.
Proof. exact c63_memory_retrieve. Qed.
Print Assumptions C63_memory_retrieve.

Example C63_witness :
  let w := Work "chal" "1" 2 "named" in
  ro_reply (r_retrive_pow (VerifyCaptchaResult (w_string w) (w_key w)))
    (RrVal (RvBulk (to_string encode_visit (AddVisitorResult 30 50)))) =
    Val (Ok (Some (CachedPoWConfig "named" 50 30))) /\
  retrive_pow_config (HashCache {["chal"%string := CachedPoWConfig "owner" 50 30]} ∅ []) (VerifyCaptchaResult "chal" "named")
    = (HashCache ∅ ∅ [], Ok (Some (CachedPoWConfig "owner" 50 30))).
Proof.
  split; [by vm_compute|]. unfold retrive_pow_config, remove_pow_config. cbn [hc_difficulty_map vr_token hc_result_map hc_timers].
  by rewrite lookup_singleton, delete_singleton.
Qed.

(** C68: what is registered with Redis is the site: read back from the payload,
    the ladder and the duration rebuild it; likewise a challenge. *)
Theorem C68_registration_payload : forall p id m,
  reachable_mcaptcha p m -> u64 (m_duration m) ->
  exists payload, ro_cmd (r_add_mcaptcha id m) = ["MCAPTCHA_CACHE.ADD_CAPTCHA"; id; payload]%string /\
    exists c, from_str decode_create payload = Some c /\
    cm_levels c = d_levels (m_defense m) /\ cm_duration c = m_duration m /\
    exists d, snd (db_build (db_run (DBAdd <$> cm_levels c))) = Ok d /\
      mb_build (mb_run [MBDefense d; MBDuration (cm_duration c)]) =
        Ok (MCaptcha 0 (Defense (d_levels (m_defense m)) 0) (m_duration m)).
Proof. exact c68_registration_payload. Qed.
Print Assumptions C68_registration_payload.

Theorem C68_challenge_payload : forall m, ok_cache_pow m ->
  exists op payload, cache_action (HmCachePoW m) = AcCommand op true /\
    rc_cmd op = ["MCAPTCHA_CACHE.ADD_CHALLENGE"; cp_key m; payload]%string /\
    from_str decode_challenge payload = Some (AddChallenge (cp_difficulty_factor m) (cp_duration m) (cp_string m)).
Proof. exact c68_challenge_payload. Qed.
Print Assumptions C68_challenge_payload.

Example C68_witness :
  let m := MCaptcha 2 (Defense [Level 50 500; Level 90 800] 1) 30 in
  ro_cmd (r_add_mcaptcha "s" m) = ["MCAPTCHA_CACHE.ADD_CAPTCHA"; "s";
    to_string encode_create (CreateMCaptcha [Level 50 500; Level 90 800] 30)]%string.
Proof. done. Qed.
