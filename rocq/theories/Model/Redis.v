(** Model of /repo/src/redis/mcaptcha_redis.rs and /repo/src/redis/mod.rs: the
    commands sent to Redis and the interpretation of its replies. *)
From Coq Require Import DecimalString.
From Verif Require Import Model.Base Model.Defense Model.MCaptcha Model.HashCache Model.Json Model.Serde.

(** [redis::Value], as far as it is looked at. mcaptcha_redis.rs:72-73, 96-102; redis/mod.rs:83. *)
Inductive rvalue :=
| RvNil
| RvInt (z : Z)
| RvBulk (s : string)
| RvSimple (s : string)
| RvOkay
| RvArray (l : list rvalue).
(** [redis::RedisResult]. redis/mod.rs:75. *)
Inductive rreply := RrVal (v : rvalue) | RrErr (e : string).

(** The conversions of [redis::FromRedisValue] (library): integers are cast with [as], text is parsed; [()]
    takes anything. redis/mod.rs:75 [T: FromRedisValue]. *)
Definition rerr {A} (r : rreply) (f : rvalue -> option A) : result A :=
  match r with
  | RrVal v => match f v with Some a => Ok a | None => Err (RedisError "type") end
  | RrErr e => Err (RedisError e)
  end.
(** Digits. As [FromRedisValue] uses them, redis/mod.rs:75. *)
Definition digits (s : string) : option N :=
  match s with
  | EmptyString => None
  | _ => match NilEmpty.uint_of_string s with Some d => Some (N.of_uint d) | None => None end
  end.
(** [str::parse] at an unsigned and at a signed type. As [FromRedisValue] uses it, redis/mod.rs:75. *)
Definition number (s : string) : option N :=
  match s with
  | String c r => if code c =? 43 then digits r else digits s
  | EmptyString => None
  end.
Definition znumber (s : string) : option Z :=
  match s with
  | String c r =>
      if code c =? 45 then Z.opp ∘ Z.of_N <$> digits r else Z.of_N <$> number s
  | EmptyString => None
  end.
Definition as_usize (z : Z) : N := Z.to_N (z mod 18446744073709551616).
Definition to_usize (v : rvalue) : option N :=
  match v with
  | RvInt z => Some (as_usize z)
  | RvBulk s | RvSimple s => match number s with Some n => if n <=? u64_max then Some n else None | None => None end
  | _ => None
  end.
(** [z as i32]. *)
Definition as_i32 (z : Z) : Z := ((z + 2147483648) mod 4294967296 - 2147483648)%Z.
Definition to_i32 (v : rvalue) : option Z :=
  match v with
  | RvInt z => Some (as_i32 z)
  | RvBulk s | RvSimple s =>
      match znumber s with
      | Some z => if ((-2147483648 <=? z) && (z <=? 2147483647))%Z then Some z else None
      | None => None
      end
  | _ => None
  end.
Definition to_str (v : rvalue) : option string :=
  match v with
  | RvBulk s | RvSimple s => Some s
  | RvOkay => Some "OK"%string
  | RvInt z => Some (NilEmpty.string_of_int (Z.to_int z))
  | _ => None
  end.
Definition to_unit (v : rvalue) : option unit := Some tt.

(** An operation: the command sent, and what is made of the reply. [Panic] is a panic of the calling task.
    mcaptcha_redis.rs:112-248. *)
Record rop (A : Type) := ROp { ro_cmd : list string; ro_reply : rreply -> outcome (result A) }.
Arguments ROp {A} _ _. Arguments ro_cmd {A} _. Arguments ro_reply {A} _ _.
(** [self.0.exec::<T>(..).await?]. *)
Definition exec {A B} (r : rreply) (f : rvalue -> option A) (k : A -> outcome (result B)) : outcome (result B) :=
  match rerr r f with Ok a => k a | Err e => Val (Err e) end.
Definition done_ok {A} (a : A) : outcome (result A) := Val (Ok a).

(** mcaptcha_redis.rs:118-122 [add_visitor]. *)
Definition r_add_visitor (id : string) : rop (option add_visitor_result) :=
  ROp ["MCAPTCHA_CACHE.ADD_VISITOR"; id]%string
    (fun r => exec r to_str (fun s => olet v := unwrap (from_str decode_visit s) in Val (Ok (Some v)))).
(** 125-133 [add_mcaptcha]. *)
Definition r_add_mcaptcha (id : string) (m : mcaptcha) : rop unit :=
  ROp ["MCAPTCHA_CACHE.ADD_CAPTCHA"; id; to_string encode_create (mcaptcha_into_create m)]%string
    (fun r => exec r to_unit done_ok).
(** 136-153 [check_captcha_exists]. *)
Definition r_check_captcha_exists (captcha : string) : rop bool :=
  ROp ["MCAPTCHA_CACHE.CAPTCHA_EXISTS"; captcha]%string
    (fun r => exec r to_usize (fun n =>
       if n =? 1 then Val (Ok false) else if n =? 0 then Val (Ok true) else Val (Err MCaptchaRedisModuleError))).
(** 156-159 [delete_captcha]. *)
Definition r_delete_captcha (captcha : string) : rop unit :=
  ROp ["MCAPTCHA_CACHE.DELETE_CAPTCHA"; captcha]%string (fun r => exec r to_unit done_ok).
(** 162-167 [rename_captcha]. *)
Definition r_rename_captcha (name rename_to : string) : rop unit :=
  ROp ["MCAPTCHA_CACHE.RENAME_CAPTCHA"; name; rename_to]%string (fun r => exec r to_unit done_ok).
(** 170-180 [add_challenge]. *)
Definition r_add_challenge (captcha : string) (c : add_challenge) : rop unit :=
  ROp ["MCAPTCHA_CACHE.ADD_CHALLENGE"; captcha; to_string encode_challenge c]%string
    (fun r => exec r to_unit done_ok).
(** 183-192 [get_challenge]. *)
Definition r_get_challenge (m : verify_captcha_result) : rop add_visitor_result :=
  ROp ["MCAPTCHA_CACHE.GET_CHALLENGE"; vr_key m; vr_token m]%string
    (fun r => exec r to_str (fun s => olet v := unwrap (from_str decode_visit s) in Val (Ok v))).
(** 195-200 [delete_challenge]. *)
Definition r_delete_challenge (m : verify_captcha_result) : rop unit :=
  ROp ["MCAPTCHA_CACHE.DELETE_CHALLENGE"; vr_key m; vr_token m]%string (fun r => exec r to_unit done_ok).
(** 203-206 [get_visitors]. *)
Definition r_get_visitors (captcha : string) : rop N :=
  ROp ["MCAPTCHA_CACHE.GET"; captcha]%string (fun r => exec r to_usize done_ok).
(** 212, 233, 245: [format!("mcaptcha:token:{}:{}", key, token)]. *)
Definition token_key (key token : string) : string := "mcaptcha:token:" +:+ key +:+ ":" +:+ token.
(** 209-226 [add_token]; [u64::to_string]; a Redis error panics. *)
Definition r_add_token (m : cache_result) : rop unit :=
  ROp ["SET"; token_key (cr_key m) (cr_token m); cr_key m; "EX"; print_num (cr_duration m)]%string
    (fun r => match rerr r to_unit with Ok _ => Val (Ok tt) | Err _ => Panic end).
(** 229-239 [get_token]; the match makes the reply an [i32]. *)
Definition r_get_token (m : verify_captcha_result) : rop bool :=
  ROp ["DEL"; token_key (vr_key m) (vr_token m)]%string
    (fun r => exec r to_i32 (fun z =>
       if (z =? 1)%Z then Val (Ok true) else if (z =? 0)%Z then Val (Ok false)
       else Val (Err MCaptchaRedisModuleError))).
(** 242-248 [delete_token]. *)
Definition r_delete_token (m : verify_captcha_result) : rop unit :=
  ROp ["DEL"; token_key (vr_key m) (vr_token m)]%string (fun r => exec r to_unit done_ok).
(** redis/mod.rs:82-88 [ping]. *)
Definition ping_reply (r : rreply) : bool :=
  match r with RrVal (RvSimple v) => String.eqb v "PONG" | _ => false end.

(** ** The module check *)
(** mcaptcha_redis.rs:36-46. *)
Definition required_commands : list string :=
  ["MCAPTCHA_CACHE.ADD_VISITOR"; "MCAPTCHA_CACHE.ADD_CAPTCHA"; "MCAPTCHA_CACHE.DELETE_CAPTCHA";
   "MCAPTCHA_CACHE.CAPTCHA_EXISTS"; "MCAPTCHA_CACHE.GET"; "MCAPTCHA_CACHE.ADD_CHALLENGE";
   "MCAPTCHA_CACHE.GET_CHALLENGE"; "MCAPTCHA_CACHE.DELETE_CHALLENGE"; "MCAPTCHA_CACHE.RENAME_CAPTCHA"]%string.
Definition module_name : string := "mcaptcha_cache".
(** [str::contains]. mcaptcha_redis.rs:74. *)
Fixpoint contains (pat s : string) : bool :=
  match prefixed pat s with
  | Some _ => true
  | None => match s with String _ r => contains pat r | EmptyString => false end
  end.
(** 71-110 [is_module_loaded]: [modules] is the reply to MODULE LIST, [info c] the
    one to COMMAND INFO c; [dbg] is the [Debug] rendering of a value (library). *)
Fixpoint check_commands (info : string -> rreply) (cmds : list string) : outcome (result unit) :=
  match cmds with
  | [] => Val (Ok tt)
  | c :: rest =>
      match info c with
      | RrErr _ => Panic
      | RrVal (RvArray l) =>
          match last l with
          | Some RvNil => Val (Err (MCaptchaRediSModuleCommandNotFound c))
          | _ => check_commands info rest
          end
      | RrVal _ => check_commands info rest
      end
  end.
Definition is_module_loaded (dbg : rvalue -> string) (modules : rreply) (info : string -> rreply)
  : outcome (result unit) :=
  match modules with
  | RrErr _ => Panic
  | RrVal (RvArray l) =>
      match l with
      | RvArray s :: _ =>
          if existsb (fun i => contains module_name (dbg i)) s then check_commands info required_commands
          else Val (Err MCaptchaRedisModuleIsNotLoaded)
      | _ => Val (Err MCaptchaRedisModuleIsNotLoaded)
      end
  | RrVal _ => check_commands info required_commands
  end.

(** ** The Redis server, for the token commands *)
(** SET key value EX seconds and DEL key, by Redis's documentation and sources:
    a relative expiry must be positive and its deadline in milliseconds must fit
    a signed 64-bit integer; a key is there up to and including its deadline.
    Clock in milliseconds. *)
Definition i64_max : N := 9223372036854775807.
Definition ex_ok (now secs : N) : bool := (0 <? secs) && (secs * 1000 + now <=? i64_max).
Notation server := (gmap string (string * N)).
Definition present (now : N) (s : server) (k : string) : bool :=
  match s !! k with Some (_, due) => now <=? due | None => false end.
Definition serve (now : N) (s : server) (cmd : list string) : option (server * rreply) :=
  match cmd with
  | ["SET"; k; v; "EX"; n]%string =>
      match digits n with
      | Some secs =>
          if ex_ok now secs then Some (<[k := (v, now + secs * 1000)]> s, RrVal RvOkay)
          else Some (s, RrErr "ERR invalid expire time in 'set' command")
      | None => Some (s, RrErr "ERR value is not an integer or out of range")
      end
  | ["DEL"; k]%string => Some (delete k s, RrVal (RvInt (if present now s k then 1 else 0)))
  | _ => None
  end.
