(** Histories of token calls (/repo/src/redis/mcaptcha_redis.rs:209-248) against
    the Redis server of Model/Redis.v, with a connection that may fail. *)
From Verif Require Import Model.Base Model.HashCache Model.Json Model.Serde Model.Redis Model.RedisActor.

(** mcaptcha_redis.rs:209-226, 229-239, 242-248. *)
Inductive token_call :=
| TkAdd (m : cache_result)
| TkGet (m : verify_captcha_result)
| TkDel (m : verify_captcha_result).
(** mcaptcha_redis.rs:209-248. *)
Definition token_cmd (c : token_call) : rcmd :=
  match c with
  | TkAdd m => lift RoUnit (r_add_token m)
  | TkGet m => lift RoBool (r_get_token m)
  | TkDel m => lift RoUnit (r_delete_token m)
  end.
(** The command is executed and answered; executed, but the answer is lost; not even sent. redis/mod.rs:77. *)
Inductive fate := Answered | AnswerLost | NotSent.
Record token_event := TokenEvent { te_now : N; te_call : token_call; te_fate : fate }.

(** mcaptcha_redis.rs:209-248 over redis/mod.rs:75-80. *)
Definition token_step (s : server) (e : token_event) : server * outcome rout :=
  let c := token_cmd (te_call e) in
  let lost := rc_answer c (RrErr "connection") in
  match te_fate e, serve (te_now e) s (rc_cmd c) with
  | NotSent, _ => (s, lost)
  | AnswerLost, Some (s', _) => (s', lost)
  | Answered, Some (s', r) => (s', rc_answer c r)
  | _, None => (s, lost)
  end.
(** Executions; no code of its own. *)
Fixpoint token_run (s : server) (es : list token_event) : server * list (outcome rout) :=
  match es with
  | [] => (s, [])
  | e :: rest =>
      let '(s1, x) := token_step s e in
      let '(s2, xs) := token_run s1 rest in
      (s2, x :: xs)
  end.
