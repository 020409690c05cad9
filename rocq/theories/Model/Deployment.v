(** A deployment: any number of [System]s (/repo/src/system.rs), each with its own
    Master and RedisCache actors (Model/RedisSystem.v), on one Redis
    (Model/Redis.v). A command for a token travels: the actor sends it, the server
    executes it some time later, and the reply arrives later still, or an error
    arrives instead; then the command may still be executed. What the Redis module replies is arbitrary. *)
From Verif Require Import Model.Base Model.MCaptcha Model.HashCache Model.Pow Model.System Model.Master Model.Redis
  Model.RedisActor Model.RedisTokens Model.SystemProgram Model.SystemShared Model.RedisSystem.

(** The state of the deployment; the Systems are those of system.rs:90-95 with the caches of cache/redis.rs:29.
    *)
Record depl := Depl {
  dp_now : N;                    (** Redis's clock, in milliseconds *)
  dp_server : server;
  dp_sys : gmap nat rsys;        (** those that have done something *)
  (** the replies that are on their way to the cache actors: the command the actor
      waits for has been executed *)
  dp_done : gmap nat rreply;
  (** the commands for tokens that had not been executed when the error arrived *)
  dp_late : list (list string) }.
(** As system.rs:78-86 and cache/redis.rs:32-36 leave it. The rest is access to the fields. *)
Definition dp_init (now : N) : depl := Depl now ∅ ∅ ∅ [].
Definition sys (i : nat) (d : depl) : rsys := default rs_init (dp_sys d !! i).
Definition set_sys (i : nat) (s : rsys) (d : depl) : depl :=
  Depl (dp_now d) (dp_server d) (<[i := s]> (dp_sys d)) (dp_done d) (dp_late d).

(** What [query_async] in redis/mod.rs:77 comes to. *)
Inductive delivery :=
| DvReply               (** the reply of the server *)
| DvBroken              (** no reply, but an error *)
| DvModule (r : rreply).  (** whatever the module, or the connection to it, gives *)
(** The environment: system.rs:108-200, cache/redis.rs:46-147, redis/mod.rs:75-80, mcaptcha_redis.rs:229-248. *)
Inductive devent :=
| DeSys (i : nat) (e : rsevent)
| DeExec (i : nat)                 (** the server executes the command System [i]'s cache waits for *)
| DeReply (i : nat) (v : delivery)   (** System [i]'s cache gets a reply *)
| DeLate (j : nat)                 (** the server executes a command that was given up *)
| DeOther (c : token_call) (f : fate)  (** someone uses the client's get_token or delete_token directly *)
| DeTick (t : N).
(** What can be observed of it. *)
Inductive dout :=
| DoSys (i : nat) (o : rsout)
| DoExec (i : nat) (now : N) (cmd : list string)
| DoLate (now : N) (cmd : list string)
| DoOther (now : N) (c : token_call) (f : fate).

(** What a System may do by itself. A cache actor is used by its System only, and gets its replies by [DeReply];
    a Master may be used by anybody, and what it gets from Redis is arbitrary. system.rs:92: the cache's address
    is private; 91: the master's is public. *)
Definition own (e : rsevent) : bool :=
  match e with
  | SvActor AtCache ReTake => true
  | SvActor AtCache _ => false
  | _ => true
  end.
(** The command the cache waits for. cache/redis.rs:63, 92, 109, 126 [ctx.wait(fut)]. *)
Definition in_flight (s : rsys) : option rcmd :=
  match ra_cur (rs_cache s) with Some (_, op, _, _) => Some op | None => None end.
(** Commands for tokens are those the server of Model/Redis.v knows. The reply to one is what its execution gave
    or, executed or not, an error of the connection. redis/mod.rs:77. *)
Definition delivered (d : depl) (i : nat) (op : rcmd) (v : delivery) : option rreply :=
  match serve (dp_now d) (dp_server d) (rc_cmd op), v with
  | None, DvModule r => Some r
  | Some _, DvReply => dp_done d !! i
  | Some _, DvBroken => Some (RrErr "connection")
  | _, _ => None
  end.
(** What is left of a command when an error arrived before it was executed. redis/mod.rs:77. *)
Definition left_behind (d : depl) (i : nat) (op : rcmd) (v : delivery) : list (list string) :=
  match v, dp_done d !! i with DvBroken, None => [rc_cmd op] | _, _ => [] end.

(** [k]: the kind of connections; [ls i]: the PoW configuration of System [i]. The steps are those of
    Model/RedisSystem.v (system.rs:108-200, cache/redis.rs:46-147) and of the server (redis/mod.rs:75-80). *)
Definition dp_step (k : conn) (ls : nat -> pow_lib) (d : depl) (e : devent) : option (depl * list dout) :=
  match e with
  | DeSys i e =>
      if own e then
        match rs_step k (ls i) (sys i d) e with
        | Some (s, o) => Some (set_sys i s d, DoSys i <$> o)
        | None => None
        end
      else None
  | DeExec i =>
      match in_flight (sys i d), dp_done d !! i with
      | Some op, None =>
          match serve (dp_now d) (dp_server d) (rc_cmd op) with
          | Some (sv, r) =>
              Some (Depl (dp_now d) sv (dp_sys d) (<[i := r]> (dp_done d)) (dp_late d), [DoExec i (dp_now d) (rc_cmd op)])
          | None => None
          end
      | _, _ => None
      end
  | DeReply i v =>
      match in_flight (sys i d) with
      | Some op =>
          match delivered d i op v with
          | Some r =>
              match rs_step k (ls i) (sys i d) (SvActor AtCache (ReReply r)) with
              | Some (s, o) =>
                  Some (Depl (dp_now d) (dp_server d) (<[i := s]> (dp_sys d)) (delete i (dp_done d)) (dp_late d ++ left_behind d i op v),
                        DoSys i <$> o)
              | None => None
              end
          | None => None
          end
      | None => None
      end
  | DeLate j =>
      match dp_late d !! j with
      | Some cmd =>
          match serve (dp_now d) (dp_server d) cmd with
          | Some (sv, _) => Some (Depl (dp_now d) sv (dp_sys d) (dp_done d) (delete j (dp_late d)), [DoLate (dp_now d) cmd])
          | None => None
          end
      | None => None
      end
  | DeOther c f =>
      match c with
      | TkAdd _ => None
      | _ =>
          let '(sv, _) := token_step (dp_server d) (TokenEvent (dp_now d) c f) in
          Some (Depl (dp_now d) sv (dp_sys d) (dp_done d) (dp_late d), [DoOther (dp_now d) c f])
      end
  | DeTick t => Some (Depl (dp_now d + t) (dp_server d) (dp_sys d) (dp_done d) (dp_late d), [])
  end.
Fixpoint dp_run (k : conn) (ls : nat -> pow_lib) (d : depl) (es : list devent) : option (depl * list dout) :=
  match es with
  | [] => Some (d, [])
  | e :: r =>
      match dp_step k ls d e with
      | Some (d1, o1) => match dp_run k ls d1 r with Some (d2, o2) => Some (d2, o1 ++ o2) | None => None end
      | None => None
      end
  end.
