(** Any number of [System]s (/repo/src/system.rs), in any number of processes,
    whose caches are RedisCaches (/repo/src/cache/redis.rs) on one Redis. The
    masters, the queues and the answers of the Redis module are arbitrary; the
    commands for tokens are executed by the server of Model/Redis.v. *)
From Verif Require Import Model.Base Model.MCaptcha Model.HashCache Model.Pow Model.System Model.Redis
  Model.RedisActor Model.RedisTokens Model.SystemProgram.

(** How the environment answers a request. The answers at system.rs:109, 111, 121, 139, 161, 163, 190, 199. *)
Inductive env :=
| XVisit (a : answer (option add_visitor_result))   (** a master *)
| XDraw (s : string)
| XReply (r : rreply)                (** the Redis module *)
| XToken (f : fate)                  (** the Redis server, and the connection to it *)
| XFail (closed : bool) (f : fate)   (** the cache actor is gone, or dies before it answers *)
| XSubmit (a : submission)           (** a queue *)
| XVerdict (b : option bool).

(** errors.rs:125-140. *)
Definition fail_answer {A} (closed : bool) : answer A := if closed then AnClosed else AnDropped.
(** What [tx.send(res).unwrap()] in cache/redis.rs delivers; a panic in the command drops the sender. 60, 89,
    106, 123. *)
Definition answer_unit (o : outcome rout) : answer unit := match o with Val (RoUnit r) => An r | _ => AnDropped end.
Definition answer_pow (o : outcome rout) : answer (option cached_pow) :=
  match o with Val (RoPoW r) => An r | _ => AnDropped end.
Definition answer_bool (o : outcome rout) : answer bool := match o with Val (RoBool r) => An r | _ => AnDropped end.

(** What the first [try_recv] that is not [Empty] can give: the first value
    [validate] (pow.rs:98-117) sends, or nothing at all. *)
Definition verdict_ok (l : pow_lib) (q : queued_work) (b : option bool) : bool :=
  match b with
  | None => true
  | Some x => bool_decide (head (fst (validate l q)) = Some x)
  end.

(** The request of a program is answered: the server afterwards, the rest of the program, the request with its
    answer, and the fate of the command. system.rs:109, 111, 121, 139, 161, 163, 190, 199. *)
Definition respond (l : pow_lib) (now : N) (s : server) (p : prog) (x : env)
  : option (server * prog * pev * fate) :=
  match p, x with
  | PVisit id k, XVisit a => Some (s, k a, PeVisit id a, Answered)
  | PDraw k, XDraw r => Some (s, k r, PeDraw r, Answered)
  | PCachePoW m k, XReply r =>
      let a := match cache_action (HmCachePoW m) with
               | AcCommand op _ => answer_unit (rc_answer op r) | _ => AnDropped end in
      Some (s, k a, PeCachePoW m a, Answered)
  | PCachePoW m k, XFail c f => let a := fail_answer c in Some (s, k a, PeCachePoW m a, f)
  | PRetrieve m k, XReply r =>
      let a := match cache_action (HmRetrivePoW m) with
               | AcCommand op _ => answer_pow (rc_answer op r) | _ => AnDropped end in
      Some (s, k a, PeRetrieve m a, Answered)
  | PRetrieve m k, XFail c f => let a := fail_answer c in Some (s, k a, PeRetrieve m a, f)
  | PSubmit ip q k, XSubmit a => Some (s, k a, PeSubmit ip q a, Answered)
  | PVerdict q k, XVerdict b => if verdict_ok l q b then Some (s, k b, PeVerdict q b, Answered) else None
  | PCacheResult m k, XToken f =>
      let '(s', o) := token_step s (TokenEvent now (TkAdd m) f) in
      let a := answer_unit o in Some (s', k a, PeCacheResult m a, f)
  | PCacheResult m k, XFail c f =>
      let '(s', _) := token_step s (TokenEvent now (TkAdd m) f) in
      let a := fail_answer c in Some (s', k a, PeCacheResult m a, f)
  | PVerify m k, XToken f =>
      let '(s', o) := token_step s (TokenEvent now (TkGet m) f) in
      let a := answer_bool o in Some (s', k a, PeVerify m a, f)
  | PVerify m k, XFail c f =>
      let '(s', _) := token_step s (TokenEvent now (TkGet m) f) in
      let a := fail_answer c in Some (s', k a, PeVerify m a, f)
  | _, _ => None
  end.

(** Calls are numbered over all Systems; each is made on some System. system.rs:90-95. *)
Record shared := Shared {
  sh_now : N;                 (** Redis's clock, in milliseconds *)
  sh_server : server;
  sh_calls : gmap nat (nat * prog);
  sh_next : nat;
  (** the stores of tokens that the calls have given up on but that may still reach
      the server, with the calls *)
  sh_late : list (nat * cache_result) }.
(** Nothing has happened yet. *)
Definition sh_init (now : N) : shared := Shared now ∅ ∅ 0 [].

(** system.rs:108-200, mcaptcha_redis.rs:229-248; schedule and clock are the environment. *)
Inductive shevent :=
| XeCall (i : nat) (c : call)        (** on System [i] *)
| XeStep (n : nat) (x : env)
| XeReturn (n : nat)
| XeCancel (n : nat)             (** the caller drops the future *)
| XeOther (c : token_call) (f : fate)  (** someone uses the client's get_token or delete_token directly *)
| XeLate (j : nat)               (** a store that was given up is executed after all *)
| XeTick (d : N).
(** What can be observed of it. *)
Inductive shout :=
| XoCall (n i : nat) (c : call)
| XoDid (n : nat) (now : N) (e : pev) (f : fate)
| XoRet (n : nat) (r : ret)
| XoCancel (n : nat)
| XoOther (now : N) (c : token_call) (f : fate)
| XoLate (n : nat) (now : N) (m : cache_result).

(** The server has not executed the command, but it may have been sent. The same of a removal need not be
    remembered: it is as if somebody else removed the token. redis/mod.rs:77; cache/redis.rs:105. *)
Definition given_up (n : nat) (e : pev) (f : fate) : list (nat * cache_result) :=
  match e, f with PeCacheResult m _, NotSent => [(n, m)] | _, _ => [] end.

(** [ls i] is the PoW configuration of System [i]. system.rs:108-200. *)
Definition sh_step (ls : nat -> pow_lib) (s : shared) (e : shevent) : option (shared * list shout) :=
  match e with
  | XeCall i c =>
      Some (Shared (sh_now s) (sh_server s) (<[sh_next s := (i, program (pl_salt (ls i)) c)]> (sh_calls s)) (S (sh_next s)) (sh_late s),
            [XoCall (sh_next s) i c])
  | XeStep n x =>
      match sh_calls s !! n with
      | Some (i, p) =>
          match respond (ls i) (sh_now s) (sh_server s) p x with
          | Some (sv, p', e, f) =>
              Some (Shared (sh_now s) sv (<[n := (i, p')]> (sh_calls s)) (sh_next s) (sh_late s ++ given_up n e f),
                    [XoDid n (sh_now s) e f])
          | None => None
          end
      | None => None
      end
  | XeReturn n =>
      match sh_calls s !! n with
      | Some (_, PRet r) =>
          Some (Shared (sh_now s) (sh_server s) (delete n (sh_calls s)) (sh_next s) (sh_late s), [XoRet n r])
      | _ => None
      end
  | XeCancel n =>
      match sh_calls s !! n with
      | Some _ => Some (Shared (sh_now s) (sh_server s) (delete n (sh_calls s)) (sh_next s) (sh_late s), [XoCancel n])
      | None => None
      end
  | XeOther c f =>
      match c with
      | TkAdd _ => None
      | _ =>
          let '(sv, _) := token_step (sh_server s) (TokenEvent (sh_now s) c f) in
          Some (Shared (sh_now s) sv (sh_calls s) (sh_next s) (sh_late s), [XoOther (sh_now s) c f])
      end
  | XeLate j =>
      match sh_late s !! j with
      | Some (n, m) =>
          let '(sv, _) := token_step (sh_server s) (TokenEvent (sh_now s) (TkAdd m) AnswerLost) in
          Some (Shared (sh_now s) sv (sh_calls s) (sh_next s) (delete j (sh_late s)), [XoLate n (sh_now s) m])
      | None => None
      end
  | XeTick d => Some (Shared (sh_now s + d) (sh_server s) (sh_calls s) (sh_next s) (sh_late s), [])
  end.
(** Executions; no code of its own. *)
Fixpoint sh_run (ls : nat -> pow_lib) (s : shared) (es : list shevent) : option (shared * list shout) :=
  match es with
  | [] => Some (s, [])
  | e :: r =>
      match sh_step ls s e with
      | Some (s1, o1) => match sh_run ls s1 r with Some (s2, o2) => Some (s2, o1 ++ o2) | None => None end
      | None => None
      end
  end.
