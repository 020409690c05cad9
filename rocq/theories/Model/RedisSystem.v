(** A [System] (/repo/src/system.rs) whose Master and cache are the actors of
    /repo/src/master/redis/master.rs and /repo/src/cache/redis.rs: the programs of
    Model/SystemProgram.v, with the actors of Model/RedisActor.v between them and
    Redis. What Redis replies is arbitrary; so are queue and verdicts. *)
From Verif Require Import Model.Base Model.MCaptcha Model.HashCache Model.Pow Model.System Model.Master Model.Redis
  Model.RedisActor Model.SystemProgram Model.SystemShared.

(** system.rs:91-92: the addresses a call sends to. *)
Inductive which := AtMaster | AtCache.
Global Instance which_eq_dec : EqDecision which.
Proof. solve_decision. Defined.
(** system.rs:109, 121, 139, 190, 199: the message a program sends, and to whom. *)
Definition message (p : prog) : option (which * action) :=
  match p with
  | PVisit id _ => match master_action (RqAddVisitor id) with Some a => Some (AtMaster, a) | None => None end
  | PCachePoW m _ => Some (AtCache, cache_action (HmCachePoW m))
  | PRetrieve m _ => Some (AtCache, cache_action (HmRetrivePoW m))
  | PCacheResult m _ => Some (AtCache, cache_action (HmCacheResult m))
  | PVerify m _ => Some (AtCache, cache_action (HmVerifyCaptchaResult m))
  | _ => None
  end.
(** What [addr.send(..).await?.await?] comes to: the handler's answer; the mailbox
    is closed, or the message is dropped with it (errors.rs:125-131); the handler
    ran, but its future died (errors.rs:133-140). *)
Inductive told := TdAnswer (x : rout) | TdClosed | TdDropped.
Definition as_answer {A} (pick : rout -> option (result A)) (t : told) : answer A :=
  match t with
  | TdAnswer x => match pick x with Some r => An r | None => AnDropped end
  | TdClosed => AnClosed
  | TdDropped => AnDropped
  end.
Definition pick_unit x := match x with RoUnit r => Some r | _ => None end.
Definition pick_visit x := match x with RoVisit r => Some r | _ => None end.
Definition pick_pow x := match x with RoPoW r => Some r | _ => None end.
Definition pick_bool x := match x with RoBool r => Some r | _ => None end.
(** The program goes on. system.rs:109, 121, 139, 190, 199. *)
Definition resume (p : prog) (t : told) : option (prog * pev) :=
  match p with
  | PVisit id k => let a := as_answer pick_visit t in Some (k a, PeVisit id a)
  | PCachePoW m k => let a := as_answer pick_unit t in Some (k a, PeCachePoW m a)
  | PRetrieve m k => let a := as_answer pick_pow t in Some (k a, PeRetrieve m a)
  | PCacheResult m k => let a := as_answer pick_unit t in Some (k a, PeCacheResult m a)
  | PVerify m k => let a := as_answer pick_bool t in Some (k a, PeVerify m a)
  | _ => None
  end.

(** A call: its program, and the request it waits for. *)
Notation waits := (option (which * nat)).
(** system.rs:90-95 with its calls. What follows is access to the fields. *)
Record rsys := RSys {
  rs_master : ractor;
  rs_cache : ractor;
  rs_calls : gmap nat (prog * waits);
  rs_next : nat }.
Definition rs_init : rsys := RSys ra_init ra_init ∅ 0.
Definition actor (w : which) (s : rsys) : ractor := match w with AtMaster => rs_master s | AtCache => rs_cache s end.
Definition set_actor (w : which) (a : ractor) (s : rsys) : rsys :=
  match w with
  | AtMaster => RSys a (rs_cache s) (rs_calls s) (rs_next s)
  | AtCache => RSys (rs_master s) a (rs_calls s) (rs_next s)
  end.
Definition set_calls (c : gmap nat (prog * waits)) (s : rsys) : rsys := RSys (rs_master s) (rs_cache s) c (rs_next s).

(** system.rs:108-200, cache/redis.rs:46-147, master/redis/master.rs:48-129; schedule and replies are the
    environment. *)
Inductive rsevent :=
| SvCall (c : call)
| SvAsk (n : nat)                   (** call [n] sends its message *)
| SvActor (w : which) (e : revent)  (** an actor takes a message, Redis replies to it, others use it *)
| SvDo (n : nat) (x : env)          (** random strings, queue, verdicts *)
| SvReturn (n : nat)
| SvCancel (n : nat).               (** the caller drops the future *)
(** What can be observed of it. *)
Inductive rsout :=
| SvoCall (n : nat) (c : call)
| SvoActor (w : which) (e : revent) (o : list robs)
| SvoTold (n : nat) (e : pev)       (** call [n]'s request got its answer *)
| SvoRet (n : nat) (r : ret)
| SvoCancel (n : nat).

(** Who waits for request [k] of actor [w]. The receivers of cache/redis.rs:49, 73, 101, 118,
    master/redis/master.rs:52. *)
Definition waiter (w : which) (k : nat) (c : gmap nat (prog * waits)) : option nat :=
  fst <$> head (List.filter (fun x => bool_decide (x.2.2 = Some (w, k))) (map_to_list c)).
(** Request [k] is settled: its caller, if there is one, goes on. system.rs:109, 121, 139, 190, 199. *)
Definition settle (w : which) (k : nat) (t : told) (c : gmap nat (prog * waits)) : gmap nat (prog * waits) * list rsout :=
  match waiter w k c with
  | Some n =>
      match c !! n with
      | Some (p, _) =>
          match resume p t with Some (p', e) => (<[n := (p', None)]> c, [SvoTold n e]) | None => (c, []) end
      | None => (c, [])
      end
  | None => (c, [])
  end.
(** What the actor does to the callers. [cur] is the request it was working on. cache/redis.rs:60, 89, 106, 123;
    master/redis/master.rs:57. *)
Definition settled_by (cur : option nat) (o : robs) : option (nat * told) :=
  match o with
  | ObAnswer k x => Some (k, TdAnswer x)
  | ObFail k => Some (k, if decide (cur = Some k) then TdDropped else TdClosed)
  | _ => None
  end.
Fixpoint settle_all (w : which) (cur : option nat) (os : list robs) (c : gmap nat (prog * waits))
  : gmap nat (prog * waits) * list rsout :=
  match os with
  | [] => (c, [])
  | o :: r =>
      let '(c1, o1) := match settled_by cur o with Some (k, t) => settle w k t c | None => (c, []) end in
      let '(c2, o2) := settle_all w cur r c1 in (c2, o1 ++ o2)
  end.
(** [ctx.wait]: cache/redis.rs:63, 92, 109, 126; master/redis/master.rs:60. *)
Definition working_on (a : ractor) : option nat := match ra_cur a with Some (n, _, _, _) => Some n | None => None end.
(** One step of an actor. [k]: the kind of connections. cache/redis.rs:46-147, master/redis/master.rs:48-129. *)
Definition actor_step (k : conn) (w : which) (e : revent) (s : rsys) : option (rsys * list rsout) :=
  match ra_step k (actor w s) e with
  | Some (a, o) =>
      let '(c, out) := settle_all w (working_on (actor w s)) o (rs_calls s) in
      Some (set_calls c (set_actor w a s), SvoActor w e o :: out)
  | None => None
  end.

(** system.rs:108-200. *)
Definition rs_step (k : conn) (l : pow_lib) (s : rsys) (e : rsevent) : option (rsys * list rsout) :=
  match e with
  | SvCall c =>
      Some (RSys (rs_master s) (rs_cache s) (<[rs_next s := (program (pl_salt l) c, None)]> (rs_calls s)) (S (rs_next s)),
            [SvoCall (rs_next s) c])
  | SvAsk n =>
      match rs_calls s !! n with
      | Some (p, None) =>
          match message p with
          | Some (w, a) =>
              actor_step k w (ReSend a true)
                (set_calls (<[n := (p, Some (w, ra_next (actor w s)))]> (rs_calls s)) s)
          | None => None
          end
      | _ => None
      end
  | SvActor w e =>
      match e with
      (* nobody else can drop a call's request *)
      | ReGone m => match waiter w m (rs_calls s) with Some _ => None | None => actor_step k w e s end
      | _ => actor_step k w e s
      end
  | SvDo n x =>
      match rs_calls s !! n with
      | Some (p, None) =>
          match message p with
          | Some _ => None
          | None =>
              match respond l 0 ∅ p x with
              | Some (_, p', pe, _) => Some (set_calls (<[n := (p', None)]> (rs_calls s)) s, [SvoTold n pe])
              | None => None
              end
          end
      | _ => None
      end
  | SvReturn n =>
      match rs_calls s !! n with
      | Some (PRet r, None) => Some (set_calls (delete n (rs_calls s)) s, [SvoRet n r])
      | _ => None
      end
  | SvCancel n =>
      match rs_calls s !! n with
      | Some (_, None) => Some (set_calls (delete n (rs_calls s)) s, [SvoCancel n])
      | Some (_, Some (w, m)) =>
          match actor_step k w (ReGone m) (set_calls (delete n (rs_calls s)) s) with
          | Some (s', o) => Some (s', SvoCancel n :: o)
          | None => None
          end
      | None => None
      end
  end.
(** Executions; no code of its own. *)
Fixpoint rs_run (k : conn) (l : pow_lib) (s : rsys) (es : list rsevent) : option (rsys * list rsout) :=
  match es with
  | [] => Some (s, [])
  | e :: r =>
      match rs_step k l s e with
      | Some (s1, o1) => match rs_run k l s1 r with Some (s2, o2) => Some (s2, o1 ++ o2) | None => None end
      | None => None
      end
  end.
