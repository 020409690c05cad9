(** Model of /repo/src/cache/redis.rs and /repo/src/master/redis/master.rs: the
    two actors in front of Redis, and of the connection they share with whoever
    holds a clone (/repo/src/redis/mod.rs:57-80). *)
From Verif Require Import Model.Base Model.Defense Model.MCaptcha Model.HashCache Model.Master Model.Json Model.Serde
  Model.Redis.

(** What a caller can get. cache/redis.rs:47, 71, 99, 116, 134, 142; master/redis/master.rs:49, 66, 82, 99. *)
Inductive rout :=
| RoUnit (r : result unit)
| RoVisit (r : result (option add_visitor_result))
| RoPoW (r : result (option cached_pow))
| RoBool (r : result bool)
| RoNum (r : result N).
(** A command in flight and what its caller gets. redis/mod.rs:75-80, mcaptcha_redis.rs:118-248. *)
Record rcmd := RCmd { rc_cmd : list string; rc_answer : rreply -> outcome rout }.
Definition lift {A} (f : result A -> rout) (o : rop A) : rcmd :=
  RCmd (ro_cmd o) (fun r => olet x := ro_reply o r in Val (f x)).

(** What a handler does: wait for a command and pass its result on with [tx.send(res).unwrap()] ([strict]) or
    [let _ = tx.send(res)]; answer at once; panic ([todo!()]). cache/redis.rs:60, 89, 106, 123;
    master/redis/master.rs:57, 73, 90, 107, 119, 127. *)
Inductive action :=
| AcCommand (op : rcmd) (strict : bool)
| AcNow (x : rout)
| AcPanic.

(** cache/redis.rs:70-94: the reply to RetrivePoW. *)
Definition r_retrive_pow (m : verify_captcha_result) : rop (option cached_pow) :=
  ROp (ro_cmd (r_get_challenge m))
    (fun r => match ro_reply (r_get_challenge m) r with
              | Val (Ok v) => Val (Ok (Some (CachedPoWConfig (vr_key m) (avr_difficulty_factor v) (avr_duration v))))
              | Val (Err e) => Val (Err e)
              | Panic => Panic
              end).
(** cache/redis.rs:46-145: the handlers of RedisCache. *)
Definition cache_action (m : cache_msg) : action :=
  match m with
  | HmCachePoW m =>
      AcCommand (lift RoUnit (r_add_challenge (cp_key m)
        (AddChallenge (cp_difficulty_factor m) (cp_duration m) (cp_string m)))) true
  | HmRetrivePoW m => AcCommand (lift RoPoW (r_retrive_pow m)) true
  | HmCacheResult m => AcCommand (lift RoUnit (r_add_token m)) true
  | HmVerifyCaptchaResult m => AcCommand (lift RoBool (r_get_token m)) true
  | HmDelete _ => AcNow (RoUnit (Ok tt))
  end.
(** master/redis/master.rs:48-129: the handlers of Master. GetSite and CleanUp
    are messages of the embedded Master only; [None] here. *)
Definition master_action (m : mreq) : option action :=
  match m with
  | RqAddVisitor id => Some (AcCommand (lift RoVisit (r_add_visitor id)) false)
  | RqAddSite id m => Some (AcCommand (lift RoUnit (r_add_mcaptcha id m)) false)
  | RqRename a b => Some (AcCommand (lift RoUnit (r_rename_captcha a b)) false)
  | RqRemove id => Some (AcCommand (lift RoUnit (r_delete_captcha id)) false)
  | RqGetData | RqSetData _ => Some AcPanic
  | RqGetSite _ | RqCleanUp => None
  end.

(** ** The running actor and its connection *)
(** redis/mod.rs:75-80: on a single connection [borrow_mut] is held while the
    reply is awaited; a cluster connection blocks the thread instead. *)
Inductive conn := Single | Cluster.
(** A request in the mailbox: its number, what its handler does, and whether somebody waits for the answer:
    [send] (true) or [do_send] (false). The mailbox of cache/redis.rs:41-43 and master/redis/master.rs:44-46
    (actix, library). *)
Record rreq := RReq { rq_id : nat; rq_action : action; rq_send : bool }.
Record ractor := RActor {
  ra_alive : bool;
  ra_box : list rreq;
  (** the future given to [ctx.wait]: nothing else is handled until it is done *)
  ra_cur : option (nat * rcmd * bool * bool);  (** request, command, strict, somebody waits *)
  (** commands other holders of the connection are waiting for *)
  ra_users : gmap nat (rcmd);
  ra_next : nat }.
Definition ra_init : ractor := RActor true [] None ∅ 0.
Definition borrowed (s : ractor) : bool :=
  match ra_cur s with Some _ => true | None => bool_decide (ra_users s <> ∅) end.

(** cache/redis.rs:46-147, master/redis/master.rs:48-129, redis/mod.rs:64-80; schedule and replies are the
    environment. *)
Inductive revent :=
| ReSend (a : action) (wants : bool)     (** a message for the actor *)
| ReGone (n : nat)                       (** the sender of request [n] drops its future *)
| ReTake                                 (** the actor takes the next message *)
| ReReply (r : rreply)                   (** Redis answers the actor *)
| ReUser (u : nat) (op : rcmd)       (** a holder of the connection starts a command *)
| ReUserReply (u : nat) (r : rreply)
| ReUserGone (u : nat).                  (** it drops the future *)
(** What can be observed of it. *)
Inductive robs :=
| ObAnswer (n : nat) (x : rout)          (** request [n] is answered *)
| ObFail (n : nat)                       (** request [n] fails: closed mailbox or dropped channel *)
| ObCommand (n : nat) (cmd : list string)  (** sent to Redis for request [n] *)
| ObLeft (n : nat)                       (** nobody waits for request [n] any more *)
| ObDied                                 (** the actor panicked *)
| ObUserCommand (u : nat) (cmd : list string)
| ObUserAnswer (u : nat) (x : rout)
| ObUserPanic (u : nat).

(** Requests that fail when the actor dies: those somebody waits for. actix (library) for the actors of
    cache/redis.rs:41-43, master/redis/master.rs:44-46. *)
Definition waiting (s : ractor) : list nat :=
  match ra_cur s with Some (n, _, _, true) => [n] | _ => [] end ++
  omap (fun q => if rq_send q then Some (rq_id q) else None) (ra_box s).
Definition die (s : ractor) : ractor * list robs :=
  (RActor false [] None (ra_users s) (ra_next s), ObDied :: (ObFail <$> waiting s)).
Definition set_box (s : ractor) b := RActor (ra_alive s) b (ra_cur s) (ra_users s) (ra_next s).
Definition set_cur (s : ractor) c := RActor (ra_alive s) (ra_box s) c (ra_users s) (ra_next s).
Definition set_users (s : ractor) u := RActor (ra_alive s) (ra_box s) (ra_cur s) u (ra_next s).
(** A request whose sender dropped its future before it was taken. actix (library), as above;
    cache/redis.rs:41-43. *)
Definition drop_gone (n : nat) (q : rreq) : bool := negb (rq_send q && (rq_id q =? n)%nat).

(** cache/redis.rs:46-147, master/redis/master.rs:48-129; [borrow_mut]: redis/mod.rs:77-78. *)
Definition ra_step (k : conn) (s : ractor) (e : revent) : option (ractor * list robs) :=
  match e with
  | ReSend a wants =>
      let n := ra_next s in
      let s1 := RActor (ra_alive s) (ra_box s) (ra_cur s) (ra_users s) (S n) in
      if ra_alive s then Some (set_box s1 (ra_box s ++ [RReq n a wants]), [])
      else Some (s1, if wants then [ObFail n] else [])
  | ReGone n =>
      (* actix: an envelope whose receiver is gone is skipped when its turn comes *)
      let s1 := set_box s (List.filter (drop_gone n) (ra_box s)) in
      let o := if existsb (fun q => negb (drop_gone n q)) (ra_box s) then [ObLeft n] else [] in
      match ra_cur s with
      | Some (m, op, strict, true) =>
          if (m =? n)%nat then Some (set_cur s1 (Some (m, op, strict, false)), o ++ [ObLeft n]) else Some (s1, o)
      | _ => Some (s1, o)
      end
  | ReTake =>
      match ra_alive s, ra_cur s, ra_box s with
      | true, None, q :: rest =>
          match rq_action q with
          | AcNow x => Some (set_box s rest, if rq_send q then [ObAnswer (rq_id q) x] else [])
          | AcPanic => Some (die s)
          | AcCommand op strict =>
              if borrowed s then
                match k with
                | Single => Some (die s)        (* BorrowMutError *)
                | Cluster => None               (* the thread is blocked *)
                end
              else Some (set_cur (set_box s rest) (Some (rq_id q, op, strict, rq_send q)), [ObCommand (rq_id q) (rc_cmd op)])
          end
      | _, _, _ => None
      end
  | ReReply r =>
      match ra_cur s with
      | Some (n, op, strict, wants) =>
          match rc_answer op r with
          | Panic => Some (die s)
          | Val x =>
              if wants then Some (set_cur s None, [ObAnswer n x])
              else if strict then Some (die s) else Some (set_cur s None, [])
          end
      | None => None
      end
  | ReUser u op =>
      match ra_users s !! u with
      | Some _ => None
      | None =>
          if borrowed s then
            match k with Single => Some (s, [ObUserPanic u]) | Cluster => None end
          else Some (set_users s (<[u := op]> (ra_users s)), [ObUserCommand u (rc_cmd op)])
      end
  | ReUserReply u r =>
      match ra_users s !! u with
      | Some op =>
          let s1 := set_users s (delete u (ra_users s)) in
          match rc_answer op r with
          | Panic => Some (s1, [ObUserPanic u])
          | Val x => Some (s1, [ObUserAnswer u x])
          end
      | None => None
      end
  | ReUserGone u =>
      match ra_users s !! u with
      | Some _ => Some (set_users s (delete u (ra_users s)), [])
      | None => None
      end
  end.
(** Executions; no code of its own. *)
Fixpoint ra_run (k : conn) (s : ractor) (es : list revent) : option (ractor * list robs) :=
  match es with
  | [] => Some (s, [])
  | e :: rest =>
      match ra_step k s e with
      | Some (s1, o1) => match ra_run k s1 rest with Some (s2, o2) => Some (s2, o1 ++ o2) | None => None end
      | None => None
      end
  end.
