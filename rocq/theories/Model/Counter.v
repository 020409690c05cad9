(** Model of /repo/src/master/embedded/counter.rs: the Counter actor. *)
From Verif Require Import Model.Base Model.Defense Model.MCaptcha.

(** counter.rs:106-108, 184-187: the two private messages that expiry timers
    send to the actor itself. *)
Inductive expiry := DeleteVisitor | BulkDecrement (n : N).
Global Instance expiry_eq_dec : EqDecision expiry.
Proof. solve_decision. Defined.

(** counter.rs:89-102 [Counter(MCaptcha)] as a running actor.  [ct_alive] is
    false once the actor has stopped or panicked.  [ct_timers] are the futures
    spawned with [ctx.spawn] (counter.rs:131-138, 209-215) that still sleep: an
    identifier (allocated in spawning order from [ct_next]; it exists only in
    the model, to name a timer in a schedule), the earliest wake-up time and
    the message to be sent then. *)
Record counter := Counter {
  ct_data : mcaptcha;
  ct_alive : bool;
  ct_next : nat;
  ct_timers : list (nat * (N * expiry)) }.
Global Instance counter_eq_dec : EqDecision counter.
Proof. solve_decision. Defined.

(** counter.rs:93-97 [From<MCaptcha> for Counter] followed by [.start()]. *)
Definition counter_start (m : mcaptcha) : counter := Counter m true 0 [].

(** Public messages: counter.rs:118-122, 145-148, 158-161, 171-174, 196-199. *)
Inductive counter_msg :=
| CmAddVisitor
| CmGetCurrentVisitorCount
| CmStop
| CmGetInternalData
| CmSetInternalData (m : mcaptcha).
Global Instance counter_msg_eq_dec : EqDecision counter_msg.
Proof. solve_decision. Defined.

(** The results of these messages (the [rtype] attributes, counter.rs:108-199); [CrMailboxError]: the actor is
    gone. *)
Inductive counter_reply :=
| CrAdded (r : add_visitor_result)
| CrCount (n : N)
| CrUnit
| CrData (m : mcaptcha)
| CrMailboxError.
Global Instance counter_reply_eq_dec : EqDecision counter_reply.
Proof. solve_decision. Defined.

(** [ctx.spawn(async { sleep(Duration::new(secs, 0)).await; addr.send(e) })]. *)
Definition spawn_timer (now : N) (c : counter) (secs : N) (e : expiry) : counter :=
  Counter (ct_data c) (ct_alive c) (S (ct_next c))
    (ct_timers c ++ [(ct_next c, (now + secs * NS, e))]).
Definition with_data (c : counter) (m : mcaptcha) : counter :=
  Counter m (ct_alive c) (ct_next c) (ct_timers c).
(** Stopping (or panicking) drops the actor's context with all its futures. counter.rs:166-168 [ctx.stop()]. *)
Definition kill (c : counter) : counter := Counter (ct_data c) false (ct_next c) [].

(** counter.rs:127-142 [Handler<AddVisitor>]: the timer is spawned before the
    visitor is counted; a panic in [add_visitor] / [AddVisitorResult::new]
    kills the actor and the sender gets MailboxError. *)
Definition handle_add_visitor (p : profile) (now : N) (c : counter) : counter * counter_reply :=
  let c1 := spawn_timer now c (m_get_duration (ct_data c)) DeleteVisitor in
  match (olet m := add_visitor p (ct_data c1) in olet r := avr_new m in Val (m, r)) with
  | Val (m, r) => (with_data c1 m, CrAdded r)
  | Panic => (kill c1, CrMailboxError)
  end.

(** counter.rs:204-218 [Handler<SetInternalData>]. *)
Definition handle_set_internal_data (now : N) (c : counter) (d : mcaptcha) : counter * counter_reply :=
  let c1 := with_data c d in
  let duration := m_get_duration (ct_data c1) in
  let count := m_get_visitors (ct_data c1) in
  (spawn_timer now c1 duration (BulkDecrement count), CrUnit).

(** One public message handled at time [now]: counter.rs:124-182, 201-219.
    A stopped actor has a closed mailbox. *)
Definition counter_handle (p : profile) (now : N) (c : counter) (msg : counter_msg)
  : counter * counter_reply :=
  if ct_alive c then
    match msg with
    | CmAddVisitor => handle_add_visitor p now c
    | CmGetCurrentVisitorCount => (c, CrCount (m_get_visitors (ct_data c)))
    | CmStop => (kill c, CrUnit)
    | CmGetInternalData => (c, CrData (ct_data c))
    | CmSetInternalData d => handle_set_internal_data now c d
    end
  else (c, CrMailboxError).

(** counter.rs:110-115, 189-194: handling of the two expiry messages. *)
Definition handle_expiry (m : mcaptcha) (e : expiry) : mcaptcha :=
  match e with
  | DeleteVisitor => decrement_visitor_by m 1
  | BulkDecrement n => decrement_visitor_by m n
  end.

(** The sleeping futures of counter.rs:132-138, 209-215 by number; the numbers are bookkeeping of the model. *)
Fixpoint timer_lookup (id : nat) (ts : list (nat * (N * expiry))) : option (N * expiry) :=
  match ts with
  | [] => None
  | (i, x) :: r => if (i =? id)%nat then Some x else timer_lookup id r
  end.
Fixpoint timer_remove (id : nat) (ts : list (nat * (N * expiry))) : list (nat * (N * expiry)) :=
  match ts with
  | [] => []
  | (i, x) :: r => if (i =? id)%nat then r else (i, x) :: timer_remove id r
  end.

(** Timer [id] wakes up, sends its message to the own actor and the message is handled, all at [now] (which may
    be later than the wake-up time). counter.rs:133-135, 210-212. *)
Definition counter_fire (now : N) (c : counter) (id : nat) : option counter :=
  if ct_alive c then
    match timer_lookup id (ct_timers c) with
    | Some (due, e) =>
        if due <=? now
        then Some (Counter (handle_expiry (ct_data c) e) (ct_alive c) (ct_next c)
                     (timer_remove id (ct_timers c)))
        else None
    | None => None
    end
  else None.

(** A single counter with the clock: the environment delivers messages, lets time pass and lets due timers fire.
    The messages are those of counter.rs:106-219; clock and schedule are the environment. *)
Record counter_sys := CounterSys { cs_now : N; cs_counter : counter }.
Inductive counter_event :=
| CeMsg (m : counter_msg)
| CeTick (d : N)
| CeFire (id : nat).
Global Instance counter_event_eq_dec : EqDecision counter_event.
Proof. solve_decision. Defined.
Definition counter_step (p : profile) (s : counter_sys) (e : counter_event)
  : option (counter_sys * option counter_reply) :=
  match e with
  | CeMsg m =>
      let '(c, r) := counter_handle p (cs_now s) (cs_counter s) m in
      Some (CounterSys (cs_now s) c, Some r)
  | CeTick d => Some (CounterSys (cs_now s + d) (cs_counter s), None)
  | CeFire id =>
      match counter_fire (cs_now s) (cs_counter s) id with
      | Some c => Some (CounterSys (cs_now s) c, None)
      | None => None
      end
  end.
Fixpoint counter_run (p : profile) (s : counter_sys) (es : list counter_event)
  : option (counter_sys * list (option counter_reply)) :=
  match es with
  | [] => Some (s, [])
  | e :: r =>
      match counter_step p s e with
      | None => None
      | Some (s1, o) =>
          match counter_run p s1 r with
          | None => None
          | Some (s2, os) => Some (s2, o :: os)
          end
      end
  end.
