(** Model of /repo/src/queue.rs: the work queue with its dispatcher thread and
    runner threads. A job ([Box<dyn Runnable>]) is represented by a number,
    its position in the sequence of [Manager::add] calls. *)
From Verif Require Import Model.Base.

Notation job := nat (only parsing).

(** queue.rs:30-33 [Message]. *)
Inductive rmsg := RmStop | RmProve (j : job).
(** A runner thread (queue.rs:35-71): its unbounded channel and what the thread
    does: blocked in [rx.recv()], inside [r.run()], returned, or unwound by a
    panic of the job. The last two have dropped the receiving end. *)
Inductive rstate := RIdle | RRunning (j : job) | RExited | RDead.
Record runner := Runner { rn_chan : list rmsg; rn_state : rstate }.
(** queue.rs:86-90 [InnerManagerMessage]. *)
Inductive imsg := ImStop | ImDispatch (name : nat) | ImSchedule (j : job) (ip : string).
(** queue.rs:95-101 [InnerManager]; runners are named [0..workers]. *)
Record inner := Inner {
  im_queues : gmap string (list job);
  im_runners : list runner;
  im_ips : list string;
  im_index : N;
  im_queue_length : N }.

(** What can be observed: answers to [Manager::add], dispatch attempts (which runner is served and whose turn it
    is), hand-outs, jobs starting and finishing, runner threads returning. queue.rs:189-192, 117-133, 54-58. *)
Inductive qout :=
| QAnswer (j : job) (ip : string) (r : result unit)
| QTry (r : nat) (ip : string)
| QHand (r : nat) (ip : string) (j : job)
| QStart (r : nat) (j : job)
| QFinish (r : nat) (j : job)
| QExit (r : nat).

(** [Sender::send] on a runner's channel succeeds iff the thread still holds the receiver. queue.rs:106, 130. *)
Definition rn_open (r : runner) : bool :=
  match rn_state r with RIdle | RRunning _ => true | _ => false end.
Definition rn_send (m : rmsg) (r : runner) : runner := Runner (rn_chan r ++ [m]) (rn_state r).

(** queue.rs:117-133 [dispatch_to]. *)
Definition dispatch_to (p : profile) (im : inner) (name : nat) : outcome (inner * list qout) :=
  match im_runners im !! name with
  | None => Val (im, [])
  | Some r =>
      let ip_vec_len := vlen (im_ips im) in
      olet lim := usize_sub p ip_vec_len 1 in
      let index := if im_index im <? lim then im_index im + 1 else 0 in
      olet ip := vindex (im_ips im) index in
      olet ip_queue := unwrap (im_queues im !! ip) in
      match ip_queue with
      | work :: rest =>
          if rn_open r then
            Val (Inner (<[ip := rest]> (im_queues im))
                   (alter (rn_send (RmProve work)) name (im_runners im))
                   (im_ips im) index (im_queue_length im),
                 [QTry name ip; QHand name ip work])
          else Panic
      | [] =>
          Val (Inner (im_queues im) (im_runners im) (im_ips im) index (im_queue_length im),
               [QTry name ip])
      end
  end.

(** queue.rs:135-143 [dispatch]: [for name in 0..runners.len()]; the panic on
    a missing runner cannot occur as runners are never removed. *)
Fixpoint dispatch_names (p : profile) (im : inner) (names : list nat) : outcome (inner * list qout) :=
  match names with
  | [] => Val (im, [])
  | name :: rest =>
      match im_runners im !! name with
      | None => Panic
      | Some _ =>
          olet (im1, o1) := dispatch_to p im name in
          olet (im2, o2) := dispatch_names p im1 rest in
          Val (im2, o1 ++ o2)
      end
  end.
Definition dispatch (p : profile) (im : inner) : outcome (inner * list qout) :=
  dispatch_names p im (seq 0 (length (im_runners im))).

(** queue.rs:145-159 [InnerManager::new]. *)
Definition inner_new (workers : nat) (queue_length : N) : inner :=
  Inner ∅ (replicate workers (Runner [] RIdle)) [] 0 queue_length.

(** queue.rs:161-178 [schedule]. *)
Definition schedule (p : profile) (im : inner) (ip : string) (j : job)
  : outcome (inner * list qout * result unit) :=
  if N.of_nat (size (im_queues im)) =? im_queue_length im
  then Val (im, [], Err QueueFull)
  else
    match im_queues im !! ip with
    | Some queue =>
        let im1 := Inner (<[ip := queue ++ [j]]> (im_queues im)) (im_runners im) (im_ips im)
                     (im_index im) (im_queue_length im) in
        olet (im2, o) := dispatch p im1 in Val (im2, o, Ok tt)
    | None =>
        let im1 := Inner (<[ip := [j]]> (im_queues im)) (im_runners im) (im_ips im ++ [ip])
                     (im_index im) (im_queue_length im) in
        olet (im2, o) := dispatch p im1 in Val (im2, o, Ok tt)
    end.

(** The dispatcher thread: running [InnerManager::run] (queue.rs:180-196),
    inside [drop(im)] joining the runners (103-114), returned, or panicked.
    A panic of the dispatcher unwinds through [InnerManager::drop], which
    panics again ([send(Stop).unwrap()]) if some runner is gone: then the
    process aborts ([MAborted]). *)
Inductive mstate := MAlive | MDraining | MDone | MPanicked | MAborted.

(** The whole queue: dispatcher, its unbounded channel, the [Manager] handle
    (queue.rs:199-228) and the number of [add] calls so far. *)
Record qsys := QSys {
  qs_im : inner;
  qs_inbox : list imsg;
  qs_mgr : mstate;
  qs_dropped : bool;
  qs_next : nat }.
(** queue.rs:213-228 [Manager::new]. *)
Definition q_start (workers : nat) (queue_length : N) : qsys :=
  QSys (inner_new workers queue_length) [] MAlive false 0.

(** The environment: clients of queue.rs:230-236, the threads of 52-70 and 180-196, [drop] (204-210). *)
Inductive qevent :=
| QeAdd (ip : string)   (** queue.rs:230-236 [Manager::add] sends Schedule. *)
| QeManager             (** the dispatcher takes the next message. *)
| QeRecv (r : nat)      (** runner [r] takes the next message. *)
| QeFinish (r : nat)    (** runner [r]'s job returns; Dispatch is sent. *)
| QePanic (r : nat)     (** runner [r]'s job panics. *)
| QeDrop                (** queue.rs:204-210: the Manager is dropped. *)
| QeJoin.               (** [drop(im)] has joined every runner. *)
Global Instance qevent_eq_dec : EqDecision qevent.
Proof. solve_decision. Defined.

(** Updates of the state; no code of its own. *)
Definition with_runners (im : inner) (rs : list runner) : inner :=
  Inner (im_queues im) rs (im_ips im) (im_index im) (im_queue_length im).
(** A panic in queue.rs:117-178 unwinds through 103-114. *)
Definition mgr_panic (s : qsys) (inbox : list imsg) : qsys :=
  QSys (qs_im s) inbox
    (if existsb (fun r => negb (rn_open r)) (im_runners (qs_im s)) then MAborted else MPanicked)
    (qs_dropped s) (qs_next s).

(** queue.rs:180-196: one iteration of [InnerManager::run]. *)
Definition mgr_step (p : profile) (s : qsys) : option (qsys * list qout) :=
  match qs_mgr s, qs_inbox s with
  | MAlive, ImStop :: rest =>
      let rs := im_runners (qs_im s) in
      if forallb rn_open rs
      then Some (QSys (with_runners (qs_im s) (rn_send RmStop <$> rs)) rest MDraining
                   (qs_dropped s) (qs_next s), [])
      else Some (QSys (qs_im s) rest MPanicked (qs_dropped s) (qs_next s), [])
  | MAlive, ImDispatch name :: rest =>
      match dispatch_to p (qs_im s) name with
      | Val (im, o) => Some (QSys im rest MAlive (qs_dropped s) (qs_next s), o)
      | Panic => Some (mgr_panic s rest, [])
      end
  | MAlive, ImSchedule j ip :: rest =>
      match schedule p (qs_im s) ip j with
      | Val (im, o, res) =>
          Some (QSys im rest MAlive (qs_dropped s) (qs_next s), o ++ [QAnswer j ip res])
      | Panic => Some (mgr_panic s rest, [])
      end
  | _, _ => None
  end.

(** Updates of the state; no code of its own. *)
Definition set_runner (s : qsys) (r : nat) (x : runner) (inbox : list imsg) : qsys :=
  QSys (with_runners (qs_im s) (<[r := x]> (im_runners (qs_im s)))) inbox (qs_mgr s)
    (qs_dropped s) (qs_next s).

(** queue.rs:52-70: one step of a runner thread. *)
Definition runner_recv (s : qsys) (r : nat) : option (qsys * list qout) :=
  match im_runners (qs_im s) !! r with
  | Some (Runner (RmStop :: c) RIdle) =>
      Some (set_runner s r (Runner c RExited) (qs_inbox s), [QExit r])
  | Some (Runner (RmProve j :: c) RIdle) =>
      Some (set_runner s r (Runner c (RRunning j)) (qs_inbox s), [QStart r j])
  | _ => None
  end.
Definition runner_finish (s : qsys) (r : nat) : option (qsys * list qout) :=
  match im_runners (qs_im s) !! r with
  | Some (Runner c (RRunning j)) =>
      match qs_mgr s with
      | MAlive | MDraining =>
          Some (set_runner s r (Runner c RIdle) (qs_inbox s ++ [ImDispatch r]), [QFinish r j])
      | _ => (** inner manager is dead: the thread returns *)
          Some (set_runner s r (Runner c RExited) (qs_inbox s), [QFinish r j; QExit r])
      end
  | _ => None
  end.
Definition runner_panic (s : qsys) (r : nat) : option (qsys * list qout) :=
  match im_runners (qs_im s) !! r with
  | Some (Runner _ (RRunning j)) => Some (set_runner s r (Runner [] RDead) (qs_inbox s), [])
  | _ => None
  end.

(** queue.rs:56, 64: the thread has returned. *)
Definition is_exited (r : runner) : bool := match rn_state r with RExited => true | _ => false end.

(** queue.rs:52-70, 180-196, 204-210, 230-236. *)
Definition q_step (p : profile) (s : qsys) (e : qevent) : option (qsys * list qout) :=
  match qs_mgr s with
  | MAborted => None
  | _ =>
    match e with
    | QeAdd ip =>
        if qs_dropped s then None
        else Some (QSys (qs_im s) (qs_inbox s ++ [ImSchedule (qs_next s) ip]) (qs_mgr s)
                     false (S (qs_next s)), [])
    | QeManager => mgr_step p s
    | QeRecv r => runner_recv s r
    | QeFinish r => runner_finish s r
    | QePanic r => runner_panic s r
    | QeDrop =>
        if qs_dropped s then None
        else Some (QSys (qs_im s) (qs_inbox s ++ [ImStop]) (qs_mgr s) true (qs_next s), [])
    | QeJoin =>
        match qs_mgr s with
        | MDraining =>
            if forallb is_exited (im_runners (qs_im s))
            then Some (QSys (qs_im s) (qs_inbox s) MDone (qs_dropped s) (qs_next s), [])
            else None
        | _ => None
        end
    end
  end.

(** Executions; no code of its own. *)
Fixpoint q_run (p : profile) (s : qsys) (es : list qevent) : option (qsys * list qout) :=
  match es with
  | [] => Some (s, [])
  | e :: r =>
      match q_step p s e with
      | None => None
      | Some (s1, o) =>
          match q_run p s1 r with
          | None => None
          | Some (s2, os) => Some (s2, o ++ os)
          end
      end
  end.
