(** Model of the end of a queue, /repo/src/queue.rs: what the threads do from
    the moment the dispatcher takes the Stop message of [Manager::drop]
    (queue.rs:204-210) until nothing is left of the queue. [Model/Queue.v] does
    this in one step and only for runners that are all there; here the messages
    are sent and the threads joined one after the other, in the order of the
    HashMap of runners, and the dispatcher may panic in between. *)
From Verif Require Import Model.Base Model.Queue.

(** queue.rs:103-114 [InnerManager::drop]: the first loop with the runners that
    are still to be told (and, for the second loop, all of them: the map is the
    same, so is its order), the second loop with those still to be joined, a
    panic in either has dropped the fields of the InnerManager but not yet the
    dispatcher's inbox, or the dispatcher thread is no more: it has returned or
    it has panicked. *)
Inductive phase :=
| EpSend (todo all : list nat) | EpJoin (todo : list nat) | EpUnwinds | EpReturned | EpPanicked.
(** The dispatcher's ends of the runners' channels, and its inbox, are gone. queue.rs:95-101, 180. *)
Definition closed (ph : phase) : bool := match ph with EpSend _ _ | EpJoin _ => false | _ => true end.
Definition gone (ph : phase) : bool := match ph with EpReturned | EpPanicked => true | _ => false end.

(** The runner threads (queue.rs:97) and the dispatcher. *)
Record esys := ESys { es_runners : list runner; es_phase : phase }.

(** queue.rs:183-187: [Stop => drop(im)]; [order] is the HashMap's order. *)
Definition e_begin (s : qsys) (order : list nat) : option esys :=
  match qs_mgr s, qs_inbox s with
  | MAlive, ImStop :: _ =>
      Some (ESys (im_runners (qs_im s)) match order with [] => EpJoin [] | _ => EpSend order order end)
  | _, _ => None
  end.

(** Observations: those of the runners as before; a runner spins; the call of
    [Manager::drop] (queue.rs:208-209, [join().unwrap()]) returns or panics. *)
Inductive eout := EoQ (o : qout) | EoSpin (r : nat) | EoReturns | EoPanics.
Inductive eevent :=
| EeSend           (** queue.rs:105-107: the dispatcher tells the next runner *)
| EeJoin           (** queue.rs:108-112: it joins the next one, is done, or
                       the panic reaches the end of the thread *)
| EeRecv (r : nat) (** queue.rs:54: [rx.recv()] returns in runner [r] *)
| EeFinish (r : nat)
| EePanic (r : nat).

(** queue.rs:105-107. *)
Definition e_send (s : esys) : option (esys * list eout) :=
  match es_phase s with
  | EpSend (r :: todo) all =>
      match es_runners s !! r with
      | Some x =>
          if rn_open x
          then Some (ESys (alter (rn_send RmStop) r (es_runners s))
                       match todo with [] => EpJoin all | _ => EpSend todo all end, [])
          else Some (ESys (es_runners s) EpUnwinds, [])  (* [send(..).unwrap()] *)
      | None => None
      end
  | _ => None
  end.
(** queue.rs:108-113, 185-186, 208. *)
Definition e_join (s : esys) : option (esys * list eout) :=
  match es_phase s with
  | EpJoin [] => Some (ESys (es_runners s) EpReturned, [EoReturns])
  | EpJoin (r :: todo) =>
      match es_runners s !! r with
      | Some (Runner _ RExited) => Some (ESys (es_runners s) (EpJoin todo), [])
      | Some (Runner _ RDead) => Some (ESys (es_runners s) EpUnwinds, [])  (* [join().unwrap()] *)
      | _ => None
      end
  | EpUnwinds => Some (ESys (es_runners s) EpPanicked, [EoPanics])
  | _ => None
  end.
(** Update of the state; no code of its own. *)
Definition e_set (s : esys) (r : nat) (x : runner) : esys := ESys (<[r := x]> (es_runners s)) (es_phase s).
(** queue.rs:52-70.  With the dispatcher its end of the runner's channel is gone
    (the field [runners] is dropped in any case): what is in the channel is
    still received, after that [recv] fails at once and the loop goes round. *)
Definition e_recv (s : esys) (r : nat) : option (esys * list eout) :=
  match es_runners s !! r with
  | Some (Runner (RmStop :: c) RIdle) => Some (e_set s r (Runner c RExited), [EoQ (QExit r)])
  | Some (Runner (RmProve j :: c) RIdle) => Some (e_set s r (Runner c (RRunning j)), [EoQ (QStart r j)])
  | Some (Runner [] RIdle) => if closed (es_phase s) then Some (s, [EoSpin r]) else None
  | _ => None
  end.
(** queue.rs:58-66: the Dispatch message of a runner whose job is done is not
    read any more; once the dispatcher is gone it cannot be sent. *)
Definition e_finish (s : esys) (r : nat) : option (esys * list eout) :=
  match es_runners s !! r with
  | Some (Runner c (RRunning j)) =>
      if gone (es_phase s)
      then Some (e_set s r (Runner c RExited), [EoQ (QFinish r j); EoQ (QExit r)])
      else Some (e_set s r (Runner c RIdle), [EoQ (QFinish r j)])
  | _ => None
  end.
Definition e_panic (s : esys) (r : nat) : option (esys * list eout) :=
  match es_runners s !! r with
  | Some (Runner _ (RRunning j)) => Some (e_set s r (Runner [] RDead), [])
  | _ => None
  end.
Definition e_step (s : esys) (e : eevent) : option (esys * list eout) :=
  match e with
  | EeSend => e_send s
  | EeJoin => e_join s
  | EeRecv r => e_recv s r
  | EeFinish r => e_finish s r
  | EePanic r => e_panic s r
  end.
Fixpoint e_run (s : esys) (es : list eevent) : option (esys * list eout) :=
  match es with
  | [] => Some (s, [])
  | e :: r =>
      match e_step s e with
      | None => None
      | Some (s1, o) =>
          match e_run s1 r with
          | None => None
          | Some (s2, os) => Some (s2, o ++ os)
          end
      end
  end.
