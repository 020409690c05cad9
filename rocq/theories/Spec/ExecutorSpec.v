(** Specification vocabulary for System calls that share executor threads.
    actix and tokio run many futures on one thread; a future gives the thread
    back only at an await that is not ready. The loop at
    /repo/src/system.rs:162-175 contains no await: from the moment a verify_pow
    enters it until the verdict is there, its thread polls nothing else. *)
From Verif Require Import Model.Base Model.Master Model.HashCache Model.Queue Model.Pow Model.System
  Spec.SystemSpec.

(** Which thread runs a client's future, and which one the two actors. *)
Record threads := Threads { th_client : nat -> nat; th_actors : nat }.
Definition one_thread : threads := Threads (fun _ => 0%nat) 0.

(** Client [m] is inside the loop. *)
Definition spinning (s : ssys) (m : nat) : Prop :=
  exists w c j, sy_clients s !! m = Some (VpPoll w c j).
Definition occupied (th : threads) (s : ssys) (t : nat) : Prop :=
  exists m, th_client th m = t /\ spinning s m.
(** The client's next action is the handling of a message it sent to an actor. *)
Definition at_actor (c : client) : bool :=
  match c with
  | GpStart _ | GpCache _ _ _ | VpStart _ _ | VpStore _ _ _ _ | VtStart _ => true
  | _ => false
  end.

(** An event the threads permit: what runs on an occupied thread is the spinning
    client only. The queue has threads of its own, and time passes anyway. *)
Definition permitted (th : threads) (s : ssys) (e : sevent) : Prop :=
  match e with
  | SeCall _ => ~ occupied th s (th_client th (sy_next s))
  | SeAct n _ =>
      (forall m, th_client th m = th_client th n -> spinning s m -> m = n) /\
      (forall c, sy_clients s !! n = Some c -> at_actor c = true -> ~ occupied th s (th_actors th))
  | SeCancel n => ~ occupied th s (th_client th n)
  | SeMaster _ | SeExpire _ _ => ~ occupied th s (th_actors th)
  | SeManager | SeRecv _ | SeSend _ | SeEnd _ | SeTick _ => True
  end.
(** A schedule the threads permit. *)
Fixpoint permitted_run (th : threads) (p : profile) (l : pow_lib) (s : ssys) (es : list sevent) : Prop :=
  match es with
  | [] => True
  | e :: rest =>
      permitted th s e /\
      match s_step p l s e with Some (s1, _) => permitted_run th p l s1 rest | None => True end
  end.

(** Work that passes at least one of the two checks, whatever the difficulty
    asked for, and all the work submitted in an execution being such. *)
Definition decent (l : pow_lib) (w : work) : Prop :=
  forall d, exists a b, sufficient l w d a /\ valid l w b /\ a || b = true.
Definition all_decent (l : pow_lib) (tr : list sout) : Prop :=
  forall n w ip, called tr n (CVerifyPow w ip) -> decent l w.
