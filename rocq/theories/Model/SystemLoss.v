(** The System of Model/System.v when the death of the Master loses answers
    (Model/MasterDelay.v): a get_pow (/repo/src/system.rs:108-126) whose visit a
    counter has handled is told so by a future of the Master
    (/repo/src/master/embedded/master.rs:112-123); if the Master dies before, that
    future is gone and get_pow returns a RecvError (system.rs:109). *)
From Verif Require Import Model.Base Model.Master Model.Pow Model.Queue Model.System.

(** As in Model/System.v, and master.rs:112-123. *)
Inductive levent :=
| LeDo (e : sevent)
| LeLose (n : nat).        (** the answer [n] waits for is lost *)

(** The answers that come from a counter, or from its closed mailbox. master.rs:115, 119. *)
Definition by_future (x : mreply) : bool :=
  match x with
  | MrVisit (Ok (Some _)) | MrVisit (Err MailboxError) => true
  | _ => false
  end.
(** system.rs:109; master.rs:112-123. *)
Definition l_step (p : profile) (l : pow_lib) (s : ssys) (e : levent) : option (ssys * list sout) :=
  match e with
  | LeDo e => s_step p l s e
  | LeLose n =>
      match qs_mgr (sy_q s) with
      | MAborted => None
      | _ =>
          match sy_clients s !! n with
          | Some (GpWait id k) =>
              match sy_replies s !! k with
              | Some x =>
                  if by_future x && negb (my_alive (sy_m s))
                  then s_return s n (GpWait id k) (RGetPow (Err RecvError))
                  else None
              | None => None
              end
          | _ => None
          end
      end
  end.
(** Executions; no code of its own. *)
Fixpoint l_run (p : profile) (l : pow_lib) (s : ssys) (es : list levent) : option (ssys * list sout) :=
  match es with
  | [] => Some (s, [])
  | e :: r =>
      match l_step p l s e with
      | None => None
      | Some (s1, o) =>
          match l_run p l s1 r with
          | None => None
          | Some (s2, os) => Some (s2, o ++ os)
          end
      end
  end.
