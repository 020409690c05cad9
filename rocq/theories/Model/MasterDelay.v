(** The Master of Model/Master.v with the way back of answers: when a counter has
    handled a message (/repo/src/master/embedded/master.rs:113, 201), the future
    that waits for it passes the answer on to the client later (114-122, 202). If
    the Master dies in between, the future is dropped and with it the answer. *)
From Verif Require Import Model.Base Model.Counter Model.Master.

(** master.rs:41-45 (as in Model/Master.v) and the values [val], [res] of 114, 201. *)
Record dmaster := DMaster {
  dm_m : msys;
  (** the answers under way: the client's request and what the counter said *)
  dm_held : list (nat * mreply) }.
(** master.rs:57-62, 92-99. *)
Definition dm_start (now gc : N) : dmaster := DMaster (m_start now gc) [].

(** As in Model/Master.v, and master.rs:115, 119, 202 [tx.send]. *)
Inductive dmevent :=
| DmDo (e : mevent)
| DmTell (j : nat).        (** an answer is passed on *)

(** The tasks that end with the answer of a counter: those of AddVisitor, 112-123,
    and of RemoveCaptcha, 199-204. *)
Definition awaits_counter (s : msys) (e : mevent) : bool :=
  match e with
  | MeTask t =>
      match my_tasks s !! t with
      | Some (TVisit _ _) | Some (TStop _ _) => true
      | _ => false
      end
  | _ => false
  end.
Definition held (o : list mout) : list (nat * mreply) :=
  omap (fun x => match x with MoReply k r => Some (k, r) | _ => None end) o.
Definition dropped (h : list (nat * mreply)) : list mout := (fun kx => MoReply kx.1 MrDropped) <$> h.

(** master.rs:112-123, 199-204 in two steps each; the rest as in Model/Master.v. *)
Definition dm_step (p : profile) (d : dmaster) (e : dmevent) : option (dmaster * list mout) :=
  match e with
  | DmDo e =>
      match m_step p (dm_m d) e with
      | Some (s, o) =>
          if awaits_counter (dm_m d) e then Some (DMaster s (dm_held d ++ held o), [])
          else if my_alive s then Some (DMaster s (dm_held d), o)
          else Some (DMaster s [], o ++ dropped (dm_held d))
      | None => None
      end
  | DmTell j =>
      match dm_held d !! j with
      | Some (k, x) => Some (DMaster (dm_m d) (delete j (dm_held d)), [MoReply k x])
      | None => None
      end
  end.
(** Executions; no code of its own. *)
Fixpoint dm_run (p : profile) (d : dmaster) (es : list dmevent) : option (dmaster * list mout) :=
  match es with
  | [] => Some (d, [])
  | e :: r =>
      match dm_step p d e with
      | Some (d1, o1) => match dm_run p d1 r with Some (d2, o2) => Some (d2, o1 ++ o2) | None => None end
      | None => None
      end
  end.
