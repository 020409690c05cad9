(** Model of /repo/src/master/embedded/master.rs: the Master actor with the
    Counter actors it manages and the asynchronous tasks it spawns. *)
From Verif Require Import Model.Base Model.Defense Model.MCaptcha Model.Counter.

(** master.rs:41-45: an entry [(Option<()>, Addr<Counter>)] of [sites].
    An address is the index of the counter in the order of starting. *)
Record site := Site { si_read : bool; si_ctr : nat }.
Global Instance site_eq_dec : EqDecision site.
Proof. solve_decision. Defined.
Notation sites := (gmap string site).

(** master.rs:51-53 [add_site]. *)
Definition add_site (ss : sites) (c : nat) (id : string) : sites := <[id := Site false c]> ss.
(** master.rs:65-72 [get_site]: marks the entry as read. *)
Definition get_site (ss : sites) (id : string) : sites * option nat :=
  match ss !! id with
  | Some x => (<[id := Site true (si_ctr x)]> ss, Some (si_ctr x))
  | None => (ss, None)
  end.
(** master.rs:75-77 [rm_site]. *)
Definition rm_site (ss : sites) (id : string) : sites * option site := (delete id ss, ss !! id).
(** master.rs:80-86 [rename]. *)
Definition rename (ss : sites) (name rename_to : string) : sites :=
  match ss !! name with
  | Some x => add_site (delete name ss) (si_ctr x) rename_to
  | None => ss
  end.

(** Iteration over a BTreeMap: ascending byte order of the keys. master.rs:43 ([BTreeMap]), 173, 235. *)
Definition key_le (a b : string * site) : Prop := String.leb (fst a) (fst b) = true.
Global Instance key_le_dec a b : Decision (key_le a b).
Proof. unfold key_le. apply _. Defined.
Definition sites_iter (ss : sites) : list (string * site) := merge_sort key_le (map_to_list ss).

(** Messages of the Master: master/mod.rs:82-125, master.rs:142-145, 159-162. *)
Inductive mreq :=
| RqAddSite (id : string) (m : mcaptcha)
| RqRename (name rename_to : string)
| RqRemove (id : string)
| RqAddVisitor (id : string)
| RqGetSite (id : string)
| RqGetData
| RqSetData (d : gmap string mcaptcha)
| RqCleanUp.

(** What a client finally gets.  [MrClosed]: the master's mailbox is closed; [MrDropped]: the master died while
    the answer was pending. The results of these messages: master/mod.rs:68-124, master.rs:144, 161;
    errors.rs:125-140. *)
Inductive mreply :=
| MrVisit (r : result (option add_visitor_result))
| MrUnit (r : result unit)
| MrSite (a : option nat)
| MrData (d : gmap string mcaptcha)
| MrClosed
| MrDropped.

(** Futures spawned by the Master's handlers, by what they do next. [r] is the client request to be answered, if
    any. master.rs:94-98, 112-124, 172-189, 199-205, 234-257, 272-286. *)
Inductive cphase := PCount | PStop | PRemove.
Inductive task :=
| TWake (due : N)                                     (** 92-99, 182-186: send CleanUp once due *)
| TClean (todo : list (string * site)) (ph : cphase)  (** 171-181: the cleanup loop *)
| TVisit (r : option nat) (c : nat)                   (** 112-123 *)
| TStop (r : option nat) (c : nat)                    (** 199-204 *)
| TGet (r : option nat) (todo : list (string * site)) (acc : gmap string mcaptcha)  (** 234-256 *)
| TSet (c : nat) (m : mcaptcha)                       (** 278-283 *)
| TAdd (id : string) (m : mcaptcha).                  (** 275-277 *)

(** master.rs:41-45 with what actix keeps for the actor: whether it runs, its futures, the counters started so
    far; clock and numbering are bookkeeping of the model. *)
Record msys := MSys {
  my_now : N;
  my_alive : bool;
  my_gc : N;
  my_sites : sites;
  my_ctrs : list counter;
  my_tasks : gmap nat task;
  my_next : nat;
  my_reqs : nat }.

(** Observations: a message is handled by the master, a client request is answered, a client talks to a counter
    directly. master.rs:102-292. *)
Inductive mout :=
| MoHandle (r : mreq)
| MoReply (k : nat) (x : mreply)
| MoDirect (c : nat) (x : counter_reply).

(** Updates of the state: [spawn] is [ctx.spawn] (master.rs:98, 124, 189, 205, 257, 286), [reply] is [tx.send]
    (109, 115, 119, 137, 202, 207, 221, 254, 289). *)
Definition set_sites (s : msys) (ss : sites) : msys :=
  MSys (my_now s) (my_alive s) (my_gc s) ss (my_ctrs s) (my_tasks s) (my_next s) (my_reqs s).
Definition set_ctrs (s : msys) (cs : list counter) : msys :=
  MSys (my_now s) (my_alive s) (my_gc s) (my_sites s) cs (my_tasks s) (my_next s) (my_reqs s).
Definition set_tasks (s : msys) (ts : gmap nat task) : msys :=
  MSys (my_now s) (my_alive s) (my_gc s) (my_sites s) (my_ctrs s) ts (my_next s) (my_reqs s).
Definition spawn (s : msys) (t : task) : msys :=
  MSys (my_now s) (my_alive s) (my_gc s) (my_sites s) (my_ctrs s)
    (<[my_next s := t]> (my_tasks s)) (S (my_next s)) (my_reqs s).
Definition end_task (s : msys) (t : nat) : msys := set_tasks s (delete t (my_tasks s)).
Definition set_task (s : msys) (t : nat) (x : task) : msys := set_tasks s (<[t := x]> (my_tasks s)).
Definition reply (k : option nat) (x : mreply) : list mout :=
  match k with Some k => [MoReply k x] | None => [] end.

(** master.rs:57-62 [Master::new(gc)], [.start()] and 89-100 [started]. *)
Definition m_start (now gc : N) : msys := MSys now true gc ∅ [] {[0%nat := TWake now]} 1 0.

(** master.rs:267-287: one iteration of the loop in [SetInternalData]. *)
Definition set_data_one (s : msys) (nm : string * mcaptcha) : msys :=
  let '(ss, a) := get_site (my_sites s) (fst nm) in
  spawn (set_sites s ss)
    (match a with None => TAdd (fst nm) (snd nm) | Some c => TSet c (snd nm) end).

(** The Master's handlers: AddVisitor 102-129, Rename 131-140, GetSite 147-157,
    CleanUp 164-191, RemoveCaptcha 193-211, AddSite 213-224, GetInternalData
    226-262, SetInternalData 264-292.  [k] is the client request, [None] for
    messages the master sends to itself and whose answer nobody reads. *)
Definition m_handle (s : msys) (k : option nat) (r : mreq) : msys * list mout :=
  match r with
  | RqAddVisitor id =>
      let '(ss, a) := get_site (my_sites s) id in
      match a with
      | None => (set_sites s ss, reply k (MrVisit (Ok None)))
      | Some c => (spawn (set_sites s ss) (TVisit k c), [])
      end
  | RqRename name rename_to =>
      (set_sites s (rename (my_sites s) name rename_to), reply k (MrUnit (Ok tt)))
  | RqGetSite id =>
      let '(ss, a) := get_site (my_sites s) id in (set_sites s ss, reply k (MrSite a))
  | RqCleanUp => (spawn s (TClean (sites_iter (my_sites s)) PCount), reply k (MrUnit (Ok tt)))
  | RqRemove id =>
      let '(ss, x) := rm_site (my_sites s) id in
      match x with
      | Some x => (spawn (set_sites s ss) (TStop k (si_ctr x)), [])
      | None => (set_sites s ss, reply k (MrUnit (Ok tt)))
      end
  | RqAddSite id m =>
      let c := length (my_ctrs s) in
      (set_sites (set_ctrs s (my_ctrs s ++ [counter_start m])) (add_site (my_sites s) c id),
       reply k (MrUnit (Ok tt)))
  | RqGetData => (spawn s (TGet k (sites_iter (my_sites s)) ∅), [])
  | RqSetData d => (foldl set_data_one s (map_to_list d), reply k (MrUnit (Ok tt)))
  end.

(** A message to counter [c] is handled by it. [addr.send(..)]: master.rs:113, 174, 177, 201, 237, 278. *)
Definition send_counter (p : profile) (s : msys) (c : nat) (msg : counter_msg)
  : option (msys * counter_reply) :=
  match my_ctrs s !! c with
  | Some x =>
      let '(x', r) := counter_handle p (my_now s) x msg in
      Some (set_ctrs s (<[c := x']> (my_ctrs s)), r)
  | None => None
  end.

(** A panic in a spawned future unwinds the Master's context: the actor is gone with all its futures; clients
    waiting for an answer see their channel closed. The [unwrap]s of master.rs:95, 174, 177, 178, 186, 275. *)
Definition task_req (t : task) : list nat :=
  match t with
  | TVisit (Some k) _ | TStop (Some k) _ | TGet (Some k) _ _ => [k]
  | _ => []
  end.
Definition m_die (s : msys) : msys * list mout :=
  (MSys (my_now s) false (my_gc s) (my_sites s) (my_ctrs s) ∅ (my_next s) (my_reqs s),
   (fun k => MoReply k MrDropped) <$> ((map_to_list (my_tasks s)).*2 ≫= task_req)).

(** Task [t] runs until it next awaits. master.rs:94-98, 112-124, 172-189, 199-205, 234-257, 272-286. *)
Definition task_step (p : profile) (s : msys) (t : nat) : option (msys * list mout) :=
  match my_tasks s !! t with
  | None => None
  | Some (TWake due) =>
      if due <=? my_now s
      then let '(s1, o) := m_handle (end_task s t) None RqCleanUp in Some (s1, MoHandle RqCleanUp :: o)
      else None
  | Some (TClean [] _) => Some (set_task s t (TWake (my_now s + my_gc s * NS)), [])
  | Some (TClean ((id, Site rd c) :: rest) PCount) =>
      match send_counter p s c CmGetCurrentVisitorCount with
      | Some (s1, CrCount n) =>
          Some (set_task s1 t (if (n =? 0) && rd then TClean ((id, Site rd c) :: rest) PStop
                               else TClean rest PCount), [])
      | Some (s1, _) => Some (m_die s1)
      | None => None
      end
  | Some (TClean ((id, Site rd c) :: rest) PStop) =>
      match send_counter p s c CmStop with
      | Some (s1, CrUnit) => Some (set_task s1 t (TClean ((id, Site rd c) :: rest) PRemove), [])
      | Some (s1, _) => Some (m_die s1)
      | None => None
      end
  | Some (TClean ((id, Site rd c) :: rest) PRemove) =>
      let '(s1, o) := m_handle (set_task s t (TClean rest PCount)) None (RqRemove id) in
      Some (s1, MoHandle (RqRemove id) :: o)
  | Some (TVisit k c) =>
      match send_counter p s c CmAddVisitor with
      | Some (s1, CrAdded v) => Some (end_task s1 t, reply k (MrVisit (Ok (Some v))))
      | Some (s1, _) => Some (end_task s1 t, reply k (MrVisit (Err MailboxError)))
      | None => None
      end
  | Some (TStop k c) =>
      match send_counter p s c CmStop with
      | Some (s1, CrUnit) => Some (end_task s1 t, reply k (MrUnit (Ok tt)))
      | Some (s1, _) => Some (end_task s1 t, reply k (MrUnit (Err MailboxError)))
      | None => None
      end
  | Some (TGet k [] acc) => Some (end_task s t, reply k (MrData acc))
  | Some (TGet k ((id, Site _ c) :: rest) acc) =>
      match send_counter p s c CmGetInternalData with
      | Some (s1, CrData m) => Some (set_task s1 t (TGet k rest (<[id := m]> acc)), [])
      | Some (s1, _) => Some (set_task s1 t (TGet k rest acc), [])
      | None => None
      end
  | Some (TSet c m) =>
      match send_counter p s c (CmSetInternalData m) with
      | Some (s1, _) => Some (end_task s1 t, [])
      | None => None
      end
  | Some (TAdd id m) =>
      let '(s1, o) := m_handle (end_task s t) None (RqAddSite id m) in
      Some (s1, MoHandle (RqAddSite id m) :: o)
  end.

(** The environment: clients send messages to the master or (through an address obtained with GetSite) to a
    counter, tasks progress, counters' timers fire, time passes. Messages: master.rs:102-292,
    counter.rs:111-219; schedule and clock are the environment. *)
Inductive mevent :=
| MeReq (r : mreq)
| MeTask (t : nat)
| MeFire (c id : nat)
| MeDirect (c : nat) (m : counter_msg)
| MeTick (d : N).

(** One step: a handler (master.rs:102-292), a future (94-98, 112-124, 172-189, 199-205, 234-257, 272-286), or a
    counter (counter.rs:111-219). *)
Definition m_step (p : profile) (s : msys) (e : mevent) : option (msys * list mout) :=
  match e with
  | MeReq r =>
      let k := my_reqs s in
      let s0 := MSys (my_now s) (my_alive s) (my_gc s) (my_sites s) (my_ctrs s) (my_tasks s)
                  (my_next s) (S k) in
      if my_alive s
      then let '(s1, o) := m_handle s0 (Some k) r in Some (s1, MoHandle r :: o)
      else Some (s0, [MoReply k MrClosed])
  | MeTask t => if my_alive s then task_step p s t else None
  | MeFire c id =>
      match my_ctrs s !! c with
      | Some x =>
          match counter_fire (my_now s) x id with
          | Some x' => Some (set_ctrs s (<[c := x']> (my_ctrs s)), [])
          | None => None
          end
      | None => None
      end
  | MeDirect c m =>
      match send_counter p s c m with
      | Some (s1, r) => Some (s1, [MoDirect c r])
      | None => None
      end
  | MeTick d =>
      Some (MSys (my_now s + d) (my_alive s) (my_gc s) (my_sites s) (my_ctrs s) (my_tasks s)
              (my_next s) (my_reqs s), [])
  end.

(** Executions; no code of its own. *)
Fixpoint m_run (p : profile) (s : msys) (es : list mevent) : option (msys * list mout) :=
  match es with
  | [] => Some (s, [])
  | e :: r =>
      match m_step p s e with
      | None => None
      | Some (s1, o) =>
          match m_run p s1 r with
          | None => None
          | Some (s2, os) => Some (s2, o ++ os)
          end
      end
  end.
