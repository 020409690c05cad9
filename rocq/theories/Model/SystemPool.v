(** Any number of [System]s (/repo/src/system.rs), built with one and the same
    address of an in-memory cache (/repo/src/cache/hashcache.rs), system.rs:57-59, 90-95. The
    masters and the queues are arbitrary, shared or not; whoever else has the
    cache's address may use it, too. *)
From Verif Require Import Model.Base Model.MCaptcha Model.HashCache Model.Pow Model.System Model.SystemProgram.

(** How a request is answered: by a master, the random generator, the cache, a queue. The answers at
    system.rs:109, 111, 121, 139, 161, 163, 190, 199. *)
Inductive plenv :=
| LVisit (a : answer (option add_visitor_result))
| LDraw (s : string)
| LCache
| LGone (closed : bool)          (** the cache actor has stopped, or stops with the message unhandled *)
| LSubmit (a : submission)
| LVerdict (b : option bool).

(** errors.rs:125-140. *)
Definition gone {A} (closed : bool) : answer A := if closed then AnClosed else AnDropped.
(** What the first [try_recv] that is not [Empty] can give: the first value
    [validate] (pow.rs:98-117) sends, or nothing at all. *)
Definition verdict_may (l : pow_lib) (q : queued_work) (b : option bool) : bool :=
  match b with
  | None => true
  | Some x => bool_decide (head (fst (validate l q)) = Some x)
  end.

(** The request of a program is answered: the cache afterwards, the rest of the program, the request with its
    answer. system.rs:109, 111, 121, 139, 161, 163, 190, 199; hashcache.rs:97-187. *)
Definition pl_respond (l : pow_lib) (now : N) (h : hashcache) (p : prog) (x : plenv)
  : option (hashcache * prog * pev) :=
  match p, x with
  | PVisit id k, LVisit a => Some (h, k a, PeVisit id a)
  | PDraw k, LDraw r => Some (h, k r, PeDraw r)
  | PCachePoW m k, LCache =>
      match hc_handle now h (HmCachePoW m) with
      | (h', HrUnit r) => Some (h', k (An r), PeCachePoW m (An r))
      | _ => None
      end
  | PRetrieve m k, LCache =>
      match hc_handle now h (HmRetrivePoW m) with
      | (h', HrPoW r) => Some (h', k (An r), PeRetrieve m (An r))
      | _ => None
      end
  | PCacheResult m k, LCache =>
      match hc_handle now h (HmCacheResult m) with
      | (h', HrUnit r) => Some (h', k (An r), PeCacheResult m (An r))
      | _ => None
      end
  | PVerify m k, LCache =>
      match hc_handle now h (HmVerifyCaptchaResult m) with
      | (h', HrBool r) => Some (h', k (An r), PeVerify m (An r))
      | _ => None
      end
  | PCachePoW m k, LGone c => Some (h, k (gone c), PeCachePoW m (gone c))
  | PRetrieve m k, LGone c => Some (h, k (gone c), PeRetrieve m (gone c))
  | PCacheResult m k, LGone c => Some (h, k (gone c), PeCacheResult m (gone c))
  | PVerify m k, LGone c => Some (h, k (gone c), PeVerify m (gone c))
  | PSubmit ip q k, LSubmit a => Some (h, k a, PeSubmit ip q a)
  | PVerdict q k, LVerdict b => if verdict_may l q b then Some (h, k b, PeVerdict q b) else None
  | _, _ => None
  end.

(** The message with which a call asks the cache, now that it is to: system.rs:121, 139, 190, 199. *)
Definition pending (p : prog) : option cache_msg :=
  match p with
  | PCachePoW m _ => Some (HmCachePoW m)
  | PRetrieve m _ => Some (HmRetrivePoW m)
  | PCacheResult m _ => Some (HmCacheResult m)
  | PVerify m _ => Some (HmVerifyCaptchaResult m)
  | _ => None
  end.

(** Calls are numbered over all Systems; each is made on some System. system.rs:90-95. *)
Record pool := Pool {
  po_now : N;
  po_cache : hashcache;
  po_calls : gmap nat (nat * prog);
  po_next : nat;
  po_late : list (nat * cache_msg)   (** in the mailbox, from calls whose futures were dropped *) }.
(** Nothing has happened yet. *)
Definition po_init (now : N) : pool := Pool now hc_default ∅ 0 [].

(** system.rs:108-200, hashcache.rs:97-187; schedule and clock are the environment. *)
Inductive plevent :=
| LeCall (i : nat) (c : call)        (** on System [i] *)
| LeStep (n : nat) (x : plenv)
| LeReturn (n : nat)
| LeCancel (n : nat)                 (** the caller drops the future *)
| LeDrop (n : nat)                   (** the same, after the message went to the cache's mailbox *)
| LeLate (j : nat)                   (** such a message is handled *)
| LeOther (m : cache_msg)            (** somebody else sends the cache a message *)
| LeExpire (due : N) (d : deletion)
| LeTick (d : N).
(** What can be observed of it. *)
Inductive plout :=
| LoCall (n i : nat) (c : call)
| LoDid (n : nat) (e : pev)
| LoRet (n : nat) (r : ret)
| LoCancel (n : nat)
| LoLate (n : nat) (m : cache_msg) (r : cache_reply)   (** nobody receives the answer *)
| LoOther (m : cache_msg) (r : cache_reply)
| LoExpire (due : N) (d : deletion)
| LoTick (d : N).

(** [ls i] is the PoW configuration of System [i]. system.rs:108-200. *)
Definition pl_step (ls : nat -> pow_lib) (s : pool) (e : plevent) : option (pool * plout) :=
  match e with
  | LeCall i c =>
      Some (Pool (po_now s) (po_cache s) (<[po_next s := (i, program (pl_salt (ls i)) c)]> (po_calls s)) (S (po_next s)) (po_late s),
            LoCall (po_next s) i c)
  | LeStep n x =>
      match po_calls s !! n with
      | Some (i, p) =>
          match pl_respond (ls i) (po_now s) (po_cache s) p x with
          | Some (h, p', e) => Some (Pool (po_now s) h (<[n := (i, p')]> (po_calls s)) (po_next s) (po_late s), LoDid n e)
          | None => None
          end
      | None => None
      end
  | LeReturn n =>
      match po_calls s !! n with
      | Some (_, PRet r) => Some (Pool (po_now s) (po_cache s) (delete n (po_calls s)) (po_next s) (po_late s), LoRet n r)
      | _ => None
      end
  | LeCancel n =>
      match po_calls s !! n with
      | Some _ => Some (Pool (po_now s) (po_cache s) (delete n (po_calls s)) (po_next s) (po_late s), LoCancel n)
      | None => None
      end
  | LeDrop n =>
      match po_calls s !! n with
      | Some (_, p) =>
          match pending p with
          | Some m => Some (Pool (po_now s) (po_cache s) (delete n (po_calls s)) (po_next s) (po_late s ++ [(n, m)]), LoCancel n)
          | None => None
          end
      | None => None
      end
  | LeLate j =>
      match po_late s !! j with
      | Some (n, m) =>
          let '(h, r) := hc_handle (po_now s) (po_cache s) m in
          Some (Pool (po_now s) h (po_calls s) (po_next s) (delete j (po_late s)), LoLate n m r)
      | None => None
      end
  | LeOther m =>
      let '(h, r) := hc_handle (po_now s) (po_cache s) m in
      Some (Pool (po_now s) h (po_calls s) (po_next s) (po_late s), LoOther m r)
  | LeExpire due d =>
      match hc_expire (po_now s) (po_cache s) due d with
      | Some h => Some (Pool (po_now s) h (po_calls s) (po_next s) (po_late s), LoExpire due d)
      | None => None
      end
  | LeTick d => Some (Pool (po_now s + d) (po_cache s) (po_calls s) (po_next s) (po_late s), LoTick d)
  end.
(** Executions; no code of its own. *)
Fixpoint pl_run (ls : nat -> pow_lib) (s : pool) (es : list plevent) : option (pool * list plout) :=
  match es with
  | [] => Some (s, [])
  | e :: r =>
      match pl_step ls s e with
      | Some (s1, o1) => match pl_run ls s1 r with Some (s2, o2) => Some (s2, o1 :: o2) | None => None end
      | None => None
      end
  end.
