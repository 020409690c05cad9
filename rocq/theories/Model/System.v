(** Model of /repo/src/system.rs: the three operations of [System] run by any
    number of concurrent clients over the embedded Master, the in-memory cache
    and the work queue. *)
From Verif Require Import Model.Base Model.Defense Model.MCaptcha Model.Counter Model.Master
  Model.HashCache Model.Queue Model.Pow.

(** ** SystemBuilder *)
(** system.rs:32-38 [SystemBuilder]: addresses are abstract names here. *)
Record system_builder := SystemBuilder {
  sb_master : option nat; sb_cache : option nat; sb_pow : option pow_lib;
  sb_runners : option nat; sb_queue_length : option N }.
(** system.rs:40-50 [Default]. *)
Definition system_builder_default : system_builder := SystemBuilder None None None None None.
(** system.rs:52-76: the setters. *)
Inductive sb_set :=
| SbMaster (a : nat) | SbCache (a : nat) | SbPow (l : pow_lib) | SbRunners (n : nat) | SbQueueLength (n : N).
Definition sb_apply (b : system_builder) (x : sb_set) : system_builder :=
  match x with
  | SbMaster a => SystemBuilder (Some a) (sb_cache b) (sb_pow b) (sb_runners b) (sb_queue_length b)
  | SbCache a => SystemBuilder (sb_master b) (Some a) (sb_pow b) (sb_runners b) (sb_queue_length b)
  | SbPow l => SystemBuilder (sb_master b) (sb_cache b) (Some l) (sb_runners b) (sb_queue_length b)
  | SbRunners n => SystemBuilder (sb_master b) (sb_cache b) (sb_pow b) (Some n) (sb_queue_length b)
  | SbQueueLength n => SystemBuilder (sb_master b) (sb_cache b) (sb_pow b) (sb_runners b) (Some n)
  end.
(** system.rs:90-95 [System]. *)
Record system := System { s_master : nat; s_cache : nat; s_pow : pow_lib; s_runners : qsys }.
(** system.rs:78-86 [build]. *)
Definition sb_build (b : system_builder) : outcome system :=
  olet runners := unwrap (sb_runners b) in
  olet queue_length := unwrap (sb_queue_length b) in
  olet master := unwrap (sb_master b) in
  olet pow := unwrap (sb_pow b) in
  olet cache := unwrap (sb_cache b) in
  Val (System master cache pow (q_start runners queue_length)).

(** ** Clients *)
(** A call to one of the three operations. system.rs:108, 129, 195. *)
Inductive call :=
| CGetPow (id : string)
| CVerifyPow (w : work) (ip : string)
| CValidate (m : verify_captcha_result).
(** What a call returns; [RPanic]: the calling task panicked. system.rs:108, 129, 198. *)
Inductive ret :=
| RGetPow (r : result (option pow_config))
| RVerifyPow (r : result (string * N))
| RValidate (r : result bool)
| RPanic.

(** Where a call is, by the await (or poll) it is about to complete.
    get_pow, system.rs:108-126; verify_pow, 129-192; validate, 195-200. *)
Inductive client :=
| GpStart (id : string)                                  (** 109: AddVisitor is in the master's mailbox *)
| GpWait (id : string) (k : nat)                         (** 109: waiting for the answer to request [k] *)
| GpCache (id : string) (v : add_visitor_result) (c : pow_config)  (** 121: CachePoW is in the cache's mailbox *)
| GpDone (c : pow_config)                                (** 121-122: cached *)
| VpStart (w : work) (ip : string)                       (** 139: RetrivePoW is in the cache's mailbox *)
| VpAdd (w : work) (ip : string) (c : cached_pow)        (** 155-161: about to call [runners.add] *)
| VpAnswer (w : work) (c : cached_pow) (j : job)         (** 161: waiting for the answer of [add] *)
| VpPoll (w : work) (c : cached_pow) (j : job)           (** 162-175: polling the verdict *)
| VpStore (w : work) (c : cached_pow) (j : job) (token : string)   (** 190: CacheResult is in the mailbox *)
| VpDone (w : work) (c : cached_pow) (j : job) (token : string)    (** 190-191: cached *)
| VtStart (m : verify_captcha_result)                    (** 199: in the cache's mailbox *)
| VtDone (b : result bool).                              (** 199 *)

(** system.rs:109, 132-139, 199: up to the first message. *)
Definition client_start (c : call) : client :=
  match c with
  | CGetPow id => GpStart id
  | CVerifyPow w ip => VpStart w ip
  | CValidate m => VtStart m
  end.
(** The job whose receiving end the client holds. system.rs:155 [rx]. *)
Definition client_job (c : client) : option job :=
  match c with
  | VpAnswer _ _ j | VpPoll _ _ j | VpStore _ _ j _ | VpDone _ _ j _ => Some j
  | _ => None
  end.

(** A submitted [QueuedWork] with its verdict channel: what is buffered, what [validate] has still to send,
    whether it then returns, and whether the receiver exists. pow.rs:71-77, 86. *)
Record vjob := VJob { vj_buf : list bool; vj_todo : list bool; vj_returns : bool; vj_open : bool }.

(** system.rs:90-95 with its calls; numbering is bookkeeping of the model. *)
Record ssys := SSys {
  sy_m : msys;
  sy_c : hashcache;
  sy_q : qsys;
  sy_replies : gmap nat mreply;          (** oneshot answers of the master *)
  sy_answers : gmap nat (result unit);   (** oneshot answers of the queue *)
  sy_jobs : gmap nat vjob;
  sy_clients : gmap nat client;
  sy_next : nat }.

(** What happens, with the client on whose behalf (if any). system.rs:108-200. *)
Inductive sout :=
| SoCall (n : nat) (c : call)
| SoRet (n : nat) (r : ret)
| SoCancel (n : nat)
| SoMaster (n : option nat) (e : mevent) (os : list mout)
| SoCache (n : option nat) (e : cache_event) (r : option cache_reply)
| SoQueue (n : option nat) (e : qevent) (os : list qout).

(** A freshly built system: Master started at [now] with cleanup interval [gc]. system.rs:78-86. *)
Definition sys_start (now gc : N) (workers : nat) (queue_length : N) : ssys :=
  SSys (m_start now gc) hc_default (q_start workers queue_length) ∅ ∅ ∅ ∅ 0.

(** Updates of the state; answers to calls are kept until they are read (system.rs:109, 161). *)
Definition with_m (s : ssys) (m : msys) (os : list mout) : ssys :=
  SSys m (sy_c s) (sy_q s)
    (foldl (fun r o => match o with MoReply k x => <[k := x]> r | _ => r end) (sy_replies s) os)
    (sy_answers s) (sy_jobs s) (sy_clients s) (sy_next s).
Definition with_c (s : ssys) (c : hashcache) : ssys :=
  SSys (sy_m s) c (sy_q s) (sy_replies s) (sy_answers s) (sy_jobs s) (sy_clients s) (sy_next s).
Definition with_q (s : ssys) (q : qsys) (os : list qout) : ssys :=
  SSys (sy_m s) (sy_c s) q (sy_replies s)
    (foldl (fun r o => match o with QAnswer j _ x => <[j := x]> r | _ => r end) (sy_answers s) os)
    (sy_jobs s) (sy_clients s) (sy_next s).
Definition with_job (s : ssys) (j : job) (v : vjob) : ssys :=
  SSys (sy_m s) (sy_c s) (sy_q s) (sy_replies s) (sy_answers s) (<[j := v]> (sy_jobs s))
    (sy_clients s) (sy_next s).
Definition with_client (s : ssys) (n : nat) (c : client) : ssys :=
  SSys (sy_m s) (sy_c s) (sy_q s) (sy_replies s) (sy_answers s) (sy_jobs s)
    (<[n := c]> (sy_clients s)) (sy_next s).
(** The client's future is dropped, and with it the receiver it holds. system.rs:155 [rx]; 108-200 for the
    returns. *)
Definition leave (s : ssys) (n : nat) (c : client) : ssys :=
  SSys (sy_m s) (sy_c s) (sy_q s) (sy_replies s) (sy_answers s)
    (match client_job c with
     | Some j => alter (fun v => VJob (vj_buf v) (vj_todo v) (vj_returns v) false) j (sy_jobs s)
     | None => sy_jobs s
     end)
    (delete n (sy_clients s)) (sy_next s).
Definition s_return (s : ssys) (n : nat) (c : client) (r : ret) : option (ssys * list sout) :=
  Some (leave s n c, [SoRet n r]).
Definition s_now (s : ssys) : N := my_now (sy_m s).

(** A job is dropped (and its sender with it) once it is nowhere in the queue; a dispatcher that is gone has
    dropped its inbox and its queues. queue.rs:58, 92, 95-101: [Box<dyn Runnable>] is moved from place to place;
    pow.rs:72 [tx]. *)
Definition job_live (q : qsys) (j : job) : bool :=
  (match qs_mgr q with MAlive | MDraining => true | _ => false end &&
   (existsb (fun m => match m with ImSchedule j' _ => (j' =? j)%nat | _ => false end) (qs_inbox q) ||
    existsb (fun x => existsb (Nat.eqb j) (snd x)) (map_to_list (im_queues (qs_im q))))) ||
  existsb (fun r => rn_open r &&
    (existsb (fun m => match m with RmProve j' => (j' =? j)%nat | RmStop => false end) (rn_chan r) ||
     match rn_state r with RRunning j' => (j' =? j)%nat | _ => false end)) (im_runners (qs_im q)).

(** The cache handles a message of client [n]. system.rs:121, 139, 190, 199. *)
Definition s_cache_msg (s : ssys) (n : nat) (msg : cache_msg) : ssys * cache_reply * list sout :=
  let '(h, r) := hc_handle (s_now s) (sy_c s) msg in
  (with_c s h, r, [SoCache (Some n) (HeMsg msg) (Some r)]).

(** The next action of client [n]; [rnd] is the random string drawn if the action draws one. system.rs:108-200.
    *)
Definition client_act (p : profile) (l : pow_lib) (s : ssys) (n : nat) (c : client) (rnd : string)
  : option (ssys * list sout) :=
  match c with
  | GpStart id =>
      match m_step p (sy_m s) (MeReq (RqAddVisitor id)) with
      | Some (m, os) =>
          Some (with_client (with_m s m os) n (GpWait id (my_reqs (sy_m s))),
                [SoMaster (Some n) (MeReq (RqAddVisitor id)) os])
      | None => None
      end
  | GpWait id k =>
      match sy_replies s !! k with
      | Some (MrVisit (Ok (Some v))) =>
          Some (with_client s n (GpCache id v (pow_config_new (avr_difficulty_factor v) (pl_salt l) rnd)), [])
      | Some MrClosed => s_return s n c (RGetPow (Err MailboxError))
      | Some MrDropped => s_return s n c (RGetPow (Err RecvError))
      | Some _ => s_return s n c (RGetPow (Ok None))
      | None => None
      end
  | GpCache id v cfg =>
      let '(s1, r, o) := s_cache_msg s n (HmCachePoW (CachePoW (pc_string cfg) (avr_difficulty_factor v)
                                         (avr_duration v) id)) in
      match r with
      | HrUnit (Ok _) => Some (with_client s1 n (GpDone cfg), o)
      | HrUnit (Err e) => Some (leave s1 n c, o ++ [SoRet n (RGetPow (Err e))])
      | _ => None
      end
  | GpDone cfg => s_return s n c (RGetPow (Ok (Some cfg)))
  | VpStart w ip =>
      let '(s1, r, o) := s_cache_msg s n (HmRetrivePoW (VerifyCaptchaResult (w_string w) (w_key w))) in
      match r with
      | HrPoW (Ok None) => Some (leave s1 n c, o ++ [SoRet n (RVerifyPow (Err StringNotFound))])
      | HrPoW (Ok (Some cfg)) =>
          if decide (w_key w = cc_key cfg) then Some (with_client s1 n (VpAdd w ip cfg), o)
          else Some (leave s1 n c, o ++ [SoRet n (RVerifyPow (Err MCaptchaKeyValidationFail))])
      | HrPoW (Err e) => Some (leave s1 n c, o ++ [SoRet n (RVerifyPow (Err e))])
      | _ => None
      end
  | VpAdd w ip cfg =>
      match qs_mgr (sy_q s) with
      | MAlive | MDraining =>
          let j := qs_next (sy_q s) in
          let '(sends, returns) :=
            validate l (QueuedWork (pow_of_work w) (w_string w) (cc_difficulty_factor cfg)) in
          match q_step p (sy_q s) (QeAdd ip) with
          | Some (q, os) =>
              Some (with_client (with_job (with_q s q os) j (VJob [] sends returns true)) n (VpAnswer w cfg j),
                    [SoQueue (Some n) (QeAdd ip) os])
          | None => None
          end
      | _ => s_return s n c RPanic  (** queue.rs:232-234: [send(..).unwrap()] *)
      end
  | VpAnswer w cfg j =>
      match sy_answers s !! j with
      | Some (Ok _) => Some (with_client s n (VpPoll w cfg j), [])
      | Some (Err e) => s_return s n c (RVerifyPow (Err e))
      | None =>
          match qs_mgr (sy_q s) with
          | MAlive | MDraining => None
          | _ => s_return s n c (RVerifyPow (Err RecvError))
          end
      end
  | VpPoll w cfg j =>
      match sy_jobs s !! j with
      | Some v =>
          match vj_buf v with
          | true :: rest =>
              Some (with_client (with_job s j (VJob rest (vj_todo v) (vj_returns v) (vj_open v))) n
                      (VpStore w cfg j rnd), [])
          | false :: _ => s_return s n c (RVerifyPow (Err InsuffiencientDifficulty))
          | [] => if job_live (sy_q s) j then None
                  else s_return s n c (RVerifyPow (Err InsuffiencientDifficulty))
          end
      | None => None
      end
  | VpStore w cfg j token =>
      let '(s1, r, o) := s_cache_msg s n (HmCacheResult (cached_into_result cfg token)) in
      match r with
      | HrUnit (Ok _) => Some (with_client s1 n (VpDone w cfg j token), o)
      | HrUnit (Err e) => Some (leave s1 n c, o ++ [SoRet n (RVerifyPow (Err e))])
      | _ => None
      end
  | VpDone w cfg j token => s_return s n c (RVerifyPow (Ok (token, cc_difficulty_factor cfg)))
  | VtStart m =>
      let '(s1, r, o) := s_cache_msg s n (HmVerifyCaptchaResult m) in
      match r with
      | HrBool b => Some (with_client s1 n (VtDone b), o)
      | _ => None
      end
  | VtDone b => s_return s n c (RValidate b)
  end.

(** The environment: calls start, proceed and are cancelled, other users talk to the master, the queue's threads
    run, expiries are delivered, time passes. system.rs:108-200, pow.rs:98-117, and the events of the parts. *)
Inductive sevent :=
| SeCall (c : call)
| SeAct (n : nat) (rnd : string)
| SeCancel (n : nat)
| SeMaster (e : mevent)
| SeManager                (** the dispatcher thread takes a message *)
| SeRecv (r : nat)         (** runner [r] takes a message *)
| SeSend (r : nat)         (** the job of runner [r] sends its next verdict *)
| SeEnd (r : nat)          (** the job of runner [r] returns or panics *)
| SeExpire (due : N) (d : deletion)
| SeTick (d : N).

(** queue.rs:57-58. *)
Definition running_job (q : qsys) (r : nat) : option job :=
  match im_runners (qs_im q) !! r with
  | Some (Runner _ (RRunning j)) => Some j
  | _ => None
  end.
(** queue.rs:52-70, 180-196. *)
Definition s_queue (p : profile) (s : ssys) (e : qevent) : option (ssys * list sout) :=
  match q_step p (sy_q s) e with
  | Some (q, os) => Some (with_q s q os, [SoQueue None e os])
  | None => None
  end.

(** system.rs:108-200, pow.rs:98-117 ([SeSend]), and the steps of the parts. *)
Definition s_step (p : profile) (l : pow_lib) (s : ssys) (e : sevent) : option (ssys * list sout) :=
  match qs_mgr (sy_q s) with
  | MAborted => None  (** the process is gone *)
  | _ =>
    match e with
    | SeCall c =>
        let n := sy_next s in
        Some (SSys (sy_m s) (sy_c s) (sy_q s) (sy_replies s) (sy_answers s) (sy_jobs s)
                (<[n := client_start c]> (sy_clients s)) (S n), [SoCall n c])
    | SeAct n rnd =>
        match sy_clients s !! n with
        | Some c => client_act p l s n c rnd
        | None => None
        end
    | SeCancel n =>
        match sy_clients s !! n with
        | Some c => Some (leave s n c, [SoCancel n])
        | None => None
        end
    | SeMaster e =>
        match e with
        | MeTick _ => None
        | _ =>
            match m_step p (sy_m s) e with
            | Some (m, os) => Some (with_m s m os, [SoMaster None e os])
            | None => None
            end
        end
    | SeManager => s_queue p s QeManager
    | SeRecv r => s_queue p s (QeRecv r)
    | SeSend r =>
        match running_job (sy_q s) r with
        | Some j =>
            match sy_jobs s !! j with
            | Some v =>
                match vj_todo v with
                | b :: rest =>
                    if negb (vj_open v) then Some (with_job s j (VJob (vj_buf v) rest (vj_returns v) false), [])
                    else if (length (vj_buf v) <? verdict_capacity)%nat
                    then Some (with_job s j (VJob (vj_buf v ++ [b]) rest (vj_returns v) true), [])
                    else None
                | [] => None
                end
            | None => None
            end
        | None => None
        end
    | SeEnd r =>
        match running_job (sy_q s) r with
        | Some j =>
            match sy_jobs s !! j with
            | Some v =>
                match vj_todo v with
                | [] => s_queue p s (if vj_returns v then QeFinish r else QePanic r)
                | _ => None
                end
            | None => None
            end
        | None => None
        end
    | SeExpire due d =>
        match hc_expire (s_now s) (sy_c s) due d with
        | Some h => Some (with_c s h, [SoCache None (HeExpire due d) None])
        | None => None
        end
    | SeTick d =>
        match m_step p (sy_m s) (MeTick d) with
        | Some (m, os) => Some (with_m s m os, [SoMaster None (MeTick d) os; SoCache None (HeTick d) None])
        | None => None
        end
    end
  end.

(** Executions; no code of its own. *)
Fixpoint s_run (p : profile) (l : pow_lib) (s : ssys) (es : list sevent) : option (ssys * list sout) :=
  match es with
  | [] => Some (s, [])
  | e :: r =>
      match s_step p l s e with
      | None => None
      | Some (s1, o) =>
          match s_run p l s1 r with
          | None => None
          | Some (s2, os) => Some (s2, o ++ os)
          end
      end
  end.
