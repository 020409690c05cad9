(** Model of the three operations of /repo/src/system.rs over any Master, cache
    and queue: as programs that make requests and go on by the answers. *)
From Verif Require Import Model.Base Model.MCaptcha Model.HashCache Model.Pow Model.System.

(** What [addr.send(msg).await?.await?] can come to (system.rs:109, 121, 139, 190,
    199): the mailbox refuses the message; the oneshot sender is dropped; an
    answer. *)
Inductive answer (A : Type) := AnClosed | AnDropped | An (r : result A).
Arguments AnClosed {A}. Arguments AnDropped {A}. Arguments An {A} _.
(** What [runners.add(..)] can come to (queue.rs:230-236): a result, or a panic
    because the dispatcher is gone. *)
Inductive submission := SuDone (r : result unit) | SuPanic.

(** A program: its next request, and how it goes on. system.rs:108-200. *)
Inductive prog :=
| PRet (r : ret)
| PVisit (id : string) (k : answer (option add_visitor_result) -> prog)
| PDraw (k : string -> prog)                      (** [get_random(32)] *)
| PCachePoW (m : cache_pow) (k : answer unit -> prog)
| PRetrieve (m : verify_captcha_result) (k : answer (option cached_pow) -> prog)
| PSubmit (ip : string) (q : queued_work) (k : submission -> prog)
| PVerdict (q : queued_work) (k : option bool -> prog)  (** [None]: disconnected *)
| PCacheResult (m : cache_result) (k : answer unit -> prog)
| PVerify (m : verify_captcha_result) (k : answer bool -> prog).

(** [??]: errors.rs:125-140 turn the two failures into errors. *)
Definition await {A B} (a : answer A) (wrap : result B -> ret) (k : A -> prog) : prog :=
  match a with
  | AnClosed => PRet (wrap (Err MailboxError))
  | AnDropped => PRet (wrap (Err RecvError))
  | An (Err e) => PRet (wrap (Err e))
  | An (Ok x) => k x
  end.

(** system.rs:108-126 [get_pow]; [salt] is the one of the PoW configuration. *)
Definition get_pow_store (id : string) (v : add_visitor_result) (c : pow_config) : prog :=
  PCachePoW (CachePoW (pc_string c) (avr_difficulty_factor v) (avr_duration v) id)
    (fun a => await a RGetPow (fun _ => PRet (RGetPow (Ok (Some c))))).
Definition get_pow_prog (salt id : string) : prog :=
  PVisit id (fun a =>
    match a with
    | AnClosed => PRet (RGetPow (Err MailboxError))
    | AnDropped => PRet (RGetPow (Err RecvError))
    | An (Ok (Some v)) =>
        PDraw (fun s => get_pow_store id v (pow_config_new (avr_difficulty_factor v) salt s))
    | An _ => PRet (RGetPow (Ok None))
    end).

(** system.rs:129-192 [verify_pow], from its end. 188-191. *)
Definition verify_store (c : cached_pow) (token : string) : prog :=
  PCacheResult (cached_into_result c token)
    (fun a => await a RVerifyPow (fun _ => PRet (RVerifyPow (Ok (token, cc_difficulty_factor c))))).
(** 162-175. *)
Definition verify_poll (w : work) (c : cached_pow) : prog :=
  PVerdict (QueuedWork (pow_of_work w) (w_string w) (cc_difficulty_factor c))
    (fun b => match b with
              | Some true => PDraw (verify_store c)
              | _ => PRet (RVerifyPow (Err InsuffiencientDifficulty))
              end).
(** 151-161. *)
Definition verify_submit (w : work) (ip : string) (c : cached_pow) : prog :=
  PSubmit ip (QueuedWork (pow_of_work w) (w_string w) (cc_difficulty_factor c))
    (fun a => match a with
              | SuDone (Ok _) => verify_poll w c
              | SuDone (Err e) => PRet (RVerifyPow (Err e))
              | SuPanic => PRet RPanic
              end).
(** 129-149. *)
Definition verify_pow_prog (w : work) (ip : string) : prog :=
  PRetrieve (VerifyCaptchaResult (w_string w) (w_key w))
    (fun a => await a RVerifyPow (fun o =>
       match o with
       | None => PRet (RVerifyPow (Err StringNotFound))
       | Some c =>
           if decide (w_key w = cc_key c) then verify_submit w ip c
           else PRet (RVerifyPow (Err MCaptchaKeyValidationFail))
       end)).
(** system.rs:195-200 [validate_verification_tokens]. *)
Definition validate_prog (m : verify_captcha_result) : prog :=
  PVerify m (fun a => await a RValidate (fun b => PRet (RValidate (Ok b)))).

(** system.rs:108, 129, 195. *)
Definition program (salt : string) (c : call) : prog :=
  match c with
  | CGetPow id => get_pow_prog salt id
  | CVerifyPow w ip => verify_pow_prog w ip
  | CValidate m => validate_prog m
  end.

(** A request with its answer. system.rs:109, 111, 121, 139, 161, 163, 188-190, 199. *)
Inductive pev :=
| PeVisit (id : string) (a : answer (option add_visitor_result))
| PeDraw (s : string)
| PeCachePoW (m : cache_pow) (a : answer unit)
| PeRetrieve (m : verify_captcha_result) (a : answer (option cached_pow))
| PeSubmit (ip : string) (q : queued_work) (a : submission)
| PeVerdict (q : queued_work) (b : option bool)
| PeCacheResult (m : cache_result) (a : answer unit)
| PeVerify (m : verify_captcha_result) (a : answer bool).
Global Instance queued_work_eq_dec : EqDecision queued_work.
Proof. solve_decision. Defined.

(** The program takes one step: the request must be the one it makes. system.rs:108-200. *)
Definition p_step (p : prog) (e : pev) : option prog :=
  match p, e with
  | PVisit id k, PeVisit id' a => if decide (id = id') then Some (k a) else None
  | PDraw k, PeDraw s => Some (k s)
  | PCachePoW m k, PeCachePoW m' a => if decide (m = m') then Some (k a) else None
  | PRetrieve m k, PeRetrieve m' a => if decide (m = m') then Some (k a) else None
  | PSubmit ip q k, PeSubmit ip' q' a => if decide ((ip, q) = (ip', q')) then Some (k a) else None
  | PVerdict q k, PeVerdict q' b => if decide (q = q') then Some (k b) else None
  | PCacheResult m k, PeCacheResult m' a => if decide (m = m') then Some (k a) else None
  | PVerify m k, PeVerify m' a => if decide (m = m') then Some (k a) else None
  | _, _ => None
  end.
Fixpoint p_run (p : prog) (es : list pev) : option prog :=
  match es with
  | [] => Some p
  | e :: r => match p_step p e with Some p' => p_run p' r | None => None end
  end.
