(** Specification vocabulary for a [System] whose Master and cache are actors in
    front of Redis. *)
From Verif Require Import Model.Base Model.MCaptcha Model.HashCache Model.Pow Model.System Model.Master Model.Json Model.Serde Model.Redis
  Model.RedisActor Model.SystemProgram Model.SystemShared Model.RedisSystem Spec.RedisActorSpec.

(** The answers call [n] got to its requests. *)
Definition told_to (n : nat) (tr : list rsout) : list pev :=
  omap (fun o => match o with SvoTold n' e => if decide (n = n') then Some e else None | _ => None end) tr.
(** What happened at an actor. *)
Definition actor_events (w : which) (tr : list rsout) : list revent :=
  omap (fun o => match o with SvoActor w' e _ => if decide (w = w') then Some e else None | _ => None end) tr.
Definition actor_obs (w : which) (tr : list rsout) : list robs :=
  tr ≫= fun o => match o with SvoActor w' _ os => if decide (w = w') then os else [] | _ => [] end.
(** A request to an actor: which one, the command that is sent to Redis for it,
    and the answer, if there is one. *)
Definition reply_in {A} (f : result A -> rout) (a : answer A) : option rout := match a with An r => Some (f r) | _ => None end.
Definition exchange_of (e : pev) : option (which * rcmd * option rout) :=
  match e with
  | PeVisit id a => Some (AtMaster, lift RoVisit (r_add_visitor id), reply_in RoVisit a)
  | PeCachePoW m a =>
      Some (AtCache, lift RoUnit (r_add_challenge (cp_key m) (AddChallenge (cp_difficulty_factor m) (cp_duration m) (cp_string m))),
            reply_in RoUnit a)
  | PeRetrieve m a => Some (AtCache, lift RoPoW (r_retrive_pow m), reply_in RoPoW a)
  | PeCacheResult m a => Some (AtCache, lift RoUnit (r_add_token m), reply_in RoUnit a)
  | PeVerify m a => Some (AtCache, lift RoBool (r_get_token m), reply_in RoBool a)
  | _ => None
  end.
(** The request came to a closed mailbox. *)
Definition closed (e : pev) : Prop :=
  match e with
  | PeVisit _ a => a = AnClosed
  | PeCachePoW _ a => a = AnClosed
  | PeRetrieve _ a => a = AnClosed
  | PeCacheResult _ a => a = AnClosed
  | PeVerify _ a => a = AnClosed
  | _ => False
  end.

(** A call that got nothing done. *)
Definition useless (r : ret) : Prop :=
  match r with
  | RValidate x => x = Err MailboxError
  | RVerifyPow x => x = Err MailboxError
  | RGetPow x => forall c, x <> Ok (Some c)
  | RPanic => False
  end.
(** [n] asks whether a token is good and drops its future while Redis, which then
    replies [r], is being asked. *)
Definition gives_up (n : nat) (m : verify_captcha_result) (r : rreply) : list rsevent :=
  [SvCall (CValidate m); SvAsk n; SvActor AtCache ReTake; SvCancel n; SvActor AtCache (ReReply r)].
(** Replies to the commands of actor [w] are as [ok] says. *)
Definition answers (ok : list string -> rreply -> Prop) (w : which) (tr : list rsout) : Prop :=
  forall tr1 r os tr2 cmd, tr = tr1 ++ SvoActor w (ReReply r) os :: tr2 -> last_command (actor_obs w tr1) = Some cmd -> ok cmd r.
(** What others do to the actors: they send it its messages; [wait]: and wait for
    the answers. *)
Definition guests (w : which) (wait : bool) (x : rsevent) : Prop :=
  match x with
  | SvActor w' e => w' = w ->
      match e with
      | ReSend a b => (if wait then b = true else True) /\ a <> AcPanic /\
          match w with AtMaster => exists m, master_action m = Some a | AtCache => exists m, a = cache_action m end
      | ReGone _ => wait = false
      | _ => True
      end
  | _ => True
  end.
(** Nobody drops a call. *)
Definition stays (x : rsevent) : Prop := match x with SvCancel _ => False | _ => True end.
(** Nobody else uses the connection of [w]. *)
Definition own_connection (w : which) (x : rsevent) : Prop :=
  match x with SvActor w' (ReUser _ _) => w' <> w | _ => True end.
(** A step that call [n] waits for: its own, or one of an actor, which takes a
    message or gets Redis's reply. *)
Definition drives (n : nat) (x : rsevent) : Prop :=
  match x with
  | SvAsk m | SvDo m _ | SvReturn m => m = n
  | SvActor _ ReTake | SvActor _ (ReReply _) | SvActor _ (ReUserReply _ _) => True
  | _ => False
  end.
