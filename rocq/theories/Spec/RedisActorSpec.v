(** Specification vocabulary for the actors in front of Redis. *)
From Verif Require Import Model.Base Model.HashCache Model.Master Model.Json Model.Serde Model.Redis Model.RedisActor.

Definition r_answered (tr : list robs) : list nat := omap (fun o => match o with ObAnswer n _ => Some n | _ => None end) tr.
Definition r_failed (tr : list robs) : list nat := omap (fun o => match o with ObFail n => Some n | _ => None end) tr.
Definition r_left (tr : list robs) : list nat := omap (fun o => match o with ObLeft n => Some n | _ => None end) tr.
Definition r_commands (tr : list robs) : list nat := omap (fun o => match o with ObCommand n _ => Some n | _ => None end) tr.
(** Requests sent with [send], numbered in the order of all messages from [n]. *)
Fixpoint asked_from (n : nat) (es : list revent) : list nat :=
  match es with
  | [] => []
  | ReSend _ true :: r => n :: asked_from (S n) r
  | ReSend _ false :: r => asked_from (S n) r
  | _ :: r => asked_from n r
  end.
Definition died (tr : list robs) : Prop := ObDied ∈ tr.
(** Messages of the Redis-backed Master / of the Redis-backed cache. *)
Definition for_master (e : revent) : Prop :=
  match e with ReSend a _ => exists m, master_action m = Some a | _ => True end.
Definition for_cache (e : revent) : Prop :=
  match e with ReSend a _ => exists m, a = cache_action m | _ => True end.
(** GetInternalData and SetInternalData. *)
Definition no_internal_data (e : revent) : Prop :=
  match e with ReSend a _ => a <> AcPanic | _ => True end.
(** Nobody else uses the connection. *)
Definition alone (e : revent) : Prop := match e with ReUser _ _ => False | _ => True end.
(** The command Redis was last sent by the actor. *)
Definition last_command (tr : list robs) : option (list string) :=
  last (omap (fun o => match o with ObCommand _ c => Some c | _ => None end) tr).
(** A reply to a command that asks for a visit or a challenge: no text that is
    none. *)
Definition decodes (r : rreply) : Prop :=
  match r with RrVal v => forall t, to_str v = Some t -> from_str decode_visit t <> None | RrErr _ => True end.
Definition sane_reply (cmd : list string) (r : rreply) : Prop :=
  match cmd with
  | c :: _ => (c = "MCAPTCHA_CACHE.ADD_VISITOR" \/ c = "MCAPTCHA_CACHE.GET_CHALLENGE")%string -> decodes r
  | [] => True
  end.
(** In addition: no errors in reply to SET. *)
Definition token_reply (cmd : list string) (r : rreply) : Prop :=
  match cmd with c :: _ => c = "SET"%string -> forall e, r <> RrErr e | [] => True end.
(** Every reply satisfies [ok] for the command it answers. *)
Definition replies (ok : list string -> rreply -> Prop) (k : conn) (es : list revent) : Prop :=
  forall before r after s o cmd, es = before ++ ReReply r :: after ->
    ra_run k ra_init before = Some (s, o) -> last_command o = Some cmd -> ok cmd r.
(** Nobody uses [do_send] or drops a request. *)
Definition patient (e : revent) : Prop :=
  match e with ReSend _ wants => wants = true | ReGone _ => False | _ => True end.

(** Once dead: nothing is answered, and every request fails. *)
Definition dead_for_good (k : conn) (s : ractor) : Prop :=
  forall es s' o, ra_run k s es = Some (s', o) ->
    r_answered o = [] /\ r_failed o = asked_from (ra_next s) es.
(** Nothing is going on. *)
Definition idle (s : ractor) : Prop := ra_alive s = true /\ ra_cur s = None /\ ra_box s = [] /\ ra_users s = ∅.
(** Everything but the two deletions, which the Redis cache ignores. *)
Definition uses_redis (m : cache_msg) : Prop := match m with HmDelete _ => False | _ => True end.
(** Nor is there any other way for commands to fail by each other: a holder
    panics when it starts a command, or the actor dies when it takes a request that
    sends one, only while somebody's command is in flight. *)
Definition starts (k : conn) (es : list revent) (e : revent) (ob : robs) : Prop :=
  exists s o s' o', ra_run k ra_init es = Some (s, o) /\ ra_step k s e = Some (s', o') /\ ob ∈ o'.
Definition user_in_flight (k : conn) (es : list revent) (u : nat) : Prop :=
  exists es1 op es2, es = es1 ++ ReUser u op :: es2 /\ starts k es1 (ReUser u op) (ObUserCommand u (rc_cmd op)) /\
    (forall r, ReUserReply u r ∉ es2) /\ ReUserGone u ∉ es2.
Definition actor_in_flight (k : conn) (es : list revent) : Prop :=
  exists es1 n cmd es2, es = es1 ++ ReTake :: es2 /\ starts k es1 ReTake (ObCommand n cmd) /\
    (forall r, ReReply r ∉ es2) /\ forall s o, ra_run k ra_init es = Some (s, o) -> ~ died o.
