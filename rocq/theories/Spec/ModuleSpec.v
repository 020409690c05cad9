(** Specification vocabulary for deployments on Redis: what the commands of the
    mcaptcha_cache module mean, and what the requests of Masters, caches and
    users of the client mean. Both by the names in
    /repo/src/redis/mcaptcha_redis.rs:38-46 and the doc comments of the methods. *)
From Verif Require Import Model.Base Model.Defense Model.MCaptcha Model.HashCache Model.Master Model.Json Model.Serde
  Model.Redis Model.RedisActor Spec.SerdeSpec.

(** ** The module's side *)
Inductive word :=
| WVisit (site : string) | WAdd (site payload : string) | WDelete (site : string) | WExists (site : string)
| WCount (site : string) | WStore (site payload : string) | WFetch (site challenge : string)
| WDrop (site challenge : string) | WRename (old new : string).
Definition understood (cmd : list string) : option word :=
  match cmd with
  | [c; a] =>
      if String.eqb c "MCAPTCHA_CACHE.ADD_VISITOR" then Some (WVisit a)
      else if String.eqb c "MCAPTCHA_CACHE.DELETE_CAPTCHA" then Some (WDelete a)
      else if String.eqb c "MCAPTCHA_CACHE.CAPTCHA_EXISTS" then Some (WExists a)
      else if String.eqb c "MCAPTCHA_CACHE.GET" then Some (WCount a)
      else None
  | [c; a; b] =>
      if String.eqb c "MCAPTCHA_CACHE.ADD_CAPTCHA" then Some (WAdd a b)
      else if String.eqb c "MCAPTCHA_CACHE.RENAME_CAPTCHA" then Some (WRename a b)
      else if String.eqb c "MCAPTCHA_CACHE.ADD_CHALLENGE" then Some (WStore a b)
      else if String.eqb c "MCAPTCHA_CACHE.GET_CHALLENGE" then Some (WFetch a b)
      else if String.eqb c "MCAPTCHA_CACHE.DELETE_CHALLENGE" then Some (WDrop a b)
      else None
  | _ => None
  end.
(** The commands the module carried out, latest first: the site under a name
    with the number of its visits, and the challenge stored for a site. *)
Fixpoint kept_site (h : list word) (n : string) : option (create_mcaptcha * nat) :=
  match h with
  | [] => None
  | WAdd a p :: h' =>
      if String.eqb n a then c ← from_str decode_create p; Some (c, 0%nat) else kept_site h' n
  | WDelete a :: h' => if String.eqb n a then None else kept_site h' n
  | WRename a b :: h' =>
      match kept_site h' a with
      | Some x => if String.eqb n b then Some x else if String.eqb n a then None else kept_site h' n
      | None => kept_site h' n
      end
  | WVisit a :: h' =>
      match kept_site h' n with
      | Some (c, k) => Some (c, if String.eqb n a then S k else k)
      | None => None
      end
  | _ :: h' => kept_site h' n
  end.
Fixpoint kept_challenge (h : list word) (n s : string) : option add_challenge :=
  match h with
  | [] => None
  | WStore a p :: h' =>
      match from_str decode_challenge p with
      | Some c => if String.eqb n a && String.eqb s (ac_challenge c) then Some c else kept_challenge h' n s
      | None => kept_challenge h' n s
      end
  | WDrop a t :: h' => if String.eqb n a && String.eqb s t then None else kept_challenge h' n s
  | _ :: h' => kept_challenge h' n s
  end.
(** A module that does what it is told: it may refuse any command, but when it
    replies with a value, the value is this. *)
Definition honest (h : list word) (w : word) (v : rvalue) : Prop :=
  match w with
  | WVisit n => exists c k s x, kept_site h n = Some (c, k) /\ v = RvBulk s /\ from_str decode_visit s = Some x /\
      avr_duration x = cm_duration c /\ avr_difficulty_factor x ∈ difficulty_factor <$> cm_levels c
  | WFetch n t => exists c s x, kept_challenge h n t = Some c /\ v = RvBulk s /\ from_str decode_visit s = Some x /\
      avr_duration x = ac_duration c /\ avr_difficulty_factor x = ac_difficulty c
  | WExists n => v = RvInt (if kept_site h n then 0 else 1)
  | WCount n => exists c k z, kept_site h n = Some (c, k) /\ v = RvInt z /\ (0 <= z <= Z.of_nat k)%Z
  | _ => True
  end.

(** ** The callers' side *)
Inductive rask :=
| AkVisit (id : string) | AkAdd (id : string) (m : mcaptcha) | AkRename (a b : string) | AkRemove (id : string)
    (** messages to a Master *)
| AkCache (m : cache_pow) | AkRetrieve (m : verify_captcha_result)
    (** messages to a cache *)
| AkExists (id : string) | AkCount (id : string) | AkDrop (m : verify_captcha_result).
    (** methods of the client *)
(** Field types. *)
Definition ok_ask (a : rask) : Prop :=
  match a with AkAdd _ m => ok_mcaptcha m | AkCache m => ok_cache_pow m | _ => True end.
(** What the requests carried out so far, latest first, leave: the site under a
    name, as it was configured, with its visits; the last challenge with this
    string issued for a site. *)
Fixpoint site_under (h : list rask) (id : string) : option (mcaptcha * nat) :=
  match h with
  | [] => None
  | AkAdd a m :: h' => if String.eqb id a then Some (m, 0%nat) else site_under h' id
  | AkRemove a :: h' => if String.eqb id a then None else site_under h' id
  | AkRename a b :: h' =>
      match site_under h' a with
      | Some x => if String.eqb id b then Some x else if String.eqb id a then None else site_under h' id
      | None => site_under h' id
      end
  | AkVisit a :: h' =>
      match site_under h' id with
      | Some (m, k) => Some (m, if String.eqb id a then S k else k)
      | None => None
      end
  | _ :: h' => site_under h' id
  end.
Fixpoint last_issued (h : list rask) (key s : string) : option cache_pow :=
  match h with
  | [] => None
  | AkCache m :: h' => if String.eqb key (cp_key m) && String.eqb s (cp_string m) then Some m else last_issued h' key s
  | AkDrop m :: h' => if String.eqb key (vr_key m) && String.eqb s (vr_token m) then None else last_issued h' key s
  | _ :: h' => last_issued h' key s
  end.
(** The answers a caller may get when its request is carried out. *)
Definition right_answer (h : list rask) (a : rask) (x : rout) : Prop :=
  match a with
  | AkVisit id => exists m k l, site_under h id = Some (m, k) /\ l ∈ d_levels (m_defense m) /\
      x = RoVisit (Ok (Some (AddVisitorResult (m_duration m) (difficulty_factor l))))
  | AkRetrieve q => exists m, last_issued h (vr_key q) (vr_token q) = Some m /\
      x = RoPoW (Ok (Some (CachedPoWConfig (vr_key q) (cp_difficulty_factor m) (cp_duration m))))
  | AkExists id => x = RoBool (Ok (if site_under h id then true else false))
  | AkCount id => exists m k n, site_under h id = Some (m, k) /\ (n <= N.of_nat k) /\ x = RoNum (Ok n)
  | _ => x = RoUnit (Ok tt)
  end.

(** ** Requests as they reach the module *)
(** What is sent for a request, and what is made of the reply. *)
Definition request (a : rask) : option rcmd :=
  let of x := match x with Some (AcCommand op _) => Some op | _ => None end in
  match a with
  | AkVisit id => of (master_action (RqAddVisitor id))
  | AkAdd id m => of (master_action (RqAddSite id m))
  | AkRename a b => of (master_action (RqRename a b))
  | AkRemove id => of (master_action (RqRemove id))
  | AkCache m => of (Some (cache_action (HmCachePoW m)))
  | AkRetrieve m => of (Some (cache_action (HmRetrivePoW m)))
  | AkExists id => Some (lift RoBool (r_check_captcha_exists id))
  | AkCount id => Some (lift RoNum (r_get_visitors id))
  | AkDrop m => Some (lift RoUnit (r_delete_challenge m))
  end.
(** A request and the module's reply. [lost] replaces the reply on its way: the
    caller sees this error although the command was carried out. *)
Record exchange := Exchange { ex_ask : rask; ex_reply : rreply; ex_lost : option string }.
Definition ex_seen (x : exchange) : rreply := match ex_lost x with Some e => RrErr e | None => ex_reply x end.
Definition ex_word (x : exchange) : option word := op ← request (ex_ask x); understood (rc_cmd op).
Definition obeyed (x : exchange) : bool := match ex_reply x with RrVal _ => true | RrErr _ => false end.
(** Exchanges in the order the module handles them, latest first. *)
Definition carried_out (h : list exchange) : list rask := ex_ask <$> List.filter obeyed h.
Definition words (h : list exchange) : list word := omap ex_word (List.filter obeyed h).
Definition ex_answer (x : exchange) : option (outcome rout) :=
  op ← request (ex_ask x); Some (rc_answer op (ex_seen x)).
(** Every value the module replied with is right; it knows no other commands. *)
Fixpoint honest_module (h : list exchange) : Prop :=
  match h with
  | [] => True
  | x :: h' =>
      honest_module h' /\
      forall v, ex_reply x = RrVal v -> exists w, ex_word x = Some w /\ honest (words h') w v
  end.
(** The module has what is asked for; the caller asks for something that is there. *)
Definition able (h : list word) (w : word) : Prop :=
  match w with
  | WVisit n | WCount n => is_Some (kept_site h n)
  | WFetch n t => is_Some (kept_challenge h n t)
  | _ => True
  end.
Definition asks_for (h : list rask) (a : rask) : Prop :=
  match a with
  | AkVisit id | AkCount id => is_Some (site_under h id)
  | AkRetrieve m => is_Some (last_issued h (vr_key m) (vr_token m))
  | _ => True
  end.
Definition failed_with (e : string) (y : rout) : Prop :=
  match y with
  | RoUnit r => r = Err (RedisError e) | RoVisit r => r = Err (RedisError e) | RoPoW r => r = Err (RedisError e)
  | RoBool r => r = Err (RedisError e) | RoNum r => r = Err (RedisError e)
  end.

Definition to_master (a : rask) : option mreq :=
  match a with
  | AkVisit id => Some (RqAddVisitor id)
  | AkAdd id m => Some (RqAddSite id m)
  | AkRename a b => Some (RqRename a b)
  | AkRemove id => Some (RqRemove id)
  | _ => None
  end.
Definition configured (h : list mreq) (k : nat) : option mcaptcha :=
  omap (fun r => match r with RqAddSite _ m => Some m | _ => None end) (reverse h) !! k.
