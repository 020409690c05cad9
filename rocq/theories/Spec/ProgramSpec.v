(** Specification vocabulary for calls on a [System] over any Master, cache and
    queue: what a call asked for, what it was told, and what it may conclude. *)
From Verif Require Import Model.Base Model.MCaptcha Model.HashCache Model.Pow Model.System Model.Master
  Model.SystemProgram.

(** The request failed, and [e] tells how. *)
Definition failed {A} (a : answer A) (e : captcha_error) : Prop :=
  match a with
  | AnClosed => e = MailboxError
  | AnDropped => e = RecvError
  | An (Err e') => e = e'
  | An (Ok _) => False
  end.
(** No answer at all. *)
Definition unanswered {A} (a : answer A) : Prop := a = AnClosed \/ a = AnDropped.
(** What is put to the checks for [w] under challenge [c]. *)
Definition checked_work (w : work) (c : cached_pow) : queued_work :=
  QueuedWork (PoW (w_result w) (w_nonce w)) (w_string w) (cc_difficulty_factor c).

(** The ways get_pow for site [id] can end. *)
Definition get_pow_contract (salt id : string) (es : list pev) (r : result (option pow_config)) : Prop :=
  match r with
  | Ok (Some c) => exists v,
      es = [PeVisit id (An (Ok (Some v))); PeDraw (pc_string c);
            PeCachePoW (CachePoW (pc_string c) (pc_difficulty_factor c) (avr_duration v) id) (An (Ok tt))] /\
      pc_difficulty_factor c = avr_difficulty_factor v /\ pc_salt c = salt
  | Ok None => exists a, es = [PeVisit id (An a)] /\ forall v, a <> Ok (Some v)
  | Err e =>
      (exists a, es = [PeVisit id a] /\ unanswered a /\ failed a e) \/
      (exists v s a, es = [PeVisit id (An (Ok (Some v))); PeDraw s;
         PeCachePoW (CachePoW s (avr_difficulty_factor v) (avr_duration v) id) a] /\ failed a e)
  end.
(** The ways verify_pow of [w] from [ip] can end; [None]: the caller panics. *)
Definition verify_pow_contract (w : work) (ip : string) (es : list pev) (r : option (result (string * N))) : Prop :=
  let fetch a := PeRetrieve (VerifyCaptchaResult (w_string w) (w_key w)) a in
  let found c := fetch (An (Ok (Some c))) in
  let asked c := PeSubmit ip (checked_work w c) in
  match r with
  | Some (Ok (token, d)) => exists c,
      es = [found c; asked c (SuDone (Ok tt)); PeVerdict (checked_work w c) (Some true); PeDraw token;
            PeCacheResult (CacheResult token (w_key w) (cc_duration c)) (An (Ok tt))] /\
      cc_key c = w_key w /\ d = cc_difficulty_factor c
  | Some (Err e) =>
      (exists a, es = [fetch a] /\ failed a e) \/
      (es = [fetch (An (Ok None))] /\ e = StringNotFound) \/
      (exists c, es = [found c] /\ cc_key c <> w_key w /\ e = MCaptchaKeyValidationFail) \/
      (exists c, cc_key c = w_key w /\
         (es = [found c; asked c (SuDone (Err e))] \/
          (exists b, es = [found c; asked c (SuDone (Ok tt)); PeVerdict (checked_work w c) b] /\ b <> Some true /\
             e = InsuffiencientDifficulty) \/
          (exists token a, es = [found c; asked c (SuDone (Ok tt)); PeVerdict (checked_work w c) (Some true);
             PeDraw token; PeCacheResult (CacheResult token (w_key w) (cc_duration c)) a] /\ failed a e)))
  | None => exists c, cc_key c = w_key w /\ es = [found c; asked c SuPanic]
  end.
Definition validate_contract (m : verify_captcha_result) (es : list pev) (r : result bool) : Prop :=
  exists a, es = [PeVerify m a] /\ match r with Ok b => a = An (Ok b) | Err e => failed a e end.

(** What of it is an exchange with the cache. *)
Definition cache_talk (e : pev) : option (cache_msg * option cache_reply) :=
  let reply {A} (f : result A -> cache_reply) (a : answer A) := match a with An r => Some (f r) | _ => None end in
  match e with
  | PeCachePoW m a => Some (HmCachePoW m, reply HrUnit a)
  | PeRetrieve m a => Some (HmRetrivePoW m, reply HrPoW a)
  | PeCacheResult m a => Some (HmCacheResult m, reply HrUnit a)
  | PeVerify m a => Some (HmVerifyCaptchaResult m, reply HrBool a)
  | _ => None
  end.
(** The exchanges of call [n] with the in-memory cache, in a trace of System.v. *)
Definition memory_talk (n : nat) (o : sout) : option (cache_msg * option cache_reply) :=
  match o with
  | SoCache (Some n') (HeMsg m) r => if decide (n = n') then Some (m, r) else None
  | _ => None
  end.
(** The embedded Master's answer [x] as get_pow sees it (its remaining replies
    belong to other requests). *)
Definition visit_told (x : mreply) : answer (option add_visitor_result) :=
  match x with MrVisit r => An r | MrClosed => AnClosed | MrDropped => AnDropped | _ => An (Ok None) end.
(** The work passes both checks of the PoW library. *)
Definition passes (l : pow_lib) (q : queued_work) : Prop :=
  is_sufficient_difficulty l (qw_work q) (qw_difficulty_factor q) = Val true /\
  is_valid_proof l (qw_work q) (qw_string q) = Val true.
