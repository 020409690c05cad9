(** Specification vocabulary: a secret string that the code draws for a token in Redis, and everybody else
    trying to name it. *)
From Coq Require Import Ascii.
From Verif Require Import Model.Base Model.MCaptcha Model.HashCache Model.Pow Model.System Model.Redis
  Model.RedisActor Model.RedisTokens Model.SystemProgram Model.SystemShared Spec.RedisSpec Spec.GuessSpec.

(** What the adversary lets happen next: any event of its own choice, or a step that involves the secret without
    knowing it. *)
Inductive rmove :=
| RmEvent (e : shevent)
| RmDraw (n : nat)                            (** call [n] draws the secret *)
| RmCheck (i : nat) (key : string)            (** the one who was told the secret has it validated by System [i] *)
| RmOther (keep : bool) (key : string) (f : fate).  (** or uses get_token or delete_token directly *)
Definition rmade (secret : string) (v : rmove) : shevent :=
  match v with
  | RmEvent e => e
  | RmDraw n => XeStep n (XDraw secret)
  | RmCheck i key => XeCall i (CValidate (VerifyCaptchaResult secret key))
  | RmOther keep key f =>
      XeOther ((if keep then TkGet else TkDel) (VerifyCaptchaResult secret key)) f
  end.
(** What comes after the last colon. *)
Fixpoint last_part (s : string) : string :=
  match s with
  | EmptyString => EmptyString
  | String c r =>
      if decide (":"%char ∈ list_ascii_of_string r) then last_part r
      else if decide (c = ":"%char) then r else s
  end.
(** The token that an event names: a validation or removal of it, another draw of it. Site and token being
    written with a colon between them, it is the part after the last colon that has to be right. *)
Definition rnamed (v : rmove) : list string :=
  match v with
  | RmEvent (XeCall _ (CValidate m)) => [last_part (vr_token m)]
  | RmEvent (XeStep _ (XDraw x)) => [last_part x]
  | RmEvent (XeOther (TkGet m) _) | RmEvent (XeOther (TkDel m) _) => [last_part (vr_token m)]
  | _ => []
  end.

(** What the adversary sees of what happens: everything, but for the secret itself. *)
Definition rseen_call (secret : string) (c : call) : call :=
  match c with
  | CValidate m => CValidate (VerifyCaptchaResult (hidden secret (vr_token m)) (vr_key m))
  | _ => c
  end.
Definition rseen_req (secret : string) (e : pev) : pev :=
  match e with
  | PeDraw s => PeDraw (hidden secret s)
  | PeCachePoW m a =>
      PeCachePoW (CachePoW (hidden secret (cp_string m)) (cp_difficulty_factor m) (cp_duration m) (cp_key m)) a
  | PeCacheResult m a => PeCacheResult (CacheResult (hidden secret (cr_token m)) (cr_key m) (cr_duration m)) a
  | PeVerify m a => PeVerify (VerifyCaptchaResult (hidden secret (vr_token m)) (vr_key m)) a
  | _ => e
  end.
Definition rseen_ret (secret : string) (r : ret) : ret :=
  match r with
  | RGetPow (Ok (Some c)) => RGetPow (Ok (Some (PoWConfig (hidden secret (pc_string c)) (pc_difficulty_factor c) (pc_salt c))))
  | RVerifyPow (Ok (t, f)) => RVerifyPow (Ok (hidden secret t, f))
  | _ => r
  end.
Definition rseen_other (secret : string) (c : token_call) : token_call :=
  match c with
  | TkAdd m => TkAdd (CacheResult (hidden secret (cr_token m)) (cr_key m) (cr_duration m))
  | TkGet m => TkGet (VerifyCaptchaResult (hidden secret (vr_token m)) (vr_key m))
  | TkDel m => TkDel (VerifyCaptchaResult (hidden secret (vr_token m)) (vr_key m))
  end.
Definition rseen1 (secret : string) (o : shout) : shout :=
  match o with
  | XoCall n i c => XoCall n i (rseen_call secret c)
  | XoDid n now e f => XoDid n now (rseen_req secret e) f
  | XoRet n r => XoRet n (rseen_ret secret r)
  | XoCancel n => XoCancel n
  | XoOther now c f => XoOther now (rseen_other secret c) f
  | XoLate n now m => XoLate n now (CacheResult (hidden secret (cr_token m)) (cr_key m) (cr_duration m))
  end.

(** The moves so far with what was seen of each; [None]: it was not possible. *)
Notation rrecord := (list (rmove * option (list shout))).
Definition rguesses (log : rrecord) : list string := concat (map (fun x => rnamed x.1) log).

(** [k] moves, each chosen from what has been seen so far. *)
Fixpoint rgame (ls : nat -> pow_lib) (now : N) (adversary : rrecord -> rmove) (secret : string) (k : nat)
  : shared * rrecord :=
  match k with
  | O => (sh_init now, [])
  | S k =>
      let '(s, log) := rgame ls now adversary secret k in
      let v := adversary log in
      match sh_step ls s (rmade secret v) with
      | Some (s', os) => (s', log ++ [(v, Some (map (rseen1 secret) os))])
      | None => (s, log ++ [(v, None)])
      end
  end.
