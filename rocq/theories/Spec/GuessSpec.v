(** Specification vocabulary: a secret string that the code draws, and everybody else trying to name it. *)
From Coq Require Import Ascii.
From Verif Require Import Model.Base Model.MCaptcha Model.Master Model.HashCache Model.Queue Model.Pow Model.System
  Spec.UtilsSpec.

(** What the adversary lets happen next: any event of its own choice, with calls and draws
    that name whatever they name; or a step that involves the secret without knowing it. *)
Inductive move :=
| MvEvent (e : sevent)
| MvDraw (n : nat)                       (** call [n] goes on and, if it draws a string, draws the secret *)
| MvExpireChallenge (due : N)            (** the expiry of the secret as a challenge *)
| MvExpireToken (due : N)                (** the expiry of the secret as a token *)
| MvCheck (key : string).                (** the one who was told the secret has it validated for site [key] *)
Definition made (secret : string) (v : move) : sevent :=
  match v with
  | MvEvent e => e
  | MvDraw n => SeAct n secret
  | MvExpireChallenge due => SeExpire due (DeletePoW secret)
  | MvExpireToken due => SeExpire due (DeleteCaptchaResult secret)
  | MvCheck key => SeCall (CValidate (VerifyCaptchaResult secret key))
  end.
(** The challenge or token that an event names: work submitted for it, a validation of it,
    another draw of it. *)
Definition named (v : move) : list string :=
  match v with
  | MvEvent (SeCall (CVerifyPow w _)) => [w_string w]
  | MvEvent (SeCall (CValidate m)) => [vr_token m]
  | MvEvent (SeAct _ rnd) => [rnd]
  | MvEvent (SeExpire _ (DeletePoW x)) => [x]
  | MvEvent (SeExpire _ (DeleteCaptchaResult x)) => [x]
  | _ => []
  end.

(** What the adversary sees of what happens: everything but the messages to the cache, and
    but the secret itself when it is told to the one it is meant for. *)
Definition hidden (secret x : string) : string := if decide (x = secret) then "" else x.
Definition seen1 (secret : string) (o : sout) : option sout :=
  match o with
  | SoCache _ _ _ => None
  | SoCall n (CValidate m) => Some (SoCall n (CValidate (VerifyCaptchaResult (hidden secret (vr_token m)) (vr_key m))))
  | SoRet n (RGetPow (Ok (Some c))) =>
      Some (SoRet n (RGetPow (Ok (Some (PoWConfig (hidden secret (pc_string c)) (pc_difficulty_factor c) (pc_salt c))))))
  | SoRet n (RVerifyPow (Ok (t, f))) => Some (SoRet n (RVerifyPow (Ok (hidden secret t, f))))
  | _ => Some o
  end.
Definition seen (secret : string) (os : list sout) : list sout := omap (seen1 secret) os.

(** The moves so far with what was seen of each; [None]: it was not possible. *)
Notation record := (list (move * option (list sout))).
Definition guesses (log : record) : list string := concat (map (fun x => named x.1) log).

(** [k] moves, each chosen from what has been seen so far. *)
Fixpoint game (p : profile) (l : pow_lib) (start : ssys) (adversary : record -> move) (secret : string) (k : nat)
  : ssys * record :=
  match k with
  | O => (start, [])
  | S k =>
      let '(s, log) := game p l start adversary secret k in
      let v := adversary log in
      match s_step p l s (made secret v) with
      | Some (s', os) => (s', log ++ [(v, Some (seen secret os))])
      | None => (s, log ++ [(v, None)])
      end
  end.

(** The next step of call [n] draws a string, for a token if [tok], else for a challenge. *)
Definition drawing (tok : bool) (s : ssys) (n : nat) : Prop :=
  match sy_clients s !! n with
  | Some (GpWait _ _) => tok = false
  | Some (VpPoll _ _ _) => tok = true
  | _ => False
  end.
(** In the execution [es], call [n] drew [x]. *)
Definition drew (p : profile) (l : pow_lib) (start : ssys) (es : list sevent) (tok : bool) (n : nat) (x : string) : Prop :=
  exists es1 es2 s1 tr1, es = es1 ++ SeAct n x :: es2 /\ s_run p l start es1 = Some (s1, tr1) /\ drawing tok s1 n.
