(** Specification vocabulary for several [System]s on one Redis: histories only. *)
From Verif Require Import Model.Base Model.MCaptcha Model.HashCache Model.Pow Model.System Model.Redis
  Model.RedisActor Model.RedisTokens Model.SystemProgram Model.SystemShared Spec.RedisSpec Spec.ProgramSpec.

Global Instance fate_eq_dec : EqDecision fate.
Proof. solve_decision. Defined.

(** What the calls did to tokens, in Redis's order. *)
Definition token_of (o : shout) : option token_event :=
  match o with
  | XoDid _ now (PeCacheResult m _) f => Some (TokenEvent now (TkAdd m) f)
  | XoDid _ now (PeVerify m _) f => Some (TokenEvent now (TkGet m) f)
  | XoOther now c f => Some (TokenEvent now c f)
  | XoLate _ now m => Some (TokenEvent now (TkAdd m) AnswerLost)
  | _ => None
  end.
Definition tokens (tr : list shout) : list token_event := omap token_of tr.
(** The requests call [n] made, with their answers. *)
Definition did (n : nat) (o : shout) : option pev :=
  match o with XoDid n' _ e _ => if decide (n = n') then Some e else None | _ => None end.
Definition requests_of (n : nat) (tr : list shout) : list pev := omap (did n) tr.

(** The server executes the command by which a call stores a token: the call, the
    time, the token. *)
Definition stores (o : shout) : option (nat * N * cache_result) :=
  match o with
  | XoDid n now (PeCacheResult m _) f => if decide (f = NotSent) then None else Some (n, now, m)
  | XoLate n now m => Some (n, now, m)
  | _ => None
  end.
(** Calls of verify_pow that had a token stored under Redis key [k], and calls of
    validate that were told true for it. *)
Definition minted (k : string) (tr : list shout) : list nat :=
  omap (fun o => match stores o with
    | Some (n, _, m) => if decide (token_key (cr_key m) (cr_token m) = k) then Some n else None
    | None => None
    end) tr.
Definition accepted (k : string) (tr : list shout) : list nat :=
  omap (fun o => match o with
    | XoDid n _ (PeVerify m (An (Ok true))) _ =>
        if decide (token_key (vr_key m) (vr_token m) = k) then Some n else None
    | _ => None
    end) tr.
(** Calls of get_pow that asked for challenge [str] of site [key] to be stored, and
    calls of verify_pow that were given it. *)
Definition issued (key str : string) (tr : list shout) : list nat :=
  omap (fun o => match o with
    | XoDid n _ (PeCachePoW m _) _ => if decide ((cp_key m, cp_string m) = (key, str)) then Some n else None
    | _ => None
    end) tr.
Definition fetched (key str : string) (tr : list shout) : list nat :=
  omap (fun o => match o with
    | XoDid n _ (PeRetrieve m (An (Ok (Some _)))) _ =>
        if decide ((vr_key m, vr_token m) = (key, str)) then Some n else None
    | _ => None
    end) tr.

(** No random string is drawn twice. *)
Definition draws_distinct (tr : list shout) : Prop :=
  forall tr1 n1 t1 s f1 tr2 n2 t2 f2 tr3,
    tr <> tr1 ++ XoDid n1 t1 (PeDraw s) f1 :: tr2 ++ XoDid n2 t2 (PeDraw s) f2 :: tr3.
(** No site name in work submitted has a colon. *)
Definition plain_sites (tr : list shout) : Prop :=
  forall n i w ip, XoCall n i (CVerifyPow w ip) ∈ tr -> no_colon (w_key w).
(** The module gives a challenge out at most as often as it was told to store it. *)
Definition consuming (tr : list shout) : Prop :=
  forall tr1 tr2 key str, tr = tr1 ++ tr2 ->
    (length (fetched key str tr1) <= length (issued key str tr1))%nat.

(** The times that requests are shown with are Redis's: those of the start and of
    what passed since. *)
Definition elapsed (es : list shevent) : N :=
  foldr (fun e t => match e with XeTick d => d + t | _ => t end) 0 es.
