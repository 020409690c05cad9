(** Specification vocabulary for deployments: what can be observed of a history,
    here and in Model/SystemShared.v. *)
From Verif Require Import Model.Base Model.MCaptcha Model.HashCache Model.Pow Model.System Model.Redis
  Model.RedisActor Model.RedisTokens Model.SystemProgram Model.SystemShared Model.RedisSystem Model.Deployment
  Spec.RedisSpec Spec.ProgramSpec Spec.SharedSpec.

(** Calls with their arguments and results, the random strings they draw, and the
    commands for tokens that the server executes. [A]: how calls are named. *)
Inductive obs (A : Type) :=
| BCall (a : A) (c : call)
| BDraw (a : A) (s : string)
| BExec (now : N) (cmd : list string)
| BRet (a : A) (r : ret).
Global Arguments BCall {A}. Global Arguments BDraw {A}. Global Arguments BExec {A}. Global Arguments BRet {A}.
Definition rename {A B} (f : A -> B) (o : obs A) : obs B :=
  match o with
  | BCall a c => BCall (f a) c
  | BDraw a s => BDraw (f a) s
  | BExec t cmd => BExec t cmd
  | BRet a r => BRet (f a) r
  end.

Definition exec_obs {A} (now : N) (c : token_call) (f : fate) : list (obs A) :=
  match f with NotSent => [] | _ => [BExec now (rc_cmd (token_cmd c))] end.
(** In a deployment a call is named by its System and its number there. *)
Definition d_ob (o : dout) : list (obs (nat * nat)) :=
  match o with
  | DoSys i (SvoCall n c) => [BCall (i, n) c]
  | DoSys i (SvoTold n (PeDraw s)) => [BDraw (i, n) s]
  | DoSys i (SvoRet n r) => [BRet (i, n) r]
  | DoSys _ _ => []
  | DoExec _ t cmd => [BExec t cmd]
  | DoLate t cmd => [BExec t cmd]
  | DoOther t c f => exec_obs t c f
  end.
Definition d_obs (tr : list dout) : list (obs (nat * nat)) := tr ≫= d_ob.
(** In the shared model calls are numbered over all Systems. *)
Definition x_ob (o : shout) : list (obs nat) :=
  match o with
  | XoCall n _ c => [BCall n c]
  | XoDid n _ (PeDraw s) _ => [BDraw n s]
  | XoDid _ t (PeCacheResult m _) f => exec_obs t (TkAdd m) f
  | XoDid _ t (PeVerify m _) f => exec_obs t (TkGet m) f
  | XoDid _ _ _ _ => []
  | XoRet n r => [BRet n r]
  | XoCancel _ => []
  | XoOther t c f => exec_obs t c f
  | XoLate _ t m => [BExec t (rc_cmd (token_cmd (TkAdd m)))]
  end.
Definition x_obs (tr : list shout) : list (obs nat) := tr ≫= x_ob.

(** In terms of observations: no random string is drawn twice; no site name in work
    submitted has a colon. *)
Definition fresh_draws {A} (os : list (obs A)) : Prop :=
  forall os1 a s os2 b os3, os <> os1 ++ BDraw a s :: os2 ++ BDraw b s :: os3.
Definition plain_works {A} (os : list (obs A)) : Prop :=
  forall a w ip, BCall a (CVerifyPow w ip) ∈ os -> no_colon (w_key w).
(** Call [a] checked token [m] and got [b]. *)
Definition checked {A} (os : list (obs A)) (a : A) (m : verify_captcha_result) (b : bool) : Prop :=
  BCall a (CValidate m) ∈ os /\ BRet a (RValidate (Ok b)) ∈ os.
