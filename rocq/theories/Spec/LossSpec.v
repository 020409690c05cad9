(** Specification vocabulary for a System whose Master's answers may be lost. *)
From Verif Require Import Model.Base Model.MCaptcha Model.Counter Model.Master Model.HashCache Model.Queue Model.Pow Model.System Model.SystemLoss.

(** The same calls with the ones that lose their answer cancelled instead. *)
Definition plain (e : levent) : sevent := match e with LeDo e => e | LeLose n => SeCancel n end.
Definition lost_or_same (o o' : sout) : Prop :=
  o = o' \/ exists n, o = SoRet n (RGetPow (Err RecvError)) /\ o' = SoCancel n.
