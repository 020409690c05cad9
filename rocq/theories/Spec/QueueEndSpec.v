(** Specification vocabulary for property C109: the end of a queue. *)
From Verif Require Import Model.Base Model.Queue Model.QueueEnd.

(** No job panics while the queue ends. *)
Definition no_end_panics (es : list eevent) : Prop := Forall (fun e => forall r, e <> EePanic r) es.
(** What the runners did, and which turns of their loops did nothing. *)
Definition runner_outs (tr : list eout) : list qout := omap (fun o => match o with EoQ x => Some x | _ => None end) tr.
Definition spins (tr : list eout) : list nat := omap (fun o => match o with EoSpin r => Some r | _ => None end) tr.
(** The call that drops the queue is over. *)
Definition call_over (tr : list eout) : Prop := EoReturns ∈ tr \/ EoPanics ∈ tr.
