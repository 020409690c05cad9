(** Specification vocabulary for property C110: what the owners of sites do. *)
From Verif Require Import Model.Base Model.Master Model.HashCache Model.Queue Model.System Spec.SystemSpec.

(** The execution without the messages to the Master of anybody but get_pow
    (registering, renaming, removing, restoring sites), and without the Master's
    own doings. *)
Definition without_owner (es : list sevent) : list sevent :=
  filter (fun e => Is_true (match e with SeMaster _ => false | _ => true end)) es.
(** What can be seen, the Master apart. *)
Definition besides_master (tr : list sout) : list sout :=
  filter (fun o => Is_true (match o with SoMaster _ _ _ => false | _ => true end)) tr.
(** No get_pow call makes a step. *)
Definition no_get_pow (tr : list sout) (es : list sevent) : Prop :=
  forall n rnd id, SeAct n rnd ∈ es -> ~ called tr n (CGetPow id).
