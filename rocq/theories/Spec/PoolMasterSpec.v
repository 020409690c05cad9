(** Specification vocabulary for several [System]s on one in-memory cache, each with
    its Master: in memory, or on a Redis. *)
From Verif Require Import Model.Base Model.MCaptcha Model.Master Model.HashCache Model.Redis Model.RedisActor Model.System
  Model.SystemProgram Model.SystemPool Spec.ProgramSpec Spec.ModuleSpec Spec.MixedSpec.

(** System [i] has its Master in memory, started at [t] and cleaning up every [gc],
    to which [mes] happened: what its calls were told of visits, that Master said. *)
Definition pool_in_memory (p : profile) (t gc : N) (mes : list mevent) (i : nat) (tr : list plout) : Prop :=
  forall n c id v,
    LoCall n i c ∈ tr -> LoDid n (PeVisit id (An (Ok (Some v)))) ∈ tr ->
    exists es1 es2 mtr1, mes = es1 ++ MeReq (RqAddVisitor id) :: es2 /\ visit_told p t gc es1 id es2 v mtr1.

(** [heard mine tr l]: during [tr], [l] (latest first) are the exchanges of the module
    of a Redis on which those have their Master whose calls are [mine]: one, at that
    time, for every visit of such a call that was answered with success; and any
    others. *)
Inductive heard (mine : nat -> Prop) : list plout -> list exchange -> Prop :=
| hd_start : heard mine [] []
| hd_asked tr l n id r x : heard mine tr l ->
    ex_ask x = AkVisit id -> ex_answer x = Some (Val (RoVisit (Ok r))) ->
    heard mine (tr ++ [LoDid n (PeVisit id (An (Ok r)))]) (x :: l)
| hd_quiet tr l o : heard mine tr l ->
    (forall n id r, mine n -> o <> LoDid n (PeVisit id (An (Ok r)))) -> heard mine (tr ++ [o]) l
| hd_other tr l x : heard mine tr l -> heard mine tr (x :: l).

(** The calls on System [i] in [tr]. *)
Definition calls_on (i : nat) (tr : list plout) (n : nat) : Prop := exists c, LoCall n i c ∈ tr.
