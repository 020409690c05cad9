(** Specification vocabulary for [System]s whose caches are on one Redis and whose
    Masters are of any kind: in memory, on that Redis or on another. *)
From Verif Require Import Model.Base Model.MCaptcha Model.Counter Model.Master Model.HashCache Model.System
  Model.SystemProgram Model.SystemShared Spec.MasterSpec Spec.ProgramSpec.

(** What the calls did, without their requests to the Masters. *)
Definition not_visit (o : shout) : bool :=
  match o with XoDid _ _ (PeVisit _ _) _ => false | _ => true end.
Definition cache_side (tr : list shout) : list shout := List.filter not_visit tr.

(** A request of a visitor of site [id] was, among the events [es1], the request and
    [es2] of the Master, answered with [v]. *)
Definition visit_told (p : profile) (t : N) (gc : N) (es1 : list mevent) (id : string) (es2 : list mevent)
    (v : add_visitor_result) (mtr1 : list mout) : Prop :=
  exists s1 s mtr,
    m_run p (m_start t gc) es1 = Some (s1, mtr1) /\
    m_run p (m_start t gc) (es1 ++ MeReq (RqAddVisitor id) :: es2) = Some (s, mtr) /\
    MrVisit (Ok (Some v)) ∈ answers (my_reqs s1) mtr.

(** System [i] has its Master in memory, started at [t] and cleaning up every [gc],
    to which [mes] happened: what its calls were told of visits, that Master said. *)
Definition in_memory (p : profile) (t gc : N) (mes : list mevent) (i : nat) (tr : list shout) : Prop :=
  forall n c tv id v f,
    XoCall n i c ∈ tr -> XoDid n tv (PeVisit id (An (Ok (Some v)))) f ∈ tr ->
    exists es1 es2 mtr1, mes = es1 ++ MeReq (RqAddVisitor id) :: es2 /\ visit_told p t gc es1 id es2 v mtr1.
