(** Specification vocabulary for [System]s whose Masters and caches are on one
    Redis: how what the calls did and what the module did fit together. *)
From Verif Require Import Model.Base Model.MCaptcha Model.HashCache Model.Redis Model.RedisActor Model.System
  Model.SystemProgram Model.SystemShared Spec.ProgramSpec Spec.ModuleSpec.

Definition module_request (o : shout) : option rask :=
  match o with
  | XoDid _ _ (PeVisit id _) _ => Some (AkVisit id)
  | XoDid _ _ (PeCachePoW m _) _ => Some (AkCache m)
  | XoDid _ _ (PeRetrieve m _) _ => Some (AkRetrieve m)
  | _ => None
  end.
(** The call was not told of success. *)
Definition not_done {A} (a : answer A) : Prop := forall x, a <> An (Ok x).
Definition left_alone (o : shout) : Prop :=
  match o with
  | XoDid _ _ (PeVisit _ a) _ => not_done a
  | XoDid _ _ (PeCachePoW _ a) _ => not_done a
  | XoDid _ _ (PeRetrieve _ a) _ => not_done a
  | _ => False
  end.
(** The call was told what the exchange came to. *)
Definition told_by (o : shout) (x : exchange) : Prop :=
  match o with
  | XoDid _ _ (PeVisit _ (An r)) _ => ex_answer x = Some (Val (RoVisit r))
  | XoDid _ _ (PeCachePoW _ (An r)) _ => ex_answer x = Some (Val (RoUnit r))
  | XoDid _ _ (PeRetrieve _ (An r)) _ => ex_answer x = Some (Val (RoPoW r))
  | _ => False
  end.
(** [merged tr l]: [l] (latest first) are the module's exchanges during [tr]: one
    for every request that succeeded, at that time; any number for a request that
    was not answered or failed, then or later (the connection breaks while the
    command is under way); and any number by others (whoever registers, renames or
    removes sites, other programs), who do not store challenges. *)
Inductive merged : list shout -> list exchange -> Prop :=
| mg_start : merged [] []
| mg_quiet tr l o : merged tr l -> module_request o = None -> merged (tr ++ [o]) l
| mg_unsent tr l o : merged tr l -> left_alone o -> merged (tr ++ [o]) l
| mg_asked tr l o x : merged tr l -> module_request o = Some (ex_ask x) -> left_alone o \/ told_by o x ->
    merged (tr ++ [o]) (x :: l)
| mg_late tr l o x : merged tr l -> o ∈ tr -> module_request o = Some (ex_ask x) -> left_alone o -> merged tr (x :: l)
| mg_other tr l x : merged tr l -> (forall m, ex_ask x <> AkCache m) -> merged tr (x :: l).
