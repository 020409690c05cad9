(** Specification vocabulary for moving the sites of a Master to a new one: the
    dump, the text it is kept as, and the restore. *)
From Verif Require Import Model.Base Model.Defense Model.MCaptcha Model.Counter Model.Master Model.Json Model.Serde
  Spec.DefenseSpec Spec.MCaptchaSpec Spec.MasterSpec Spec.SerdeSpec.

(** Site data made with the builders, or that such data came to by visitors
    coming and going; the duration is a u64. *)
Definition sound_site (p : profile) (m : mcaptcha) : Prop := reachable_mcaptcha p m /\ u64 (m_duration m).
(** Only such data is given to the Master. *)
Definition sound_event (p : profile) (e : mevent) : Prop :=
  match e with
  | MeReq (RqAddSite _ m) => sound_site p m
  | MeReq (RqSetData d) => forall id m, d !! id = Some m -> sound_site p m
  | MeDirect _ (CmSetInternalData m) => sound_site p m
  | _ => True
  end.

(** The name stands for a site that answers, with this data. *)
Definition serves (s : msys) (tr : list mout) (id : string) (m : mcaptcha) : Prop :=
  exists c, bound (hist tr) id = Some c /\ data_at s c m.

(** A dump asked for now, and nothing else going on, is answered with [d]. *)
Definition dumped (p : profile) (s : msys) (d : gmap string mcaptcha) : Prop :=
  exists n s1 o, Master.m_run p s (MeReq RqGetData :: replicate n (MeTask (my_next s))) = Some (s1, o) /\
    MoReply (my_reqs s) (MrData d) ∈ o.
(** What is done with a Master that was just started (its first task is the
    cleanup): the dump is written out in some order, read back and restored; the
    names are registered in some order. *)
Definition moves (d : gmap string mcaptcha) (es : list mevent) : Prop :=
  exists l d' order, l ≡ₚ map_to_list d /\ from_str decode_dump (to_string encode_dump l) = Some d' /\
    order ≡ₚ seq 0 (size d') /\ es = MeReq (RqSetData d') :: ((fun i => MeTask (S i)) <$> order).

(** Saved data is written again. *)
Definition writes (e : mevent) : Prop :=
  match e with
  | MeReq (RqSetData _) | MeDirect _ (CmSetInternalData _) => True
  | _ => False
  end.
