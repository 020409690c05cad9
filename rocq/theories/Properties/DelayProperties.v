(** Properties of the Master whose answers are under way for a while. *)
From Coq Require Import ZifyBool ZifyN ZifyNat Lia.
From Verif Require Import Model.Base Model.Defense Model.MCaptcha Model.Counter Model.Master Model.MasterDelay Spec.MasterSpec
  Proofs.MasterProofs Properties.MCaptchaProperties Properties.CounterProperties Properties.MasterProperties
  Spec.DelaySpec.
From Verif Require Export Proofs.DelayTheorems.

(** ** C104 *)
(** When answers take time on their way back, the same happens to the sites as if
    they did not; every request gets the answer it would have got, later, except
    for those whose answers are under way when the Master dies. *)
Theorem C104_delays : forall p t gc es d tr, dm_run p (dm_start t gc) es = Some (d, tr) ->
  exists tr', m_run p (m_start t gc) (plain_events es) = Some (dm_m d, tr') /\ doings tr = doings tr' /\
    forall k,
      answers k tr = answers k tr' \/
      (answers k tr = [] /\ my_alive (dm_m d) = true /\ exists j x, dm_held d !! j = Some (k, x) /\ answers k tr' = [x]) \/
      (answers k tr = [MrDropped] /\ my_alive (dm_m d) = false /\ exists x, answers k tr' = [x] /\ of_counter x).
Proof. exact c104_delays. Qed.
Print Assumptions C104_delays.

(** They may come at once. *)
Theorem C104_at_once : forall p t gc es s tr, m_run p (m_start t gc) es = Some (s, tr) ->
  exists es', dm_run p (dm_start t gc) es' = Some (DMaster s [], tr) /\ plain_events es' = es.
Proof. exact c104_at_once. Qed.
Print Assumptions C104_at_once.

(** Every request gets at most one answer. *)
Theorem C104_answered_once : forall p t gc es d tr k, dm_run p (dm_start t gc) es = Some (d, tr) ->
  (length (answers k tr) <= 1)%nat.
Proof. exact c104_answered_once. Qed.
Print Assumptions C104_answered_once.

Theorem C104_counted_unanswered_refuted : forall p, exists d tr,
  dm_run p (dm_start 0 60) ex_lost = Some (d, tr) /\
  answers 3 tr = [MrDropped] /\ MoDirect 0 (CrCount 1) ∈ tr /\
  answers 2 tr = [MrDropped] /\ MoDirect 1 CrMailboxError ∈ tr.
Proof. exact c104_counted_unanswered_refuted. Qed.
Print Assumptions C104_counted_unanswered_refuted.

(** Two visits whose answers arrive in the other order. *)
Definition ex_order : list dmevent :=
  (DmDo <$> [MeReq (RqAddSite "a" ex_m3); MeReq (RqAddVisitor "a"); MeReq (RqAddVisitor "a"); MeTask 1; MeTask 2]) ++ [DmTell 1; DmTell 0].

Example C104_witness : forall p, exists d tr v v',
  dm_run p (dm_start 0 60) ex_order = Some (d, tr) /\ dm_held d = [] /\
  tr = [MoHandle (RqAddSite "a" ex_m3); MoReply 0 (MrUnit (Ok tt)); MoHandle (RqAddVisitor "a"); MoHandle (RqAddVisitor "a");
        MoReply 2 (MrVisit (Ok (Some v'))); MoReply 1 (MrVisit (Ok (Some v)))].
Proof. intros p. eexists _, _, _, _. split; [by destruct p; vm_compute|]. split; [done|]. reflexivity. Qed.
