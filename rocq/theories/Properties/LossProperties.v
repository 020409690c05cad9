(** Property C106: the System when the death of the Master loses answers. *)
From Coq Require Import ZifyBool ZifyN ZifyNat Lia.
From Verif Require Import Model.Base Model.Defense Model.MCaptcha Model.HashCache Model.Queue Model.Pow Model.Counter Model.Master
  Model.System Model.SystemLoss Spec.SystemSpec Proofs.MasterProofs Proofs.SystemProofs Proofs.SystemHistory
  Properties.DelayProperties Properties.SystemProperties
  Spec.LossSpec.
From Verif Require Export Proofs.LossTheorems.

(** ** C106 *)
(** An execution with lost answers is one without in which the calls concerned were
    cancelled: same state, and the same is observed, but those calls return RecvError. *)
Theorem C106_as_cancelled : forall p l t gc wk ql es s tr,
  l_run p l (sys_start t gc wk ql) es = Some (s, tr) ->
  exists tr', s_run p l (sys_start t gc wk ql) (plain <$> es) = Some (s, tr') /\ Forall2 lost_or_same tr tr'.
Proof. exact c106_as_cancelled. Qed.
Print Assumptions C106_as_cancelled.

(** Every execution without losses is covered. *)
Theorem C106_no_loss : forall p l s es, l_run p l s (LeDo <$> es) = s_run p l s es.
Proof. exact c106_no_loss. Qed.
Print Assumptions C106_no_loss.

(** So the guarantees hold with losses, too. A token is earned by sufficient, valid
    work for a challenge issued for the same site; *)
Theorem C106_earned : forall p l t gc wk ql es s tr n tok d,
  l_run p l (sys_start t gc wk ql) es = Some (s, tr) -> returned tr n (RVerifyPow (Ok (tok, d))) ->
  exists w ip n0, called tr n (CVerifyPow w ip) /\ sufficient l w d true /\ valid l w true /\
    n0 ∈ issuers (w_string w) tr /\ called tr n0 (CGetPow (w_key w)).
Proof. exact c106_earned. Qed.
Print Assumptions C106_earned.

(** each challenge earns at most one, each token is accepted at most once, *)
Theorem C106_once : forall p l t gc wk ql es s tr x ns,
  l_run p l (sys_start t gc wk ql) es = Some (s, tr) -> NoDup ns ->
  (Forall (fun n => verified tr n x) ns -> (length ns <= length (issuers x tr))%nat) /\
  (Forall (fun n => exists key, validated tr n x key) ns -> (length ns <= length (minters x tr))%nat).
Proof. exact c106_once. Qed.
Print Assumptions C106_once.

(** and only for the site it was minted for. *)
Theorem C106_right_site : forall p l t gc wk ql es s tr n tok key,
  l_run p l (sys_start t gc wk ql) es = Some (s, tr) -> validated tr n tok key ->
  exists n0 w ip, n0 ∈ minters tok tr /\ called tr n0 (CVerifyPow w ip) /\ w_key w = key /\ valid l w true.
Proof. exact c106_right_site. Qed.
Print Assumptions C106_right_site.

(** A call loses its answer only when the Master is dead. *)
Theorem C106_only_dead : forall p l t gc wk ql es s tr,
  l_run p l (sys_start t gc wk ql) es = Some (s, tr) -> my_alive (sy_m s) = true ->
  s_run p l (sys_start t gc wk ql) (plain <$> es) = Some (s, tr).
Proof. exact c106_only_dead. Qed.
Print Assumptions C106_only_dead.

(** The visitor whose get_pow fails so has been counted. *)
Theorem C106_counted_unanswered : forall p, exists s tr,
  l_run p ex_lib ex_start ex_lose = Some (s, tr) /\ returned tr 3 (RGetPow (Err RecvError)) /\
  MoDirect 1 (CrCount 1) ∈ mouts tr.
Proof. exact c106_counted_unanswered. Qed.
Print Assumptions C106_counted_unanswered.

Example C106_witness : forall p, exists s tr,
  l_run p ex_lib ex_start ex_lose = Some (s, tr) /\ returned tr 1 (RVerifyPow (Ok ("tok", 50))) /\ verified tr 1 "x" /\
  validated tr 2 "tok" "site" /\ my_alive (sy_m s) = false.
Proof.
  intros p. eexists _, _. split; [by destruct p; vm_compute|]. unfold validated, verified, returned, called.
  split; [repeat (first [by left|right])|]. split; [|split; [split; repeat (first [by left|right])|done]].
  exists (ex_work "x" "site" 60), "ip", "tok", 50. split; [repeat (first [by left|right])|]. split; [done|]. repeat (first [by left|right]).
Qed.
