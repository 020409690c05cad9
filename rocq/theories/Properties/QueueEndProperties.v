(** Property C109: what is left of a queue that has been dropped. *)
From Coq Require Import ZifyBool ZifyN ZifyNat Lia.
From Verif Require Import Model.Base Model.Queue Model.QueueEnd Spec.QueueSpec Spec.QueueEndSpec
  Proofs.QueueProofs Proofs.QueuePanics Proofs.QueueEndProofs Properties.QueueProperties.
From Verif Require Export Proofs.QueueEndTheorems.

(** Without panics the call never panics, no thread ever spins, and when the
    call returns every runner has returned and finished all it was given. *)
Theorem C109_returns p w q es s tr order s0 es' s1 tr1 :
  no_job_panics es -> q_run p (q_start w q) es = Some (s, tr) ->
  order ≡ₚ seq 0 w -> e_begin s order = Some s0 ->
  no_end_panics es' -> e_run s0 es' = Some (s1, tr1) ->
  EoPanics ∉ tr1 /\ spins tr1 = [] /\
  (EoReturns ∈ tr1 -> length (es_runners s1) = w /\
     forall r x, es_runners s1 !! r = Some x -> rn_state x = RExited /\
       of_runner r ((fun x => (x.1, x.2.2)) <$> handed tr) = of_runner r (finished (tr ++ runner_outs tr1))).
Proof. exact (@c109_returns p w q es s tr order s0 es' s1 tr1). Qed.
Print Assumptions C109_returns.

(** With or without panics the call comes to an end: all threads together take
    boundedly many steps besides spinning, and until the call is over one of
    them can take one. *)
Theorem C109_ends p w q es s tr order s0 :
  q_run p (q_start w q) es = Some (s, tr) -> order ≡ₚ seq 0 w -> e_begin s order = Some s0 ->
  (exists n, forall es' s1 tr1, e_run s0 es' = Some (s1, tr1) -> (length es' <= n + length (spins tr1))%nat) /\
  (forall es' s1 tr1, e_run s0 es' = Some (s1, tr1) ->
     call_over tr1 \/
     exists e s2 o, (forall r, e <> EePanic r) /\ e_step s1 e = Some (s2, o) /\ spins o = []).
Proof. exact (@c109_ends p w q es s tr order s0). Qed.
Print Assumptions C109_ends.

(** If ever a job has panicked, or panics before the call is over, the call does
    not return normally: it panics. *)
Theorem C109_panics_refuted p w q es s tr order s0 es' s1 tr1 r :
  q_run p (q_start w q) es = Some (s, tr) -> order ≡ₚ seq 0 w -> e_begin s order = Some s0 ->
  e_run s0 es' = Some (s1, tr1) ->
  QePanic r ∈ es \/ EePanic r ∈ es' -> EoReturns ∉ tr1.
Proof. exact (@c109_panics_refuted p w q es s tr order s0 es' s1 tr1 r). Qed.
Print Assumptions C109_panics_refuted.

(** A runner with nothing to do that comes after the dead one in the order in
    which runners are told is never told: its thread outlives the queue, and
    once the call is over each turn of its loop finds the channel closed, at
    once, for ever. *)
Theorem C109_spins_refuted p w q es s tr a d b r s0 es' s1 tr1 :
  q_run p (q_start w q) es = Some (s, tr) -> a ++ d :: b ≡ₚ seq 0 w -> e_begin s (a ++ d :: b) = Some s0 ->
  QePanic d ∈ es -> r ∈ b -> im_runners (qs_im s) !! r = Some (Runner [] RIdle) ->
  e_run s0 es' = Some (s1, tr1) ->
  QExit r ∉ runner_outs tr1 /\ es_runners s1 !! r = Some (Runner [] RIdle) /\
  (call_over tr1 -> e_step s1 (EeRecv r) = Some (s1, [EoSpin r])).
Proof. exact (@c109_spins_refuted p w q es s tr a d b r s0 es' s1 tr1). Qed.
Print Assumptions C109_spins_refuted.

(** Once the call is over a runner starts at most one more job, whatever it was
    given, and none if it is in the middle of one. *)
Theorem C109_lost p w q es s tr order s0 es' s1 tr1 es'' s2 tr2 r x :
  q_run p (q_start w q) es = Some (s, tr) -> order ≡ₚ seq 0 w -> e_begin s order = Some s0 ->
  e_run s0 es' = Some (s1, tr1) -> call_over tr1 -> es_runners s1 !! r = Some x ->
  e_run s1 es'' = Some (s2, tr2) ->
  (length (of_runner r (started (runner_outs tr2))) <= match rn_state x with RIdle => 1 | _ => 0 end)%nat.
Proof. exact (@c109_lost p w q es s tr order s0 es' s1 tr1 es'' s2 tr2 r x). Qed.
Print Assumptions C109_lost.

(** A quiet end: both runners finish what they were given. *)
Example C109_witness p :
  exists s tr s0 s1 tr1,
    q_run p (q_start 2 9) [QeAdd "a"; QeAdd "b"; QeAdd "a"; QeManager; QeManager; QeManager; QeRecv 0; QeDrop] = Some (s, tr) /\
    e_begin s [1; 0]%nat = Some s0 /\
    e_run s0 [EeSend; EeFinish 0; EeRecv 0; EeSend; EeRecv 1; EeFinish 1; EeRecv 1; EeJoin; EeFinish 0; EeRecv 0;
              EeJoin; EeJoin] = Some (s1, tr1) /\
    handed tr = [(0, ("a", 0)); (0, ("b", 1)); (1, ("a", 2))]%nat /\
    finished (runner_outs tr1) = [(0, 0); (1, 2); (0, 1)]%nat /\ EoReturns ∈ tr1.
Proof.
  eexists _, _, _, _, _. split; [by destruct p; vm_compute|]. split; [reflexivity|]. split; [vm_compute; reflexivity|].
  split; [reflexivity|]. split; [reflexivity|]. repeat (apply elem_of_list_here || apply elem_of_list_further).
Qed.

(** One job panics: the call panics, runner 1 has two jobs to do and does one,
    runner 2 spins for ever. *)
Definition ex_broken : list qevent :=
  [QeAdd "b"; QeManager; QeAdd "a"; QeManager; QeAdd "a"; QeManager; QeAdd "a"; QeManager; QeAdd "a"; QeManager;
   QeRecv 0; QePanic 0; QeDrop].

Example C109_panic_witness p :
  exists s tr s0 s1 tr1 s2 tr2,
    q_run p (q_start 3 9) ex_broken = Some (s, tr) /\ QePanic 0 ∈ ex_broken /\ e_begin s [0; 1; 2]%nat = Some s0 /\
    im_runners (qs_im s) = [Runner [] RDead; Runner [RmProve 2; RmProve 4] RIdle; Runner [] RIdle] /\
    e_run s0 [EeSend; EeJoin] = Some (s1, tr1) /\ tr1 = [EoPanics] /\
    e_run s1 [EeRecv 2; EeRecv 1; EeRecv 2; EeFinish 1; EeRecv 2] = Some (s2, tr2) /\
    tr2 = [EoSpin 2; EoQ (QStart 1 2); EoSpin 2; EoQ (QFinish 1 2); EoQ (QExit 1); EoSpin 2] /\
    es_runners s2 = [Runner [] RDead; Runner [RmProve 4] RExited; Runner [] RIdle].
Proof.
  eexists _, _, _, _, _, _, _. split; [by destruct p; vm_compute|].
  split; [unfold ex_broken; repeat (apply elem_of_list_here || apply elem_of_list_further)|].
  split; [reflexivity|]. split; [reflexivity|]. split; [vm_compute; reflexivity|]. split; [reflexivity|].
  split; [vm_compute; reflexivity|]. split; reflexivity.
Qed.
