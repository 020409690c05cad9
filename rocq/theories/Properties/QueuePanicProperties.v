(** C64 in any state, with any number of runners: what a job that panics does
    to the queue. *)
From Coq Require Import ZifyBool ZifyN ZifyNat Lia.
From Verif Require Import Model.Base Model.Queue Spec.QueueSpec Proofs.QueueProofs Proofs.QueuePanics
  Properties.QueueProperties.
From Verif Require Export Proofs.QueuePanicTheorems.

(** Once runner [r]'s job has panicked, whatever happened before and after: as
    soon as the dispatcher has caught up, jobs can be submitted that abort the
    whole process, at most one for each runner up to [r] and one more. (The
    queue must have room: C41.) *)
Theorem C64_anywhere_refuted : forall p w q es s tr r,
  q_run p (q_start w q) es = Some (s, tr) -> QePanic r ∈ es ->
  qs_mgr s = MAlive -> qs_dropped s = false -> qs_inbox s = [] ->
  N.of_nat (distinct_ips tr) < q -> N.of_nat r + 1 < q ->
  exists ips s' tr', (length ips <= r + 2)%nat /\
    q_run p s (concat ((fun ip => [QeAdd ip; QeManager]) <$> ips)) = Some (s', tr') /\
    qs_mgr s' = MAborted /\ forall e, q_step p s' e = None.
Proof. exact c64_anywhere_refuted. Qed.
Print Assumptions C64_anywhere_refuted.

(** If jobs of more than [r] IPs have been accepted, one job of an IP already
    known is enough. *)
Theorem C64_next_job_refuted : forall p w q es s tr r,
  q_run p (q_start w q) es = Some (s, tr) -> QePanic r ∈ es ->
  qs_mgr s = MAlive -> qs_dropped s = false -> qs_inbox s = [] ->
  N.of_nat (distinct_ips tr) < q -> (r < distinct_ips tr)%nat ->
  exists ip s', ip ∈ (fst <$> accepted tr) /\ q_run p s [QeAdd ip; QeManager] = Some (s', []) /\
    qs_mgr s' = MAborted /\ forall e, q_step p s' e = None.
Proof. exact c64_next_job_refuted. Qed.
Print Assumptions C64_next_job_refuted.

(** Jobs handed to the runner before it died and not yet started are never
    run, although [add] had answered Ok. *)
Theorem C64_lost_jobs_refuted : forall p w q es1 es2 s1 tr1 s tr r ip j,
  q_run p (q_start w q) es1 = Some (s1, tr1) -> (r, (ip, j)) ∈ handed tr1 -> j ∉ (snd <$> started tr1) ->
  q_run p (q_start w q) (es1 ++ QePanic r :: es2) = Some (s, tr) -> j ∉ (snd <$> started tr).
Proof. exact c64_lost_jobs_refuted. Qed.
Print Assumptions C64_lost_jobs_refuted.

(** Nothing but a job that panicked brings the dispatcher or the process down. *)
Theorem C64_only_cause : forall p w q es s tr,
  q_run p (q_start w q) es = Some (s, tr) -> qs_mgr s = MAborted \/ qs_mgr s = MPanicked -> exists r, QePanic r ∈ es.
Proof. exact c64_only_cause. Qed.
Print Assumptions C64_only_cause.

(** After a job panicked, dropping the queue (C45) never completes normally. *)
Theorem C64_drop_refuted : forall p w q es s tr r,
  q_run p (q_start w q) es = Some (s, tr) -> QePanic r ∈ es -> qs_mgr s <> MDone.
Proof. exact c64_drop_refuted. Qed.
Print Assumptions C64_drop_refuted.

(** Two runners and two IPs; jobs 2, 5 and 6 are handed to the second runner,
    where job 2 panics. The next job of "a" aborts the process; job 5 is lost. *)
Definition ex_handed : list qevent :=
  concat ((fun ip => [QeAdd ip; QeManager]) <$> ["a"; "b"; "a"; "b"; "b"; "a"; "a"]) ++ [QeRecv 1].

Example C64_anywhere_witness : forall p, exists s1 tr1 s tr s' tr',
  q_run p (q_start 2 10) ex_handed = Some (s1, tr1) /\
  (1%nat, ("a", 5%nat)) ∈ handed tr1 /\ started tr1 = [(1, 2)]%nat /\
  q_run p (q_start 2 10) (ex_handed ++ [QePanic 1]) = Some (s, tr) /\
  qs_mgr s = MAlive /\ qs_dropped s = false /\ qs_inbox s = [] /\ distinct_ips tr = 2%nat /\
  q_run p s [QeAdd "a"; QeManager] = Some (s', tr') /\ qs_mgr s' = MAborted.
Proof.
  intros p. eexists _, _, _, _, _, _. split; [by destruct p; vm_compute|]. split; [vm_compute; set_solver|]. split; [done|].
  split; [by destruct p; vm_compute|]. do 4 (split; [done|]). split; [by destruct p; vm_compute|]. done.
Qed.
