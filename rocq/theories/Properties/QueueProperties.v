(** Properties C38-C46 and C64: the work queue. *)
From Coq Require Import ZifyBool ZifyN ZifyNat Lia.
From Verif Require Import Model.Base Model.Queue Spec.QueueSpec Proofs.QueueProofs.
From Verif Require Export Proofs.QueueTheorems.

(** An execution used as witness: two runners, three IPs, five jobs. *)
Definition ex_events : list qevent :=
  [QeAdd "a"; QeAdd "b"; QeAdd "a"; QeManager; QeManager; QeRecv 0; QeManager; QeAdd "c"; QeFinish 0;
   QeManager; QeAdd "c"; QeManager; QeRecv 1; QeManager; QeFinish 1; QeRecv 0].

(** C38 *)
Theorem C38_conservation p w q es s tr :
  no_job_panics es -> q_run p (q_start w q) es = Some (s, tr) ->
  NoDup (answered tr) /\
  (snd <$> accepted tr) ≡ₚ
    waiting_in_queues s ++ at_runners s ++ running_jobs s ++ (snd <$> finished tr) /\
  NoDup (snd <$> accepted tr) /\
  (forall j, j ∈ rejected tr -> j ∉ (snd <$> started tr) /\ j ∉ (snd <$> accepted tr)).
Proof. exact (@c38_conservation p w q es s tr). Qed.
Print Assumptions C38_conservation.

Example C38_witness :
  no_job_panics ex_events /\
  exists s tr, q_run Debug (q_start 2 3) ex_events = Some (s, tr) /\
    accepted tr = [("a", 0%nat); ("b", 1%nat); ("a", 2%nat); ("c", 3%nat)] /\
    rejected tr = [4%nat] /\ finished tr = [(0%nat, 0%nat); (1%nat, 2%nat)] /\
    running_jobs s = [1%nat] /\ at_runners s = [3%nat].
Proof.
  split; [by repeat constructor|]. eexists _, _. split; [vm_compute; reflexivity|]. by vm_compute.
Qed.

(** Calls are answered in the order they were made, each once and for its own
    IP; with nothing left in the dispatcher's channel every call is answered. *)
Theorem C38_answers_in_order p w q es s tr :
  no_job_panics es -> q_run p (q_start w q) es = Some (s, tr) ->
  answered_calls tr `prefix_of` calls es /\
  (qs_inbox s = [] -> answered_calls tr = calls es).
Proof. exact (@c38_answers_in_order p w q es s tr). Qed.
Print Assumptions C38_answers_in_order.

Example C38_order_witness :
  exists s tr, q_run Debug (q_start 2 3) ex_events = Some (s, tr) /\
    calls ex_events = [(0, "a"); (1, "b"); (2, "a"); (3, "c"); (4, "c")]%nat /\
    answered_calls tr = calls ex_events.
Proof. eexists _, _. split; [vm_compute; reflexivity|]. by vm_compute. Qed.

(** C39 *)
Theorem C39_fifo_per_ip p w q es s tr ip :
  no_job_panics es -> q_run p (q_start w q) es = Some (s, tr) ->
  of_ip ip (accepted tr) = of_ip ip (snd <$> handed tr) ++ queue_of s ip.
Proof. exact (@c39_fifo_per_ip p w q es s tr ip). Qed.
Print Assumptions C39_fifo_per_ip.

(** Each runner finishes the jobs handed to it in hand-out order. *)
Theorem C39_fifo_per_runner p w q es s tr r rn :
  no_job_panics es -> q_run p (q_start w q) es = Some (s, tr) ->
  im_runners (qs_im s) !! r = Some rn ->
  of_runner r ((fun x => (x.1, x.2.2)) <$> handed tr) =
    of_runner r (finished tr) ++ running (rn_state rn) ++ proves (rn_chan rn).
Proof. exact (@c39_fifo_per_runner p w q es s tr r rn). Qed.
Print Assumptions C39_fifo_per_runner.

Example C39_witness :
  exists s tr, q_run Release (q_start 1 9) [QeAdd "a"; QeManager; QeAdd "b"; QeManager; QeAdd "a"; QeManager;
      QeAdd "a"; QeManager; QeAdd "a"; QeManager] = Some (s, tr) /\
    of_ip "a" (accepted tr) = [0; 2; 3; 4]%nat /\ of_ip "a" (snd <$> handed tr) = [0; 2; 3]%nat /\
    queue_of s "a" = [4]%nat.
Proof. eexists _, _. split; [vm_compute; reflexivity|]. by vm_compute. Qed.

(** C40 *)
Theorem C40_manager_alive p w q es s tr :
  no_job_panics es -> q_run p (q_start w q) es = Some (s, tr) ->
  qs_mgr s <> MPanicked /\ qs_mgr s <> MAborted /\ (qs_dropped s = false -> qs_mgr s = MAlive).
Proof. exact (@c40_manager_alive p w q es s tr). Qed.
Print Assumptions C40_manager_alive.

(** The dispatcher is never stuck while a message waits and it has not begun to
    shut down. *)
Theorem C40_manager_progress p w q es s tr m rest :
  no_job_panics es -> q_run p (q_start w q) es = Some (s, tr) ->
  qs_mgr s = MAlive -> qs_inbox s = m :: rest ->
  exists s' o, q_step p s QeManager = Some (s', o) /\ qs_inbox s' = rest /\
    forall j ip, m = ImSchedule j ip -> exists r, QAnswer j ip r ∈ o.
Proof. exact (@c40_manager_progress p w q es s tr m rest). Qed.
Print Assumptions C40_manager_progress.

Example C40_witness :
  (exists s tr, q_run Debug (q_start 0 0) [QeAdd "a"; QeManager; QeAdd "a"; QeManager] = Some (s, tr) /\
     qs_mgr s = MAlive /\ rejected tr = [0; 1]%nat) /\
  (exists s tr, q_run Debug (q_start 0 5) [QeAdd "a"; QeManager; QeAdd "a"; QeManager] = Some (s, tr) /\
     qs_mgr s = MAlive /\ queue_of s "a" = [0; 1]%nat).
Proof. split; eexists _, _; (split; [vm_compute; reflexivity|]); by vm_compute. Qed.

(** C41 *)
Theorem C41_queue_full p w q es s tr s' o j ip r :
  no_job_panics es -> q_run p (q_start w q) es = Some (s, tr) ->
  q_step p s QeManager = Some (s', o) -> QAnswer j ip r ∈ o ->
  (r = Err QueueFull <-> N.of_nat (distinct_ips tr) = q) /\ (r = Ok tt <-> N.of_nat (distinct_ips tr) <> q).
Proof. exact (@c41_queue_full p w q es s tr s' o j ip r). Qed.
Print Assumptions C41_queue_full.

Theorem C41_bounded p w q es s tr :
  no_job_panics es -> q_run p (q_start w q) es = Some (s, tr) ->
  N.of_nat (distinct_ips tr) <= q /\ N.of_nat (size (im_queues (qs_im s))) <= q.
Proof. exact (@c41_bounded p w q es s tr). Qed.
Print Assumptions C41_bounded.

Example C41_witness :
  exists s tr, q_run Debug (q_start 1 2) [QeAdd "a"; QeManager; QeAdd "a"; QeManager; QeAdd "b"; QeManager;
     QeAdd "c"; QeManager; QeAdd "a"; QeManager] = Some (s, tr) /\
    omap (fun o => match o with QAnswer j _ r => Some (j, r) | _ => None end) tr =
    [(0%nat, Ok tt); (1%nat, Ok tt); (2%nat, Ok tt); (3%nat, Err QueueFull); (4%nat, Err QueueFull)].
Proof. eexists _, _. split; [vm_compute; reflexivity|]. by vm_compute. Qed.

(** C42: once full, full in every continuation, whatever work completes. *)
Theorem C42_full_forever_refuted p w q es s tr es' s' tr' :
  no_job_panics es -> q_run p (q_start w q) es = Some (s, tr) ->
  N.of_nat (distinct_ips tr) = q ->
  no_job_panics es' -> q_run p s es' = Some (s', tr') ->
  forall j ip r, QAnswer j ip r ∈ tr' -> r = Err QueueFull.
Proof. exact (@c42_full_forever_refuted p w q es s tr es' s' tr'). Qed.
Print Assumptions C42_full_forever_refuted.

(** Two IPs fill a queue of length two; everything has been processed and the
    queue is idle, and still every later request is refused. *)
Example C42_witness :
  exists s tr s' tr', q_run Debug (q_start 2 2) [QeAdd "a"; QeManager; QeAdd "b"; QeManager; QeRecv 0;
     QeFinish 0; QeRecv 0; QeFinish 0; QeManager; QeManager] = Some (s, tr) /\
    distinct_ips tr = 2%nat /\ quiescent s /\ waiting_in_queues s = [] /\ length (finished tr) = 2%nat /\
    q_run Debug s [QeAdd "a"; QeManager; QeAdd "c"; QeManager] = Some (s', tr') /\
    rejected tr' = [2; 3]%nat.
Proof.
  do 4 eexists. split; [vm_compute; reflexivity|]. split; [by vm_compute|].
  split. { split; [done|]. by repeat constructor. }
  split; [by vm_compute|]. split; [done|]. split; [vm_compute; reflexivity|]. done.
Qed.

(** C43 *)
Theorem C43_fair p w q es s tr ip k j es' s' tr' :
  no_job_panics es -> q_run p (q_start w q) es = Some (s, tr) ->
  queue_of s ip !! k = Some j ->
  no_job_panics es' -> q_run p s es' = Some (s', tr') ->
  N.of_nat (S k) * q <= N.of_nat (length (tries tr')) ->
  exists r, QHand r ip j ∈ tr'.
Proof. exact (@c43_fair p w q es s tr ip k j es' s' tr'). Qed.
Print Assumptions C43_fair.

(** The attempts: one for every runner at every accepted call, and one for
    every job finished. *)
Theorem C43_attempts p w q es s tr :
  no_job_panics es -> q_run p (q_start w q) es = Some (s, tr) -> qs_mgr s = MAlive ->
  (length (tries tr) + requests_pending s = w * length (accepted tr) + length (finished tr))%nat.
Proof. exact (@c43_attempts p w q es s tr). Qed.
Print Assumptions C43_attempts.

(** One runner, three IPs: job 7 of "a" waits and is handed out
    within the bound although other IPs keep adding work. *)
Example C43_witness :
  exists s tr s' tr', q_run Debug (q_start 1 3) [QeAdd "a"; QeManager; QeAdd "b"; QeManager;
     QeAdd "b"; QeManager; QeAdd "a"; QeManager; QeAdd "a"; QeManager; QeAdd "b"; QeManager; QeAdd "b"; QeManager;
     QeAdd "a"; QeManager] = Some (s, tr) /\
    queue_of s "a" = [7]%nat /\
    q_run Debug s [QeAdd "b"; QeManager; QeAdd "b"; QeManager; QeAdd "b"; QeManager] = Some (s', tr') /\
    length (tries tr') = 3%nat /\ QHand 0 "a" 7%nat ∈ tr'.
Proof.
  do 4 eexists. split; [vm_compute; reflexivity|]. split; [by vm_compute|].
  split; [vm_compute; reflexivity|]. split; [done|].
  repeat (apply elem_of_cons; first [left; reflexivity|right]).
Qed.

(** C44: for every number of runners (and any longer queue) some execution
    without panics ends with every channel empty, every runner idle and an
    accepted job waiting; there only a client can make anything happen. *)
Theorem C44_stranded_refuted p w q :
  N.of_nat w + 1 < q ->
  exists es s tr j, no_job_panics es /\ q_run p (q_start w q) es = Some (s, tr) /\
    quiescent s /\ qs_mgr s = MAlive /\
    j ∈ (snd <$> accepted tr) /\ j ∈ waiting_in_queues s /\ j ∉ (snd <$> started tr) /\
    (forall e, (forall ip, e <> QeAdd ip) -> e <> QeDrop -> q_step p s e = None).
Proof. exact (@c44_stranded_refuted p w q). Qed.
Print Assumptions C44_stranded_refuted.

(** One runner: A, then B (all done), then B again: the last job is stranded. *)
Example C44_witness :
  exists s tr, q_run Debug (q_start 1 10) [QeAdd "A"; QeManager; QeAdd "B"; QeManager; QeRecv 0; QeFinish 0;
     QeRecv 0; QeFinish 0; QeManager; QeManager; QeAdd "B"; QeManager] = Some (s, tr) /\
    quiescent s /\ accepted tr = [("A", 0); ("B", 1); ("B", 2)]%nat /\ queue_of s "B" = [2]%nat.
Proof.
  eexists _, _. split; [vm_compute; reflexivity|]. split; [|done]. split; [done|]. by repeat constructor.
Qed.

(** C45 *)
Theorem C45_enough_runners p w q es s tr :
  no_job_panics es -> q_run p (q_start w q) es = Some (s, tr) ->
  (distinct_ips tr <= w)%nat ->
  waiting_in_queues s = [] /\ (snd <$> accepted tr) ≡ₚ ((fun x => x.2.2) <$> handed tr).
Proof. exact (@c45_enough_runners p w q es s tr). Qed.
Print Assumptions C45_enough_runners.

(** Two runners and two IPs: a third job of an IP is handed out at once, to a
    runner that is still busy. *)
Example C45_witness :
  exists s tr, q_run Debug (q_start 2 5) [QeAdd "a"; QeManager; QeRecv 0; QeAdd "b"; QeManager; QeAdd "a"; QeManager;
     QeAdd "a"; QeManager] = Some (s, tr) /\
    distinct_ips tr = 2%nat /\ length (accepted tr) = 4%nat /\ length (handed tr) = 4%nat.
Proof. eexists _, _. split; [vm_compute; reflexivity|]. by vm_compute. Qed.

(** C46 *)
(** A runner that has returned has finished everything handed to it. *)
Theorem C46_exited_finished p w q es s tr r rn :
  no_job_panics es -> q_run p (q_start w q) es = Some (s, tr) ->
  im_runners (qs_im s) !! r = Some rn -> rn_state rn = RExited ->
  of_runner r ((fun x => (x.1, x.2.2)) <$> handed tr) = of_runner r (finished tr).
Proof. exact (@c46_exited_finished p w q es s tr r rn). Qed.
Print Assumptions C46_exited_finished.

(** From the stop message on nothing is handed out or answered; every call made
    before the drop has been answered; waiting jobs are never started. *)
Theorem C46_nothing_after_stop p w q es s tr es' s' tr' :
  no_job_panics es -> q_run p (q_start w q) es = Some (s, tr) -> qs_mgr s <> MAlive ->
  no_job_panics es' -> q_run p s es' = Some (s', tr') ->
  handed tr' = [] /\ answered tr' = [] /\ answered tr = seq 0 (qs_next s) /\
  (forall j, j ∈ waiting_in_queues s -> j ∉ (snd <$> started (tr ++ tr'))).
Proof. exact (@c46_nothing_after_stop p w q es s tr es' s' tr'). Qed.
Print Assumptions C46_nothing_after_stop.

(** Shutting down takes a bounded number of steps and never gets stuck before
    every runner has been joined. *)
Theorem C46_shutdown_completes p w q es s tr :
  no_job_panics es -> q_run p (q_start w q) es = Some (s, tr) -> qs_mgr s = MDraining ->
  (exists n, forall es' s' tr', no_job_panics es' -> q_run p s es' = Some (s', tr') -> (length es' <= n)%nat) /\
  (forall es' s' tr', no_job_panics es' -> q_run p s es' = Some (s', tr') ->
     qs_mgr s' = MDone \/ exists e s'' o, (forall r, e <> QePanic r) /\ q_step p s' e = Some (s'', o)).
Proof. exact (@c46_shutdown_completes p w q es s tr). Qed.
Print Assumptions C46_shutdown_completes.

Example C46_witness :
  exists s tr, q_run Debug (q_start 1 5) [QeAdd "a"; QeManager; QeAdd "b"; QeManager; QeAdd "b"; QeManager;
      QeDrop; QeManager; QeRecv 0; QeFinish 0; QeRecv 0; QeFinish 0; QeRecv 0; QeJoin] = Some (s, tr) /\
    qs_mgr s = MDone /\ finished tr = [(0, 0); (0, 1)]%nat /\ waiting_in_queues s = [2]%nat.
Proof. eexists _, _. split; [vm_compute; reflexivity|]. by vm_compute. Qed.

(** C64: a job that panics kills its runner; the dispatcher's next job for that
    runner aborts the whole process. *)
Theorem C64_job_panic_refuted p q ip :
  1 < q ->
  exists s tr, q_run p (q_start 1 q)
      [QeAdd ip; QeManager; QeRecv 0; QePanic 0; QeAdd ip; QeManager] = Some (s, tr) /\
    qs_mgr s = MAborted /\ (forall e, q_step p s e = None).
Proof. exact (@c64_job_panic_refuted p q ip). Qed.
Print Assumptions C64_job_panic_refuted.

Example C64_witness :
  exists s tr, q_run Release (q_start 2 10) [QeAdd "a"; QeManager; QeRecv 0; QePanic 0; QeAdd "b"; QeAdd "a";
     QeManager] = Some (s, tr) /\ qs_mgr s = MAborted.
Proof. eexists _, _. split; [vm_compute; reflexivity|]. done. Qed.
