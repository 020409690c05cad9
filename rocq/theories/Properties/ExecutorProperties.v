(** Properties C77 to C79: System calls that share an executor thread. *)
From Coq Require Import ZifyBool ZifyN ZifyNat Lia.
From Verif Require Import Model.Base Model.Defense Model.MCaptcha Model.Counter Model.Master
  Model.HashCache Model.Queue Model.Pow Model.System
  Spec.CacheSpec Spec.QueueSpec Spec.MasterSpec Spec.SystemSpec Spec.ExecutorSpec
  Proofs.CacheProofs Proofs.QueueProofs Proofs.MasterProofs Proofs.MasterTasks Proofs.SystemProofs
  Proofs.SystemHistory Proofs.SystemLiveness Proofs.SystemProgress Proofs.ExecutorProofs
  Properties.QueueProperties Properties.SystemProperties Properties.SystemLiveProperties.
From Verif Require Export Proofs.ExecutorTheorems.

(** ** C77 *)
(** Whenever, on a process with a single executor thread, the queue has come to
    rest with the job of a spinning client still waiting, nothing more happens,
    ever: no call returns, none is taken up, and no client can act. *)
Theorem C77_thread_lost_refuted th p l t gc wk ql es s tr n w c j :
  s_run p l (sys_start t gc wk ql) es = Some (s, tr) -> ~ check_panicked tr ->
  quiescent (sy_q s) -> sy_clients s !! n = Some (VpPoll w c j) -> j ∈ waiting_in_queues (sy_q s) ->
  (forall m, th_client th m = th_client th n) ->
  forall es2 s2 tr2, s_run p l s es2 = Some (s2, tr2) -> permitted_run th p l s es2 ->
    (forall m r, ~ returned tr2 m r) /\ (forall m x, ~ called tr2 m x) /\
    (forall m rnd, permitted th s2 (SeAct m rnd) -> s_step p l s2 (SeAct m rnd) = None) /\
    (forall x, ~ permitted th s2 (SeCall x)) /\ (forall m, ~ permitted th s2 (SeCancel m)).
Proof. exact (@c77_thread_lost_refuted th p l t gc wk ql es s tr n w c j). Qed.
Print Assumptions C77_thread_lost_refuted.

(** Three honest visitors, one after the other, from addresses A, B and A, are
    enough with one runner: the first two get their tokens; the third, with good
    work for a challenge of its own, hangs the only thread for good. *)
Theorem C77_three_visits_refuted p :
  exists s tr,
    s_run p ex_lib (sys_start 0 60 1 10) ex_three = Some (s, tr) /\
    permitted_run one_thread p ex_lib (sys_start 0 60 1 10) ex_three /\
    returned tr 1 (RVerifyPow (Ok ("tx"%string, 50))) /\ returned tr 3 (RVerifyPow (Ok ("ty"%string, 50))) /\
    returned tr 4 (RGetPow (Ok (Some (PoWConfig "z" 70 "salt")))) /\
    called tr 5 (CVerifyPow (ex_work "z" "site" 80) "A") /\
    sufficient ex_lib (ex_work "z" "site" 80) 70 true /\ valid ex_lib (ex_work "z" "site" 80) true /\
    forall es2 s2 tr2, s_run p ex_lib s es2 = Some (s2, tr2) -> permitted_run one_thread p ex_lib s es2 ->
      (forall m r, ~ returned tr2 m r) /\ (forall m x, ~ called tr2 m x) /\
      (forall m rnd, permitted one_thread s2 (SeAct m rnd) -> s_step p ex_lib s2 (SeAct m rnd) = None) /\
      (forall x, ~ permitted one_thread s2 (SeCall x)) /\ (forall m, ~ permitted one_thread s2 (SeCancel m)).
Proof. exact (@c77_three_visits_refuted p). Qed.
Print Assumptions C77_three_visits_refuted.

(** Nor do more runners help when there are more addresses: four runners, five
    addresses. *)
Fixpoint ex_visits (n k : nat) (xs : list (string * string * nat)) : list sevent :=
  match xs with
  | [] => []
  | (x, ip, r) :: rest =>
      ex_get n k x ++ ex_submit (n + 1) x ip ++
      [SeManager; SeRecv r; SeAct (n + 1) ""; SeSend r; SeEnd r; SeManager;
       SeAct (n + 1) ("t" ++ x)%string; SeAct (n + 1) ""; SeAct (n + 1) ""] ++ ex_visits (n + 2) (k + 1) rest
  end.

Definition ex_six : list sevent :=
  ex_register ++
  ex_visits 0 1 [("a", "A", 0%nat); ("b", "B", 0%nat); ("c", "C", 0%nat); ("d", "D", 2%nat); ("e", "E", 2%nat)]%string ++
  ex_get 10 6 "f" ++ ex_submit 11 "f" "B" ++ [SeManager; SeAct 11 ""].

Example C77_witness : forall p, exists s tr,
  s_run p ex_lib (sys_start 0 60 4 10) ex_six = Some (s, tr) /\
  permitted_run one_thread p ex_lib (sys_start 0 60 4 10) ex_six /\ ~ check_panicked tr /\
  quiescent (sy_q s) /\ waiting_in_queues (sy_q s) = [5%nat] /\
  sy_clients s !! 11%nat = Some (VpPoll (ex_work "f" "site" 80) (CachedPoWConfig "site" 70 30) 5) /\
  sufficient ex_lib (ex_work "f" "site" 80) 70 true /\ valid ex_lib (ex_work "f" "site" 80) true.
Proof.
  intros p. eexists _, _. split; [by destruct p; vm_compute|].
  split; [apply permits_run_sound; by destruct p; vm_compute|].
  split; [intros [r Hr]; unfold qtrace in Hr; cbn in Hr; set_solver|].
  split; [by destruct p; (split; [|repeat constructor])|]. by destruct p; vm_compute.
Qed.

(** ** C78 *)
(** Client [m] spins on a thread, its job not yet started; every runner is held
    up by work of another client of that thread that fails both checks. From
    then on no proof submitted to this System by anybody is ever looked at, and
    no call on that thread returns or is taken up. *)
Theorem C78_garbage_stops_everything_refuted th p l t gc wk ql es s tr m w c j :
  s_run p l (sys_start t gc wk ql) es = Some (s, tr) -> ~ check_panicked tr ->
  sy_clients s !! m = Some (VpPoll w c j) -> (forall r, QStart r j ∉ qouts tr) ->
  (forall r, (r < length (im_runners (qs_im (sy_q s))))%nat ->
     exists n w' c' j', th_client th n = th_client th m /\ n <> m /\
       sy_clients s !! n = Some (VpAnswer w' c' j') /\ running_job (sy_q s) r = Some j' /\
       sufficient l w' (cc_difficulty_factor c') false /\ valid l w' false /\ s_step p l s (SeSend r) = None) ->
  forall es2 s2 tr2, s_run p l s es2 = Some (s2, tr2) -> permitted_run th p l s es2 ->
    (forall r j', QStart r j' ∉ qouts tr2) /\
    (forall n r, th_client th n = th_client th m -> ~ returned tr2 n r) /\
    (forall n x, th_client th n = th_client th m -> ~ called tr2 n x) /\
    (forall rnd, s_step p l s2 (SeAct m rnd) = None).
Proof. exact (@c78_garbage_stops_everything_refuted th p l t gc wk ql es s tr m w c j). Qed.
Print Assumptions C78_garbage_stops_everything_refuted.

(** One runner, one thread, everything handled in the order it was sent. Clients
    1 and 3 are served; client 6 (good work, address A) and then client 7
    (garbage, address C) submit; it is C's turn; the runner gets stuck on the
    garbage while client 6 spins. *)
Definition ex_garbage : work := Work "u" "bad" 7 "site".

Definition ex_seized : list sevent :=
  ex_register ++ ex_get 0 1 "x" ++ ex_served 1 "x" "A" ++ ex_get 2 2 "y" ++ ex_served 3 "y" "B" ++
  ex_get 4 3 "z" ++ ex_get 5 4 "u" ++ ex_submit 6 "z" "A" ++
  [SeCall (CVerifyPow ex_garbage "C"); SeAct 7 ""; SeAct 7 "";
   SeManager; SeManager; SeRecv 0; SeSend 0; SeSend 0; SeAct 6 ""].

Example C78_witness : forall p, exists s tr,
  s_run p ex_lib (sys_start 0 60 1 10) ex_seized = Some (s, tr) /\
  permitted_run one_thread p ex_lib (sys_start 0 60 1 10) ex_seized /\ ~ check_panicked tr /\
  sy_clients s !! 6%nat = Some (VpPoll (ex_work "z" "site" 80) (CachedPoWConfig "site" 70 30) 2) /\
  sufficient ex_lib (ex_work "z" "site" 80) 70 true /\ valid ex_lib (ex_work "z" "site" 80) true /\
  (forall r, QStart r 2 ∉ qouts tr) /\ length (im_runners (qs_im (sy_q s))) = 1%nat /\
  sy_clients s !! 7%nat = Some (VpAnswer ex_garbage (CachedPoWConfig "site" 50 30) 3) /\
  running_job (sy_q s) 0 = Some 3%nat /\
  sufficient ex_lib ex_garbage 50 false /\ valid ex_lib ex_garbage false /\
  s_step p ex_lib s (SeSend 0) = None.
Proof.
  intros p. eexists _, _. split; [by destruct p; vm_compute|].
  split; [apply permits_run_sound; by destruct p; vm_compute|].
  split; [intros [r Hr]; unfold qtrace in Hr; cbn in Hr; set_solver|].
  split; [by destruct p; vm_compute|]. split; [done|]. split; [done|].
  split; [intros r Hr; unfold qouts in Hr; cbn in Hr; set_solver|]. by destruct p; vm_compute.
Qed.

(** ** C79 *)
(** Whatever the assignment of calls to threads: as long as there are at least as
    many runners as addresses whose work was accepted, no check panics and every
    submitted work passes at least one check, a client that occupies its thread
    can leave the loop by itself, needing only steps of one runner. *)
Theorem C79_thread_released th p l t gc wk ql es s tr n rnd :
  s_run p l (sys_start t gc wk ql) es = Some (s, tr) -> permitted_run th p l (sys_start t gc wk ql) es ->
  ~ check_panicked tr -> all_decent l tr -> (distinct_ips (qouts tr) <= wk)%nat ->
  spinning s n ->
  exists r es2 s2 tr2,
    s_run p l s (es2 ++ [SeAct n rnd]) = Some (s2, tr2) /\ permitted_run th p l s (es2 ++ [SeAct n rnd]) /\
    Forall (fun e => e = SeRecv r \/ e = SeSend r \/ e = SeEnd r) es2 /\
    ~ spinning s2 n.
Proof. exact (@c79_thread_released th p l t gc wk ql es s tr n rnd). Qed.
Print Assumptions C79_thread_released.

(** One runner, one thread, two submissions from the same address; the client
    whose job is second in the runner's channel is the one that spins. *)
Definition ex_behind : list sevent :=
  ex_register ++ ex_get 0 1 "x" ++ ex_get 1 2 "y" ++ ex_submit 2 "x" "A" ++ ex_submit 3 "y" "A" ++
  [SeManager; SeManager; SeAct 3 ""].

Example C79_witness : forall p, exists s tr,
  s_run p ex_lib (sys_start 0 60 1 10) ex_behind = Some (s, tr) /\
  permitted_run one_thread p ex_lib (sys_start 0 60 1 10) ex_behind /\ ~ check_panicked tr /\ all_decent ex_lib tr /\
  distinct_ips (qouts tr) = 1%nat /\ spinning s 3 /\
  im_runners (qs_im (sy_q s)) = [Runner [RmProve 0%nat; RmProve 1%nat] RIdle] /\
  exists s2 tr2, s_run p ex_lib s ([SeRecv 0; SeSend 0; SeEnd 0; SeRecv 0; SeSend 0] ++ [SeAct 3 ""]) = Some (s2, tr2) /\
    ~ spinning s2 3.
Proof.
  intros p. eexists _, _. split; [by destruct p; vm_compute|].
  split; [apply permits_run_sound; by destruct p; vm_compute|].
  split; [intros [r Hr]; unfold qtrace in Hr; cbn in Hr; set_solver|].
  split.
  { intros n w ip H. unfold called in H. cbn in H. repeat (apply elem_of_cons in H as [H|H]; [try discriminate|]);
      try (by apply elem_of_nil in H); injection H as -> -> ->; intros d;
      (eexists _, true; split; [reflexivity|]; split; [reflexivity|apply orb_true_r]). }
  split; [by destruct p; vm_compute|]. split; [eexists _, _, _; by destruct p; vm_compute|].
  split; [by destruct p; vm_compute|]. eexists _, _. split; [by destruct p; vm_compute|].
  intros (w & c & j & H). by destruct p; vm_compute in H.
Qed.
