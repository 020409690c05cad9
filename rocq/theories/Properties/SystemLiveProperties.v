(** Properties C48, C54 and C56: progress of clients and runners. *)
From Coq Require Import ZifyBool ZifyN ZifyNat Lia.
From Verif Require Import Model.Base Model.Defense Model.MCaptcha Model.Counter Model.Master
  Model.HashCache Model.Queue Model.Pow Model.System
  Spec.CacheSpec Spec.QueueSpec Spec.MasterSpec Spec.SystemSpec
  Proofs.CacheProofs Proofs.QueueProofs Proofs.MasterProofs Proofs.MasterTasks Proofs.SystemProofs
  Proofs.SystemHistory Proofs.SystemLiveness Proofs.QueueIdle Proofs.SystemProgress
  Properties.CacheProperties Properties.QueueProperties Properties.SystemProperties.
From Verif Require Export Proofs.SystemLiveTheorems.

(** ** C48 *)
(** Work that fails both checks: after at most two more sends its runner can do
    nothing until the client acts or goes away, whatever else happens. *)
Theorem C48_blocks_refuted p l t gc wk ql es s tr r n w c j :
  s_run p l (sys_start t gc wk ql) es = Some (s, tr) -> qs_mgr (sy_q s) <> MAborted ->
  sy_clients s !! n = Some (VpAnswer w c j) \/ sy_clients s !! n = Some (VpPoll w c j) ->
  running_job (sy_q s) r = Some j ->
  sufficient l w (cc_difficulty_factor c) false -> valid l w false ->
  exists k s1, (k <= 2)%nat /\ s_run p l s (replicate k (SeSend r)) = Some (s1, []) /\
    forall es2 s2 tr2, s_run p l s1 es2 = Some (s2, tr2) ->
      SeCancel n ∉ es2 -> (forall rnd, SeAct n rnd ∉ es2) ->
      running_job (sy_q s2) r = Some j /\
      s_step p l s2 (SeSend r) = None /\ s_step p l s2 (SeEnd r) = None /\ s_step p l s2 (SeRecv r) = None /\
      forall j', QStart r j' ∉ qouts tr2 /\ QFinish r j' ∉ qouts tr2.
Proof. exact (@c48_blocks_refuted p l t gc wk ql es s tr r n w c j). Qed.
Print Assumptions C48_blocks_refuted.

(** One runner. Client 1's work for challenge "x" is neither sufficient nor
    valid; while client 1 does not look at the verdict, client 2's good work for
    challenge "y" is accepted by the queue and handed to the runner but does not start. *)
Definition ex_two_issued : list sevent :=
  ex_issue ++ [SeCall (CGetPow "site"); SeAct 1 ""; SeMaster (MeTask 2); SeAct 1 "y"; SeAct 1 ""; SeAct 1 ""].

Definition ex_bad : work := Work "x" "bad" 7 "site".

Definition ex_block : list sevent :=
  ex_two_issued ++
  [SeCall (CVerifyPow ex_bad "ip"); SeAct 2 ""; SeAct 2 ""; SeManager; SeRecv 0; SeSend 0; SeSend 0;
   SeCall (CVerifyPow (ex_work "y" "site" 60) "ip"); SeAct 3 ""; SeAct 3 ""; SeManager; SeAct 3 ""].

Example C48_witness : forall p, exists s tr,
  s_run p ex_lib ex_start ex_block = Some (s, tr) /\ qs_mgr (sy_q s) = MAlive /\
  sy_clients s !! 2%nat = Some (VpAnswer ex_bad (CachedPoWConfig "site" 50 30) 0) /\
  running_job (sy_q s) 0 = Some 0%nat /\
  sufficient ex_lib ex_bad 50 false /\ valid ex_lib ex_bad false /\
  sy_clients s !! 3%nat = Some (VpPoll (ex_work "y" "site" 60) (CachedPoWConfig "site" 50 30) 1) /\
  s_step p ex_lib s (SeSend 0) = None /\ s_step p ex_lib s (SeEnd 0) = None /\ s_step p ex_lib s (SeRecv 0) = None /\
  s_step p ex_lib s SeManager = None /\ s_step p ex_lib s (SeAct 3 "") = None.
Proof. intros p. eexists _, _. split; [by destruct p; vm_compute|]. destruct p; by vm_compute. Qed.

(** The converse: nothing but work that fails both checks, whose sender is still
    there, holds up a runner. The witness above satisfies the hypotheses with
    runner 0. *)
Theorem C48_only_worthless p l t gc wk ql es s tr r j :
  s_run p l (sys_start t gc wk ql) es = Some (s, tr) -> ~ check_panicked tr ->
  running_job (sy_q s) r = Some j -> s_step p l s (SeSend r) = None -> s_step p l s (SeEnd r) = None ->
  exists n w c, (sy_clients s !! n = Some (VpAnswer w c j) \/ sy_clients s !! n = Some (VpPoll w c j)) /\
    sufficient l w (cc_difficulty_factor c) false /\ valid l w false.
Proof. exact (@c48_only_worthless p l t gc wk ql es s tr r j). Qed.
Print Assumptions C48_only_worthless.

(** ** C54 *)
(** Unless a check panics or the call is cancelled, honest work for a challenge
    found with the right key is answered with a token or with QueueFull. *)
Theorem C54_answer p l t gc wk ql es s tr n w ip c r :
  s_run p l (sys_start t gc wk ql) es = Some (s, tr) -> ~ check_panicked tr ->
  called tr n (CVerifyPow w ip) ->
  SoCache (Some n) (HeMsg (HmRetrivePoW (VerifyCaptchaResult (w_string w) (w_key w)))) (Some (HrPoW (Ok (Some c)))) ∈ tr ->
  cc_key c = w_key w -> sufficient l w (cc_difficulty_factor c) true -> valid l w true ->
  returned tr n r ->
  (exists tok, r = RVerifyPow (Ok (tok, cc_difficulty_factor c))) \/ r = RVerifyPow (Err QueueFull).
Proof. exact (@c54_answer p l t gc wk ql es s tr n w ip c r). Qed.
Print Assumptions C54_answer.

(** Once its job has been started, the client can always complete with a token,
    needing only sends of the runner and its own steps, whatever the rest of the
    system is doing. *)
Theorem C54_served p l t gc wk ql es s tr n w c j r tok :
  s_run p l (sys_start t gc wk ql) es = Some (s, tr) -> ~ check_panicked tr ->
  sy_clients s !! n = Some (VpAnswer w c j) \/ sy_clients s !! n = Some (VpPoll w c j) ->
  sufficient l w (cc_difficulty_factor c) true -> valid l w true ->
  QStart r j ∈ qouts tr ->
  exists es2 s2 tr2, s_run p l s es2 = Some (s2, tr2) /\
    returned tr2 n (RVerifyPow (Ok (tok, cc_difficulty_factor c))) /\
    Forall (fun e => (exists r', e = SeSend r') \/ (exists rnd, e = SeAct n rnd)) es2.
Proof. exact (@c54_served p l t gc wk ql es s tr n w c j r tok). Qed.
Print Assumptions C54_served.

(** From any state in which the queue is idle, has capacity and at least as many
    runners as clients' addresses, a verify_pow of honest work for a stored
    challenge of its site can be called and completes with any token the random
    generator draws. *)
Theorem C54_idle p l t gc wk ql es s tr w ip c key tok :
  s_run p l (sys_start t gc wk ql) es = Some (s, tr) -> ~ check_panicked tr ->
  quiescent (sy_q s) ->
  (length (remove_dups (ip :: (accepted (qouts tr)).*1)) <= wk)%nat ->
  N.of_nat (distinct_ips (qouts tr)) <> ql ->
  retrieves (CacheSys (s_now s) (sy_c s)) (w_string w) key (Some c) -> cc_key c = w_key w ->
  sufficient l w (cc_difficulty_factor c) true -> valid l w true ->
  exists es2 s2 tr2, s_run p l s (SeCall (CVerifyPow w ip) :: es2) = Some (s2, tr2) /\
    returned tr2 (sy_next s) (RVerifyPow (Ok (tok, cc_difficulty_factor c))).
Proof. exact (@c54_idle p l t gc wk ql es s tr w ip c key tok). Qed.
Print Assumptions C54_idle.

(** The token a successful verify_pow returned validates for the submitted key,
    once, until the challenge's duration has passed since it was stored - provided
    it was drawn only once and nobody has asked about it. *)
Theorem C54_token p l t gc wk ql es s tr n w ip tok d tr1 m x tr2 :
  s_run p l (sys_start t gc wk ql) es = Some (s, tr) -> ~ check_panicked tr ->
  called tr n (CVerifyPow w ip) -> returned tr n (RVerifyPow (Ok (tok, d))) ->
  minters tok tr = [n] -> (forall n' m', called tr n' (CValidate m') -> vr_token m' <> tok) ->
  tr = tr1 ++ SoCache (Some n) (HeMsg (HmCacheResult m)) x :: tr2 ->
  s_now s < cache_clock t (ctrace tr1).*1 + cr_duration m * NS ->
  exists s' tr',
    s_run p l s [SeCall (CValidate (VerifyCaptchaResult tok (w_key w))); SeAct (sy_next s) ""; SeAct (sy_next s) ""]
      = Some (s', tr') /\
    returned tr' (sy_next s) (RValidate (Ok true)).
Proof. exact (@c54_token p l t gc wk ql es s tr n w ip tok d tr1 m x tr2). Qed.
Print Assumptions C54_token.

(** The witness run: client 1 submits good work in an idle system and gets token
    "tok", which validates 29.999999999 s later. *)
Example C54_witness : forall p, exists s tr s2 tr2,
  s_run p ex_lib ex_start ex_issue = Some (s, tr) /\ qtrace tr = [] /\ quiescent (sy_q s) /\
  (length (remove_dups ("ip"%string :: (accepted (qouts tr)).*1)) <= 1)%nat /\ distinct_ips (qouts tr) = 0%nat /\
  retrieves (CacheSys (s_now s) (sy_c s)) "x" "site" (Some (CachedPoWConfig "site" 50 30)) /\
  sufficient ex_lib (ex_work "x" "site" 60) 50 true /\ valid ex_lib (ex_work "x" "site" 60) true /\
  s_run p ex_lib s (ex_solve ++ [SeTick (30 * NS - 1)]) = Some (s2, tr2) /\
  returned tr2 1 (RVerifyPow (Ok ("tok"%string, 50))) /\
  minters "tok" (tr ++ tr2) = [1%nat] /\ s_now s2 = 30 * NS - 1.
Proof.
  intros p. eexists _, _, _, _. split; [by destruct p; vm_compute|]. split; [by destruct p; vm_compute|].
  split; [by destruct p; (split; [|repeat constructor])|]. split; [by vm_compute; lia|]. split; [done|].
  split; [eexists; by destruct p; vm_compute|]. split; [done|]. split; [done|].
  split; [by destruct p; vm_compute|]. split; [unfold returned; set_solver|]. by vm_compute.
Qed.

(** ** C56 *)
(** The mechanism: whenever the queue has come to rest with the job of a polling
    client still in its IP's queue, that client does not return, and cannot act,
    however the system continues, until somebody submits work. *)
Theorem C56_stuck_refuted p l t gc wk ql es s tr n w c j :
  s_run p l (sys_start t gc wk ql) es = Some (s, tr) -> ~ check_panicked tr ->
  quiescent (sy_q s) -> sy_clients s !! n = Some (VpPoll w c j) -> j ∈ waiting_in_queues (sy_q s) ->
  forall es2 s2 tr2, s_run p l s es2 = Some (s2, tr2) -> SeCancel n ∉ es2 ->
    (forall n' ip os, SoQueue n' (QeAdd ip) os ∉ tr2) ->
    (forall r, ~ returned tr2 n r) /\ (forall rnd, s_step p l s2 (SeAct n rnd) = None).
Proof. exact (@c56_stuck_refuted p l t gc wk ql es s tr n w c j). Qed.
Print Assumptions C56_stuck_refuted.

(** One runner, two addresses. Client 3 (address "A") and client 4 (address "B")
    are served; then client 5 (address "B" again) submits good work while it is
    A's turn: its job is accepted and nobody will ever take it. *)
Definition ex_three_issued : list sevent :=
  ex_two_issued ++
  [SeCall (CGetPow "site"); SeAct 2 ""; SeMaster (MeTask 3); SeAct 2 "z"; SeAct 2 ""; SeAct 2 ""].

Definition ex_strand : list sevent :=
  ex_three_issued ++
  [SeCall (CVerifyPow (ex_work "x" "site" 80) "A"); SeAct 3 ""; SeAct 3 ""; SeManager; SeRecv 0;
   SeCall (CVerifyPow (ex_work "y" "site" 80) "B"); SeAct 4 ""; SeAct 4 ""; SeManager; SeAct 4 "";
   SeAct 3 ""; SeSend 0; SeEnd 0; SeManager; SeAct 3 "t3"; SeAct 3 ""; SeAct 3 "";
   SeRecv 0; SeSend 0; SeEnd 0; SeManager; SeAct 4 "t4"; SeAct 4 ""; SeAct 4 "";
   SeCall (CVerifyPow (ex_work "z" "site" 80) "B"); SeAct 5 ""; SeAct 5 ""; SeManager; SeAct 5 ""].

Example C56_witness : forall p, exists s tr c,
  s_run p ex_lib ex_start ex_strand = Some (s, tr) /\ ~ check_panicked tr /\
  quiescent (sy_q s) /\ sy_clients s !! 5%nat = Some (VpPoll (ex_work "z" "site" 80) c 2) /\
  waiting_in_queues (sy_q s) = [2%nat] /\
  sufficient ex_lib (ex_work "z" "site" 80) (cc_difficulty_factor c) true /\ valid ex_lib (ex_work "z" "site" 80) true /\
  cc_key c = "site"%string.
Proof.
  intros p. eexists _, _, _. split; [by destruct p; vm_compute|]. split.
  { intros [r Hr]. unfold qtrace in Hr. cbn in Hr. set_solver. }
  split; [by destruct p; (split; [|repeat constructor])|]. split; [by destruct p; vm_compute|].
  by destruct p; vm_compute.
Qed.
