(** Property C103: what work on which the PoW library panics does to other
    clients of the System. *)
From Coq Require Import ZifyBool ZifyN ZifyNat Lia.
From Verif Require Import Model.Base Model.Defense Model.MCaptcha Model.Counter Model.Master
  Model.HashCache Model.Queue Model.Pow Model.System
  Spec.CacheSpec Spec.QueueSpec Spec.MasterSpec Spec.SystemSpec Spec.PanicSpec
  Proofs.CacheProofs Proofs.QueueProofs Proofs.QueuePanics Proofs.MasterProofs Proofs.SystemProofs Proofs.SystemLiveness
  Proofs.SystemPanics
  Properties.QueueProperties Properties.QueuePanicProperties Properties.SystemProperties.
From Verif Require Export Proofs.SystemPanicTheorems.

(** Once a check has panicked in runner [r], whatever happened before and
    since: if more than [r] IPs have had work accepted, and the queue has
    caught up and has room, then one more submission from one of these IPs, of
    any work for a challenge in the cache, good or bad, ends the process: no
    client gets any answer any more. *)
Theorem C103_abort_refuted p l t gc wk ql es s tr r :
  s_run p l (sys_start t gc wk ql) es = Some (s, tr) -> QePanic r ∈ qtrace tr ->
  qs_mgr (sy_q s) <> MAborted -> qs_inbox (sy_q s) = [] ->
  N.of_nat (distinct_ips (qouts tr)) < ql -> (r < distinct_ips (qouts tr))%nat ->
  exists ip, ip ∈ (fst <$> accepted (qouts tr)) /\ forall w c h rnd1 rnd2,
    hc_handle (s_now s) (sy_c s) (HmRetrivePoW (VerifyCaptchaResult (w_string w) (w_key w))) = (h, HrPoW (Ok (Some c))) ->
    w_key w = cc_key c ->
    exists s' tr',
      s_run p l s [SeCall (CVerifyPow w ip); SeAct (sy_next s) rnd1; SeAct (sy_next s) rnd2; SeManager] = Some (s', tr') /\
      forall e, s_step p l s' e = None.
Proof. exact (@c103_abort_refuted p l t gc wk ql es s tr r). Qed.
Print Assumptions C103_abort_refuted.

(** A client whose work was handed to that runner and had not started is told
    that its proof is insufficient, however good it is, and is never told
    anything else. *)
Theorem C103_rejected_refuted p l t gc wk ql es s tr r n w c ip j rnd :
  s_run p l (sys_start t gc wk ql) es = Some (s, tr) -> QePanic r ∈ qtrace tr ->
  qs_mgr (sy_q s) <> MAborted -> sy_clients s !! n = Some (VpPoll w c j) ->
  (r, (ip, j)) ∈ handed (qouts tr) -> j ∉ (snd <$> started (qouts tr)) ->
  (exists s', s_step p l s (SeAct n rnd) = Some (s', [SoRet n (RVerifyPow (Err InsuffiencientDifficulty))])) /\
  forall es2 s2 tr2 x, s_run p l s es2 = Some (s2, tr2) -> returned tr2 n x ->
    x = RVerifyPow (Err InsuffiencientDifficulty).
Proof. exact (@c103_rejected_refuted p l t gc wk ql es s tr r n w c ip j rnd). Qed.
Print Assumptions C103_rejected_refuted.

(** Nothing else does this: a process that has ended was ended by some client's
    work on which the library panics. *)
Theorem C103_only_cause p l t gc wk ql es s tr :
  s_run p l (sys_start t gc wk ql) es = Some (s, tr) -> (forall e, s_step p l s e = None) ->
  check_panicked tr /\ from_client l tr.
Proof. exact (@c103_only_cause p l t gc wk ql es s tr). Qed.
Print Assumptions C103_only_cause.

Theorem C103_panics_only_cause p l t gc wk ql es s tr :
  s_run p l (sys_start t gc wk ql) es = Some (s, tr) -> check_panicked tr -> from_client l tr.
Proof. exact (@c103_panics_only_cause p l t gc wk ql es s tr). Qed.
Print Assumptions C103_panics_only_cause.

(** A library that panics on a result that is not of the expected form. *)
Definition ex_fragile : pow_lib :=
  PowLib "salt" (fun w d => if String.eqb (pw_result w) "boom" then Panic else Val (d <=? pw_nonce w))
    (fun w x => Val (String.eqb (pw_result w) ("ok" ++ x))).

Definition ex_boom : work := Work "x" "boom" 7 "site".

(** One runner. Clients 0, 1 and 2 get challenges "x", "y" and "z"; client 3
    submits "boom" for "x" and client 4 good work for "y", which waits behind
    it; then client 3's check panics. *)
Definition ex_three_issued : list sevent :=
  ex_issue ++ [SeCall (CGetPow "site"); SeAct 1 ""; SeMaster (MeTask 2); SeAct 1 "y"; SeAct 1 ""; SeAct 1 "";
               SeCall (CGetPow "site"); SeAct 2 ""; SeMaster (MeTask 3); SeAct 2 "z"; SeAct 2 ""; SeAct 2 ""].

Definition ex_fatal : list sevent :=
  ex_three_issued ++
  [SeCall (CVerifyPow ex_boom "evil"); SeAct 3 ""; SeAct 3 ""; SeManager; SeRecv 0;
   SeCall (CVerifyPow (ex_work "y" "site" 60) "ip"); SeAct 4 ""; SeAct 4 ""; SeManager; SeAct 4 ""; SeEnd 0].

Example C103_witness : forall p, exists s tr s' tr' s'' tr'',
  s_run p ex_fragile ex_start ex_fatal = Some (s, tr) /\ QePanic 0 ∈ qtrace tr /\ qs_mgr (sy_q s) = MAlive /\
  qs_inbox (sy_q s) = [] /\ distinct_ips (qouts tr) = 2%nat /\
  sy_clients s !! 4%nat = Some (VpPoll (ex_work "y" "site" 60) (CachedPoWConfig "site" 50 30) 1) /\
  (0%nat, ("ip", 1%nat)) ∈ handed (qouts tr) /\ started (qouts tr) = [(0, 0)]%nat /\
  sufficient ex_fragile (ex_work "y" "site" 60) 50 true /\ valid ex_fragile (ex_work "y" "site" 60) true /\
  s_run p ex_fragile s [SeAct 4 ""] = Some (s', tr') /\
  tr' = [SoRet 4 (RVerifyPow (Err InsuffiencientDifficulty))] /\
  s_run p ex_fragile s'
    [SeCall (CVerifyPow (ex_work "z" "site" 60) "evil"); SeAct 5 ""; SeAct 5 ""; SeManager] = Some (s'', tr'') /\
  qs_mgr (sy_q s'') = MAborted.
Proof.
  intros p. eexists _, _, _, _, _, _. split; [by destruct p; vm_compute|]. split; [apply elem_of_list_In; destruct p; vm_compute; tauto|].
  do 4 (split; [by destruct p; vm_compute|]). split; [apply elem_of_list_In; destruct p; vm_compute; tauto|].
  do 3 (split; [by destruct p; vm_compute|]). split; [by destruct p; vm_compute|].
  split; [by destruct p; vm_compute|]. split; [by destruct p; vm_compute|]. by destruct p; vm_compute.
Qed.
