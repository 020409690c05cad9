(** Proofs of the theorems of Properties/SystemPanicProperties.v. *)
From Coq Require Import ZifyBool ZifyN ZifyNat Lia.
From Verif Require Import Model.Base Model.Defense Model.MCaptcha Model.Counter Model.Master
  Model.HashCache Model.Queue Model.Pow Model.System
  Spec.CacheSpec Spec.QueueSpec Spec.MasterSpec Spec.SystemSpec Spec.PanicSpec
  Proofs.CacheProofs Proofs.QueueProofs Proofs.QueuePanics Proofs.MasterProofs Proofs.SystemProofs Proofs.SystemLiveness
  Proofs.SystemPanics
  Proofs.QueueTheorems Proofs.QueuePanicTheorems Proofs.SystemTheorems.

Lemma c103_abort_refuted p l t gc wk ql es s tr r :
  s_run p l (sys_start t gc wk ql) es = Some (s, tr) -> QePanic r ∈ qtrace tr ->
  qs_mgr (sy_q s) <> MAborted -> qs_inbox (sy_q s) = [] ->
  N.of_nat (distinct_ips (qouts tr)) < ql -> (r < distinct_ips (qouts tr))%nat ->
  exists ip, ip ∈ (fst <$> accepted (qouts tr)) /\ forall w c h rnd1 rnd2,
    hc_handle (s_now s) (sy_c s) (HmRetrivePoW (VerifyCaptchaResult (w_string w) (w_key w))) = (h, HrPoW (Ok (Some c))) ->
    w_key w = cc_key c ->
    exists s' tr',
      s_run p l s [SeCall (CVerifyPow w ip); SeAct (sy_next s) rnd1; SeAct (sy_next s) rnd2; SeManager] = Some (s', tr') /\
      forall e, s_step p l s' e = None.
Proof.
  intros Hr Hp Hna Hin Hlt Hrq. pose proof (sys_mgr _ _ _ _ _ _ _ _ _ Hr Hna) as Ha.
  pose proof (run_sinv _ _ _ _ _ _ _ _ _ Hr) as Hi.
  destruct (c64_next_job_refuted p wk ql _ _ _ r (si_q _ _ _ _ _ _ Hi) Hp Ha (si_drop _ _ _ _ _ _ Hi) Hin Hlt Hrq)
    as (ip & q' & Hip & Hrun & Hab & _).
  exists ip. split; [done|]. intros w c h rnd1 rnd2 Hh Hk. by eapply call_aborts.
Qed.

Lemma c103_rejected_refuted p l t gc wk ql es s tr r n w c ip j rnd :
  s_run p l (sys_start t gc wk ql) es = Some (s, tr) -> QePanic r ∈ qtrace tr ->
  qs_mgr (sy_q s) <> MAborted -> sy_clients s !! n = Some (VpPoll w c j) ->
  (r, (ip, j)) ∈ handed (qouts tr) -> j ∉ (snd <$> started (qouts tr)) ->
  (exists s', s_step p l s (SeAct n rnd) = Some (s', [SoRet n (RVerifyPow (Err InsuffiencientDifficulty))])) /\
  forall es2 s2 tr2 x, s_run p l s es2 = Some (s2, tr2) -> returned tr2 n x ->
    x = RVerifyPow (Err InsuffiencientDifficulty).
Proof.
  intros Hr Hp Hna Hc Hh Hn. assert (orphan tr s n w c j) as Hor by (split; [done|]; split; eauto). split.
  - eexists. by eapply orphan_answer.
  - intros es2 s2 tr2 x H2 Hx. by eapply orphan_run.
Qed.

Lemma c103_only_cause p l t gc wk ql es s tr :
  s_run p l (sys_start t gc wk ql) es = Some (s, tr) -> (forall e, s_step p l s e = None) ->
  check_panicked tr /\ from_client l tr.
Proof.
  intros Hr Hst. pose proof (run_sinv _ _ _ _ _ _ _ _ _ Hr) as Hi.
  assert (qs_mgr (sy_q s) = MAborted) as Ha.
  { specialize (Hst (SeCall (CGetPow ""))). unfold s_step in Hst. by destruct (qs_mgr (sy_q s)). }
  assert (check_panicked tr) as Hp.
  { eapply (c64_only_cause p wk ql); [exact (si_q _ _ _ _ _ _ Hi)|]. by left. }
  split; [done|]. by apply (jobs_from _ _ _ _ _ _ _ _ _ Hr).
Qed.

Lemma c103_panics_only_cause p l t gc wk ql es s tr :
  s_run p l (sys_start t gc wk ql) es = Some (s, tr) -> check_panicked tr -> from_client l tr.
Proof. intros Hr. apply (jobs_from _ _ _ _ _ _ _ _ _ Hr). Qed.
