(** Proofs of the theorems of Properties/SystemLiveProperties.v. *)
From Coq Require Import ZifyBool ZifyN ZifyNat Lia.
From Verif Require Import Model.Base Model.Defense Model.MCaptcha Model.Counter Model.Master
  Model.HashCache Model.Queue Model.Pow Model.System
  Spec.CacheSpec Spec.QueueSpec Spec.MasterSpec Spec.SystemSpec
  Proofs.CacheProofs Proofs.QueueProofs Proofs.MasterProofs Proofs.MasterTasks Proofs.SystemProofs
  Proofs.SystemHistory Proofs.SystemLiveness Proofs.QueueIdle Proofs.SystemProgress
  Proofs.CacheTheorems Proofs.QueueTheorems Proofs.SystemTheorems.

Lemma c48_blocks_refuted p l t gc wk ql es s tr r n w c j :
  s_run p l (sys_start t gc wk ql) es = Some (s, tr) -> qs_mgr (sy_q s) <> MAborted ->
  sy_clients s !! n = Some (VpAnswer w c j) \/ sy_clients s !! n = Some (VpPoll w c j) ->
  running_job (sy_q s) r = Some j ->
  sufficient l w (cc_difficulty_factor c) false -> valid l w false ->
  exists k s1, (k <= 2)%nat /\ s_run p l s (replicate k (SeSend r)) = Some (s1, []) /\
    forall es2 s2 tr2, s_run p l s1 es2 = Some (s2, tr2) ->
      SeCancel n ∉ es2 -> (forall rnd, SeAct n rnd ∉ es2) ->
      running_job (sy_q s2) r = Some j /\
      s_step p l s2 (SeSend r) = None /\ s_step p l s2 (SeEnd r) = None /\ s_step p l s2 (SeRecv r) = None /\
      forall j', QStart r j' ∉ qouts tr2 /\ QFinish r j' ∉ qouts tr2.
Proof.
  intros Hr Ha Hcl Hrun Hs Hv.
  destruct (blocks _ _ _ _ _ _ _ _ _ _ _ _ _ _ Hr Ha Hcl Hrun Hs Hv) as (k & s1 & c' & v & Hk & H1 & Hw).
  exists k, s1. split; [done|]. split; [done|]. intros es2 s2 tr2 H2 Hnc Hna.
  assert (s_run p l (sys_start t gc wk ql) (es ++ replicate k (SeSend r)) = Some (s1, tr ++ [])) as Hr1
    by (apply s_run_app; eauto 10).
  destruct (waits_run _ _ _ _ _ _ _ _ _ es2 s2 tr2 _ _ _ _ _ Hr1 Hw) as [Hw2 Ho].
  { apply Forall_forall. intros e He. split; [by intros ->|]. intros rnd ->. by apply (Hna rnd). }
  { done. }
  destruct (waits_stuck p l _ _ _ _ _ _ Hw2) as (? & ? & ?). split; [by apply Hw2|]. done.
Qed.

Lemma c48_only_worthless p l t gc wk ql es s tr r j :
  s_run p l (sys_start t gc wk ql) es = Some (s, tr) -> ~ check_panicked tr ->
  running_job (sy_q s) r = Some j -> s_step p l s (SeSend r) = None -> s_step p l s (SeEnd r) = None ->
  exists n w c, (sy_clients s !! n = Some (VpAnswer w c j) \/ sy_clients s !! n = Some (VpPoll w c j)) /\
    sufficient l w (cc_difficulty_factor c) false /\ valid l w false.
Proof. apply held_up. Qed.

Lemma c54_answer p l t gc wk ql es s tr n w ip c r :
  s_run p l (sys_start t gc wk ql) es = Some (s, tr) -> ~ check_panicked tr ->
  called tr n (CVerifyPow w ip) ->
  SoCache (Some n) (HeMsg (HmRetrivePoW (VerifyCaptchaResult (w_string w) (w_key w)))) (Some (HrPoW (Ok (Some c)))) ∈ tr ->
  cc_key c = w_key w -> sufficient l w (cc_difficulty_factor c) true -> valid l w true ->
  returned tr n r ->
  (exists tok, r = RVerifyPow (Ok (tok, cc_difficulty_factor c))) \/ r = RVerifyPow (Err QueueFull).
Proof.
  intros Hr Hnp Hcall Hret Hk Hs Hv Hin.
  assert (SoRet n r ∈ of_client n tr) as Hc by (by apply elem_of_of_client).
  assert (SoCall n (CVerifyPow w ip) ∈ of_client n tr) as Hc1 by (by apply elem_of_of_client).
  assert (SoCache (Some n) (HeMsg (HmRetrivePoW (VerifyCaptchaResult (w_string w) (w_key w)))) (Some (HrPoW (Ok (Some c))))
    ∈ of_client n tr) as Hc2 by (by apply elem_of_of_client).
  pose proof (run_story _ _ _ _ _ _ _ _ _ Hr n) as Hst. destruct Hst; story_split;
      unfold issue_log, visit_log, queued_log, taken_log, retrieve_out, mint_out in *; elem_cases; simplify_eq; eauto;
    unfold good, valid, sufficient in *; destruct_and?; congruence.
Qed.

Lemma c54_served p l t gc wk ql es s tr n w c j r tok :
  s_run p l (sys_start t gc wk ql) es = Some (s, tr) -> ~ check_panicked tr ->
  sy_clients s !! n = Some (VpAnswer w c j) \/ sy_clients s !! n = Some (VpPoll w c j) ->
  sufficient l w (cc_difficulty_factor c) true -> valid l w true ->
  QStart r j ∈ qouts tr ->
  exists es2 s2 tr2, s_run p l s es2 = Some (s2, tr2) /\
    returned tr2 n (RVerifyPow (Ok (tok, cc_difficulty_factor c))) /\
    Forall (fun e => (exists r', e = SeSend r') \/ (exists rnd, e = SeAct n rnd)) es2.
Proof. intros Hr Hn Hcl Hs Hv Hst. eapply served; try done. Qed.

Lemma c54_idle p l t gc wk ql es s tr w ip c key tok :
  s_run p l (sys_start t gc wk ql) es = Some (s, tr) -> ~ check_panicked tr ->
  quiescent (sy_q s) ->
  (length (remove_dups (ip :: (accepted (qouts tr)).*1)) <= wk)%nat ->
  N.of_nat (distinct_ips (qouts tr)) <> ql ->
  retrieves (CacheSys (s_now s) (sy_c s)) (w_string w) key (Some c) -> cc_key c = w_key w ->
  sufficient l w (cc_difficulty_factor c) true -> valid l w true ->
  exists es2 s2 tr2, s_run p l s (SeCall (CVerifyPow w ip) :: es2) = Some (s2, tr2) /\
    returned tr2 (sy_next s) (RVerifyPow (Ok (tok, cc_difficulty_factor c))).
Proof.
  intros Hr Hn Hq Hle Hnf Hret Hk Hs Hv. pose proof (run_sinv _ _ _ _ _ _ _ _ _ Hr) as Hi.
  destruct (idle_queue _ _ _ _ _ _ ip (no_panics_of _ Hn) (si_q _ _ _ _ _ _ Hi) (si_drop _ _ _ _ _ _ Hi) Hq Hle Hnf)
    as (q1 & q2 & q3 & o & r & E1 & E2 & E3).
  pose proof (mgr_alive _ _ _ _ _ (si_q _ _ _ _ _ _ Hi) Hn (si_drop _ _ _ _ _ _ Hi)) as Hm.
  assert (hc_difficulty_map (sy_c s) !! w_string w = Some c) as Hmap by (by apply retrieves_iff in Hret).
  set (n := sy_next s).
  assert (exists s0 tr0, s_step p l s (SeCall (CVerifyPow w ip)) = Some (s0, tr0) /\ sy_q s0 = sy_q s /\ sy_c s0 = sy_c s /\
            sy_clients s0 !! n = Some (VpStart w ip) /\ qtrace tr0 = []) as (s0 & tr0 & S0 & Q0 & D0 & C0 & T0).
  { eexists _, _. split; [apply s_step_eq; rewrite Hm; split; [done|reflexivity]|].
    split; [done|]. split; [done|]. split; [cbn; apply lookup_insert|done]. }
  assert (exists s1 tr1, s_step p l s0 (SeAct n "") = Some (s1, tr1) /\ sy_q s1 = sy_q s /\
            sy_clients s1 !! n = Some (VpAdd w ip c) /\ qtrace tr1 = []) as (s1 & tr1 & S1 & Q1 & C1 & T1).
  { eexists _, _. split.
    - apply s_step_eq. rewrite Q0, Hm. split; [done|]. cbn [s_step']. rewrite C0. cbn [client_act]. unfold s_cache_msg.
      cbn [hc_handle]. unfold retrive_pow_config, remove_pow_config. cbn [vr_token]. rewrite D0, Hmap.
      rewrite decide_True by done. reflexivity.
    - split; [done|]. split; [cbn; apply lookup_insert|done]. }
  assert (exists s2 tr2, s_step p l s1 (SeAct n "") = Some (s2, tr2) /\ sy_q s2 = q1 /\
            sy_clients s2 !! n = Some (VpAnswer w c (qs_next (sy_q s))) /\ qtrace tr2 = [QeAdd ip]) as (s2 & tr2 & S2 & Q2 & C2 & T2).
  { destruct (validate l (QueuedWork (pow_of_work w) (w_string w) (cc_difficulty_factor c))) as [sends returns] eqn:Ev.
    eexists _, _. split.
    - apply s_step_eq. rewrite Q1, Hm. split; [done|]. cbn [s_step']. rewrite C1. cbn [client_act].
      rewrite Q1, Hm, Ev, E1. reflexivity.
    - split; [done|]. split; [cbn; apply lookup_insert|done]. }
  assert (qs_mgr q1 <> MAborted) as Hm1 by (intros E; unfold q_step in E2; by rewrite E in E2).
  assert (qs_mgr q2 <> MAborted) as Hm2 by (intros E; unfold q_step in E3; by rewrite E in E3).
  assert (s_step p l s2 SeManager = Some (with_q s2 q2 o, [SoQueue None QeManager o])) as S3.
  { apply s_step_eq. rewrite Q2. split; [done|]. cbn [s_step']. unfold s_queue. by rewrite Q2, E2. }
  set (s3 := with_q s2 q2 o).
  assert (s_step p l s3 (SeRecv r) = Some (with_q s3 q3 [QStart r (qs_next (sy_q s))],
      [SoQueue None (QeRecv r) [QStart r (qs_next (sy_q s))]])) as S4.
  { apply s_step_eq. split; [done|]. cbn [s_step']. unfold s_queue. by change (sy_q s3) with q2; rewrite E3. }
  set (s4 := with_q s3 q3 [QStart r (qs_next (sy_q s))]).
  set (fr := [SeCall (CVerifyPow w ip); SeAct n ""; SeAct n ""; SeManager; SeRecv r]).
  set (tra := tr0 ++ tr1 ++ tr2 ++ [SoQueue None QeManager o] ++ [SoQueue None (QeRecv r) [QStart r (qs_next (sy_q s))]] ++ []).
  assert (s_run p l s fr = Some (s4, tra)) as Hf.
  { unfold fr. cbn [s_run]. rewrite S0, S1, S2, S3. fold s3. rewrite S4. done. }
  assert (s_run p l (sys_start t gc wk ql) (es ++ fr) = Some (s4, tr ++ tra)) as Hr4 by (apply s_run_app; eauto 10).
  destruct (c54_served _ _ _ _ _ _ _ _ _ n w c (qs_next (sy_q s)) r tok Hr4) as (es5 & s5 & tr5 & H5 & Hret5 & _); try done.
  - intros [r' Hp]. rewrite qtrace_app in Hp. unfold tra in Hp. rewrite !qtrace_app, T0, T1, T2 in Hp. cbn in Hp.
    apply elem_of_app in Hp as [Hp|Hp]; [by apply Hn; exists r'|]. set_solver.
  - left. exact C2.
  - rewrite qouts_app. apply elem_of_app. right. unfold tra. rewrite !qouts_app. do 4 (apply elem_of_app; right).
    by left.
  - exists ([SeAct n ""; SeAct n ""; SeManager; SeRecv r] ++ es5), s5, (tra ++ tr5). split.
    + change (s_run p l s (fr ++ es5) = Some (s5, tra ++ tr5)). apply s_run_app. eauto 10.
    + unfold returned in *. apply elem_of_app. by right.
Qed.

Lemma c54_token p l t gc wk ql es s tr n w ip tok d tr1 m x tr2 :
  s_run p l (sys_start t gc wk ql) es = Some (s, tr) -> ~ check_panicked tr ->
  called tr n (CVerifyPow w ip) -> returned tr n (RVerifyPow (Ok (tok, d))) ->
  minters tok tr = [n] -> (forall n' m', called tr n' (CValidate m') -> vr_token m' <> tok) ->
  tr = tr1 ++ SoCache (Some n) (HeMsg (HmCacheResult m)) x :: tr2 ->
  s_now s < cache_clock t (ctrace tr1).*1 + cr_duration m * NS ->
  exists s' tr',
    s_run p l s [SeCall (CValidate (VerifyCaptchaResult tok (w_key w))); SeAct (sy_next s) ""; SeAct (sy_next s) ""]
      = Some (s', tr') /\
    returned tr' (sy_next s) (RValidate (Ok true)).
Proof.
  intros Hr Hn Hcall Hret Hone Hnv Etr Hclk. pose proof (run_sinv _ _ _ _ _ _ _ _ _ Hr) as Hi.
  pose proof (mgr_alive _ _ _ _ _ (si_q _ _ _ _ _ _ Hi) Hn (si_drop _ _ _ _ _ _ Hi)) as Hm.
  destruct (verify_ok _ _ _ _ _ _ _ _ _ Hr _ _ _ Hret) as (w' & ip' & c & Hlog & Hk & Hd & Hg).
  assert (CVerifyPow w ip = CVerifyPow w' ip') as [= <- <-].
  { eapply called_unique; [exact Hr|exact Hcall|]. unfold called.
    apply (of_client_sub tr n). rewrite Hlog. by left. }
  assert (m = CacheResult tok (w_key w) (cc_duration c)) as ->.
  { assert (SoCache (Some n) (HeMsg (HmCacheResult m)) x ∈ of_client n tr) as Hin.
    { apply elem_of_of_client. split; [done|]. subst tr. set_solver. }
    rewrite Hlog in Hin. unfold retrieve_out, mint_out in Hin. elem_cases; simplify_eq.
    unfold cached_into_result. by rewrite Hk. }
  pose proof (pt_c _ _ _ _ _ _ _ (run_parts _ _ _ _ _ _ _ _ _ Hr)) as Hc.
  assert (minters tok tr1 = [] /\ minters tok tr2 = []) as [Hm1 Hm2].
  { rewrite Etr, minters_app, minters_cons in Hone. unfold minters at 2 in Hone. cbn in Hone.
    rewrite decide_True in Hone by done. cbn in Hone.
    destruct (minters tok tr1) as [|a [|b rest]]; cbn in Hone; simplify_eq; done. }
  assert (validates (CacheSys (s_now s) (sy_c s)) tok (w_key w) true) as Hval.
  { refine (c34_token_not_before t (ctrace tr1).*1 (CacheResult tok (w_key w) (cc_duration c)) (ctrace tr2).*1
              _ (ctrace tr).*2 _ _ _ _); cbn [cr_token cr_key cr_duration].
    - apply Forall_forall. intros e (ce & -> & Hce)%elem_of_list_fmap. destruct ce as [e r].
      apply elem_of_list_omap in Hce as (o & Ho & Eo). destruct o as [| | | |w' e' r'|]; try done. injection Eo as -> ->.
      cbn. destruct e as [[m'|m'|m'|m'|d']| |]; cbn; intros Ht; try done.
      assert (SoCache w' (HeMsg (HmCacheResult m')) r ∈ tr) as Hin by (subst tr; set_solver).
      destruct (who_of _ _ _ _ _ _ _ _ _ _ _ _ Hr Hin) as [n' ->].
      assert (n' ∈ minters tok tr1) as Hmm by (apply elem_of_minters; eauto). rewrite Hm1 in Hmm. by apply elem_of_nil in Hmm.
    - apply Forall_forall. intros e (ce & -> & Hce)%elem_of_list_fmap. destruct ce as [e r].
      apply elem_of_list_omap in Hce as (o & Ho & Eo). destruct o as [| | | |w' e' r'|]; try done. injection Eo as -> ->.
      cbn. destruct e as [m'| |]; [|by intros []..].
      assert (SoCache w' (HeMsg m') r ∈ tr) as Hin by (subst tr; set_solver).
      destruct (who_of _ _ _ _ _ _ _ _ _ _ _ _ Hr Hin) as [n' ->].
      destruct m' as [m'|m'|m'|m'|d']; cbn; intros Ht; try done.
      + assert (n' ∈ minters tok tr2) as Hmm by (apply elem_of_minters; eauto). rewrite Hm2 in Hmm. by apply elem_of_nil in Hmm.
      + refine (Hnv n' m' _ Ht).
        assert (SoCache (Some n') (HeMsg (HmVerifyCaptchaResult m')) r ∈ of_client n' tr) as Hin' by (by apply elem_of_of_client).
        pose proof (run_story _ _ _ _ _ _ _ _ _ Hr n') as Hst. unfold called. apply (of_client_sub tr n').
        destruct Hst; story_split;
          unfold issue_log, visit_log, queued_log, taken_log, retrieve_out, mint_out in *; elem_cases; simplify_eq; set_solver.
      + assert (SoCache (Some n') (HeMsg (HmDelete d')) r ∈ of_client n' tr) as Hin' by (by apply elem_of_of_client).
        pose proof (run_story _ _ _ _ _ _ _ _ _ Hr n') as Hst.
        destruct Hst; story_split;
          unfold issue_log, visit_log, queued_log, taken_log, retrieve_out, mint_out in *; elem_cases; simplify_eq.
    - rewrite <- Hc. f_equal. rewrite Etr, ctrace_app, fmap_app. done.
    - destruct (run_maps t _ _ _ tok Hc) as (_ & _ & Hnow). cbn [hs_now] in Hnow.
      rewrite Etr, ctrace_app, fmap_app in Hnow. rewrite Hnow in Hclk. exact Hclk. }
  apply validates_iff in Hval. cbn [hs_cache] in Hval. symmetry in Hval. apply bool_decide_eq_true in Hval.
  eexists _, _. split.
  - cbn [s_run]. unfold s_step at 1. rewrite Hm. cbn beta iota zeta.
    unfold s_step at 1. cbn [sy_q sy_clients]. rewrite Hm, lookup_insert. cbn [client_start client_act].
    unfold s_cache_msg. cbn [hc_handle sy_c]. unfold verify_result, remove_cache_result. cbn [vr_token vr_key]. rewrite Hval.
    rewrite decide_True by done.
    unfold s_step at 1. cbn [sy_q sy_clients with_client with_c]. rewrite Hm, lookup_insert. cbn [client_act]. unfold s_return. reflexivity.
  - unfold returned. set_solver.
Qed.

Lemma c56_stuck_refuted p l t gc wk ql es s tr n w c j :
  s_run p l (sys_start t gc wk ql) es = Some (s, tr) -> ~ check_panicked tr ->
  quiescent (sy_q s) -> sy_clients s !! n = Some (VpPoll w c j) -> j ∈ waiting_in_queues (sy_q s) ->
  forall es2 s2 tr2, s_run p l s es2 = Some (s2, tr2) -> SeCancel n ∉ es2 ->
    (forall n' ip os, SoQueue n' (QeAdd ip) os ∉ tr2) ->
    (forall r, ~ returned tr2 n r) /\ (forall rnd, s_step p l s2 (SeAct n rnd) = None).
Proof.
  intros Hr Hn Hq Hcl Hj es2 s2 tr2 H2 Hnc Hna. pose proof (run_sinv _ _ _ _ _ _ _ _ _ Hr) as Hi.
  pose proof (mgr_alive _ _ _ _ _ (si_q _ _ _ _ _ _ Hi) Hn (si_drop _ _ _ _ _ _ Hi)) as Hm.
  destruct (si_own _ _ _ _ _ _ Hi _ _ _ Hcl eq_refl) as (v & Hv & _ & _).
  assert (vj_buf v = []) as Hb.
  { destruct (run_chan _ _ _ _ _ _ _ _ _ Hr _ _ Hv) as [_ Hst]. destruct (vj_buf v) as [|b bs]; [done|].
    destruct Hst as [r Hst]; [done|]. by destruct (waiting_unstarted _ _ _ _ _ _ (si_q _ _ _ _ _ _ Hi) Hn Hj r). }
  assert (stranded s n w c j) as Hsd by (split; eauto).
  destruct (stranded_run _ _ _ _ _ _ _ _ _ _ _ _ _ _ _ _ Hr Hsd H2 Hnc Hna) as [Hsd2 Ho]. split.
  - intros r Hret. assert (SoRet n r ∈ of_client n tr2) as Hin by (by apply elem_of_of_client).
    rewrite Ho in Hin. by apply elem_of_nil in Hin.
  - intros rnd. by eapply stranded_stuck.
Qed.
