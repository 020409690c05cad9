(** Proofs of the theorems of Properties/OwnerProperties.v. *)
From Coq Require Import ZifyBool ZifyN ZifyNat Lia.
From Verif Require Import Model.Base Model.Defense Model.MCaptcha Model.Counter Model.Master
  Model.HashCache Model.Queue Model.Pow Model.System
  Spec.CacheSpec Spec.QueueSpec Spec.MasterSpec Spec.SystemSpec Spec.OwnerSpec
  Proofs.CacheProofs Proofs.QueueProofs Proofs.MasterProofs Proofs.SystemProofs Proofs.SystemHistory Proofs.OwnerProofs
  Proofs.CacheTheorems Proofs.QueueTheorems Proofs.SystemTheorems Proofs.SystemLiveTheorems.

Lemma c110_untouched p l t gc wk ql es0 s tr0 es s1 tr1 :
  s_run p l (sys_start t gc wk ql) es0 = Some (s, tr0) -> s_run p l s es = Some (s1, tr1) ->
  no_get_pow (tr0 ++ tr1) es ->
  exists s2 tr2, s_run p l s (without_owner es) = Some (s2, tr2) /\ besides_master tr2 = besides_master tr1.
Proof. intros H0 H Hg. destruct (run_same _ _ _ _ _ _ _ _ _ _ _ _ H0 H Hg) as (s2 & tr2 & ? & ? & _). eauto. Qed.

Lemma c110_ineffective_refuted p l t gc wk ql es0 s tr0 es s1 tr1 ms s' tr' :
  s_run p l (sys_start t gc wk ql) es0 = Some (s, tr0) -> s_run p l s es = Some (s1, tr1) ->
  (forall e, SeMaster e ∉ es) -> no_get_pow (tr0 ++ tr1) es ->
  s_run p l s (SeMaster <$> ms) = Some (s', tr') ->
  exists s2 tr2, s_run p l s' es = Some (s2, tr2) /\ besides_master tr2 = besides_master tr1.
Proof.
  intros H0 H Hm Hg Hms. destruct (masters_same _ _ _ _ _ _ Hms) as [Hs _].
  destruct (run_same2 _ _ _ _ _ _ _ _ _ _ _ _ _ H0 Hs H Hm Hg) as (s2 & tr2 & ? & ? & _). eauto.
Qed.

Lemma c110_removed_refuted p l t gc wk ql es s tr ms s' tr' w ip c key tok :
  s_run p l (sys_start t gc wk ql) es = Some (s, tr) -> ~ check_panicked tr -> quiescent (sy_q s) ->
  (length (remove_dups (ip :: (accepted (qouts tr)).*1)) <= wk)%nat ->
  N.of_nat (distinct_ips (qouts tr)) <> ql ->
  retrieves (CacheSys (s_now s) (sy_c s)) (w_string w) key (Some c) -> cc_key c = w_key w ->
  sufficient l w (cc_difficulty_factor c) true -> valid l w true ->
  s_run p l s (SeMaster <$> ms) = Some (s', tr') ->
  exists es2 s2 tr2, s_run p l s' (SeCall (CVerifyPow w ip) :: es2) = Some (s2, tr2) /\
    returned tr2 (sy_next s) (RVerifyPow (Ok (tok, cc_difficulty_factor c))).
Proof.
  intros Hr Hp Hq Hw Hl Hret Hk Hs Hv Hms. destruct (masters_same _ _ _ _ _ _ Hms) as [[Hc Hsq _ _ _ Hn Hnow] Hb].
  assert (s_run p l (sys_start t gc wk ql) (es ++ (SeMaster <$> ms)) = Some (s', tr ++ tr')) as Hr' by (apply s_run_app; eauto 10).
  assert (qouts tr' = [] /\ qtrace tr' = []) as [Hqo Hqt].
  { clear -Hb. induction tr' as [|o tr' IH]; [done|]. unfold besides_master in Hb.
    destruct o; try discriminate Hb. apply IH. exact Hb. }
  rewrite Hn. rewrite Hc, Hnow in Hret. rewrite Hsq in Hq.
  assert (qouts (tr ++ tr') = qouts tr) as Hqq by (unfold qouts in *; rewrite omap_app, concat_app, Hqo; apply app_nil_r).
  eapply c54_idle; [exact Hr'| | exact Hq | | |exact Hret|exact Hk|exact Hs|exact Hv].
  - intros [r Hin]. apply Hp. exists r. unfold qtrace in *. rewrite omap_app, Hqt, app_nil_r in Hin. exact Hin.
  - rewrite Hqq. exact Hw.
  - rewrite Hqq. exact Hl.
Qed.

Lemma c110_token_refuted p l s ms s' tr' tok key :
  qs_mgr (sy_q s) <> MAborted -> validates (CacheSys (s_now s) (sy_c s)) tok key true ->
  s_run p l s (SeMaster <$> ms) = Some (s', tr') ->
  exists s2 tr2, s_run p l s' [SeCall (CValidate (VerifyCaptchaResult tok key)); SeAct (sy_next s) ""; SeAct (sy_next s) ""] =
      Some (s2, tr2) /\ returned tr2 (sy_next s) (RValidate (Ok true)).
Proof.
  intros Hm [h Hv] Hms. destruct (masters_same _ _ _ _ _ _ Hms) as [[Hc Hsq _ _ _ Hn Hnow] _].
  rewrite Hn. rewrite Hc, Hnow in Hv. rewrite Hsq in Hm.
  unfold cache_step in Hv; cbn [hs_now hs_cache] in Hv. destruct (hc_handle _ _ _) as [h' r] eqn:Eh; injection Hv as _ ->.
  eexists _, _. split.
  - cbn [s_run]. unfold s_step at 1. destruct (qs_mgr (sy_q s')) eqn:Em; [..|done].
    all: unfold s_step at 1; cbn [sy_q sy_clients]; rewrite Em, lookup_insert; cbn [client_start client_act];
      unfold s_cache_msg; unfold s_now in *; cbn [sy_c sy_m]; rewrite Eh.
    all: unfold s_step at 1; cbn [sy_q sy_clients with_client with_c]; rewrite Em, lookup_insert; cbn [client_act];
      unfold s_return; reflexivity.
  - unfold returned. set_solver.
Qed.

Lemma c110_renamed_refuted p l t gc wk ql es s tr w ip c key :
  s_run p l (sys_start t gc wk ql) es = Some (s, tr) -> qs_mgr (sy_q s) <> MAborted ->
  retrieves (CacheSys (s_now s) (sy_c s)) (w_string w) key (Some c) -> cc_key c <> w_key w ->
  exists s1 tr1, s_run p l s [SeCall (CVerifyPow w ip); SeAct (sy_next s) ""] = Some (s1, tr1) /\
    returned tr1 (sy_next s) (RVerifyPow (Err MCaptchaKeyValidationFail)) /\
    forall es2 s2 tr2 n, s_run p l s1 es2 = Some (s2, tr2) -> issuers (w_string w) tr2 = [] ->
      verified (tr ++ tr1 ++ tr2) n (w_string w) -> n ∈ consumers (w_string w) tr.
Proof.
  intros Hr Hm Hret Hk. apply retrieves_iff in Hret as Hl. destruct Hret as [h Hv].
  assert (exists h', hc_handle (s_now s) (sy_c s) (HmRetrivePoW (VerifyCaptchaResult (w_string w) (w_key w))) =
    (h', HrPoW (Ok (Some c)))) as [h' Hh].
  { cbn [hc_handle]. unfold retrive_pow_config in *. cbn in *. rewrite Hl. eauto. }
  set (n0 := sy_next s).
  set (tr1 := [SoCall n0 (CVerifyPow w ip);
    SoCache (Some n0) (HeMsg (HmRetrivePoW (VerifyCaptchaResult (w_string w) (w_key w)))) (Some (HrPoW (Ok (Some c))));
    SoRet n0 (RVerifyPow (Err MCaptchaKeyValidationFail))]).
  assert (exists s1, s_run p l s [SeCall (CVerifyPow w ip); SeAct n0 ""] = Some (s1, tr1)) as [s1 H1].
  { eexists. cbn [s_run]. unfold s_step at 1. destruct (qs_mgr (sy_q s)) eqn:Em; [..|done].
    all: unfold s_step at 1; cbn [sy_q sy_clients]; rewrite Em; unfold n0; rewrite lookup_insert; cbn [client_start client_act];
      unfold s_cache_msg; cbn [sy_c]; unfold s_now in *; cbn [sy_m]; rewrite Hh; rewrite decide_False by congruence; reflexivity. }
  exists s1, tr1. split; [exact H1|]. split; [unfold returned, tr1; set_solver|].
  intros es2 s2 tr2 n H2 Hi Hver.
  assert (s_run p l (sys_start t gc wk ql) (es ++ [SeCall (CVerifyPow w ip); SeAct n0 ""] ++ es2) = Some (s2, tr ++ tr1 ++ tr2)) as Hall
    by (apply s_run_app; exists s, tr, (tr1 ++ tr2); split; [exact Hr|]; split; [|done]; apply s_run_app; eauto 10).
  destruct (decide (n ∈ consumers (w_string w) tr)) as [|Hni]; [done|]. exfalso.
  assert (n <> n0) as Hne.
  { intros ->. destruct Hver as (w' & ip' & tok & d & _ & _ & Hok).
    assert (returned (tr ++ tr1 ++ tr2) n0 (RVerifyPow (Err MCaptchaKeyValidationFail))) as Herr
      by (unfold returned, tr1; set_solver).
    destruct (verify_ok _ _ _ _ _ _ _ _ _ Hall _ _ _ Hok) as (w2 & ip2 & c2 & Hlog & _).
    assert (SoRet n0 (RVerifyPow (Err MCaptchaKeyValidationFail)) ∈ of_client n0 (tr ++ tr1 ++ tr2)) as Hin by (by apply elem_of_of_client).
    rewrite Hlog in Hin. unfold retrieve_out, mint_out in Hin. elem_cases; simplify_eq. }
  pose proof (c53_consumed p l t gc wk ql _ _ _ (tr ++ [SoCall n0 (CVerifyPow w ip)]) n0 (w_string w) (w_key w) c
    (SoRet n0 (RVerifyPow (Err MCaptchaKeyValidationFail)) :: tr2) [n] Hall) as Hc.
  rewrite issuers_cons, Hi in Hc. cbn in Hc. enough (1 <= 0)%nat by lia. apply Hc.
  - unfold tr1. by rewrite <- !app_assoc.
  - apply NoDup_singleton.
  - apply Forall_singleton. split; [done|]. rewrite consumers_app. cbn. set_solver.
Qed.
