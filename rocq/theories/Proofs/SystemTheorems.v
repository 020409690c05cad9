(** Proofs of the theorems of Properties/SystemProperties.v. *)
From Coq Require Import ZifyBool ZifyN ZifyNat Lia.
From Verif Require Import Model.Base Model.Defense Model.MCaptcha Model.Counter Model.Master
  Model.HashCache Model.Queue Model.Pow Model.System
  Spec.CacheSpec Spec.QueueSpec Spec.MasterSpec Spec.SystemSpec
  Proofs.CacheProofs Proofs.QueueProofs Proofs.MasterProofs Proofs.MasterTasks Proofs.SystemProofs
  Proofs.SystemHistory Proofs.SystemVisits Proofs.CacheTheorems Proofs.MasterTheorems.

(** Work is sufficient if its nonce reaches the factor, valid if its result is
    "ok" followed by the challenge. *)
Definition ex_lib : pow_lib :=
  PowLib "salt" (fun w d => Val (d <=? pw_nonce w)) (fun w x => Val (String.eqb (pw_result w) ("ok" ++ x))).

Definition ex_work (x key : string) (nonce : N) : work := Work x ("ok" ++ x) nonce key.

Definition ex_ladder : list level := [Level 2 50; Level 5 70].

Definition ex_site : mcaptcha :=
  MCaptcha 0 (Defense ex_ladder 0) 30.

(** Site "site" is registered, client 0 gets challenge "x". *)
Definition ex_issue : list sevent :=
  [SeMaster (MeReq (RqAddSite "site" ex_site)); SeCall (CGetPow "site"); SeAct 0 ""; SeMaster (MeTask 1);
   SeAct 0 "x"; SeAct 0 ""; SeAct 0 ""].

(** Client 1 submits good work for it and gets token "tok". *)
Definition ex_solve : list sevent :=
  [SeCall (CVerifyPow (ex_work "x" "site" 60) "ip"); SeAct 1 ""; SeAct 1 ""; SeManager; SeRecv 0; SeAct 1 "";
   SeSend 0; SeEnd 0; SeAct 1 "tok"; SeAct 1 ""; SeAct 1 ""].

(** Client 2 has the token validated. *)
Definition ex_check : list sevent :=
  [SeCall (CValidate (VerifyCaptchaResult "tok" "site")); SeAct 2 ""; SeAct 2 ""].

Notation ex_start := (sys_start 0 60 1 10) (only parsing).

Lemma c47_verdict l w x d s v :
  is_sufficient_difficulty l w d = Val s -> is_valid_proof l w x = Val v ->
  exists rest, validate l (QueuedWork w x d) = (s && v :: rest, true) /\ (length rest <= 2)%nat.
Proof.
  intros Hs Hv. unfold validate. cbn [qw_work qw_string qw_difficulty_factor]. rewrite Hs, Hv.
  destruct s, v; cbn; eexists; (split; [done|]); cbn; lia.
Qed.

Lemma c47_panic l w x d :
  is_sufficient_difficulty l w d = Panic \/ is_valid_proof l w x = Panic ->
  (validate l (QueuedWork w x d)).2 = false /\ true ∉ (validate l (QueuedWork w x d)).1.
Proof.
  unfold validate. cbn [qw_work qw_string qw_difficulty_factor].
  destruct (is_sufficient_difficulty l w d) as [[]|]; destruct (is_valid_proof l w x) as [[]|];
    intros [|]; try done; cbn; split; try done; set_solver.
Qed.

Lemma c49_issued p l t gc wk ql es s tr n cfg :
  s_run p l (sys_start t gc wk ql) es = Some (s, tr) ->
  returned tr n (RGetPow (Ok (Some cfg))) ->
  exists id v os,
    of_client n tr =
      [SoCall n (CGetPow id); SoMaster (Some n) (MeReq (RqAddVisitor id)) os;
       SoCache (Some n) (HeMsg (HmCachePoW (CachePoW (pc_string cfg) (pc_difficulty_factor cfg) (avr_duration v) id)))
         (Some (HrUnit (Ok tt)));
       SoRet n (RGetPow (Ok (Some cfg)))] /\
    pc_salt cfg = pl_salt l /\ pc_difficulty_factor cfg = avr_difficulty_factor v /\
    visit_counted p l t gc wk ql es n id v.
Proof.
  intros Hr Hin. assert (SoRet n (RGetPow (Ok (Some cfg))) ∈ of_client n tr) as Hc by (by apply elem_of_of_client).
  pose proof (run_story _ _ _ _ _ _ _ _ _ Hr n) as Hst. story_cases Hst Hc.
  - exfalso. by repeat case_match.
  - exists id0, v0, os0. split; [done|]. split; [done|]. split; [done|]. by eapply visited_counted.
Qed.

Lemma c49_nothing p l t gc wk ql es s tr n r :
  s_run p l (sys_start t gc wk ql) es = Some (s, tr) ->
  returned tr n (RGetPow r) -> (forall cfg, r <> Ok (Some cfg)) ->
  forall e x, SoCache (Some n) e x ∉ tr.
Proof.
  intros Hr Hin Hne e x He. assert (SoRet n (RGetPow r) ∈ of_client n tr) as Hc by (by apply elem_of_of_client).
  assert (SoCache (Some n) e x ∈ of_client n tr) as Hc' by (by apply elem_of_of_client).
  pose proof (run_story _ _ _ _ _ _ _ _ _ Hr n) as Hst. story_cases Hst Hc; rewrite <- ?Hx in Hc';
    unfold issue_log, visit_log, queued_log, taken_log, retrieve_out, mint_out in Hc'; elem_cases; try done.
  by apply (Hne cfg0).
Qed.

Lemma ctrace_split tr pre e post :
  (ctrace tr).*1 = pre ++ e :: post ->
  exists tr1 w r tr2, tr = tr1 ++ SoCache w e r :: tr2 /\ (ctrace tr1).*1 = pre /\ (ctrace tr2).*1 = post.
Proof.
  intros H. apply fmap_split in H as (c1 & [e' r] & c2 & Hc & He & <- & <-). cbn in He. subst e'.
  apply omap_split in Hc as (tr1 & o & tr2 & -> & Ho & <- & <-).
  destruct o as [| | | |w e' r'|]; try done. injection Ho as -> ->. by exists tr1, w, r, tr2.
Qed.

Lemma challenge_origin p l t gc wk ql es s tr tr1 n x key c tr2 :
  s_run p l (sys_start t gc wk ql) es = Some (s, tr) ->
  tr = tr1 ++ SoCache (Some n) (HeMsg (HmRetrivePoW (VerifyCaptchaResult x key))) (Some (HrPoW (Ok (Some c)))) :: tr2 ->
  exists ta n0 r tb, tr1 = ta ++ SoCache (Some n0)
      (HeMsg (HmCachePoW (CachePoW x (cc_difficulty_factor c) (cc_duration c) (cc_key c)))) r :: tb /\
    called tr n0 (CGetPow (cc_key c)) /\
    Forall (fun e => about_challenge x e = None) (ctrace tb).*1.
Proof.
  intros Hr E. destruct (cache_at _ _ _ _ _ _ _ _ _ _ _ _ _ _ Hr E) as (h & h' & H1 & H2 & _).
  destruct (proj1 (proj2 (c32_challenge_exact _ _ _ _ x key H1) c)) as (pre & m & post & Es & Hm & -> & Hf).
  { eexists. exact H2. }
  apply ctrace_split in Es as (ta & w & r & tb & -> & <- & <-).
  assert (SoCache w (HeMsg (HmCachePoW m)) r ∈ tr) as Hin by (subst tr; set_solver).
  destruct (cachepow_by _ _ _ _ _ _ _ _ _ Hr _ _ _ Hin) as (n0 & v & -> & Hcall & _).
  exists ta, n0, r, tb. split; [|by split]. subst x. by destruct m.
Qed.

Lemma token_origin p l t gc wk ql es s tr tr1 n tok key tr2 :
  s_run p l (sys_start t gc wk ql) es = Some (s, tr) ->
  tr = tr1 ++ SoCache (Some n) (HeMsg (HmVerifyCaptchaResult (VerifyCaptchaResult tok key))) (Some (HrBool (Ok true))) :: tr2 ->
  exists ta n0 d r tb, tr1 = ta ++ SoCache (Some n0) (HeMsg (HmCacheResult (CacheResult tok key d))) r :: tb /\
    Forall (fun e => about_token tok e = None) (ctrace tb).*1.
Proof.
  intros Hr E. destruct (cache_at _ _ _ _ _ _ _ _ _ _ _ _ _ _ Hr E) as (h & h' & H1 & H2 & _).
  destruct (proj1 (proj2 (c33_token_exact _ _ _ _ tok key H1))) as (pre & m & post & Es & Hm & Hk & Hf).
  { eexists. exact H2. }
  apply ctrace_split in Es as (ta & w & r & tb & -> & <- & <-).
  assert (SoCache w (HeMsg (HmCacheResult m)) r ∈ tr) as Hin by (subst tr; set_solver).
  destruct (who_of _ _ _ _ _ _ _ _ _ _ _ _ Hr Hin) as [n0 ->].
  exists ta, n0, (cr_duration m), r, tb. split; [|done]. subst. by destruct m.
Qed.

Lemma after_in_log n tr tr1 o tr2 a b :
  tr = tr1 ++ o :: tr2 -> who o = Some n -> of_client n tr = a ++ o :: b -> o ∉ a -> o ∉ b ->
  of_client n tr1 = a /\ of_client n tr2 = b.
Proof.
  intros -> Hw. unfold of_client. rewrite filter_app, filter_cons_True by done.
  generalize (filter (fun o => who o = Some n) tr1) as c. generalize (filter (fun o => who o = Some n) tr2) as d.
  intros d c. revert a. induction c as [|y c IH]; intros a E Ha Hb; destruct a as [|z a]; cbn in E.
  - by injection E.
  - injection E as <- _. set_solver.
  - injection E as -> <-. set_solver.
  - injection E as -> E. destruct (IH _ E) as [<- <-]; [set_solver|done|done].
Qed.

Lemma c50_sound p l t gc wk ql es s tr n tok d :
  s_run p l (sys_start t gc wk ql) es = Some (s, tr) ->
  returned tr n (RVerifyPow (Ok (tok, d))) ->
  exists w ip dur n0 r0 tr1 tr2 tr3,
    called tr n (CVerifyPow w ip) /\ sufficient l w d true /\ valid l w true /\
    called tr n0 (CGetPow (w_key w)) /\
    tr = tr1 ++
         SoCache (Some n0) (HeMsg (HmCachePoW (CachePoW (w_string w) d dur (w_key w)))) r0 ::
         tr2 ++
         SoCache (Some n) (HeMsg (HmRetrivePoW (VerifyCaptchaResult (w_string w) (w_key w))))
           (Some (HrPoW (Ok (Some (CachedPoWConfig (w_key w) d dur))))) ::
         tr3 /\
    (** neither consumed, replaced nor expired in between *)
    Forall (fun e => about_challenge (w_string w) e = None) (ctrace tr2).*1 /\
    (** and the token was then minted for that site *)
    of_client n tr3 =
      [SoQueue (Some n) (QeAdd ip) [];
       SoCache (Some n) (HeMsg (HmCacheResult (CacheResult tok (w_key w) dur))) (Some (HrUnit (Ok tt)));
       SoRet n (RVerifyPow (Ok (tok, d)))].
Proof.
  intros Hr Hin. destruct (verify_ok _ _ _ _ _ _ _ _ _ Hr _ _ _ Hin) as (w & ip & c & E & Hk & Hd & Hs & Hv).
  assert (retrieve_out n w (Some c) ∈ tr) as Hret by (apply (of_client_sub _ n); rewrite E; set_solver).
  apply elem_of_list_split in Hret as (tra & tr3 & Etr).
  destruct (challenge_origin _ _ _ _ _ _ _ _ _ _ _ _ _ _ _ Hr Etr) as (tr1 & n0 & r0 & tr2 & -> & Hc0 & Hf).
  destruct (after_in_log n _ _ _ _ [SoCall n (CVerifyPow w ip)]
     [SoQueue (Some n) (QeAdd ip) []; mint_out n c tok; SoRet n (RVerifyPow (Ok (tok, d)))] Etr eq_refl E) as [_ E3].
  { unfold retrieve_out. set_solver. }
  { unfold retrieve_out, mint_out. set_solver. }
  exists w, ip, (cc_duration c), n0, r0, tr1, tr2, tr3. destruct c as [ck cd cdur]. cbn in *. subst ck cd.
  split; [apply (of_client_sub _ n); rewrite E; set_solver|]. split; [done|]. split; [done|]. split; [done|].
  split; [by rewrite Etr, <- app_assoc|]. split; [done|]. exact E3.
Qed.

Lemma c50_in_time p l t gc wk ql es s tr tr1 n w c tr2 h os :
  s_run p l (sys_start t gc wk ql) es = Some (s, tr) ->
  tr = tr1 ++ SoCache (Some n) (HeMsg (HmRetrivePoW (VerifyCaptchaResult (w_string w) (w_key w))))
                (Some (HrPoW (Ok (Some c)))) :: tr2 ->
  cache_run (cache_start t) (ctrace tr1).*1 = Some (h, os) -> nothing_overdue h ->
  exists ta n0 r tb,
    tr1 = ta ++ SoCache (Some n0) (HeMsg (HmCachePoW
      (CachePoW (w_string w) (cc_difficulty_factor c) (cc_duration c) (cc_key c)))) r :: tb /\
    cache_clock t (ctrace tr1).*1 < cache_clock t (ctrace ta).*1 + cc_duration c * NS.
Proof.
  intros Hr E H1 Hn. destruct (cache_at _ _ _ _ _ _ _ _ _ _ _ _ _ _ Hr E) as (h0 & h' & H1' & H2 & _).
  rewrite H1' in H1. injection H1 as <- <-.
  destruct (c34_challenge_not_after _ _ _ _ (w_string w) (w_key w) c H1' Hn) as (pre & m & post & Es & Hm & -> & _ & Hc).
  { eexists. exact H2. }
  pose proof Es as Es'. apply ctrace_split in Es' as (ta & w' & r & tb & -> & <- & <-).
  assert (SoCache w' (HeMsg (HmCachePoW m)) r ∈ tr) as Hin by (subst tr; set_solver).
  destruct (cachepow_by _ _ _ _ _ _ _ _ _ Hr _ _ _ Hin) as (n0 & v & -> & Hcall & _).
  exists ta, n0, r, tb. split; [|done]. rewrite <- Hm. by destruct m.
Qed.

Lemma c51_at_most_once p l t gc wk ql es s tr x ns :
  s_run p l (sys_start t gc wk ql) es = Some (s, tr) ->
  NoDup ns -> Forall (fun n => verified tr n x) ns ->
  (length ns <= length (issuers x tr))%nat /\
  NoDup (issuers x tr) /\ Forall (fun n => exists id, called tr n (CGetPow id)) (issuers x tr).
Proof.
  intros Hr Hnd Hf. split_and!.
  - pose proof (pt_c _ _ _ _ _ _ _ (run_parts _ _ _ _ _ _ _ _ _ Hr)) as Hc.
    pose proof (consumers_count x _ _ _ (run_unnamed _ _ _ _ _ _ _ _ _ Hr) Hc) as Hle.
    change (hc_difficulty_map (hs_cache (cache_start t)) !! x) with ((∅ : gmap string cached_pow) !! x) in Hle.
    rewrite lookup_empty in Hle.
    assert (length ns <= length (consumers x tr))%nat; [|cbn in Hle; lia].
    apply submseteq_length, NoDup_submseteq; [done|]. intros n Hn. rewrite Forall_forall in Hf.
    by eapply verified_consumer, Hf.
  - by eapply issuers_nodup.
  - apply Forall_forall. intros n (m & r & Hin & _)%elem_of_issuers.
    destruct (cachepow_by _ _ _ _ _ _ _ _ _ Hr _ _ _ Hin) as (n0 & v & [= <-] & Hcall & _). eauto.
Qed.

Lemma c51_unique p l t gc wk ql es s tr x n n' :
  s_run p l (sys_start t gc wk ql) es = Some (s, tr) ->
  (length (issuers x tr) <= 1)%nat -> verified tr n x -> verified tr n' x -> n = n'.
Proof.
  intros Hr Hle H H'. destruct (decide (n = n')) as [|Hne]; [done|].
  destruct (c51_at_most_once _ _ _ _ _ _ _ _ _ x [n; n'] Hr) as [Hl _].
  - repeat constructor; set_solver.
  - by repeat constructor.
  - cbn in Hl. lia.
Qed.

Lemma c52_token_once p l t gc wk ql es s tr tok ns :
  s_run p l (sys_start t gc wk ql) es = Some (s, tr) ->
  NoDup ns -> Forall (fun n => exists key, validated tr n tok key) ns ->
  (length ns <= length (minters tok tr))%nat /\
  NoDup (minters tok tr) /\
  Forall (fun n => exists w ip, called tr n (CVerifyPow w ip)) (minters tok tr).
Proof.
  intros Hr Hnd Hf. split_and!.
  - pose proof (pt_c _ _ _ _ _ _ _ (run_parts _ _ _ _ _ _ _ _ _ Hr)) as Hc.
    pose proof (acceptors_count tok _ _ _ (run_unnamed _ _ _ _ _ _ _ _ _ Hr) Hc) as Hle.
    change (hc_result_map (hs_cache (cache_start t)) !! tok) with ((∅ : gmap string string) !! tok) in Hle.
    rewrite lookup_empty in Hle.
    assert (length ns <= length (acceptors tok tr))%nat; [|cbn in Hle; lia].
    apply submseteq_length, NoDup_submseteq; [done|]. intros n Hn. rewrite Forall_forall in Hf.
    destruct (Hf _ Hn) as [key Hv]. apply elem_of_acceptors. exists key. by eapply validated_acceptor.
  - by eapply minters_nodup.
  - apply Forall_forall. intros n (m & r & Hin & _)%elem_of_minters.
    destruct (mint_by _ _ _ _ _ _ _ _ _ Hr _ _ _ Hin) as (n0 & w & ip & c & [= <-] & Hcall & _). eauto.
Qed.

Lemma c52_right_site p l t gc wk ql es s tr n tok key :
  s_run p l (sys_start t gc wk ql) es = Some (s, tr) -> validated tr n tok key ->
  exists n0 w ip c r tr1 tr2 tr3,
    tr = tr1 ++ SoCache (Some n0) (HeMsg (HmCacheResult (CacheResult tok key (cc_duration c)))) r :: tr2 ++
         SoCache (Some n) (HeMsg (HmVerifyCaptchaResult (VerifyCaptchaResult tok key))) (Some (HrBool (Ok true))) :: tr3 /\
    Forall (fun e => about_token tok e = None) (ctrace tr2).*1 /\
    called tr n0 (CVerifyPow w ip) /\ w_key w = key /\ cc_key c = key /\
    sufficient l w (cc_difficulty_factor c) true /\ valid l w true /\
    (forall x, returned tr n0 x -> x = RVerifyPow (Ok (tok, cc_difficulty_factor c))).
Proof.
  intros Hr Hv. pose proof (validated_acceptor _ _ _ _ _ _ _ _ _ Hr _ _ _ Hv) as Hin.
  apply elem_of_list_split in Hin as (tra & tr3 & Etr).
  destruct (token_origin _ _ _ _ _ _ _ _ _ _ _ _ _ _ Hr Etr) as (tr1 & n0 & d & r & tr2 & -> & Hf).
  assert (SoCache (Some n0) (HeMsg (HmCacheResult (CacheResult tok key d))) r ∈ tr) as Hm by (subst tr; set_solver).
  destruct (mint_by _ _ _ _ _ _ _ _ _ Hr _ _ _ Hm) as (n1 & w & ip & c & [= <-] & Hcall & Em & Hk & [Hs Hg] & _ & Hlog).
  cbn in Em. injection Em as -> ->. exists n0, w, ip, c, r, tr1, tr2, tr3.
  split; [by rewrite Etr, <- app_assoc|]. split_and!; try done.
  intros x Hx. assert (SoRet n0 x ∈ of_client n0 tr) as Hx' by (by apply elem_of_of_client).
  unfold queued_log, taken_log, retrieve_out, mint_out in Hlog. cbn [cr_token app] in Hlog.
  destruct Hlog as [E|[E|E]]; rewrite E in Hx'; elem_cases; congruence.
Qed.

Lemma c53_mints_nothing p l t gc wk ql es s tr n r :
  s_run p l (sys_start t gc wk ql) es = Some (s, tr) ->
  returned tr n r -> r = RPanic \/ (exists e, r = RVerifyPow (Err e)) ->
  (forall m x, SoCache (Some n) (HeMsg (HmCacheResult m)) x ∉ tr) /\
  (r = RVerifyPow (Err StringNotFound) \/
   exists w ip c, called tr n (CVerifyPow w ip) /\
     SoCache (Some n) (HeMsg (HmRetrivePoW (VerifyCaptchaResult (w_string w) (w_key w))))
       (Some (HrPoW (Ok (Some c)))) ∈ tr).
Proof.
  intros Hr Hin He. assert (SoRet n r ∈ of_client n tr) as Hc by (by apply elem_of_of_client). split.
  - intros m x Hm. assert (SoCache (Some n) (HeMsg (HmCacheResult m)) x ∈ of_client n tr) as Hc' by (by apply elem_of_of_client).
    pose proof (run_story _ _ _ _ _ _ _ _ _ Hr n) as Hst. destruct Hst; story_split;
      unfold issue_log, visit_log, queued_log, taken_log, retrieve_out, mint_out in *; elem_cases; simplify_eq.
  - pose proof (run_story _ _ _ _ _ _ _ _ _ Hr n) as Hst.
    assert (forall o, o ∈ of_client n tr -> o ∈ tr) as Hsub by (by intros o [_ ?]%elem_of_of_client).
    story_cases Hst Hc; auto; right; exists w0, ip0; 
      match type of Hx with _ = _ => rewrite <- Hx in Hsub end; unfold called, queued_log, taken_log, retrieve_out in Hsub;
      eexists; (split; apply Hsub; [by left|by right; left]).
Qed.

Lemma c53_cancelled p l t gc wk ql es s tr n :
  s_run p l (sys_start t gc wk ql) es = Some (s, tr) -> SoCancel n ∈ tr ->
  (forall r, ~ returned tr n r) /\
  (forall m x, SoCache (Some n) (HeMsg (HmCacheResult m)) x ∈ tr ->
     exists lg, of_client n tr = lg ++ [SoCache (Some n) (HeMsg (HmCacheResult m)) x; SoCancel n]).
Proof.
  intros Hr Hin. assert (SoCancel n ∈ of_client n tr) as Hc by (by apply elem_of_of_client). split.
  - intros r Hret. assert (SoRet n r ∈ of_client n tr) as Hc' by (by apply elem_of_of_client).
    pose proof (run_story _ _ _ _ _ _ _ _ _ Hr n) as Hst. destruct Hst; story_split;
      unfold issue_log, visit_log, queued_log, taken_log, retrieve_out, mint_out in *; elem_cases; simplify_eq.
  - intros m x Hm. assert (SoCache (Some n) (HeMsg (HmCacheResult m)) x ∈ of_client n tr) as Hc' by (by apply elem_of_of_client).
    pose proof (run_story _ _ _ _ _ _ _ _ _ Hr n) as Hst. destruct Hst; story_split;
      unfold issue_log, visit_log, queued_log, taken_log, retrieve_out, mint_out in *; elem_cases; simplify_eq.
    eexists. rewrite <- app_assoc. reflexivity.
Qed.

Lemma c53_consumed p l t gc wk ql es s tr tr1 n x key c tr2 ns :
  s_run p l (sys_start t gc wk ql) es = Some (s, tr) ->
  tr = tr1 ++ SoCache (Some n) (HeMsg (HmRetrivePoW (VerifyCaptchaResult x key))) (Some (HrPoW (Ok (Some c)))) :: tr2 ->
  NoDup ns -> Forall (fun n' => verified tr n' x /\ n' ∉ n :: consumers x tr1) ns ->
  (length ns <= length (issuers x tr2))%nat.
Proof.
  intros Hr E Hnd Hf. destruct (cache_at _ _ _ _ _ _ _ _ _ _ _ _ _ _ Hr E) as (h & h' & H1 & H2 & H3).
  pose proof (step_challenge _ _ _ _ x H2) as Hx. cbn in Hx. rewrite decide_True in Hx by done.
  assert (unnamed tr2) as Hu.
  { intros m r Hin. eapply (run_unnamed _ _ _ _ _ _ _ _ _ Hr m r). subst tr. set_solver. }
  pose proof (consumers_count x _ _ _ Hu H3) as Hle. rewrite Hx in Hle.
  assert (length ns <= length (consumers x tr2))%nat; [|cbn in Hle; lia].
  apply submseteq_length, NoDup_submseteq; [done|]. intros n' Hn. rewrite Forall_forall in Hf.
  destruct (Hf _ Hn) as [Hv Hni]. eapply verified_consumer in Hv; [|done].
  rewrite E, consumers_app, consumers_cons in Hv. cbn in Hv. rewrite decide_True in Hv by done. set_solver.
Qed.

Lemma c55_invalid_pow_refuted p l t gc wk ql es s tr n :
  s_run p l (sys_start t gc wk ql) es = Some (s, tr) ->
  ~ returned tr n (RVerifyPow (Err InvalidPoW)).
Proof.
  intros Hr Hin. assert (SoRet n (RVerifyPow (Err InvalidPoW)) ∈ of_client n tr) as Hc by (by apply elem_of_of_client).
  pose proof (run_story _ _ _ _ _ _ _ _ _ Hr n) as Hst. story_cases Hst Hc.
Qed.

Lemma c55_answered_refuted p l t gc wk ql es s tr n w ip c r :
  s_run p l (sys_start t gc wk ql) es = Some (s, tr) ->
  called tr n (CVerifyPow w ip) ->
  SoCache (Some n) (HeMsg (HmRetrivePoW (VerifyCaptchaResult (w_string w) (w_key w)))) (Some (HrPoW (Ok (Some c)))) ∈ tr ->
  cc_key c = w_key w -> sufficient l w (cc_difficulty_factor c) true -> valid l w false -> ~ check_panicked tr ->
  returned tr n r ->
  r = RVerifyPow (Err InsuffiencientDifficulty) \/ r = RVerifyPow (Err QueueFull).
Proof.
  intros Hr Hcall Hret Hk Hs Hv Hnp Hin. 
  assert (SoRet n r ∈ of_client n tr) as Hc by (by apply elem_of_of_client).
  assert (SoCall n (CVerifyPow w ip) ∈ of_client n tr) as Hc1 by (by apply elem_of_of_client).
  assert (SoCache (Some n) (HeMsg (HmRetrivePoW (VerifyCaptchaResult (w_string w) (w_key w)))) (Some (HrPoW (Ok (Some c))))
    ∈ of_client n tr) as Hc2 by (by apply elem_of_of_client).
  pose proof (run_story _ _ _ _ _ _ _ _ _ Hr n) as Hst. destruct Hst; story_split;
      unfold issue_log, visit_log, queued_log, taken_log, retrieve_out, mint_out in *; elem_cases; simplify_eq; auto;
    unfold good, valid, sufficient in *; destruct_and?; congruence.
Qed.

Lemma last_of_snoc {A} (f : sb_set -> option A) xs x :
  last_of f (xs ++ [x]) = match f x with Some a => Some a | None => last_of f xs end.
Proof.
  unfold last_of. rewrite omap_app. cbn. destruct (f x); [by rewrite last_snoc|by rewrite app_nil_r].
Qed.

Lemma builder_fields xs :
  foldl sb_apply system_builder_default xs =
  SystemBuilder (last_of set_master xs) (last_of set_cache xs) (last_of set_pow xs) (last_of set_runners xs)
    (last_of set_queue_length xs).
Proof.
  induction xs as [|x xs IH] using rev_ind; [done|]. rewrite foldl_app. cbn [foldl]. rewrite IH, !last_of_snoc.
  by destruct x.
Qed.

Lemma c57_build xs :
  match last_of set_master xs, last_of set_cache xs, last_of set_pow xs, last_of set_runners xs,
        last_of set_queue_length xs with
  | Some m, Some c, Some l, Some r, Some q =>
      sb_build (foldl sb_apply system_builder_default xs) = Val (System m c l (q_start r q))
  | _, _, _, _, _ => sb_build (foldl sb_apply system_builder_default xs) = Panic
  end.
Proof.
  rewrite builder_fields. unfold sb_build. cbn [sb_master sb_cache sb_pow sb_runners sb_queue_length].
  destruct (last_of set_master xs), (last_of set_cache xs), (last_of set_pow xs), (last_of set_runners xs),
    (last_of set_queue_length xs); done.
Qed.
