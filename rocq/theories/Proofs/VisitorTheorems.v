(** Proofs of the theorems of Properties/VisitorProperties.v. *)
From Coq Require Import ZifyBool ZifyN ZifyNat Lia.
From Verif Require Import Model.Base Model.Defense Model.MCaptcha Model.Counter Model.HashCache Model.Queue Model.Pow
  Model.System Model.Master
  Spec.DefenseSpec Spec.MCaptchaSpec Spec.CounterSpec Spec.CacheSpec Spec.MasterSpec Spec.SystemSpec Spec.SiteSpec Spec.BulkSpec
  Proofs.CacheProofs Proofs.MasterProofs Proofs.SystemProofs Proofs.SystemHistory Proofs.SystemVisits Proofs.SiteProofs Proofs.BulkProofs
  Proofs.CacheTheorems Proofs.SystemTheorems Proofs.SystemLiveTheorems Proofs.SiteTheorems
  Proofs.BulkTheorems.
Import Master.

Lemma omap_cons_app {A B} (f : A -> option B) a l : omap f (a :: l) = omap f [a] ++ omap f l.
Proof. cbn. by destruct (f a). Qed.

(** A call asks the cache for a challenge at most once. *)
Definition lookups (n : nat) (tr : list sout) : list unit :=
  omap (fun o => match o with
                 | SoCache (Some n') (HeMsg (HmRetrivePoW _)) _ => if decide (n' = n) then Some tt else None
                 | _ => None end) tr.

Lemma lookups_of_client n tr : lookups n tr = lookups n (of_client n tr).
Proof.
  unfold lookups, of_client. induction tr as [|o tr IH]; [done|].
  rewrite filter_cons. destruct (decide (who o = Some n)) as [Hw|Hw].
  - rewrite omap_cons_app, IH. by rewrite <- omap_cons_app.
  - rewrite omap_cons_app, IH. destruct o as [| | | |[n'|] [[]| |] |]; try done. cbn. rewrite decide_False; [done|]. cbn in Hw. congruence.
Qed.

Lemma lookups_app n a b : lookups n (a ++ b) = lookups n a ++ lookups n b.
Proof. apply omap_app. Qed.

Lemma lookups_cons n a b : lookups n (a :: b) = lookups n [a] ++ lookups n b.
Proof. apply omap_cons_app. Qed.

Lemma lookups_one n q o : lookups n [SoCache (Some n) (HeMsg (HmRetrivePoW q)) o] = [tt].
Proof. cbn. by rewrite decide_True. Qed.

Lemma asker p l t gc wk ql es s tr n q o :
  s_run p l (sys_start t gc wk ql) es = Some (s, tr) -> SoCache (Some n) (HeMsg (HmRetrivePoW q)) o ∈ tr ->
  (exists w ip, called tr n (CVerifyPow w ip) /\ q = VerifyCaptchaResult (w_string w) (w_key w)) /\
  length (lookups n tr) = 1%nat.
Proof.
  intros Hr Hin. assert (SoCache (Some n) (HeMsg (HmRetrivePoW q)) o ∈ of_client n tr) as Hc by (by apply elem_of_of_client).
  rewrite lookups_of_client. pose proof (run_story _ _ _ _ _ _ _ _ _ Hr n) as Hst. clear Hr Hin.
  assert ((exists w ip, SoCall n (CVerifyPow w ip) ∈ of_client n tr /\ q = VerifyCaptchaResult (w_string w) (w_key w)) /\
    length (lookups n (of_client n tr)) = 1%nat) as [(w & ip & H1 & H2) H3].
  { destruct Hst; story_split;
      unfold issue_log, visit_log, queued_log, taken_log, retrieve_out, mint_out in *; elem_cases; simplify_eq;
      (split; [eexists _, _; (split; [cbn [app]; by left|done])|cbn; by rewrite decide_True]). }
  split; [|done]. exists w, ip. split; [|done]. by apply (of_client_sub tr n).
Qed.

Lemma no_deleter p l t gc wk ql es s tr n d o :
  s_run p l (sys_start t gc wk ql) es = Some (s, tr) -> SoCache (Some n) (HeMsg (HmDelete d)) o ∉ tr.
Proof.
  intros Hr Hin. assert (SoCache (Some n) (HeMsg (HmDelete d)) o ∈ of_client n tr) as Hc by (by apply elem_of_of_client).
  pose proof (run_story _ _ _ _ _ _ _ _ _ Hr n) as Hst. clear Hr Hin.
  destruct Hst; story_split;
    unfold issue_log, visit_log, queued_log, taken_log, retrieve_out, mint_out in *; elem_cases; simplify_eq.
Qed.

Lemma c117_accepted : forall p l t gc wk ql es s tr ng id cfg tr0 m x tr1 nv q o tr2 w ip r,
  s_run p l (sys_start t gc wk ql) es = Some (s, tr) -> ~ check_panicked tr ->
  called tr ng (CGetPow id) -> returned tr ng (RGetPow (Ok (Some cfg))) ->
  called tr nv (CVerifyPow w ip) -> returned tr nv r ->
  w_key w = id -> w_string w = pc_string cfg ->
  sufficient l w (pc_difficulty_factor cfg) true -> valid l w true ->
  issuers (pc_string cfg) tr = [ng] ->
  (forall n' w' ip', called tr n' (CVerifyPow w' ip') -> w_string w' = pc_string cfg -> n' = nv) ->
  tr = tr0 ++ SoCache (Some ng) (HeMsg (HmCachePoW m)) x :: tr1 ++
       SoCache (Some nv) (HeMsg (HmRetrivePoW q)) o :: tr2 ->
  cache_clock t (ctrace (tr0 ++ SoCache (Some ng) (HeMsg (HmCachePoW m)) x :: tr1)).*1
    < cache_clock t (ctrace tr0).*1 + cp_duration m * NS ->
  (exists tok, r = RVerifyPow (Ok (tok, pc_difficulty_factor cfg))) \/ r = RVerifyPow (Err QueueFull).
Proof.
  intros p l t gc wk ql es s tr ng id cfg tr0 m x tr1 nv q o tr2 w ip r
    Hr Hn Hcg Hrg Hcv Hrv Hk Hstr Hs Hv Hone Hsole E Hclk.
  destruct (c49_issued _ _ _ _ _ _ _ _ _ ng cfg Hr Hrg) as (id' & v & os & Hlog & _ & Hd & _).
  assert (id' = id) as ->.
  { assert (SoCall ng (CGetPow id) ∈ of_client ng tr) as Hc by (by apply elem_of_of_client).
    rewrite Hlog in Hc. elem_cases; by simplify_eq. }
  assert (m = CachePoW (pc_string cfg) (pc_difficulty_factor cfg) (avr_duration v) id) as ->.
  { assert (SoCache (Some ng) (HeMsg (HmCachePoW m)) x ∈ of_client ng tr) as Hc.
    { apply elem_of_of_client. split; [done|]. rewrite E. apply elem_of_app. right. by left. }
    rewrite Hlog in Hc. elem_cases; by simplify_eq. }
  set (m := CachePoW (pc_string cfg) (pc_difficulty_factor cfg) (avr_duration v) id) in *.
  assert (SoCache (Some nv) (HeMsg (HmRetrivePoW q)) o ∈ tr) as Hq
    by (rewrite E; apply elem_of_app; right; right; apply elem_of_app; right; by left).
  destruct (asker _ _ _ _ _ _ _ _ _ _ _ _ Hr Hq) as [(w1 & ip1 & Hc1 & ->) Hlen].
  assert (CVerifyPow w ip = CVerifyPow w1 ip1) as [= <- <-] by (by eapply called_unique).
  assert (forall y, y ∈ tr0 \/ y ∈ tr1 -> y ∈ tr) as Hsub.
  { intros y [Hy|Hy]; rewrite E; apply elem_of_app; [by left|]. right. right. apply elem_of_app. by left. }
  assert (issuers (pc_string cfg) tr0 = [] /\ issuers (pc_string cfg) tr1 = []) as [Hi0 Hi1].
  { rewrite E, issuers_app, issuers_cons, issuers_app in Hone. unfold issuers at 2 in Hone. cbn in Hone.
    rewrite decide_True in Hone by done. cbn in Hone.
    destruct (issuers (pc_string cfg) tr0) as [|a [|b rest]]; cbn in Hone; simplify_eq; try done.
    split; [done|]. by destruct (issuers (pc_string cfg) tr1). }
  destruct (cache_at p l t gc wk ql es s tr (tr0 ++ SoCache (Some ng) (HeMsg (HmCachePoW m)) x :: tr1)
    (Some nv) (HeMsg (HmRetrivePoW (VerifyCaptchaResult (w_string w) (w_key w)))) o tr2 Hr)
    as (h & h' & Hrun & Hstep & _); [by rewrite <- app_assoc|].
  assert (retrieves h (w_string w) (w_key w) (Some (CachedPoWConfig id (pc_difficulty_factor cfg) (avr_duration v)))) as Hret.
  { rewrite Hstr.
    refine (c34_challenge_not_before t (ctrace tr0).*1 m (ctrace tr1).*1 h _ (w_key w) _ _ _ _).
    - apply Forall_forall. intros e (ce & -> & Hce)%elem_of_list_fmap. destruct ce as [e r'].
      apply elem_of_list_omap in Hce as (o' & Ho & Eo). destruct o' as [| | | |w' e' r0|]; try done. injection Eo as -> ->.
      cbn. destruct e as [[m'|m'|m'|m'|d']| |]; cbn; intros Ht; try done.
      assert (SoCache w' (HeMsg (HmCachePoW m')) r' ∈ tr) as Hin by (apply Hsub; by auto).
      destruct (who_of _ _ _ _ _ _ _ _ _ _ _ _ Hr Hin) as [n' ->].
      assert (n' ∈ issuers (pc_string cfg) tr0) as Hmm by (apply elem_of_issuers; eauto). rewrite Hi0 in Hmm. by apply elem_of_nil in Hmm.
    - apply Forall_forall. intros e (ce & -> & Hce)%elem_of_list_fmap. destruct ce as [e r'].
      apply elem_of_list_omap in Hce as (o' & Ho & Eo). destruct o' as [| | | |w' e' r0|]; try done. injection Eo as -> ->.
      cbn. destruct e as [m'| |]; [|by intros []..].
      assert (SoCache w' (HeMsg m') r' ∈ tr) as Hin by (apply Hsub; by auto).
      destruct (who_of _ _ _ _ _ _ _ _ _ _ _ _ Hr Hin) as [n' ->].
      destruct m' as [m'|m'|m'|m'|d']; cbn; intros Ht; try done.
      + assert (n' ∈ issuers (pc_string cfg) tr1) as Hmm by (apply elem_of_issuers; eauto). rewrite Hi1 in Hmm. by apply elem_of_nil in Hmm.
      + destruct (asker _ _ _ _ _ _ _ _ _ _ _ _ Hr Hin) as [(w2 & ip2 & Hc2 & ->) _]. cbn in Ht.
        assert (n' = nv) as -> by (by eapply Hsole).
        apply elem_of_list_split in Ho as (ta & tb & ->).
        rewrite E, lookups_app, lookups_cons, lookups_app, lookups_app, (lookups_cons _ _ tb), (lookups_cons _ _ tr2),
          !lookups_one, !app_length in Hlen. cbn [length] in Hlen. lia.
      + by eapply no_deleter.
    - rewrite ctrace_app, fmap_app in Hrun. exact Hrun.
    - rewrite ctrace_app, fmap_app in Hclk. exact Hclk. }
  destruct Hret as [h2 Hst2]. rewrite Hstep in Hst2. injection Hst2 as _ ->.
  eapply (c54_answer _ _ _ _ _ _ _ _ _ _ w ip (CachedPoWConfig id (pc_difficulty_factor cfg) (avr_duration v)) r Hr Hn Hcv); done.
Qed.

Lemma c117_quiet : forall p l t gc wk ql es s tr tr1 n id os tr2 cfg tr3 c t0 m lv,
  s_run p l (sys_start t gc wk ql) es = Some (s, tr) ->
  tr = tr1 ++ SoMaster (Some n) (MeReq (RqAddVisitor id)) os :: tr2 ++ SoRet n (RGetPow (Ok (Some cfg))) :: tr3 ->
  bound (hist (mouts tr1)) id = Some c ->
  let log := site_log p t gc (mtrace tr) in
  let times := (visits t c log).*1 in
  registered t c log = Some (t0, m) -> fresh_mcaptcha m -> ~ restored c log -> count times <= u32_max ->
  prompt p (m_start t gc) (mtrace tr) c ->
  d_levels (m_defense m) !! 0%nat = Some lv ->
  (forall k tm, times !! k = Some tm -> 1 + window (m_duration m) tm (take k times) <= visitor_threshold lv) ->
  pc_difficulty_factor cfg = difficulty_factor lv.
Proof.
  intros p l t gc wk ql es s tr tr1 n id os tr2 cfg tr3 c t0 m lv Hr E Hb log times Hreg Hf Hnr Hfit Hp Hlv Hq.
  destruct (c96_returned p l t gc wk ql es s tr tr1 n id os tr2 cfg tr3 c 0
    (N.succ (clock t (tr1 ++ SoMaster (Some n) (MeReq (RqAddVisitor id)) os :: tr2))) Hr E Hb) as (ch & Hi & _ & _ & <-); [lia..|].
  destruct (issued_visit _ _ _ _ _ _ _ _ _ _ _ _ _ _ Hr Hi) as (id' & k & i & tm & v & _ & Hl & _ & _ & ->).
  pose proof (s_run_m _ _ _ _ _ _ Hr) as M. cbn [sys_start sy_m] in M.
  pose proof (c89_quiet_site p t gc (mtrace tr) _ _ c t0 m lv M Hreg Hf Hnr Hfit Hp Hlv Hq) as H.
  rewrite Forall_forall in H. apply H. apply elem_of_list_fmap. exists (tm, v). split; [done|].
  rewrite visits_untag. apply elem_of_list_fmap. exists (tm, (Some k, v)). split; [done|]. by eapply elem_of_list_lookup_2.
Qed.

Lemma ex_site_fresh : fresh_mcaptcha ex_site.
Proof.
  exists [MBDefense (Defense ex_ladder 0); MBDuration 30], (Defense ex_ladder 0).
  split; [done|]. split; [done|]. exists [DBAdd (Level 2 50); DBAdd (Level 5 70)]. split; [|done].
  repeat constructor; cbn; unfold u32_max; lia.
Qed.
