(** The System when a check of a proof panics. *)
From Coq Require Import ZifyBool ZifyN ZifyNat Lia.
From Verif Require Import Model.Base Model.Defense Model.MCaptcha Model.Counter Model.Master
  Model.HashCache Model.Queue Model.Pow Model.System
  Spec.CacheSpec Spec.QueueSpec Spec.MasterSpec Spec.SystemSpec Spec.PanicSpec
  Proofs.CacheProofs Proofs.QueueProofs Proofs.QueuePanics Proofs.MasterProofs Proofs.SystemProofs
  Proofs.SystemLiveness.

(** * The dispatcher panics only when some runner is gone *)
Definition shut (im : inner) : Prop := exists r x, im_runners im !! r = Some x /\ rn_open x = false.
Lemma dispatch_to_panic p im name :
  im_ok im -> im_ips im <> [] -> dispatch_to p im name = Panic -> shut im.
Proof.
  intros Hok Hne H. unfold dispatch_to in H. destruct (im_runners im !! name) as [r|] eqn:Hr; [|done].
  pose proof (vlen_pos _ Hne). unfold usize_sub in H.
  replace (1 <=? vlen (im_ips im)) with true in H by (symmetry; apply N.leb_le; lia). simpl obind in H.
  fold (nidx im) in H. pose proof (nidx_lt im Hok Hne) as Hlt.
  unfold vindex, vget in H. replace (nidx im <? vlen (im_ips im)) with true in H by (symmetry; by apply N.ltb_lt).
  destruct (im_ips im !! N.to_nat (nidx im)) as [ip|] eqn:Hip.
  2:{ apply lookup_ge_None in Hip. unfold vlen in Hlt. lia. }
  simpl obind in H.
  assert (is_Some (im_queues im !! ip)) as [q Hq].
  { apply (io_dom _ Hok). by eapply elem_of_list_lookup_2. }
  rewrite Hq in H. simpl obind in H. destruct q as [|work rest]; [done|].
  destruct (rn_open r) eqn:Ho; [done|]. by exists name, r.
Qed.
Lemma dstep_shut im name o im' : dstep im name o im' -> shut im' -> shut im.
Proof.
  intros [r ip work rest Hr Hopen Hip Hlt Hq|r ip Hr Hip Hlt Hq] (k & x & Hx & Ho); cbn in Hx; [|by exists k, x].
  destruct (decide (name = k)) as [->|Hn].
  - rewrite list_lookup_alter, Hr in Hx. cbn in Hx. injection Hx as <-.
    unfold rn_open in *. cbn in Ho. by rewrite Ho in Hopen.
  - rewrite list_lookup_alter_ne in Hx by done. by exists k, x.
Qed.
Lemma dispatch_names_panic p names im :
  im_ok im -> im_ips im <> [] -> (forall n, n ∈ names -> (n < length (im_runners im))%nat) ->
  dispatch_names p im names = Panic -> shut im.
Proof.
  revert im. induction names as [|n names IH]; intros im Hok Hne Hl H; simpl in H; [done|].
  destruct (lookup_lt_is_Some_2 (im_runners im) n) as [r Hr]; [apply Hl; by left|]. rewrite Hr in H.
  destruct (dispatch_to p im n) as [[im1 o1]|] eqn:E1; [|by eapply dispatch_to_panic]. simpl obind in H.
  destruct (dispatch_names p im1 names) as [[im2 o2]|] eqn:E2; [done|].
  destruct (dispatch_to_val _ _ _ _ _ Hok Hne E1) as [Hd|(? & _)]; [|congruence].
  destruct (dstep_ok _ _ _ _ Hok Hne Hd) as (Hok1 & Hips & _ & Hlen & _).
  eapply dstep_shut; [exact Hd|]. apply IH; [done|by rewrite Hips| |done].
  intros m Hm. rewrite Hlen. apply Hl. by right.
Qed.
Lemma mgr_panic_shut s rest : shut (qs_im s) -> qs_mgr (mgr_panic s rest) = MAborted.
Proof.
  intros (r & x & Hx & Ho). unfold mgr_panic. cbn. replace (existsb _ _) with true; [done|]. symmetry. apply existsb_exists.
  exists x. split; [apply elem_of_list_In; by eapply elem_of_list_lookup_2|]. by rewrite Ho.
Qed.
Lemma mgr_two p w q es s tr :
  q_run p (q_start w q) es = Some (s, tr) -> qs_dropped s = false -> qs_mgr s = MAlive \/ qs_mgr s = MAborted.
Proof.
  revert s tr. induction es as [|e es IH] using rev_ind; intros s tr Hr Hd.
  { injection Hr as <- <-. by left. }
  apply q_run_snoc in Hr as (s1 & tr1 & o & H1 & H2 & ->).
  destruct (q_step_out _ _ _ _ _ H2) as (_ & _ & Hdr & _).
  assert (e <> QeDrop) as Hne.
  { intros ->. unfold q_step in H2. destruct (qs_mgr s1); try done; destruct (qs_dropped s1); try done;
      by injection H2 as <- <-. }
  rewrite (Hdr Hne) in Hd. pose proof (run_pinv _ _ _ _ _ _ H1) as Hp.
  destruct (IH _ _ H1 Hd) as [Ha|Ha]; [|unfold q_step in H2; by rewrite Ha in H2].
  unfold q_step in H2. rewrite Ha in H2. pose proof (pv_im _ _ _ _ _ Hp) as Hi. pose proof (iv_ok _ _ _ _ _ _ _ _ Hi) as Hok.
  destruct e as [ip| |r|r|r| |]; try done.
  - rewrite Hd in H2. injection H2 as <- <-. by left.
  - unfold mgr_step in H2. rewrite Ha in H2. pose proof (pv_stop _ _ _ _ _ Hp Ha Hd) as Hst.
    destruct (qs_inbox s1) as [|[|name|j ip] rest] eqn:Ein; [done| | |].
    + apply Forall_cons in Hst as [Hst _]. by destruct Hst.
    + assert (im_ips (qs_im s1) <> []) as Hne1.
      { intros E. destruct (pv_empty _ _ _ _ _ Hp E) as [Hf _]. rewrite Ein in Hf. apply Forall_cons in Hf as [Hf _]. by apply Hf. }
      destruct (dispatch_to p (qs_im s1) name) as [[im o']|] eqn:E; injection H2 as <- <-; [by left|].
      right. apply mgr_panic_shut. by eapply dispatch_to_panic.
    + destruct (schedule p (qs_im s1) ip j) as [[[im o'] res]|] eqn:E; injection H2 as <- <-; [by left|].
      right. apply mgr_panic_shut. rewrite schedule_push in E by done.
      destruct (vlen (im_ips (qs_im s1)) =? im_queue_length (qs_im s1)) eqn:El; [done|].
      assert (vlen (im_ips (qs_im s1)) < im_queue_length (qs_im s1)) as Hroom.
      { pose proof (io_len _ Hok). apply N.eqb_neq in El. lia. }
      destruct (push_ok _ ip j Hok Hroom) as [Hok1 Hne1].
      destruct (dispatch p (push (qs_im s1) ip j)) as [[im2 o2]|] eqn:E2; [done|].
      unfold dispatch in E2. change (shut (push (qs_im s1) ip j)). eapply dispatch_names_panic; [done|done| |exact E2].
      intros n Hn. apply elem_of_seq in Hn. lia.
  - unfold runner_recv in H2. destruct (im_runners (qs_im s1) !! r) as [[[|[|j] c] []]|]; try done; injection H2 as <- <-; by left.
  - unfold runner_finish in H2. destruct (im_runners (qs_im s1) !! r) as [[c []]|]; try done. rewrite Ha in H2.
    injection H2 as <- <-. by left.
  - unfold runner_panic in H2. destruct (im_runners (qs_im s1) !! r) as [[c []]|]; try done. injection H2 as <- <-. by left.
Qed.
Lemma sys_mgr p l t gc wk ql es s tr :
  s_run p l (sys_start t gc wk ql) es = Some (s, tr) -> qs_mgr (sy_q s) <> MAborted -> qs_mgr (sy_q s) = MAlive.
Proof.
  intros Hr Hn. pose proof (run_sinv _ _ _ _ _ _ _ _ _ Hr) as Hi.
  destruct (mgr_two _ _ _ _ _ _ (si_q _ _ _ _ _ _ Hi) (si_drop _ _ _ _ _ _ Hi)); done.
Qed.

(** * One more call brings the process down *)
Lemma call_aborts p l s ip q' w c h rnd1 rnd2 :
  qs_mgr (sy_q s) = MAlive -> q_run p (sy_q s) [QeAdd ip; QeManager] = Some (q', []) -> qs_mgr q' = MAborted ->
  hc_handle (s_now s) (sy_c s) (HmRetrivePoW (VerifyCaptchaResult (w_string w) (w_key w))) = (h, HrPoW (Ok (Some c))) ->
  w_key w = cc_key c ->
  exists s' tr', s_run p l s [SeCall (CVerifyPow w ip); SeAct (sy_next s) rnd1; SeAct (sy_next s) rnd2; SeManager] = Some (s', tr') /\
    forall e, s_step p l s' e = None.
Proof.
  intros Ha Hq Hab Hh Hk. cbn [q_run] in Hq. destruct (q_step p (sy_q s) (QeAdd ip)) as [[q1 o1]|] eqn:E1; [|done].
  destruct (q_step p q1 QeManager) as [[q2 o2]|] eqn:E2; [|done]. injection Hq as -> Ho.
  assert (qs_mgr q1 = MAlive) as Ha1.
  { unfold q_step in E1. rewrite Ha in E1. destruct (qs_dropped (sy_q s)); [done|]. injection E1 as <- <-. done. }
  assert (o1 = []) as -> by (by destruct o1). cbn [app] in Ho. rewrite app_nil_r in Ho. subst o2.
  cbn [s_run]. unfold s_step at 1. rewrite Ha. unfold s_step at 1. cbn [sy_q]. rewrite Ha. cbn [sy_clients client_start].
  rewrite lookup_insert. cbn [client_act]. unfold s_cache_msg.
  match goal with |- context [hc_handle ?a ?b ?m] => change (hc_handle a b m) with (hc_handle (s_now s) (sy_c s) m) end.
  rewrite Hh. rewrite decide_True by done. unfold s_step at 1. cbn [sy_q with_client with_c]. rewrite Ha.
  cbn [sy_clients with_client with_c]. rewrite lookup_insert. cbn [client_act sy_q with_client with_c]. rewrite Ha, E1.
  destruct (validate _ _) as [sends returns]. unfold s_step at 1.
  cbn [sy_q with_client with_c with_job with_q]. rewrite Ha1. unfold s_queue.
  cbn [sy_q with_client with_c with_job with_q]. rewrite E2. eexists _, _. split; [reflexivity|].
  intros e. apply s_step_aborted. done.
Qed.

(** * Jobs behind the one that panicked *)
Lemma dead_not_live p w q es s tr r ip j :
  q_run p (q_start w q) es = Some (s, tr) -> QePanic r ∈ es -> (r, (ip, j)) ∈ handed tr -> job_live s j = false.
Proof.
  intros Hr Hp Hh. pose proof (run_pinv _ _ _ _ _ _ Hr) as H. pose proof (pv_im _ _ _ _ _ H) as Hi.
  destruct (handed_hrun _ _ _ _ Hh) as [Hrun Hjob]. pose proof (iv_jobs _ _ _ _ _ _ _ _ Hi j) as Hc.
  apply elem_of_cnt in Hjob.
  assert (cnt j (sched_ids (qs_inbox s)) = 0%nat /\ cnt j (waiting (im_queues (qs_im s))) = 0%nat) as [Hs Hw]
    by (destruct (decide _); lia).
  unfold job_live. apply orb_false_iff. split.
  - apply andb_false_iff. right. apply orb_false_iff. split.
    + apply not_true_is_false. intros E. apply existsb_exists in E as (m & Hm & E). apply elem_of_list_In in Hm.
      destruct m as [| |j' ip']; try done. apply Nat.eqb_eq in E as ->.
      assert (j ∈ sched_ids (qs_inbox s)) as Hin; [|apply elem_of_cnt in Hin; lia].
      unfold sched_ids. apply elem_of_list_omap. eexists. split; [exact Hm|done].
    + apply not_true_is_false. intros E. apply existsb_exists in E as (x & Hx & E). apply elem_of_list_In in Hx.
      apply existsb_exists in E as (j' & Hj' & E). apply Nat.eqb_eq in E as <-. apply elem_of_list_In in Hj'.
      assert (j ∈ waiting (im_queues (qs_im s))) as Hin; [|apply elem_of_cnt in Hin; lia].
      unfold waiting. apply elem_of_list_In, in_concat. exists (snd x). split; apply elem_of_list_In; [|done]. by apply elem_of_list_fmap_1.
  - apply not_true_is_false. intros E. apply existsb_exists in E as (x & Hx & E). apply elem_of_list_In in Hx.
    apply elem_of_list_lookup in Hx as [r' Hx]. apply andb_true_iff in E as [Ho E].
    assert (r' = r) as ->.
    { apply orb_true_iff in E as [E|E].
      - apply existsb_exists in E as (m & Hm & E). destruct m as [|j']; [done|]. apply Nat.eqb_eq in E as ->.
        apply elem_of_list_In in Hm.
        destruct (iv_run _ _ _ _ _ _ _ _ Hi _ _ Hx) as (l & El & _).
        eapply hrun_once; [exact H| |exact Hrun]. apply of_runner_elem. rewrite El. apply elem_of_app. right. apply elem_of_app. left.
        unfold proves. apply elem_of_list_omap. exists (RmProve j). done.
      - destruct x as [ch st]. cbn in E. destruct st as [|j'| |]; try done. apply Nat.eqb_eq in E as ->.
        assert (QStart r' j ∈ tr) as Hst.
        { eapply running_started; [apply idle_start|exact Hr|]. unfold running_job. by rewrite Hx. }
        assert ((r', j) ∈ started tr) as Hst' by (apply elem_of_list_omap; by exists (QStart r' j)).
        eapply hrun_once; [exact H| |exact Hrun]. by eapply started_hrun. }
    pose proof (proj2 (iv_dead _ _ _ _ _ _ _ _ Hi _ _ Hx) Hp) as Hd. unfold rn_open in Ho. by rewrite Hd in Ho.
Qed.

(** A client whose job was with a runner that died, and never started. *)
Definition orphan (tr : list sout) (s : ssys) (n : nat) (w : work) (c : cached_pow) (j : job) : Prop :=
  sy_clients s !! n = Some (VpPoll w c j) /\ (exists r ip, QePanic r ∈ qtrace tr /\ (r, (ip, j)) ∈ handed (qouts tr)) /\
  j ∉ (started (qouts tr)).*2.
Lemma orphan_answer p l t gc wk ql es s tr n w c j rnd :
  s_run p l (sys_start t gc wk ql) es = Some (s, tr) -> qs_mgr (sy_q s) <> MAborted -> orphan tr s n w c j ->
  s_step p l s (SeAct n rnd) = Some (leave s n (VpPoll w c j), [SoRet n (RVerifyPow (Err InsuffiencientDifficulty))]).
Proof.
  intros Hr Ha (Hc & (r & ip & Hp & Hh) & Hn). pose proof (run_sinv _ _ _ _ _ _ _ _ _ Hr) as Hi.
  pose proof (dead_not_live _ _ _ _ _ _ _ _ _ (si_q _ _ _ _ _ _ Hi) Hp Hh) as Hl.
  destruct (si_own _ _ _ _ _ _ Hi _ _ _ Hc eq_refl) as (v & Hv & _).
  destruct (run_chan _ _ _ _ _ _ _ _ _ Hr _ _ Hv) as [_ Hb].
  assert (vj_buf v = []) as Eb.
  { destruct (vj_buf v) as [|b rest]; [done|]. destruct Hb as [r' Hs]; [done|]. exfalso. apply Hn.
    apply elem_of_list_fmap. exists (r', j). split; [done|]. apply elem_of_list_omap. by exists (QStart r' j). }
  apply s_step_eq. split; [done|]. cbn [s_step']. rewrite Hc. cbn [client_act]. by rewrite Hv, Eb, Hl.
Qed.
(** Other steps leave it so. *)
Lemma orphan_step p l t gc wk ql es s tr n w c j e s' o :
  s_run p l (sys_start t gc wk ql) es = Some (s, tr) -> orphan tr s n w c j ->
  s_step p l s e = Some (s', o) -> (forall rnd, e <> SeAct n rnd) -> e <> SeCancel n ->
  orphan (tr ++ o) s' n w c j /\ of_client n o = [].
Proof.
  intros Hr (Hc & (r & ip & Hp & Hh) & Hn) Hs Hact Hnc. pose proof (run_sinv _ _ _ _ _ _ _ _ _ Hr) as Hi.
  pose proof (s_step_case _ _ _ _ _ _ Hs) as Hsc.
  assert (s_run p l (sys_start t gc wk ql) (es ++ [e]) = Some (s', tr ++ o)) as Hr1 by (apply s_run_snoc; eauto 10).
  pose proof (run_sinv _ _ _ _ _ _ _ _ _ Hr1) as Hi1.
  assert (sy_next s <> n) as Hfr.
  { intros <-. destruct (si_fresh _ _ _ _ _ _ Hi (sy_next s)) as [E _]; [done|congruence]. }
  split; [split_and!|].
  - clear -Hsc Hc Hact Hnc Hfr. destruct Hsc; try exact Hc; cbn [with_client with_c with_q with_m with_job leave sy_clients];
      try (rewrite lookup_delete_ne; [exact Hc|]); try (rewrite lookup_insert_ne; [exact Hc|]); try done;
      intros ->; try (by apply Hnc); by eapply Hact.
  - exists r, ip. rewrite qtrace_app, qouts_app, handed_app, !elem_of_app. auto.
  - intros Hin. apply elem_of_list_split in Hp as (e1 & e2 & Ep).
    (* the runner was dead before this step *)
    rewrite qouts_app, started_app, fmap_app in Hin. apply elem_of_app in Hin as [Hin|Hin]; [done|].
    apply elem_of_list_fmap in Hin as ([r' j'] & Ej & Hin). cbn in Ej. subst j'.
    pose proof (run_pinv _ _ _ _ _ _ (si_q _ _ _ _ _ _ Hi)) as P. pose proof (run_pinv _ _ _ _ _ _ (si_q _ _ _ _ _ _ Hi1)) as P1.
    assert (QePanic r ∈ qtrace tr) as Hp by (rewrite Ep; set_solver).
    assert ((r', j) ∈ started (qouts (tr ++ o))) as Hin1 by (rewrite qouts_app, started_app; apply elem_of_app; by right).
    pose proof (started_lt _ _ _ _ _ _ _ _ (si_q _ _ _ _ _ _ Hi1) Hin1) as Hw'.
    destruct (lookup_lt_is_Some_2 (im_runners (qs_im (sy_q s'))) r') as [x Hx]; [by rewrite (iv_workers _ _ _ _ _ _ _ _ (pv_im _ _ _ _ _ P1))|].
    pose proof (started_hrun _ _ _ _ _ _ _ _ P1 Hx Hin1) as Hs1.
    assert (r' = r) as ->.
    { eapply hrun_once; [exact P1|exact Hs1|]. rewrite qouts_app, hrun_app. apply elem_of_app. left. by eapply handed_hrun. }
    pose proof (scase_q _ _ _ _ _ _ Hsc) as Hq. pose proof (dead_run _ _ _ _ _ _ _ _ _ _ P Hq Hw' Hp) as Hd.
    apply of_runner_elem in Hin. rewrite Hd in Hin. by apply elem_of_nil in Hin.
  - clear -Hsc Hnc Hact Hfr. unfold of_client.
    destruct Hsc; rewrite ?filter_cons_False; try done; cbn [who]; try congruence;
      intros [= ->]; try (by apply (Hact rnd)); by apply Hnc.
Qed.
Lemma gone_silent p l t gc wk ql es s tr es2 s2 tr2 n :
  s_run p l (sys_start t gc wk ql) es = Some (s, tr) -> sy_clients s !! n = None -> (n < sy_next s)%nat ->
  s_run p l s es2 = Some (s2, tr2) -> of_client n tr2 = [].
Proof.
  revert es s tr tr2. induction es2 as [|e es2 IH]; intros es s tr tr2 Hr Hn Hlt H2; [by injection H2 as <- <-|].
  cbn in H2. destruct (s_step p l s e) as [[s1 o]|] eqn:E; [|done].
  destruct (s_run p l s1 es2) as [[s3 o2]|] eqn:E2; [|done]. injection H2 as -> <-.
  assert (s_run p l (sys_start t gc wk ql) (es ++ [e]) = Some (s1, tr ++ o)) as Hr1 by (apply s_run_snoc; eauto 10).
  apply s_step_case in E. rewrite of_client_app.
  assert (sy_clients s1 !! n = None /\ (n < sy_next s1)%nat /\ of_client n o = []) as (A & B & C).
  { assert (sy_next s <> n) as Hne by lia. clear -E Hn Hlt Hne. unfold of_client.
    destruct E; cbn [with_client with_c with_q with_m with_job leave sy_clients sy_next];
      (split; [|split; [lia|rewrite ?filter_cons_False; try done; cbn [who]; congruence]]); try done;
      try (rewrite lookup_insert_ne; [done|congruence]);
      try (destruct (decide (n0 = n)) as [->|]; [by rewrite lookup_delete|by rewrite lookup_delete_ne]). }
  rewrite C. by eapply IH.
Qed.
Lemma orphan_run p l t gc wk ql es s tr n w c j es2 s2 tr2 x :
  s_run p l (sys_start t gc wk ql) es = Some (s, tr) -> orphan tr s n w c j ->
  s_run p l s es2 = Some (s2, tr2) -> returned tr2 n x -> x = RVerifyPow (Err InsuffiencientDifficulty).
Proof.
  revert es s tr tr2. induction es2 as [|e es2 IH]; intros es s tr tr2 Hr Hor H2 Hin.
  { injection H2 as <- <-. by apply elem_of_nil in Hin. }
  cbn in H2. destruct (s_step p l s e) as [[s1 o]|] eqn:E; [|done].
  destruct (s_run p l s1 es2) as [[s3 o2]|] eqn:E2; [|done]. injection H2 as -> <-.
  assert (s_run p l (sys_start t gc wk ql) (es ++ [e]) = Some (s1, tr ++ o)) as Hr1 by (apply s_run_snoc; eauto 10).
  assert (qs_mgr (sy_q s) <> MAborted) as Ha by (intros Ha; by rewrite s_step_aborted in E).
  pose proof (run_sinv _ _ _ _ _ _ _ _ _ Hr) as Hi.
  assert (n < sy_next s)%nat as Hlt.
  { destruct (Nat.lt_ge_cases n (sy_next s)) as [?|Hge]; [done|].
    destruct (si_fresh _ _ _ _ _ _ Hi n Hge) as [En _]. destruct Hor as [Hc _]. congruence. }
  assert (forall y, returned o2 n y -> sy_clients s1 !! n = None -> (n < sy_next s1)%nat -> False) as Hgone.
  { intros y Hy Hn1 Hl1. pose proof (gone_silent _ _ _ _ _ _ _ _ _ _ _ _ _ Hr1 Hn1 Hl1 E2) as Hs.
    assert (SoRet n y ∈ of_client n o2) as Hy' by (by apply elem_of_of_client). rewrite Hs in Hy'. by apply elem_of_nil in Hy'. }
  apply elem_of_app in Hin.
  assert (e = SeCancel n \/ e <> SeCancel n) as [->|Hnc].
  { destruct e as [| |m| | | | | | |]; try (by right). destruct (decide (m = n)) as [->|]; [by left|right; congruence]. }
  { apply s_step_eq in E as [_ E]. cbn [s_step'] in E. destruct (sy_clients s !! n) as [c0|] eqn:Ec; [|done]. injection E as <- <-.
    destruct Hin as [Hin|Hin]; [by apply elem_of_list_singleton in Hin|]. exfalso. eapply Hgone; [exact Hin|apply lookup_delete|exact Hlt]. }
  destruct e as [c0|n' rnd|n'|e| |r|r|r|due d|d];
    try (destruct (orphan_step _ _ _ _ _ _ _ _ _ _ _ _ _ _ _ _ Hr Hor E ltac:(done) Hnc) as [Hor1 Ho];
         destruct Hin as [Hin|Hin];
         [exfalso; assert (SoRet n x ∈ of_client n o) as Hy by (by apply elem_of_of_client); rewrite Ho in Hy; by apply elem_of_nil in Hy
         |by eapply IH]).
  destruct (decide (n' = n)) as [->|Hne].
  - rewrite (orphan_answer _ _ _ _ _ _ _ _ _ _ _ _ _ rnd Hr Ha Hor) in E. injection E as <- <-.
    destruct Hin as [Hin|Hin]; [apply elem_of_list_singleton in Hin; congruence|]. exfalso.
    eapply Hgone; [exact Hin|apply lookup_delete|exact Hlt].
  - destruct (orphan_step _ _ _ _ _ _ _ _ _ _ _ _ _ _ _ _ Hr Hor E ltac:(congruence) Hnc) as [Hor1 Ho].
    destruct Hin as [Hin|Hin]; [exfalso; assert (SoRet n x ∈ of_client n o) as Hy by (by apply elem_of_of_client); rewrite Ho in Hy; by apply elem_of_nil in Hy
         |by eapply IH].
Qed.

(** * Where panics come from *)
Lemma script_panics l w d sends : script l w d = (sends, false) -> panics l w d.
Proof.
  unfold script, validate, panics, work_pow, pow_of_work. cbn [qw_work qw_string qw_difficulty_factor].
  destruct (is_sufficient_difficulty _ _ _) as [[]|]; [| |by left];
    (destruct (is_valid_proof _ _ _) as [[]|]; [done|done|by right]).
Qed.
Lemma from_client_mono l tr o : from_client l tr -> from_client l (tr ++ o).
Proof.
  intros (n & w & ip & c & H1 & H2 & H3). exists n, w, ip, c. unfold called. rewrite !elem_of_app. auto.
Qed.
Lemma jobs_from p l t gc wk ql es s tr :
  s_run p l (sys_start t gc wk ql) es = Some (s, tr) ->
  (forall j v, sy_jobs s !! j = Some v -> vj_returns v = false -> from_client l tr) /\
  (check_panicked tr -> from_client l tr).
Proof.
  revert s tr. induction es as [|e es IH] using rev_ind; intros s tr Hr.
  { injection Hr as <- <-. split; [intros j v; cbn; by rewrite lookup_empty|]. by intros [r H%elem_of_nil]. }
  apply s_run_snoc in Hr as (s1 & tr1 & o & H1 & H2 & ->). destruct (IH _ _ H1) as [Hj Hp].
  pose proof (run_sinv _ _ _ _ _ _ _ _ _ H1) as Hi. apply s_step_case in H2. split.
  - intros j v Hv Hret. destruct (sy_jobs s1 !! j) as [v1|] eqn:Ev1.
    + apply from_client_mono. apply (Hj j v1); [done|]. rewrite <- Hret. symmetry.
      revert Hv. clear -H2 Ev1 Hi. assert (forall n c, sy_jobs (leave s1 n c) !! j = Some v -> vj_returns v = vj_returns v1) as Hlv.
      { intros n c. cbn [leave sy_jobs]. destruct (client_job c) as [j'|]; [|congruence].
        destruct (decide (j' = j)) as [->|Hne]; [rewrite lookup_alter, Ev1; by intros [= <-]|rewrite lookup_alter_ne by done; congruence]. }
      destruct H2; try (intros Hv; cbn in Hv; congruence); try (apply Hlv);
        cbn [with_job with_client with_q with_c sy_jobs].
      * destruct (decide (j0 = j)) as [->|Hne]; [rewrite lookup_insert; intros [= <-]; cbn; congruence|rewrite lookup_insert_ne by done; congruence].
      * destruct (decide (j0 = j)) as [->|Hne]; [rewrite lookup_insert; intros [= <-]; cbn; congruence|rewrite lookup_insert_ne by done; congruence].
      * destruct (decide (qs_next (sy_q s1) = j)) as [<-|Hne].
        -- assert (is_Some (sy_jobs s1 !! qs_next (sy_q s1))) as Hs by eauto. apply (si_dom _ _ _ _ _ _ Hi) in Hs. lia.
        -- rewrite lookup_insert_ne by done. congruence.
      * destruct (decide (j0 = j)) as [->|Hne]; [rewrite lookup_insert; intros [= <-]; cbn; congruence|rewrite lookup_insert_ne by done; congruence].
    + (* a new job *)
      assert (exists n w ip c, sy_clients s1 !! n = Some (VpAdd w ip c) /\ exists sends, script l w (cc_difficulty_factor c) = (sends, false)) as
        (n & w & ip & c & Hc & sends & Hsc).
      { revert Hv Hret. clear -H2 Ev1.
        assert (forall n c, sy_jobs (leave s1 n c) !! j = Some v -> False) as Hlv.
        { intros n c. cbn [leave sy_jobs]. destruct (client_job c) as [j'|]; [|congruence].
          destruct (decide (j' = j)) as [->|Hne]; [by rewrite lookup_alter, Ev1|rewrite lookup_alter_ne by done; congruence]. }
        destruct H2; try (intros Hv; cbn in Hv; congruence); try (intros Hv; exfalso; by eapply Hlv);
          cbn [with_job with_client with_q with_c sy_jobs];
          try (destruct (decide (j0 = j)) as [->|Hne]; [congruence|rewrite lookup_insert_ne by done; congruence]).
        destruct (decide (qs_next (sy_q s1) = j)) as [<-|Hne]; [|rewrite lookup_insert_ne by done; congruence].
        rewrite lookup_insert. intros [= <-]. cbn. intros ->. exists n, w, ip, c. split; [done|]. by exists sends. }
      destruct (si_log _ _ _ _ _ _ Hi _ _ Hc) as [Elog Hk].
      assert (forall x, x ∈ taken_log n w ip c -> x ∈ tr1) as Hlog.
      { intros x Hx. rewrite <- Elog in Hx. by apply elem_of_of_client in Hx as [_ Hx]. }
      apply from_client_mono. exists n, w, ip, c. split; [apply Hlog; by left|]. split; [apply Hlog; right; by left|].
      split; [done|]. by eapply script_panics.
  - intros [r Hr]. rewrite qtrace_app in Hr. apply elem_of_app in Hr as [Hr|Hr]; [apply from_client_mono, Hp; by exists r|].
    apply from_client_mono. clear -H2 Hr Hj.
    destruct H2; cbn in Hr; try (by apply elem_of_nil in Hr); try (apply elem_of_list_singleton in Hr; try done). by eapply Hj.
Qed.
