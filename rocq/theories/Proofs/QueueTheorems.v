(** Proofs of the theorems of Properties/QueueProperties.v. *)
From Coq Require Import ZifyBool ZifyN ZifyNat Lia.
From Verif Require Import Model.Base Model.Queue Spec.QueueSpec Proofs.QueueProofs.

Lemma c38_conservation p w q es s tr :
  no_job_panics es -> q_run p (q_start w q) es = Some (s, tr) ->
  NoDup (answered tr) /\
  (snd <$> accepted tr) ≡ₚ
    waiting_in_queues s ++ at_runners s ++ running_jobs s ++ (snd <$> finished tr) /\
  NoDup (snd <$> accepted tr) /\
  (forall j, j ∈ rejected tr -> j ∉ (snd <$> started tr) /\ j ∉ (snd <$> accepted tr)).
Proof. apply conservation. Qed.

Lemma c38_answers_in_order p w q es s tr :
  no_job_panics es -> q_run p (q_start w q) es = Some (s, tr) ->
  answered_calls tr `prefix_of` calls es /\
  (qs_inbox s = [] -> answered_calls tr = calls es).
Proof.
  intros Hnp Hr. destruct (run_calls _ _ _ _ _ _ Hnp Hr) as (_ & H & _). split.
  - by eexists.
  - intros Hin. by rewrite Hin, app_nil_r in H.
Qed.

Lemma c39_fifo_per_ip p w q es s tr ip :
  no_job_panics es -> q_run p (q_start w q) es = Some (s, tr) ->
  of_ip ip (accepted tr) = of_ip ip (snd <$> handed tr) ++ queue_of s ip.
Proof. intros Hnp Hr. destruct (run_tinv _ _ _ _ _ _ Hnp Hr) as [_ Ht]. apply Ht. Qed.

Lemma c39_fifo_per_runner p w q es s tr r rn :
  no_job_panics es -> q_run p (q_start w q) es = Some (s, tr) ->
  im_runners (qs_im s) !! r = Some rn ->
  of_runner r ((fun x => (x.1, x.2.2)) <$> handed tr) =
    of_runner r (finished tr) ++ running (rn_state rn) ++ proves (rn_chan rn).
Proof. intros Hnp Hr. destruct (run_tinv _ _ _ _ _ _ Hnp Hr) as [_ Ht]. apply Ht. Qed.

Lemma c40_manager_alive p w q es s tr :
  no_job_panics es -> q_run p (q_start w q) es = Some (s, tr) ->
  qs_mgr s <> MPanicked /\ qs_mgr s <> MAborted /\ (qs_dropped s = false -> qs_mgr s = MAlive).
Proof.
  intros Hnp Hr. destruct (run_tinv _ _ _ _ _ _ Hnp Hr) as [Hi _].
  destruct (qi_mgr _ _ _ Hi). pose proof (qi_inbox _ _ _ Hi) as Hb.
  split_and!; try done. intros Hd. rewrite Hd in Hb. destruct (qs_mgr s); [done|by destruct Hb..].
Qed.

Lemma c40_manager_progress p w q es s tr m rest :
  no_job_panics es -> q_run p (q_start w q) es = Some (s, tr) ->
  qs_mgr s = MAlive -> qs_inbox s = m :: rest ->
  exists s' o, q_step p s QeManager = Some (s', o) /\ qs_inbox s' = rest /\
    forall j ip, m = ImSchedule j ip -> exists r, QAnswer j ip r ∈ o.
Proof.
  intros Hnp Hr. destruct (run_calls _ _ _ _ _ _ Hnp Hr) as (Hi & _). by eapply manager_progress.
Qed.

Lemma c41_queue_full p w q es s tr s' o j ip r :
  no_job_panics es -> q_run p (q_start w q) es = Some (s, tr) ->
  q_step p s QeManager = Some (s', o) -> QAnswer j ip r ∈ o ->
  (r = Err QueueFull <-> N.of_nat (distinct_ips tr) = q) /\ (r = Ok tt <-> N.of_nat (distinct_ips tr) <> q).
Proof.
  intros Hnp Hr Hs Hin. destruct (run_tinv _ _ _ _ _ _ Hnp Hr) as [Hi Ht].
  unfold distinct_ips. rewrite <- (ips_distinct _ _ _ (qi_ok _ _ _ Hi) Ht).
  assert (forall r, QeManager <> QePanic r) as Hnm by done.
  pose proof (step_case _ _ _ _ _ _ _ Hi Hnm Hs) as Hc. pose proof (qi_len _ _ _ Hi) as Hl.
  inversion Hc as [|rest Ha Hin' |name rest o' im Ha Hin' Hne' Hds|name rest Ha Hin' Hge|j' ip' rest Ha Hin' Hl'
    |j' ip' rest im1 o' im2 Ha Hin' Hl' Him1 Hok1 Hne1 Hds| | | | | ]; subst.
  - by apply elem_of_nil in Hin.
  - exfalso. destruct Hds; repeat (apply elem_of_cons in Hin as [Hin|Hin]; [done|]); by apply elem_of_nil in Hin.
  - by apply elem_of_nil in Hin.
  - apply elem_of_list_singleton in Hin. injection Hin as -> -> ->. unfold vlen in Hl'. done.
  - assert (r = Ok tt) as ->.
    { apply elem_of_app in Hin as [Hin|Hin].
      - exfalso. clear -Hds Hin.
        assert (j ∈ answered o') as Hx by (apply elem_of_list_omap; by exists (QAnswer j ip r)).
        destruct (dsteps_silent _ _ _ _ Hds) as (_ & E & _). rewrite E in Hx. by apply elem_of_nil in Hx.
      - apply elem_of_list_singleton in Hin. by injection Hin as _ _ ->. }
    unfold vlen in Hl'. split; split; intros H; try done; lia.
Qed.

Lemma c41_bounded p w q es s tr :
  no_job_panics es -> q_run p (q_start w q) es = Some (s, tr) ->
  N.of_nat (distinct_ips tr) <= q /\ N.of_nat (size (im_queues (qs_im s))) <= q.
Proof.
  intros Hnp Hr. destruct (run_tinv _ _ _ _ _ _ Hnp Hr) as [Hi Ht].
  unfold distinct_ips. rewrite <- (ips_distinct _ _ _ (qi_ok _ _ _ Hi) Ht), (im_ok_size _ (qi_ok _ _ _ Hi)).
  pose proof (io_len _ (qi_ok _ _ _ Hi)) as H. rewrite (qi_len _ _ _ Hi) in H. done.
Qed.

Lemma c42_full_forever_refuted p w q es s tr es' s' tr' :
  no_job_panics es -> q_run p (q_start w q) es = Some (s, tr) ->
  N.of_nat (distinct_ips tr) = q ->
  no_job_panics es' -> q_run p s es' = Some (s', tr') ->
  forall j ip r, QAnswer j ip r ∈ tr' -> r = Err QueueFull.
Proof.
  intros Hnp Hr Hf Hnp' Hr'. destruct (run_tinv _ _ _ _ _ _ Hnp Hr) as [Hi Ht].
  unfold distinct_ips in Hf. rewrite <- (ips_distinct _ _ _ (qi_ok _ _ _ Hi) Ht) in Hf.
  by eapply full_forever.
Qed.

Lemma c43_fair p w q es s tr ip k j es' s' tr' :
  no_job_panics es -> q_run p (q_start w q) es = Some (s, tr) ->
  queue_of s ip !! k = Some j ->
  no_job_panics es' -> q_run p s es' = Some (s', tr') ->
  N.of_nat (S k) * q <= N.of_nat (length (tries tr')) ->
  exists r, QHand r ip j ∈ tr'.
Proof.
  intros Hnp Hr Hk Hnp' Hr' Hl. destruct (run_tinv _ _ _ _ _ _ Hnp Hr) as [Hi _].
  by eapply fairness.
Qed.

Lemma c43_attempts p w q es s tr :
  no_job_panics es -> q_run p (q_start w q) es = Some (s, tr) -> qs_mgr s = MAlive ->
  (length (tries tr) + requests_pending s = w * length (accepted tr) + length (finished tr))%nat.
Proof. apply run_attempts. Qed.

Lemma c44_stranded_refuted p w q :
  N.of_nat w + 1 < q ->
  exists es s tr j, no_job_panics es /\ q_run p (q_start w q) es = Some (s, tr) /\
    quiescent s /\ qs_mgr s = MAlive /\
    j ∈ (snd <$> accepted tr) /\ j ∈ waiting_in_queues s /\ j ∉ (snd <$> started tr) /\
    (forall e, (forall ip, e <> QeAdd ip) -> e <> QeDrop -> q_step p s e = None).
Proof.
  intros Hq. destruct (quiescent_waiting_exists p w q Hq) as (es & s & tr & Hnp & Hr & Hqs & Hm & Hd & Hw).
  destruct (waiting_in_queues s) as [|j l] eqn:Ew; [done|]. exists es, s, tr, j.
  destruct (conservation _ _ _ _ _ _ Hnp Hr) as (_ & Hp & Hnd & _).
  destruct (run_tinv _ _ _ _ _ _ Hnp Hr) as [Hi Ht].
  split; [done|]. split; [done|]. split; [done|]. split; [done|].
  split. { rewrite Hp, Ew. by left. } rewrite Ew. split; [by left|]. split.
  - intros Hs. apply elem_of_cnt in Hs. rewrite (ti_started_all _ _ _ Ht j) in Hs.
    rewrite Hp in Hnd. rewrite Ew in Hnd.
    apply NoDup_app in Hnd as (_ & Hdis & _). apply (Hdis j ltac:(by left)).
    apply elem_of_app. right. apply elem_of_app.
    unfold running_jobs. rewrite !elem_of_cnt. lia.
  - intros e Ha Hdr. destruct (decide (e = QeJoin)) as [->|Hj].
    + unfold q_step. by rewrite Hm.
    + by apply quiescent_stuck.
Qed.

Lemma c45_enough_runners p w q es s tr :
  no_job_panics es -> q_run p (q_start w q) es = Some (s, tr) ->
  (distinct_ips tr <= w)%nat ->
  waiting_in_queues s = [] /\ (snd <$> accepted tr) ≡ₚ ((fun x => x.2.2) <$> handed tr).
Proof.
  intros Hnp Hr Hle. destruct (run_tinv _ _ _ _ _ _ Hnp Hr) as [Hi Ht].
  unfold distinct_ips in Hle. rewrite <- (ips_distinct _ _ _ (qi_ok _ _ _ Hi) Ht) in Hle.
  pose proof (proj1 (all_empty_waiting _) (nothing_waits _ _ _ _ _ _ Hnp Hr Hle)) as He.
  split; [exact He|]. apply cnt_perm. intros j. rewrite (ti_acc _ _ _ Ht j).
  unfold waiting. rewrite He, cnt_nil. unfold hjobs. lia.
Qed.

Lemma c46_exited_finished p w q es s tr r rn :
  no_job_panics es -> q_run p (q_start w q) es = Some (s, tr) ->
  im_runners (qs_im s) !! r = Some rn -> rn_state rn = RExited ->
  of_runner r ((fun x => (x.1, x.2.2)) <$> handed tr) = of_runner r (finished tr).
Proof.
  intros Hnp Hr Hrn He. rewrite (c39_fifo_per_runner _ _ _ _ _ _ _ _ Hnp Hr Hrn), He. simpl.
  destruct (run_tinv _ _ _ _ _ _ Hnp Hr) as [Hi _].
  pose proof (Forall_lookup_1 _ _ _ _ (qi_runners _ _ _ Hi) Hrn) as Hri.
  unfold runner_inv in Hri. unfold rn_open in Hri. rewrite He in Hri.
  destruct (qs_mgr s).
  - by destruct Hri.
  - destruct Hri as [[? _]|[_ ->]]; [done|]. by rewrite app_nil_r.
  - destruct Hri as [_ ->]. by rewrite app_nil_r.
  - done.
  - done.
Qed.

Lemma c46_nothing_after_stop p w q es s tr es' s' tr' :
  no_job_panics es -> q_run p (q_start w q) es = Some (s, tr) -> qs_mgr s <> MAlive ->
  no_job_panics es' -> q_run p s es' = Some (s', tr') ->
  handed tr' = [] /\ answered tr' = [] /\ answered tr = seq 0 (qs_next s) /\
  (forall j, j ∈ waiting_in_queues s -> j ∉ (snd <$> started (tr ++ tr'))).
Proof.
  intros Hnp Hr Hm Hnp' Hr'. destruct (run_tinv _ _ _ _ _ _ Hnp Hr) as [Hi Ht].
  destruct (after_stop _ _ _ _ _ _ _ Hi Hm Hnp' Hr') as (_ & Hh & Ha & Hq).
  split; [done|]. split; [done|]. split.
  { rewrite <- (run_answers _ _ _ _ _ _ Hnp Hr). pose proof (qi_inbox _ _ _ Hi) as Hb.
    assert (Forall is_dispatch (qs_inbox s)) as Hd by (destruct (qs_mgr s); [done|by destruct Hb..]).
    replace (sched_ids (qs_inbox s)) with (@nil job); [by rewrite app_nil_r|].
    clear -Hd. induction Hd as [|m l Hm _ IH]; [done|]. by destruct m. }
  intros j Hj Hs.
  assert (q_run p (q_start w q) (es ++ es') = Some (s', tr ++ tr')) as Hrr by (apply q_run_app; eauto 10).
  assert (no_job_panics (es ++ es')) as Hnn by (by apply Forall_app).
  destruct (run_tinv _ _ _ _ _ _ Hnn Hrr) as [_ Ht'].
  destruct (conservation _ _ _ _ _ _ Hnn Hrr) as (_ & Hp & Hnd & _).
  rewrite Hp in Hnd. apply NoDup_app in Hnd as (_ & Hdis & _). apply (Hdis j).
  { unfold waiting_in_queues in *. by rewrite Hq. }
  apply elem_of_cnt in Hs. rewrite (ti_started_all _ _ _ Ht' j) in Hs.
  apply elem_of_app. right. apply elem_of_app. unfold running_jobs. rewrite !elem_of_cnt. lia.
Qed.

Lemma c46_shutdown_completes p w q es s tr :
  no_job_panics es -> q_run p (q_start w q) es = Some (s, tr) -> qs_mgr s = MDraining ->
  (exists n, forall es' s' tr', no_job_panics es' -> q_run p s es' = Some (s', tr') -> (length es' <= n)%nat) /\
  (forall es' s' tr', no_job_panics es' -> q_run p s es' = Some (s', tr') ->
     qs_mgr s' = MDone \/ exists e s'' o, (forall r, e <> QePanic r) /\ q_step p s' e = Some (s'', o)).
Proof.
  intros Hnp Hr Hm. destruct (run_tinv _ _ _ _ _ _ Hnp Hr) as [Hi Ht].
  assert (qs_mgr s <> MAlive) as Hma by (by rewrite Hm). split.
  - exists (shutdown_measure s). intros es' s' tr' Hnp' Hr'.
    pose proof (shutdown_bounded _ _ _ _ _ _ _ Hi Hma Hnp' Hr'). lia.
  - intros es' s' tr' Hnp' Hr'. destruct (after_stop _ _ _ _ _ _ _ Hi Hma Hnp' Hr') as (Hma' & _).
    assert (qinv w q s') as Hi' by (eapply (run_ind_from (fun _ _ => True) p w q s Hi); eauto).
    destruct (qi_mgr _ _ _ Hi'). destruct (qs_mgr s') eqn:E; try done; [|by left].
    right. by eapply shutdown_progress.
Qed.

Lemma c64_job_panic_refuted p q ip :
  1 < q ->
  exists s tr, q_run p (q_start 1 q)
      [QeAdd ip; QeManager; QeRecv 0; QePanic 0; QeAdd ip; QeManager] = Some (s, tr) /\
    qs_mgr s = MAborted /\ (forall e, q_step p s e = None).
Proof.
  intros Hq.
  set (m1 := <[ip := [0%nat]]> (∅ : gmap string (list job))). set (m2 := <[ip := []]> m1).
  assert (size m1 = 1%nat) as Hm1 by (unfold m1; by rewrite map_size_insert_None, map_size_empty).
  assert (size m2 = 1%nat) as Hm2.
  { unfold m2. rewrite map_size_insert_Some; [done|]. unfold m1. rewrite lookup_insert. by eexists. }
  assert (schedule p (inner_new 1 q) ip 0%nat =
          Val (Inner m2 [Runner [RmProve 0%nat] RIdle] [ip] 0 q, [QTry 0 ip; QHand 0 ip 0%nat], Ok tt)) as E1.
  { unfold schedule, inner_new, im_queues, im_queue_length. rewrite map_size_empty.
    replace (N.of_nat 0 =? q) with false by (symmetry; apply N.eqb_neq; lia).
    rewrite lookup_empty. fold m1. unfold dispatch, dispatch_to. simpl.
    unfold dispatch_to, usize_sub, vindex, vget, vlen. simpl.
    unfold m1. rewrite lookup_insert. done. }
  assert (schedule p (Inner m2 [Runner [] RDead] [ip] 0 q) ip 1%nat = Panic) as E2.
  { unfold schedule, im_queues, im_queue_length. rewrite Hm2.
    replace (N.of_nat 1 =? q) with false by (symmetry; apply N.eqb_neq; lia).
    unfold m2. rewrite lookup_insert. unfold dispatch. simpl.
    unfold dispatch_to, usize_sub, vindex, vget, vlen. simpl.
    rewrite lookup_insert. done. }
  exists (QSys (Inner m2 [Runner [] RDead] [ip] 0 q) [] MAborted false 2). eexists. split.
  - apply (q_run_app p _ [QeAdd ip; QeManager] [QeRecv 0; QePanic 0; QeAdd ip; QeManager]).
    eexists (QSys (Inner m2 [Runner [RmProve 0%nat] RIdle] [ip] 0 q) [] MAlive false 1), _, _. split.
    { cbn [q_run q_step q_start qs_mgr qs_dropped qs_im qs_inbox qs_next app mgr_step]. by rewrite E1. }
    split; [|reflexivity].
    cbn -[schedule m2 m1]. fold m1 m2. unfold set_runner, with_runners; cbn -[schedule m2 m1].
    rewrite E2. reflexivity.
  - split; [done|]. by intros e.
Qed.
