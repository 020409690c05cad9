(** Proofs of the theorems of Properties/CleanupProperties.v. *)
From Coq Require Import ZifyBool ZifyN ZifyNat Lia.
From Verif Require Import Model.Base Model.Defense Model.MCaptcha Model.Counter Model.Master
  Spec.MCaptchaSpec Spec.CounterSpec Spec.MasterSpec
  Proofs.MCaptchaProofs Proofs.CounterProofs Proofs.MasterProofs Proofs.MasterTasks Proofs.MasterLoops
  Proofs.DefenseTheorems Proofs.MCaptchaTheorems Proofs.CounterTheorems Proofs.MasterTheorems.
Import Master.

Lemma c28_ahead_refuted : forall p t gc es s tr w todo id x,
  m_run p (m_start t gc) es = Some (s, tr) -> my_alive s = true ->
  my_tasks s !! w = Some (TClean todo PCount) -> (id, x) ∈ todo -> bound (hist tr) id = Some (si_ctr x) ->
  alive_at s (si_ctr x) ->
  exists n s' tr', m_run p s (MeReq (RqRemove id) :: MeTask (my_next s) :: replicate n (MeTask w)) = Some (s', tr') /\
    (** the removal succeeds *)
    answers (my_reqs s) tr' = [MrUnit (Ok tt)] /\
    (** and the master is gone *)
    forall es2 s2 tr2 r, m_run p s' es2 = Some (s2, tr2) ->
      exists s3, m_step p s2 (MeReq r) = Some (s3, [MoReply (my_reqs s2) MrClosed]).
Proof.
  intros p t gc es s tr w todo id x Hr Ha Ht Hin Hb (y & Hy & Hya). pose proof (run_inv _ _ _ _ _ _ Hr) as Hi.
  pose proof (run_bound_some _ _ _ _ _ _ _ _ Hr Hb) as Hsi. destruct (mv_task _ Hi _ _ Ht) as (Hw & _).
  pose proof (lookup_lt_Some _ _ _ Hy) as Hlt.
  assert (exists s0, m_step p s (MeReq (RqRemove id)) = Some (s0, [MoHandle (RqRemove id)]) /\
          my_alive s0 = true /\ my_tasks s0 = <[my_next s := TStop (Some (my_reqs s)) (si_ctr x)]> (my_tasks s) /\
          my_ctrs s0 = my_ctrs s)
    as (s0 & H0 & Ha0 & Ht0 & Hc0).
  { cbn [m_step m_handle]. rewrite Ha. unfold rm_site. cbn [my_sites]. rewrite Hsi. eexists. by split. }
  assert (exists s1, m_step p s0 (MeTask (my_next s)) = Some (s1, [MoReply (my_reqs s) (MrUnit (Ok tt))]) /\
          my_alive s1 = true /\ my_tasks s1 !! w = Some (TClean todo PCount) /\ dead_at s1 (si_ctr x))
    as (s1 & H1 & Ha1 & Ht1 & Hd1).
  { cbn [m_step]. rewrite Ha0. unfold task_step. rewrite Ht0, lookup_insert. unfold send_counter.
    rewrite Hc0, Hy. unfold counter_handle. rewrite Hya. eexists. split; [done|]. split; [done|]. split.
    - cbn. rewrite Ht0. rewrite lookup_delete_ne by lia. by rewrite lookup_insert_ne by lia.
    - exists (kill y). split; [|done]. cbn. by apply list_lookup_insert. }
  pose proof (m_step_inv _ _ _ _ _ Hi H0) as Hi0. pose proof (m_step_inv _ _ _ _ _ Hi0 H1) as Hi1.
  destruct (death_ahead p w todo s1 Hi1 Ha1 Ht1) as (n & s' & o & Hrun & Hd); [by exists id, x|].
  exists n, s'. eexists. split; [eapply run_cons; [exact H0|]; by eapply run_cons; [exact H1|]|]. split.
  - rewrite (answers_app _ [_]), (answers_app _ [_]).
    assert (m_run p (m_start t gc) (es ++ MeReq (RqRemove id) :: MeTask (my_next s) :: replicate n (MeTask w)) =
      Some (s', tr ++ [MoHandle (RqRemove id)] ++ [MoReply (my_reqs s) (MrUnit (Ok tt))] ++ o)) as Hall.
    { apply MasterProofs.m_run_app. eexists _, _, _. split; [exact Hr|]. split; [|done].
      eapply run_cons; [exact H0|]. by eapply run_cons; [exact H1|]. }
    destruct (c75_answered_once _ _ _ _ _ _ (my_reqs s) Hall) as (Hone & _).
    rewrite !answers_app, !app_length in Hone. cbn [answers] in *.
    change (answers (my_reqs s) [MoReply (my_reqs s) (MrUnit (Ok tt))]) with
      (answers (my_reqs s) (reply (Some (my_reqs s)) (MrUnit (Ok tt)))) in *.
    rewrite answers_reply_eq in *. cbn in Hone |- *. by destruct (answers (my_reqs s) o); [|cbn in Hone; lia].
  - intros es2 s2 tr2 r Hr2. apply dead_answers. by destruct (dead_run _ _ _ _ _ Hd Hr2).
Qed.

Lemma c102_stays_refuted : forall p t gc es s tr,
  m_run p (m_start t gc) es = Some (s, tr) -> my_alive s = true ->
  (forall w todo ph, my_tasks s !! w <> Some (TClean todo ph)) ->
  exists ws s' tr', m_run p s (MeTick (gc * NS) :: (MeTask <$> ws)) = Some (s', tr') /\
    handled tr' = replicate (S (cleanups_asked es)) RqCleanUp.
Proof.
  intros p t gc es s tr Hr Ha Hn. pose proof (run_inv _ _ _ _ _ _ Hr) as Hi.
  destruct (run_loops _ _ _ _ _ _ Hr Ha) as (_ & (ts & Hnd & Hlen & Hts) & Hd).
  destruct (m_step p s (MeTick (gc * NS))) as [[s1 o1]|] eqn:E; [|done].
  pose proof (m_step_inv _ _ _ _ _ Hi E) as Hi1. injection E as <- <-.
  destruct (wake_all p ts _ Hi1 Ha Hnd) as (s' & o & Hr' & Ho).
  { intros w Hw. apply Hts in Hw as ([due| | | | | |] & Hx & Hl); try done; [|by destruct (Hn _ _ _ Hx)].
    exists due. split; [done|]. cbn. by eapply Hd. }
  exists ts, s', ([] ++ o). split; [by eapply run_cons|]. by rewrite <- Hlen.
Qed.

Lemma c102_how_many : forall p t gc es s tr,
  m_run p (m_start t gc) es = Some (s, tr) -> my_alive s = true ->
  exists ts, NoDup ts /\ length ts = S (cleanups_asked es) /\
    forall w, w ∈ ts <-> exists x, my_tasks s !! w = Some x /\
      ((exists due, x = TWake due) \/ exists todo ph, x = TClean todo ph).
Proof.
  intros p t gc es s tr Hr Ha. destruct (run_loops _ _ _ _ _ _ Hr Ha) as (_ & (ts & Hnd & Hlen & Hts) & _).
  exists ts. split; [done|]. split; [done|]. intros w. rewrite Hts. split; intros (x & Hx & Hl); exists x; (split; [done|]).
  - destruct x; try done; eauto.
  - destruct Hl as [[due ->]|(todo & ph & ->)]; done.
Qed.

Lemma c102_overlap_refuted : forall p t gc es s tr w due id c,
  m_run p (m_start t gc) es = Some (s, tr) -> my_alive s = true ->
  my_tasks s !! w = Some (TWake due) -> due <= my_now s ->
  (forall id c, bound (hist tr) id = Some c -> alive_at s c) ->
  bound (hist tr) id = Some c -> used (hist tr) id = true -> count_at s c 0 ->
  exists n n' s' tr',
    m_run p s (MeTask w :: MeReq RqCleanUp :: replicate n (MeTask (my_next s)) ++ replicate n' (MeTask (S (my_next s)))) =
      Some (s', tr') /\
    answers (my_reqs s) tr' = [MrUnit (Ok tt)] /\
    forall es2 s2 tr2 r, m_run p s' es2 = Some (s2, tr2) ->
      exists s3, m_step p s2 (MeReq r) = Some (s3, [MoReply (my_reqs s2) MrClosed]).
Proof.
  intros p t gc es s tr w due id c Hr Ha Hw Hd Hal Hb Hu (y & Hy & Hya & Hy0). pose proof (run_inv _ _ _ _ _ _ Hr) as Hi.
  set (s1 := spawn (end_task s w) (TClean (sites_iter (my_sites s)) PCount)).
  assert (m_step p s (MeTask w) = Some (s1, [MoHandle RqCleanUp])) as H1.
  { cbn [m_step]. rewrite Ha. unfold task_step. rewrite Hw. by replace (due <=? my_now s) with true by lia. }
  pose proof (m_step_inv _ _ _ _ _ Hi H1) as Hi1.
  destruct (m_step p s1 (MeReq RqCleanUp)) as [[s2 o2]|] eqn:E2; [|by cbn [m_step] in E2; destruct (my_alive s1)].
  pose proof (m_step_inv _ _ _ _ _ Hi1 E2) as Hi2. pose proof E2 as E2'. cbn [m_step] in E2.
  replace (my_alive s1) with true in E2 by done. cbn [m_handle] in E2. injection E2 as <- <-.
  match type of Hi2 with minv ?x => set (s2 := x) in * end.
  assert (my_tasks s2 !! my_next s = Some (TClean (sites_iter (my_sites s)) PCount)) as HA.
  { unfold s2, s1. cbn. rewrite lookup_insert_ne by lia. apply lookup_insert. }
  assert (my_tasks s2 !! S (my_next s) = Some (TClean (sites_iter (my_sites s)) PCount)) as HB.
  { unfold s2, s1. cbn. apply lookup_insert. }
  assert ((id, Site true c) ∈ sites_iter (my_sites s)) as Hin.
  { apply sites_iter_elem. rewrite (run_bound_some _ _ _ _ _ _ _ _ Hr Hb). by rewrite Hu. }
  destruct (clean_pass p (my_next s) (sites_iter (my_sites s)) s2 Hi2) as (n & s3 & o3 & Hr3 & _ & Ha3 & _ & Hans & _ & _ & Hk & _);
    [done|exact HA| | |].
  { intros id' x Hx. apply sites_iter_elem in Hx. exists (si_read x). cbn. rewrite Hx. by destruct x. }
  { intros id' x Hx. apply sites_iter_elem in Hx. apply (Hal id'). apply (run_bound_iff _ _ _ _ _ _ _ _ Hr). exists (si_read x).
    rewrite Hx. by destruct x. }
  assert (dead_at s3 c) as Hdead.
  { exists (kill y). split; [|done]. apply (Hk id (Site true c) y Hin); [|exact Hy].
    unfold idle_b. cbn [si_read si_ctr]. change (my_ctrs s2) with (my_ctrs s). rewrite Hy.
    rewrite Hy0. done. }
  pose proof (run_inv_from _ _ _ _ _ Hi2 Hr3) as Hi3.
  assert (my_tasks s3 !! S (my_next s) = Some (TClean (sites_iter (my_sites s)) PCount)) as HB3.
  { eapply other_task_kept; [exact Hi2|exact Ha3| |exact Hr3|exact HB]. lia. }
  destruct (death_ahead p (S (my_next s)) _ s3 Hi3 Ha3 HB3) as (n' & s4 & o4 & Hr4 & Ha4).
  { by exists id, (Site true c). }
  assert (m_run p s (MeTask w :: MeReq RqCleanUp :: replicate n (MeTask (my_next s)) ++ replicate n' (MeTask (S (my_next s)))) =
    Some (s4, [MoHandle RqCleanUp] ++ (MoHandle RqCleanUp :: reply (Some (my_reqs s)) (MrUnit (Ok tt))) ++ o3 ++ o4)) as Hall.
  { eapply run_cons; [exact H1|]. eapply run_cons; [exact E2'|]. apply MasterProofs.m_run_app. eexists _, _, _.
    split; [exact Hr3|]. by split. }
  exists n, n', s4. eexists. split; [exact Hall|]. split.
  - assert (m_run p (m_start t gc) (es ++ MeTask w :: MeReq RqCleanUp :: replicate n (MeTask (my_next s)) ++ replicate n' (MeTask (S (my_next s)))) =
      Some (s4, tr ++ [MoHandle RqCleanUp] ++ (MoHandle RqCleanUp :: reply (Some (my_reqs s)) (MrUnit (Ok tt))) ++ o3 ++ o4)) as Hall'.
    { apply MasterProofs.m_run_app. eexists _, _, _. split; [exact Hr|]. by split. }
    destruct (c75_answered_once _ _ _ _ _ _ (my_reqs s) Hall') as (Hone & _).
    change (MoHandle RqCleanUp :: reply (Some (my_reqs s)) (MrUnit (Ok tt))) with
      ([MoHandle RqCleanUp] ++ reply (Some (my_reqs s)) (MrUnit (Ok tt))) in *.
    rewrite !answers_app, answers_reply_eq in *. rewrite !app_length in Hone. cbn in Hone |- *.
    rewrite Hans in *. cbn in Hone |- *. by destruct (answers (my_reqs s) o4); [|cbn in Hone; lia].
  - intros es2 s2' tr2 r Hr2. apply dead_answers. by destruct (dead_run _ _ _ _ _ Ha4 Hr2).
Qed.
