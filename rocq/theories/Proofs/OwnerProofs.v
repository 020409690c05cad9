(** Proofs for property C110: what is done to the sites does not reach the calls
    that verify work and check tokens. *)
From Coq Require Import ZifyBool ZifyN ZifyNat Lia.
From Verif Require Import Model.Base Model.Defense Model.MCaptcha Model.Counter Model.Master
  Model.HashCache Model.Queue Model.Pow Model.System
  Spec.CacheSpec Spec.QueueSpec Spec.MasterSpec Spec.SystemSpec Spec.OwnerSpec
  Proofs.MasterProofs Proofs.SystemProofs Proofs.SystemHistory.

Record same_rest (s1 s2 : ssys) : Prop := {
  sr_c : sy_c s1 = sy_c s2;
  sr_q : sy_q s1 = sy_q s2;
  sr_answers : sy_answers s1 = sy_answers s2;
  sr_jobs : sy_jobs s1 = sy_jobs s2;
  sr_clients : sy_clients s1 = sy_clients s2;
  sr_next : sy_next s1 = sy_next s2;
  sr_now : s_now s1 = s_now s2 }.
Definition getter (c : client) : bool :=
  match c with GpStart _ | GpWait _ _ | GpCache _ _ _ | GpDone _ => true | _ => false end.

Lemma act_same p l s1 s2 n c rnd s1' o :
  same_rest s1 s2 -> getter c = false -> client_act p l s1 n c rnd = Some (s1', o) ->
  exists s2', client_act p l s2 n c rnd = Some (s2', o) /\ same_rest s1' s2' /\ besides_master o = o.
Proof.
  destruct s1 as [m1 h q r1 a j cl nx], s2 as [m2 h2 q2 r2 a2 j2 cl2 nx2]. intros [? ? ? ? ? ? Hnow] Hg H.
  cbn in *. subst. unfold s_now in Hnow. cbn in Hnow.
  destruct c as [| | | |w ip|w ip cfg|w cfg jb|w cfg jb|w cfg jb tk|w cfg jb tk|m|b]; try done; cbn [client_act] in *; unfold s_cache_msg, s_now, s_return in *;
    cbn [sy_m sy_c sy_q sy_answers sy_jobs] in *; rewrite <- ?Hnow.
  - destruct (hc_handle _ _ _) as [h' r]. destruct r as [|[[cfg|]|e]|]; try done.
    + destruct (decide _); injection H as <- <-; eexists; (split; [reflexivity|]); split; done.
    + injection H as <- <-; eexists; (split; [reflexivity|]); split; done.
    + injection H as <- <-; eexists; (split; [reflexivity|]); split; done.
  - destruct (qs_mgr q2); try (injection H as <- <-; eexists; (split; [reflexivity|]); split; done).
    + destruct (validate _ _) as [sends returns]. destruct (q_step _ _ _) as [[q' os]|]; [|done].
      injection H as <- <-; eexists; (split; [reflexivity|]); split; done.
    + destruct (validate _ _) as [sends returns]. destruct (q_step _ _ _) as [[q' os]|]; [|done].
      injection H as <- <-; eexists; (split; [reflexivity|]); split; done.
  - destruct (a2 !! jb) as [[[]|e]|]; try (injection H as <- <-; eexists; (split; [reflexivity|]); split; done).
    destruct (qs_mgr q2); try done; injection H as <- <-; eexists; (split; [reflexivity|]); split; done.
  - destruct (j2 !! jb) as [v|]; [|done]. destruct (vj_buf v) as [|[] rest].
    + destruct (job_live q2 jb); [done|]. injection H as <- <-; eexists; (split; [reflexivity|]); split; done.
    + injection H as <- <-; eexists; (split; [reflexivity|]); split; done.
    + injection H as <- <-; eexists; (split; [reflexivity|]); split; done.
  - destruct (hc_handle _ _ _) as [h' r]. destruct r as [[]| |]; try done;
      injection H as <- <-; eexists; (split; [reflexivity|]); split; done.
  - injection H as <- <-; eexists; (split; [reflexivity|]); split; done.
  - destruct (hc_handle _ _ _) as [h' r]. destruct r; try done;
      injection H as <- <-; eexists; (split; [reflexivity|]); split; done.
  - injection H as <- <-; eexists; (split; [reflexivity|]); split; done.
Qed.
Lemma queue_same p s1 s2 e s1' o :
  same_rest s1 s2 -> s_queue p s1 e = Some (s1', o) ->
  exists s2', s_queue p s2 e = Some (s2', o) /\ same_rest s1' s2' /\ besides_master o = o.
Proof.
  intros [? Hq Ha ? ? ? ?]. unfold s_queue. rewrite <- Hq. destruct (q_step _ _ _) as [[q os]|]; [|done].
  intros [= <- <-]. eexists. split; [reflexivity|]. split; [|done]. split; try done. cbn. by rewrite Ha.
Qed.
(** A step in which no get_pow takes part. *)
Lemma step_same p l s1 s2 e s1' o :
  same_rest s1 s2 -> s_step p l s1 e = Some (s1', o) -> (forall e', e <> SeMaster e') ->
  (forall n rnd c, e = SeAct n rnd -> sy_clients s1 !! n = Some c -> getter c = false) ->
  exists s2' o', s_step p l s2 e = Some (s2', o') /\ same_rest s1' s2' /\ besides_master o' = besides_master o.
Proof.
  intros Hs H Hm Hg. pose proof Hs as [Hc Hq Ha Hj Hcl Hn Hnow].
  unfold s_step in *. rewrite <- Hq. destruct (qs_mgr (sy_q s1)) eqn:Em; [..|done].
  all: destruct e as [c|n rnd|n|e'| |r|r|r|due d|d].
  all: try by destruct (Hm e').
  all: try (destruct (queue_same _ _ _ _ _ _ Hs H) as (s2' & H2 & Hs' & Ho); rewrite H2; eauto 10).
  all: try (injection H as <- <-; rewrite <- Hn, <- Hcl; eexists _, _; split; [reflexivity|]; split; [split; done|done]).
  all: rewrite <- ?Hcl.
  all: try (destruct (sy_clients s1 !! n) as [c|] eqn:E; [|done]).
  all: try (destruct (act_same _ _ _ _ _ _ _ _ _ Hs (Hg _ _ _ eq_refl E) H) as (s2' & H2 & Hs' & Ho); rewrite H2; eauto 10).
  all: try (injection H as <- <-; eexists _, _; split; [reflexivity|]; split; [|done]; split; cbn; try done; by rewrite ?Hj, ?Hcl).
  all: try (destruct (running_job (sy_q s1) r) as [j|]; [|done]; rewrite <- Hj;
     destruct (sy_jobs s1 !! j) as [v|]; [|done]; destruct (vj_todo v) as [|b rest]; try done).
  all: try (destruct (queue_same _ _ _ _ _ _ Hs H) as (s2' & H2 & Hs' & Ho); rewrite H2; eauto 10).
  all: try match goal with |- context [vj_open ?v] =>
    destruct (vj_open v); cbn [negb] in *; [destruct (length (vj_buf v) <? verdict_capacity)%nat; [|discriminate H]|] end.
  all: try (injection H as <- <-; eexists _, _; split; [reflexivity|]; split; [|reflexivity]; split; try assumption;
     cbn; rewrite Hj; reflexivity).
  all: try (rewrite <- Hc, <- Hnow; destruct (hc_expire _ _ _ _); [|done];
     injection H as <- <-; eexists _, _; split; [reflexivity|]; split; [|done]; split; cbn; done).
  all: destruct (m_step p (sy_m s1) (MeTick d)) as [[m1 os1]|] eqn:E1; [|done]; injection H as <- <-;
    destruct (m_step p (sy_m s2) (MeTick d)) as [[m2 os2]|] eqn:E2; [|done];
    eexists _, _; (split; [reflexivity|]); (split; [|done]); split; try done;
    apply m_step_frame in E1 as [E1 _], E2 as [E2 _]; unfold s_now in *; cbn; rewrite E1, E2, Hnow; done.
Qed.
Lemma master_same p l s1 s2 e s1' o :
  same_rest s1 s2 -> s_step p l s1 (SeMaster e) = Some (s1', o) -> same_rest s1' s2 /\ besides_master o = [].
Proof.
  intros [Hc Hq Ha Hj Hcl Hn Hnow] H. unfold s_step in H.
  assert (exists m os, m_step p (sy_m s1) e = Some (m, os) /\ s1' = with_m s1 m os /\ o = [SoMaster None e os] /\ (forall d, e <> MeTick d))
    as (m & os & E & -> & -> & Ht).
  { destruct (qs_mgr (sy_q s1)); try done; (destruct e; try done;
      (destruct (m_step p (sy_m s1) _) as [[mm oo]|]; [|done]; injection H as <- <-; eauto 10)). }
  split; [|done]. split; try done. unfold s_now. cbn. apply m_step_frame in E as [-> _].
  unfold s_now in Hnow. destruct e; try (by rewrite N.add_0_r). by destruct (Ht d).
Qed.
Lemma getter_called p l t gc wk ql es s tr n c :
  s_run p l (sys_start t gc wk ql) es = Some (s, tr) -> sy_clients s !! n = Some c -> getter c = true ->
  exists id, called tr n (CGetPow id).
Proof.
  intros Hr Hc Hg. pose proof (si_log _ _ _ _ _ _ (run_sinv _ _ _ _ _ _ _ _ _ Hr) _ _ Hc) as Hl.
  assert (forall id lg, of_client n tr = SoCall n (CGetPow id) :: lg -> called tr n (CGetPow id)) as Hin.
  { intros id lg E. assert (SoCall n (CGetPow id) ∈ of_client n tr) as H by (rewrite E; apply elem_of_list_here).
    by apply elem_of_of_client in H as [_ H]. }
  destruct c; try done; cbn in Hl.
  - eauto.
  - destruct Hl as [[os Hl] _]. unfold visit_log in Hl. eauto.
  - destruct Hl as [[os Hl] _]. unfold visit_log in Hl. eauto.
  - destruct Hl as (id & v & os & Hl & _). unfold issue_log, visit_log in Hl. cbn in Hl. eauto.
Qed.
Lemma run_same p l t gc wk ql es0 s tr0 es s1 tr1 :
  s_run p l (sys_start t gc wk ql) es0 = Some (s, tr0) -> s_run p l s es = Some (s1, tr1) -> no_get_pow (tr0 ++ tr1) es ->
  exists s2 tr2, s_run p l s (without_owner es) = Some (s2, tr2) /\ besides_master tr2 = besides_master tr1 /\ same_rest s1 s2.
Proof.
  intros H0. revert s1 tr1. induction es as [|e es IH] using rev_ind; intros s1 tr1 H Hg.
  { injection H as <- <-. exists s, []. split; [done|]. split; done. }
  apply s_run_snoc in H as (sa & tra & o & Ha & He & ->).
  destruct (IH _ _ Ha) as (s2 & tr2 & H2 & Ht & Hs).
  { intros n rnd id Hin Hcall. apply (Hg n rnd id); [apply elem_of_app; by left|]. unfold called in *.
    rewrite app_assoc, elem_of_app. by left. }
  assert (s_run p l (sys_start t gc wk ql) (es0 ++ es) = Some (sa, tr0 ++ tra)) as Hra by (apply s_run_app; eauto 10).
  unfold without_owner, besides_master in *. rewrite !filter_app.
  assert ((exists e', e = SeMaster e') \/ ~ exists e', e = SeMaster e') as [[e' ->]|Hne]
    by (destruct e; try (right; intros [? [=]]; done); left; eauto).
  - destruct (master_same _ _ _ _ _ _ _ Hs He) as [Hs' Ho]. unfold besides_master in Ho.
    exists s2, tr2. rewrite Ho. change (filter _ [SeMaster e']) with (@nil sevent). rewrite !app_nil_r. done.
  - destruct (step_same _ _ _ _ _ _ _ Hs He) as (s2' & o' & He' & Hs' & Ho).
    { intros e' ->. apply Hne. eauto. }
    { intros n rnd c -> Hc. destruct (getter c) eqn:Eg; [|done]. exfalso.
      destruct (getter_called _ _ _ _ _ _ _ _ _ _ _ Hra Hc Eg) as [id Hid]. apply (Hg n rnd id).
      - apply elem_of_app. right. apply elem_of_list_here.
      - unfold called in *. rewrite app_assoc, elem_of_app. by left. }
    exists s2', (tr2 ++ o'). unfold besides_master in Ho. split; [|split; [by rewrite filter_app, Ht, Ho|done]].
    rewrite filter_cons_True; [|destruct e; try done; by apply Hne; eauto].
    apply s_run_snoc. by exists s2, tr2, o'.
Qed.
(** From two states that differ in the Master only, the same can happen. *)
Lemma run_same2 p l t gc wk ql es0 s tr0 s' es s1 tr1 :
  s_run p l (sys_start t gc wk ql) es0 = Some (s, tr0) -> same_rest s s' ->
  s_run p l s es = Some (s1, tr1) -> (forall e, SeMaster e ∉ es) -> no_get_pow (tr0 ++ tr1) es ->
  exists s2 tr2, s_run p l s' es = Some (s2, tr2) /\ besides_master tr2 = besides_master tr1 /\ same_rest s1 s2.
Proof.
  intros H0 Hs0. revert s1 tr1. induction es as [|e es IH] using rev_ind; intros s1 tr1 H Hm Hg.
  { injection H as <- <-. exists s', []. split; [done|]. split; done. }
  apply s_run_snoc in H as (sa & tra & o & Ha & He & ->).
  destruct (IH _ _ Ha) as (s2 & tr2 & H2 & Ht & Hs).
  { intros e' Hin. apply (Hm e'). apply elem_of_app. by left. }
  { intros n rnd id Hin Hcall. apply (Hg n rnd id); [apply elem_of_app; by left|]. unfold called in *.
    rewrite app_assoc, elem_of_app. by left. }
  assert (s_run p l (sys_start t gc wk ql) (es0 ++ es) = Some (sa, tr0 ++ tra)) as Hra by (apply s_run_app; eauto 10).
  destruct (step_same _ _ _ _ _ _ _ Hs He) as (s2' & o' & He' & Hs' & Ho).
  { intros e' ->. apply (Hm e'), elem_of_app. right. apply elem_of_list_here. }
  { intros n rnd c -> Hc. destruct (getter c) eqn:Eg; [|done]. exfalso.
    destruct (getter_called _ _ _ _ _ _ _ _ _ _ _ Hra Hc Eg) as [id Hid]. apply (Hg n rnd id).
    - apply elem_of_app. right. apply elem_of_list_here.
    - unfold called in *. rewrite app_assoc, elem_of_app. by left. }
  exists s2', (tr2 ++ o'). split; [apply s_run_snoc; by exists s2, tr2, o'|].
  unfold besides_master in *. split; [by rewrite !filter_app, Ht, Ho|done].
Qed.
Lemma masters_same p l s ms s1 tr :
  s_run p l s (SeMaster <$> ms) = Some (s1, tr) -> same_rest s s1 /\ besides_master tr = [].
Proof.
  revert s1 tr. induction ms as [|e ms IH] using rev_ind; intros s1 tr H.
  { injection H as <- <-. done. }
  rewrite fmap_app in H. apply s_run_snoc in H as (sa & tra & o & Ha & He & ->).
  destruct (IH _ _ Ha) as [[] Ho]. destruct (master_same p l sa sa e s1 o) as [[] Ho2]; [done|exact He|].
  split; [split; congruence|]. unfold besides_master in *. by rewrite filter_app, Ho, Ho2.
Qed.
