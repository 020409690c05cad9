(** Proofs of the theorems of Properties/QueuePanicProperties.v. *)
From Coq Require Import ZifyBool ZifyN ZifyNat Lia.
From Verif Require Import Model.Base Model.Queue Spec.QueueSpec Proofs.QueueProofs Proofs.QueuePanics
  Proofs.QueueTheorems.

Lemma c64_anywhere_refuted : forall p w q es s tr r,
  q_run p (q_start w q) es = Some (s, tr) -> QePanic r ∈ es ->
  qs_mgr s = MAlive -> qs_dropped s = false -> qs_inbox s = [] ->
  N.of_nat (distinct_ips tr) < q -> N.of_nat r + 1 < q ->
  exists ips s' tr', (length ips <= r + 2)%nat /\
    q_run p s (concat ((fun ip => [QeAdd ip; QeManager]) <$> ips)) = Some (s', tr') /\
    qs_mgr s' = MAborted /\ forall e, q_step p s' e = None.
Proof.
  intros p w q es s tr r Hr Hp Ha Hd Hin Hlt Hrq. pose proof (run_pinv _ _ _ _ _ _ Hr) as H.
  destruct (jobs_abort p w q r (r + 1 - length (im_ips (qs_im s))) es s tr H Ha Hd Hin) as (ips & s' & tr' & Hl & Hrun & Hab); [|done| |done|reflexivity|].
  - by eapply panic_lt.
  - revert Hlt. unfold distinct_ips, vlen. erewrite ips_accepted; [done|exact H].
  - exists ips, s', tr'. split; [lia|]. split; [done|]. split; [done|]. intros e. by apply aborted_stuck.
Qed.

Lemma c64_next_job_refuted : forall p w q es s tr r,
  q_run p (q_start w q) es = Some (s, tr) -> QePanic r ∈ es ->
  qs_mgr s = MAlive -> qs_dropped s = false -> qs_inbox s = [] ->
  N.of_nat (distinct_ips tr) < q -> (r < distinct_ips tr)%nat ->
  exists ip s', ip ∈ (fst <$> accepted tr) /\ q_run p s [QeAdd ip; QeManager] = Some (s', []) /\
    qs_mgr s' = MAborted /\ forall e, q_step p s' e = None.
Proof.
  intros p w q es s tr r Hr Hp Ha Hd Hin Hlt Hrq. pose proof (run_pinv _ _ _ _ _ _ Hr) as H.
  unfold distinct_ips in *. erewrite ips_accepted in Hlt, Hrq by exact H.
  destruct (next_job_aborts p w q es s tr r H Ha Hd Hin) as (ip & s' & Hip & Hrun & Hab); try done.
  - by eapply panic_lt.
  - exists ip, s'. split; [by apply (pv_ips _ _ _ _ _ H)|]. split; [done|]. split; [done|]. intros e. by apply aborted_stuck.
Qed.

Lemma c64_lost_jobs_refuted : forall p w q es1 es2 s1 tr1 s tr r ip j,
  q_run p (q_start w q) es1 = Some (s1, tr1) -> (r, (ip, j)) ∈ handed tr1 -> j ∉ (snd <$> started tr1) ->
  q_run p (q_start w q) (es1 ++ QePanic r :: es2) = Some (s, tr) -> j ∉ (snd <$> started tr).
Proof.
  intros p w q es1 es2 s1 tr1 s tr r ip j H1 Hh Hn Hr. eapply lost; [exact H1|exact Hh|exact Hn| |exact Hr].
  eapply panic_lt; [exact Hr|]. apply elem_of_app. right. by left.
Qed.

Lemma c64_only_cause : forall p w q es s tr,
  q_run p (q_start w q) es = Some (s, tr) -> qs_mgr s = MAborted \/ qs_mgr s = MPanicked -> exists r, QePanic r ∈ es.
Proof.
  intros p w q es s tr Hr Hm. set (P e := match e with QePanic _ => true | _ => false end).
  destruct (decide (Exists P es)) as [He|He].
  - apply Exists_exists in He as (e & Hin & He). destruct e as [| | | |r| |]; try done. by exists r.
  - exfalso. assert (qinv w q s) as Hq.
    { eapply (run_ind (fun s _ => qinv w q s)); [apply q_start_inv| | |exact Hr].
      - intros s0 tr0 e s' o Hi _ Hc. by eapply qcase_inv.
      - apply Forall_forall. intros e Hin r ->. apply He, Exists_exists. eauto. }
    destruct (qi_mgr _ _ _ Hq) as [? ?]. by destruct Hm.
Qed.

Lemma c64_drop_refuted : forall p w q es s tr r,
  q_run p (q_start w q) es = Some (s, tr) -> QePanic r ∈ es -> qs_mgr s <> MDone.
Proof. intros p w q es s tr r. apply panicked_not_done. Qed.
