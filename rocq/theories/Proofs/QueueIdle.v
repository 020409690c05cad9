(** A job submitted to an idle queue with enough runners is started at once. *)
From Coq Require Import ZifyBool ZifyN ZifyNat Lia.
From Verif Require Import Model.Base Model.Queue Spec.QueueSpec Proofs.QueueProofs Proofs.QueueTheorems
  Proofs.SystemProofs Proofs.SystemLiveness.

Lemma distinct_length (l k : list string) :
  (forall x, x ∈ l -> x ∈ k) -> (length (remove_dups l) <= length (remove_dups k))%nat.
Proof.
  intros H. apply submseteq_length, NoDup_submseteq; [apply NoDup_remove_dups|].
  intros x. rewrite !elem_of_remove_dups. apply H.
Qed.
Lemma idle_queue p wk ql es q tr ip :
  no_job_panics es -> q_run p (q_start wk ql) es = Some (q, tr) -> qs_dropped q = false -> quiescent q ->
  (length (remove_dups (ip :: (accepted tr).*1)) <= wk)%nat -> N.of_nat (distinct_ips tr) <> ql ->
  exists q1 q2 q3 o r,
    q_step p q (QeAdd ip) = Some (q1, []) /\ q_step p q1 QeManager = Some (q2, o) /\
    q_step p q2 (QeRecv r) = Some (q3, [QStart r (qs_next q)]).
Proof.
  intros Hnp Hr Hd Hq Hle Hnf. destruct (run_tinv _ _ _ _ _ _ Hnp Hr) as [Hi Ht].
  destruct (c40_manager_alive _ _ _ _ _ _ Hnp Hr) as (_ & _ & Hm). specialize (Hm Hd).
  set (q1 := QSys (qs_im q) (qs_inbox q ++ [ImSchedule (qs_next q) ip]) (qs_mgr q) false (S (qs_next q))).
  assert (q_step p q (QeAdd ip) = Some (q1, [])) as E1.
  { unfold q_step. rewrite Hm. unfold q1. rewrite Hm, Hd. done. }
  destruct Hq as [Hib Hrs].
  assert (q_run p (q_start wk ql) (es ++ [QeAdd ip]) = Some (q1, tr ++ [])) as Hr1 by (apply q_run_snoc; eauto 10).
  assert (no_job_panics (es ++ [QeAdd ip])) as Hnp1 by (apply Forall_app; split; [done|by repeat constructor]).
  destruct (run_tinv _ _ _ _ _ _ Hnp1 Hr1) as [Hi1 Ht1].
  destruct (c40_manager_progress _ _ _ _ _ _ (ImSchedule (qs_next q) ip) [] Hnp1 Hr1) as (q2 & o & E2 & _).
  { done. } { unfold q1. cbn. by rewrite Hib. }
  assert (forall r, QeManager <> QePanic r) as Hnm by done.
  pose proof (step_case _ _ _ _ _ _ _ Hi1 Hnm E2) as Hc.
  assert (N.of_nat (distinct_ips tr) = vlen (im_ips (qs_im q))) as Hdi.
  { unfold distinct_ips, vlen. by rewrite <- (ips_distinct _ _ _ (qi_ok _ _ _ Hi) Ht). }
  assert (exists o', o = o' ++ [QAnswer (qs_next q) ip (Ok tt)] /\ accepted o' = [] /\ finished o' = [] /\
            qs_mgr q2 = MAlive) as (o' & -> & Hacc & Hfin & Hm2).
  { pose proof (qi_len _ _ _ Hi) as Hl.
    inversion Hc as [|rest Ha Hin' |name rest o' im Ha Hin' Hne' Hds|name rest Ha Hin' Hge|j' ip' rest Ha Hin' Hl'
    |j' ip' rest im1 o' im2 Ha Hin' Hl' Him1 Hok1 Hne1 Hds| | | | | ]; subst; cbn in Hin'; rewrite Hib in Hin'; try done.
    - exfalso. cbn in Hl'. unfold vlen in *. lia.
    - simplify_eq/=. exists o'. split; [done|].
      destruct (dsteps_silent _ _ _ _ Hds) as (A & _ & _). split; [done|]. split; [|done].
      clear -Hds. induction Hds as [|im name o im1 names o' im2 Hd Hds IH]; [done|].
      rewrite finished_app, IH, app_nil_r. by destruct Hd. }
  assert (q_run p (q_start wk ql) ((es ++ [QeAdd ip]) ++ [QeManager]) =
            Some (q2, (tr ++ []) ++ o' ++ [QAnswer (qs_next q) ip (Ok tt)])) as Hr2 by (apply q_run_snoc; eauto 10).
  assert (no_job_panics ((es ++ [QeAdd ip]) ++ [QeManager])) as Hnp2
    by (apply Forall_app; split; [done|by repeat constructor]).
  rewrite app_nil_r in Hr2.
  assert (accepted (tr ++ o' ++ [QAnswer (qs_next q) ip (Ok tt)]) = accepted tr ++ [(ip, qs_next q)]) as Ha2.
  { rewrite !accepted_app, Hacc. done. }
  assert (finished (tr ++ o' ++ [QAnswer (qs_next q) ip (Ok tt)]) = finished tr) as Hf2.
  { rewrite !finished_app, Hfin. by rewrite app_nil_r. }
  assert (waiting_in_queues q = []) as Hw.
  { refine (proj1 (c45_enough_runners _ _ _ _ _ _ Hnp Hr _)). unfold distinct_ips. etrans; [|exact Hle]. apply distinct_length. by right. }
  assert (waiting_in_queues q2 = []) as Hw2.
  { refine (proj1 (c45_enough_runners _ _ _ _ _ _ Hnp2 Hr2 _)). unfold distinct_ips. etrans; [|exact Hle]. rewrite Ha2. apply distinct_length.
    rewrite fmap_app. intros x. rewrite elem_of_app, elem_of_cons. cbn. rewrite elem_of_list_singleton. tauto. }
  assert (at_runners q = [] /\ running_jobs q = []) as [Har Hrj].
  { unfold at_runners, running_jobs. clear -Hrs. induction Hrs as [|x xs [H1 H2] _ [I1 I2]]; [done|].
    cbn. rewrite H1, H2. done. }
  assert (running_jobs q2 = []) as Hrj2.
  { assert (forall im, concat ((fun r => running (rn_state r)) <$> im_runners im) = concat (running <$> states im)) as Hrw.
    { intros im. unfold states. by rewrite <- list_fmap_compose. }
    unfold running_jobs in *. rewrite Hrw in *. replace (states (qs_im q2)) with (states (qs_im q)); [done|].
    apply list_eq. intros i. symmetry. etrans; [by eapply q_step_states|]. done. }
  destruct (conservation _ _ _ _ _ _ Hnp Hr) as (_ & Hp & _).
  destruct (conservation _ _ _ _ _ _ Hnp2 Hr2) as (_ & Hp2 & _).
  rewrite Hw, Har, Hrj in Hp. rewrite Hw2, Hrj2, Ha2, Hf2, fmap_app in Hp2. cbn in Hp, Hp2.
  assert (at_runners q2 ≡ₚ [qs_next q]) as Hat.
  { apply (Permutation_app_inv_r (finished tr).*2). rewrite <- Hp2, Hp. cbn. by rewrite Permutation_app_comm. }
  apply Permutation_singleton_r in Hat.
  assert (qs_next q ∈ at_runners q2) as Hin by (rewrite Hat; by left).
  apply concat_elem in Hin as (k & Hk & Hj). apply elem_of_list_fmap in Hk as (x & -> & Hx).
  pose proof Hx as Hx'. apply elem_of_list_lookup in Hx as [r Hx].
  destruct (run_tinv _ _ _ _ _ _ Hnp2 Hr2) as [Hi2 _].
  pose proof (Forall_lookup_1 _ _ _ _ (qi_runners _ _ _ Hi2) Hx) as Hri. rewrite Hm2 in Hri. destruct Hri as [Hop Hns].
  destruct x as [ch st]. cbn in *. destruct ch as [|[|j'] ch].
  { by apply elem_of_nil in Hj. }
  { by apply Forall_cons in Hns as [? _]. }
  assert (j' = qs_next q) as ->.
  { assert (j' ∈ at_runners q2) as Hj'.
    { apply concat_elem. exists (proves (RmProve j' :: ch)). split; [|by left].
      apply elem_of_list_fmap. by exists (Runner (RmProve j' :: ch) st). }
    rewrite Hat in Hj'. by apply elem_of_list_singleton in Hj'. }
  assert (st = RIdle) as ->.
  { destruct st as [|j'| |]; try done. exfalso.
    assert (j' ∈ running_jobs q2) as Hj'; [|rewrite Hrj2 in Hj'; by apply elem_of_nil in Hj'].
    apply concat_elem. exists [j']. split; [|by left]. apply elem_of_list_fmap.
    by exists (Runner (RmProve (qs_next q) :: ch) (RRunning j')). }
  exists q1, q2, (set_runner q2 r (Runner ch (RRunning (qs_next q))) (qs_inbox q2)), (o' ++ [QAnswer (qs_next q) ip (Ok tt)]), r.
  split; [done|]. split; [done|]. unfold q_step. rewrite Hm2. unfold runner_recv. by rewrite Hx.
Qed.

