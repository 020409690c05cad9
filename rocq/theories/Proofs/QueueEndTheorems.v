(** Proofs of the theorems of Properties/QueueEndProperties.v. *)
From Coq Require Import ZifyBool ZifyN ZifyNat Lia.
From Verif Require Import Model.Base Model.Queue Model.QueueEnd Spec.QueueSpec Spec.QueueEndSpec
  Proofs.QueueProofs Proofs.QueuePanics Proofs.QueueEndProofs Proofs.QueueTheorems.

Lemma begin_not_gone s order s0 : e_begin s order = Some s0 -> gone (es_phase s0) = false.
Proof. intros (_ & _ & _ & ->)%e_begin_inv. by destruct order. Qed.

Lemma c109_returns p w q es s tr order s0 es' s1 tr1 :
  no_job_panics es -> q_run p (q_start w q) es = Some (s, tr) ->
  order ≡ₚ seq 0 w -> e_begin s order = Some s0 ->
  no_end_panics es' -> e_run s0 es' = Some (s1, tr1) ->
  EoPanics ∉ tr1 /\ spins tr1 = [] /\
  (EoReturns ∈ tr1 -> length (es_runners s1) = w /\
     forall r x, es_runners s1 !! r = Some x -> rn_state x = RExited /\
       of_runner r ((fun x => (x.1, x.2.2)) <$> handed tr) = of_runner r (finished (tr ++ runner_outs tr1))).
Proof.
  intros Hnp Hr Ho Hb Hnp' Hr'. pose proof (begin_einv _ _ _ _ _ _ _ _ Hr Ho Hb) as Hi.
  assert (ninv (fun r => of_runner r ((fun x => (x.1, x.2.2)) <$> handed tr)) (fin tr) s0) as Hn.
  { destruct (e_begin_inv _ _ _ Hb) as (Hm & _ & Er & Ep). pose proof (pv_im _ _ _ _ _ (run_pinv _ _ _ _ _ _ Hr)) as Hv.
    split; [rewrite Ep; by destruct order|]. intros r x. rewrite Er. intros Hx. split_and!.
    - intros Hd%(iv_dead _ _ _ _ _ _ _ _ Hv _ _ Hx). unfold no_job_panics in Hnp. rewrite Forall_forall in Hnp. by destruct (Hnp _ Hd r).
    - intros E. pose proof (Forall_lookup_1 _ _ _ _ (iv_alive _ _ _ _ _ _ _ _ Hv Hm) Hx) as [Hu _]. done.
    - by apply (c39_fifo_per_runner _ _ _ _ _ _ _ _ Hnp Hr). }
  destruct (ninv_run _ _ _ _ _ _ _ Hi Hn Hnp' Hr') as (Hn' & Hs & Hp). split; [done|]. split; [done|].
  intros Hin. pose proof (einv_run _ _ _ _ _ Hi Hr') as Hi'.
  apply (over_phase _ _ _ _ _ Hi (begin_not_gone _ _ _ Hb) Hr') in Hin.
  split.
  { pose proof (ei_order _ _ Hi') as E. rewrite Ho in E. apply Permutation_length in E. by rewrite !seq_length in E. }
  intros r x Hx. pose proof (ei_phase _ _ Hi') as Hph. rewrite Hin in Hph. specialize (Hph _ _ Hx).
  split; [done|]. destruct (ni_run _ _ _ Hn' _ _ Hx) as (_ & Hc & E). rewrite E, Hph, (Hc Hph). cbn. by rewrite app_nil_r.
Qed.

Lemma c109_ends p w q es s tr order s0 :
  q_run p (q_start w q) es = Some (s, tr) -> order ≡ₚ seq 0 w -> e_begin s order = Some s0 ->
  (exists n, forall es' s1 tr1, e_run s0 es' = Some (s1, tr1) -> (length es' <= n + length (spins tr1))%nat) /\
  (forall es' s1 tr1, e_run s0 es' = Some (s1, tr1) ->
     call_over tr1 \/
     exists e s2 o, (forall r, e <> EePanic r) /\ e_step s1 e = Some (s2, o) /\ spins o = []).
Proof.
  intros Hr Ho Hb. pose proof (begin_einv _ _ _ _ _ _ _ _ Hr Ho Hb) as Hi. split.
  - exists (left_to_do s0). intros es' s1 tr1 H%run_measure. lia.
  - intros es' s1 tr1 H. destruct (over_phase _ _ _ _ _ Hi (begin_not_gone _ _ _ Hb) H) as [Ha Hc].
    destruct (gone (es_phase s1)) eqn:E.
    + left. unfold call_over. rewrite Ha, Hc. destruct (es_phase s1); try done; auto.
    + right. eapply progress; [by eapply einv_run|done].
Qed.

Lemma c109_panics_refuted p w q es s tr order s0 es' s1 tr1 r :
  q_run p (q_start w q) es = Some (s, tr) -> order ≡ₚ seq 0 w -> e_begin s order = Some s0 ->
  e_run s0 es' = Some (s1, tr1) ->
  QePanic r ∈ es \/ EePanic r ∈ es' -> EoReturns ∉ tr1.
Proof.
  intros Hr Ho Hb Hr' Hd. pose proof (begin_einv _ _ _ _ _ _ _ _ Hr Ho Hb) as Hi.
  eapply dead_no_return; [exact Hi|by eapply begin_not_gone|exact Hr'|].
  destruct Hd as [Hd|Hd]; [left|by right].
  pose proof (pv_im _ _ _ _ _ (run_pinv _ _ _ _ _ _ Hr)) as Hv.
  destruct (e_begin_inv _ _ _ Hb) as (_ & _ & Er & _).
  destruct (im_runners (qs_im s) !! r) as [x|] eqn:Hx.
  - exists x. rewrite Er. split; [done|]. by apply (iv_dead _ _ _ _ _ _ _ _ Hv _ _ Hx).
  - exfalso. pose proof (panic_lt _ _ _ _ _ _ _ Hr Hd) as Hlt. apply lookup_ge_None in Hx.
    rewrite (iv_workers _ _ _ _ _ _ _ _ Hv) in Hx. lia.
Qed.

Lemma c109_spins_refuted p w q es s tr a d b r s0 es' s1 tr1 :
  q_run p (q_start w q) es = Some (s, tr) -> a ++ d :: b ≡ₚ seq 0 w -> e_begin s (a ++ d :: b) = Some s0 ->
  QePanic d ∈ es -> r ∈ b -> im_runners (qs_im s) !! r = Some (Runner [] RIdle) ->
  e_run s0 es' = Some (s1, tr1) ->
  QExit r ∉ runner_outs tr1 /\ es_runners s1 !! r = Some (Runner [] RIdle) /\
  (call_over tr1 -> e_step s1 (EeRecv r) = Some (s1, [EoSpin r])).
Proof.
  intros Hr Ho Hb Hd Hin Hx Hr'. pose proof (begin_einv _ _ _ _ _ _ _ _ Hr Ho Hb) as Hi.
  destruct (e_begin_inv _ _ _ Hb) as (_ & _ & Er & Ep).
  pose proof (pv_im _ _ _ _ _ (run_pinv _ _ _ _ _ _ Hr)) as Hv.
  assert (sinv d r b s0) as Hs.
  { split; [|by rewrite Er|done|].
    - destruct (im_runners (qs_im s) !! d) as [y|] eqn:Hy.
      + exists y. rewrite Er. split; [done|]. by apply (iv_dead _ _ _ _ _ _ _ _ Hv _ _ Hy).
      + exfalso. pose proof (panic_lt _ _ _ _ _ _ _ Hr Hd) as Hlt. apply lookup_ge_None in Hy.
        rewrite (iv_workers _ _ _ _ _ _ _ _ Hv) in Hy. lia.
    - assert (NoDup (a ++ d :: b)) by (rewrite Ho; apply NoDup_seq).
      rewrite Ep. destruct (a ++ d :: b) as [|z l] eqn:E; [by destruct a|]. exists a. by rewrite E. }
  destruct (sinv_run _ _ _ _ _ _ _ Hs Hr') as (Hs' & Hne & Hret).
  split; [|split; [apply Hs'|]].
  - unfold runner_outs. intros (o & Ho' & E)%elem_of_list_omap. destruct o; try done. by injection E as ->.
  - intros [?|Hp]; [done|]. apply (over_phase _ _ _ _ _ Hi (begin_not_gone _ _ _ Hb) Hr') in Hp.
    cbn. unfold e_recv. by rewrite (si_idle _ _ _ _ Hs'), Hp.
Qed.

Lemma c109_lost p w q es s tr order s0 es' s1 tr1 es'' s2 tr2 r x :
  q_run p (q_start w q) es = Some (s, tr) -> order ≡ₚ seq 0 w -> e_begin s order = Some s0 ->
  e_run s0 es' = Some (s1, tr1) -> call_over tr1 -> es_runners s1 !! r = Some x ->
  e_run s1 es'' = Some (s2, tr2) ->
  (length (of_runner r (started (runner_outs tr2))) <= match rn_state x with RIdle => 1 | _ => 0 end)%nat.
Proof.
  intros Hr Ho Hb Hr' Hov Hx Hr''. pose proof (begin_einv _ _ _ _ _ _ _ _ Hr Ho Hb) as Hi.
  destruct (over_phase _ _ _ _ _ Hi (begin_not_gone _ _ _ Hb) Hr') as [Ha Hc].
  assert (gone (es_phase s1) = true) as Hg.
  { destruct Hov as [H|H]; [apply Ha in H|apply Hc in H]; by rewrite H. }
  destruct (late_run _ _ _ _ r Hg Hr'') as [_ H]. unfold may_start in H at 2. rewrite Hx in H.
  destruct x as [c []]; cbn [rn_state]; lia.
Qed.
