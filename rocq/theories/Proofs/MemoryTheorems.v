(** Proofs of the theorems of Properties/MemoryProperties.v. *)
From Coq Require Import ZifyBool ZifyN ZifyNat Lia.
From Verif Require Import Model.Base Model.Defense Model.MCaptcha Model.Counter Model.Master
  Model.HashCache Model.Queue Model.Pow Model.System
  Spec.CacheSpec Spec.QueueSpec Spec.MasterSpec Spec.SystemSpec Spec.MemorySpec
  Proofs.CacheProofs Proofs.QueueProofs Proofs.MasterProofs Proofs.SystemProofs Proofs.SystemLiveness Proofs.MemoryProofs
  Proofs.QueueTheorems Proofs.SystemTheorems.

Lemma c111_cache p l t gc wk ql es s tr :
  s_run p l (sys_start t gc wk ql) es = Some (s, tr) -> nothing_overdue (CacheSys (s_now s) (sy_c s)) ->
  hc_timers (sy_c s) ≡ₚ ahead (s_now s) (deadlines t (ctrace tr).*1) /\
  (map_to_list (hc_difficulty_map (sy_c s))).*1 ⊆+ of_challenges (ahead (s_now s) (deadlines t (ctrace tr).*1)) /\
  (map_to_list (hc_result_map (sy_c s))).*1 ⊆+ of_tokens (ahead (s_now s) (deadlines t (ctrace tr).*1)).
Proof.
  intros Hr Hno. pose proof (pt_c _ _ _ _ _ _ _ (run_parts _ _ _ _ _ _ _ _ _ Hr)) as Hc.
  pose proof (run_maps _ _ _ _ "" Hc) as (_ & _ & Hnow). cbn [hs_now] in Hnow. rewrite Hnow in *.
  split; [by apply (timers_ahead _ _ _ _ Hc)|]. split.
  - apply (challenges_few _ _ _ _ _ Hc Hno); [apply NoDup_fst_map_to_list|].
    intros x ([y c] & -> & Hin%elem_of_map_to_list)%elem_of_list_fmap. by exists c.
  - apply (tokens_few _ _ _ _ _ Hc Hno); [apply NoDup_fst_map_to_list|].
    intros x ([y c] & -> & Hin%elem_of_map_to_list)%elem_of_list_fmap. by exists c.
Qed.

Lemma c111_drained p l t gc wk ql es s tr :
  s_run p l (sys_start t gc wk ql) es = Some (s, tr) -> nothing_overdue (CacheSys (s_now s) (sy_c s)) ->
  Forall (fun x => x.1 <= s_now s) (deadlines t (ctrace tr).*1) ->
  sy_c s = hc_default.
Proof.
  intros Hr Hno Hd. destruct (c111_cache _ _ _ _ _ _ _ _ _ Hr Hno) as (Ht & Hc & Hk).
  assert (ahead (s_now s) (deadlines t (ctrace tr).*1) = []) as Hz.
  { unfold ahead. clear -Hd. induction Hd as [|x r Hx Hd IH]; [done|]. rewrite filter_cons_False; [done|]. cbn in *. lia. }
  rewrite Hz in Ht, Hc, Hk. cbn in Hc, Hk.
  apply Permutation_nil_r in Ht. apply submseteq_nil_r in Hc, Hk.
  apply fmap_nil_inv, map_to_list_empty_iff in Hc. apply fmap_nil_inv, map_to_list_empty_iff in Hk.
  destruct (sy_c s) as [a b c]. cbn in *. by subst.
Qed.

Lemma c111_queue_refuted p l t gc wk ql es s tr :
  s_run p l (sys_start t gc wk ql) es = Some (s, tr) -> ~ check_panicked tr ->
  im_ips (qs_im (sy_q s)) ≡ₚ remove_dups (accepted (qouts tr)).*1 /\
  (map_to_list (im_queues (qs_im (sy_q s)))).*1 ≡ₚ remove_dups (accepted (qouts tr)).*1.
Proof.
  intros Hr Hn. pose proof (pt_q _ _ _ _ _ _ _ (run_parts _ _ _ _ _ _ _ _ _ Hr)) as Hq.
  destruct (run_tinv _ _ _ _ _ _ (no_panics_of _ Hn) Hq) as [Hi Ht]. pose proof (qi_ok _ _ _ Hi) as Hok.
  assert (im_ips (qs_im (sy_q s)) ≡ₚ remove_dups (accepted (qouts tr)).*1) as H.
  { apply NoDup_Permutation; [apply Hok|apply NoDup_remove_dups|]. intros ip. rewrite elem_of_remove_dups. apply Ht. }
  split; [done|]. rewrite <- H. apply NoDup_Permutation; [apply NoDup_fst_map_to_list|apply Hok|].
  intros ip. rewrite <- (io_dom _ Hok). rewrite elem_of_list_fmap. split.
  - intros ([y c] & -> & Hin%elem_of_map_to_list). by exists c.
  - intros [c Hc]. exists (ip, c). split; [done|]. by apply elem_of_map_to_list.
Qed.

Lemma c111_kept_refuted p l t gc wk ql es s tr es2 s2 tr2 ip :
  s_run p l (sys_start t gc wk ql) es = Some (s, tr) -> s_run p l s es2 = Some (s2, tr2) ->
  ~ check_panicked (tr ++ tr2) ->
  is_Some (im_queues (qs_im (sy_q s)) !! ip) -> is_Some (im_queues (qs_im (sy_q s2)) !! ip).
Proof.
  intros Hr Hr2 Hn [v Hv].
  assert (s_run p l (sys_start t gc wk ql) (es ++ es2) = Some (s2, tr ++ tr2)) as Hall by (apply s_run_app; eauto 10).
  assert (~ check_panicked tr) as Hn1.
  { intros [r Hin]. apply Hn. exists r. unfold qtrace in *. rewrite omap_app. apply elem_of_app. by left. }
  destruct (c111_queue_refuted _ _ _ _ _ _ _ _ _ Hr Hn1) as [_ H1].
  destruct (c111_queue_refuted _ _ _ _ _ _ _ _ _ Hall Hn) as [_ H2].
  assert (ip ∈ (map_to_list (im_queues (qs_im (sy_q s)))).*1) as Hin.
  { apply elem_of_list_fmap. exists (ip, v). split; [done|]. by apply elem_of_map_to_list. }
  rewrite H1, elem_of_remove_dups in Hin.
  assert (ip ∈ (map_to_list (im_queues (qs_im (sy_q s2)))).*1) as Hin2.
  { rewrite H2, elem_of_remove_dups, qouts_app, accepted_app, fmap_app. apply elem_of_app. by left. }
  apply elem_of_list_fmap in Hin2 as ([y c] & -> & Hc%elem_of_map_to_list). by exists c.
Qed.
