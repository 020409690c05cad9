(** Lemmas for C111: what is left in the cache. *)
From Coq Require Import ZifyBool ZifyN ZifyNat Lia.
From Verif Require Import Model.Base Model.HashCache Spec.CacheSpec Spec.MemorySpec Proofs.CacheProofs.

Lemma deadlines_snoc t es e :
  deadlines t (es ++ [e]) = deadlines t es ++ deadlines (cache_clock t es) [e].
Proof.
  revert t. induction es as [|x es IH]; intros t; [done|].
  destruct x as [[| | | |]|d|]; cbn [app deadlines cache_clock]; rewrite IH; done.
Qed.
Lemma deadlines_one now e :
  deadlines now [e] = match e with HeExpire _ _ => [] | _ => new_timer now e end.
Proof. by destruct e as [[| | | |]| |]. Qed.

Lemma remove_first_perm x ts : x ∈ ts -> x :: remove_first x ts ≡ₚ ts.
Proof.
  induction ts as [|y r IH]; cbn [remove_first]; [by intros ?%elem_of_nil|].
  intros H. destruct (decide (x = y)) as [->|Hne]; [done|].
  apply elem_of_cons in H as [->|H]; [done|]. rewrite <- (IH H) at 2. apply Permutation_swap.
Qed.

(** Every deadline is a pending expiry or one that was delivered, in time. *)
Lemma timers_fired t es s os :
  cache_run (cache_start t) es = Some (s, os) ->
  exists fired, hc_timers (hs_cache s) ++ fired ≡ₚ deadlines t es /\
    Forall (fun x => x.1 <= cache_clock t es) fired.
Proof.
  revert s os. induction es as [|e es IH] using rev_ind; intros s os Hr.
  - injection Hr as <- <-. exists []. done.
  - apply cache_run_snoc in Hr as (s1 & os1 & o & Hr & Hs & ->).
    destruct (IH s1 os1 Hr) as (fired & Hp & Hf). rewrite deadlines_snoc, deadlines_one.
    pose proof (run_maps _ _ _ _ "" Hr) as (_ & _ & Hnow).
    pose proof (cache_clock_snoc t es e) as Hcl.
    rewrite (step_timers _ _ _ _ Hs), Hnow.
    assert (Forall (fun x => x.1 <= cache_clock t (es ++ [e])) fired) as Hf'.
    { eapply Forall_impl; [exact Hf|]. intros x Hx. cbn in *. rewrite Hcl. destruct e; lia. }
    destruct e as [m|d|due d].
    + exists fired. split; [|done]. rewrite <- app_assoc, (Permutation_app_comm _ fired), app_assoc. by rewrite Hp.
    + exists fired. split; [|done]. rewrite <- app_assoc, (Permutation_app_comm _ fired), app_assoc. by rewrite Hp.
    + apply step_expire in Hs as [Hin Hle]. exists ((due, d) :: fired). split.
      * rewrite app_nil_r, <- Hp. rewrite <- Permutation_middle. change ((due, d) :: remove_first (due, d) (hc_timers (hs_cache s1)) ++ fired)
          with (((due, d) :: remove_first (due, d) (hc_timers (hs_cache s1))) ++ fired). by rewrite remove_first_perm.
      * constructor; [|done]. cbn. rewrite Hcl. lia.
Qed.

Lemma timers_ahead t es s os :
  cache_run (cache_start t) es = Some (s, os) -> nothing_overdue s ->
  hc_timers (hs_cache s) ≡ₚ ahead (cache_clock t es) (deadlines t es).
Proof.
  intros Hr Hno. destruct (timers_fired _ _ _ _ Hr) as (fired & Hp & Hf). unfold ahead.
  rewrite <- Hp, filter_app.
  pose proof (run_maps _ _ _ _ "" Hr) as (_ & _ & Hnow).
  assert (filter (fun x : N * deletion => cache_clock t es < x.1) fired = []) as ->.
  { clear -Hf. induction Hf as [|x l Hx Hf IH]; [done|]. rewrite filter_cons_False; [done|]. cbn in *. lia. }
  rewrite app_nil_r.
  assert (forall ts : list (N * deletion), (forall due d, (due, d) ∈ ts -> cache_clock t es < due) ->
    filter (fun x : N * deletion => cache_clock t es < x.1) ts = ts) as Hall.
  { induction ts as [|[due d] ts IH]; [done|]. intros H. rewrite filter_cons_True.
    - f_equal. apply IH. intros due' d' Hin. apply (H due' d'). by right.
    - apply (H due d). by left. }
  rewrite Hall; [done|]. intros due d Hin. rewrite <- Hnow. by eapply overdue_none.
Qed.

(** Distinct strings with a property that have deadlines are no more than them. *)
Lemma challenges_few t es s os xs :
  cache_run (cache_start t) es = Some (s, os) -> nothing_overdue s -> NoDup xs ->
  (forall x, x ∈ xs -> is_Some (hc_difficulty_map (hs_cache s) !! x)) ->
  xs ⊆+ of_challenges (ahead (cache_clock t es) (deadlines t es)).
Proof.
  intros Hr Hno Hnd Hxs. apply NoDup_submseteq; [done|]. intros x Hx. destruct (Hxs x Hx) as [c Hc].
  destruct (run_maps _ _ _ _ x Hr) as (Hm & _). rewrite Hm in Hc.
  destruct (stored_challenge_timer _ _ _ _ _ _ Hr Hc) as (pre & m & post & _ & _ & _ & _ & Hin).
  rewrite (timers_ahead _ _ _ _ Hr Hno) in Hin. unfold of_challenges. apply elem_of_list_omap. eexists; split; [exact Hin|done].
Qed.
Lemma tokens_few t es s os xs :
  cache_run (cache_start t) es = Some (s, os) -> nothing_overdue s -> NoDup xs ->
  (forall x, x ∈ xs -> is_Some (hc_result_map (hs_cache s) !! x)) ->
  xs ⊆+ of_tokens (ahead (cache_clock t es) (deadlines t es)).
Proof.
  intros Hr Hno Hnd Hxs. apply NoDup_submseteq; [done|]. intros x Hx. destruct (Hxs x Hx) as [c Hc].
  destruct (run_maps _ _ _ _ x Hr) as (_ & Hm & _). rewrite Hm in Hc.
  destruct (stored_token_timer _ _ _ _ _ _ Hr Hc) as (pre & m & post & _ & _ & _ & _ & Hin).
  rewrite (timers_ahead _ _ _ _ Hr Hno) in Hin. unfold of_tokens. apply elem_of_list_omap. eexists; split; [exact Hin|done].
Qed.
