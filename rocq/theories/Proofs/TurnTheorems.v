(** Proofs of the theorems of Properties/TurnProperties.v. *)
From Coq Require Import ZifyBool ZifyN ZifyNat Lia.
From Verif Require Import Model.Base Model.Defense Model.MCaptcha Model.Counter Model.Master
  Model.HashCache Model.Queue Model.Pow Model.System
  Spec.CacheSpec Spec.QueueSpec Spec.SystemSpec Spec.ExecutorSpec Spec.TurnSpec
  Proofs.SystemProofs Proofs.TurnProofs Proofs.SystemTheorems.

Lemma c113_bounded : forall p l t gc wk ql es s tr n c b es2 s2 tr2,
  s_run p l (sys_start t gc wk ql) es = Some (s, tr) -> called tr n c -> s_run p l s es2 = Some (s2, tr2) ->
  match c with CVerifyPow _ _ => manageable l wk (tr ++ tr2) | _ => True end ->
  (queued s n -> (burden (sy_q s) <= b)%nat) -> burden_at_most p l b n s es2 ->
  (turns p l n s es2 <= turns_enough c b)%nat /\
  (turns p l n s es2 = turns_enough c b -> SoCancel n ∈ tr ++ tr2 \/ exists r, SoRet n r ∈ tr ++ tr2).
Proof.
  intros p l t gc wk ql es s tr n c b es2 s2 tr2 Hr Hc H2 Hf Hq Hb.
  pose proof (need_run p l t gc wk ql b c n es2 _ _ _ _ _ Hr Hc H2 Hf Hb) as H3.
  pose proof (need_start p l t gc wk ql b _ _ _ n c Hr Hc (fit_mono l wk c _ _ Hf) Hq) as H4. split; [lia|]. intros He.
  assert (Hr2 : s_run p l (sys_start t gc wk ql) (es ++ es2) = Some (s2, tr ++ tr2)) by (apply s_run_app; eauto 10).
  assert (Hc2 : called (tr ++ tr2) n c) by (unfold called in *; apply elem_of_app; by left).
  apply (gone_over _ _ _ _ _ _ _ _ _ _ _ Hr2 Hc2). destruct (sy_clients s2 !! n) eqn:E; [|done].
  assert (1 <= need b s2 n)%nat by (apply need_pos; by rewrite E). lia.
Qed.

Lemma c113_step : forall p l t gc wk ql es s tr n c rnd,
  s_run p l (sys_start t gc wk ql) es = Some (s, tr) -> called tr n c -> SoCancel n ∉ tr -> (forall r, SoRet n r ∉ tr) ->
  ~ check_panicked tr -> match c with CVerifyPow _ _ => manageable l wk tr | _ => True end ->
  turn_for n s (next_turn rnd n s) = true /\ is_Some (s_step p l s (next_turn rnd n s)).
Proof.
  intros p l t gc wk ql es s tr n c rnd Hr Hc Hcan Hret Hnp Hf. eapply (next_ok p l t gc wk ql rnd); try done.
  destruct (sy_clients s !! n) eqn:E; [by eexists|].
  destruct (gone_over _ _ _ _ _ _ _ _ _ _ _ Hr Hc E) as [?|[r ?]]; [done|by destruct (Hret r)].
Qed.

Lemma c113_attended : forall p l t gc wk ql es s tr n c rnd b,
  s_run p l (sys_start t gc wk ql) es = Some (s, tr) -> called tr n c -> SoCancel n ∉ tr -> (forall r, SoRet n r ∉ tr) ->
  ~ check_panicked tr -> match c with CVerifyPow _ _ => manageable l wk tr | _ => True end ->
  (burden (sy_q s) <= b)%nat -> exists r, SoRet n r ∈ take_turns p l rnd n (turns_enough c b) s.
Proof.
  intros p l t gc wk ql es s tr n c rnd b Hr Hc Hcan Hret Hnp Hf Hb.
  eapply (attended p l t gc wk ql rnd b n c); try done.
  - destruct (sy_clients s !! n) eqn:E; [by eexists|].
    destruct (gone_over _ _ _ _ _ _ _ _ _ _ _ Hr Hc E) as [?|[r ?]]; [done|by destruct (Hret r)].
  - by eapply need_start.
Qed.

Lemma ex_decent x nonce : decent ex_lib (ex_work x "site" nonce).
Proof.
  intros d. exists (d <=? nonce), true. split; [done|]. split; [|by rewrite orb_true_r].
  unfold valid, ex_lib, ex_work, work_pow. cbn. by rewrite String.eqb_refl.
Qed.
