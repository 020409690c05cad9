(** Proofs of the theorems of Properties/RedisLiveProperties.v. *)
From Coq Require Import ZifyBool ZifyN ZifyNat Lia.
From Verif Require Import Model.Base Model.MCaptcha Model.HashCache Model.Pow Model.System Model.Master Model.Json Model.Serde Model.Redis
  Model.RedisActor Model.RedisTokens Model.SystemProgram Model.SystemShared Model.RedisSystem
  Spec.RedisActorSpec Spec.ProgramSpec Spec.SharedSpec Spec.RedisSystemSpec Spec.ServiceSpec
  Proofs.RedisActorProofs Proofs.ProgramProofs Proofs.SharedProofs Proofs.RedisSystemProofs Proofs.RedisSystemLive
  Proofs.RedisActorTheorems Proofs.SharedTheorems Proofs.RedisSystemTheorems.

Lemma c105_bounded : forall k l es s tr n c b es2 s2 tr2,
  rs_run k l rs_init es = Some (s, tr) -> SvoCall n c ∈ tr ->
  (forall p w m, rs_calls s !! n = Some (p, Some (w, m)) -> (load (actor w s) <= b)%nat) ->
  rs_run k l s es2 = Some (s2, tr2) -> at_most k l b n s es2 ->
  (served k l n s es2 <= enough c b)%nat /\
  (served k l n s es2 = enough c b -> SvoCancel n ∈ tr ++ tr2 \/ exists r, SvoRet n r ∈ tr ++ tr2).
Proof.
  intros k l es s tr n c b es2 s2 tr2 Hr Hc Hl H2 Hm. destruct (owes_reachable _ _ _ _ _ _ _ _ Hr Hc Hl) as [Hlt Ho].
  destruct (owes_run _ _ _ _ _ _ _ _ _ _ (run_rinv _ _ _ _ _ Hr) Hlt Ho H2 Hm) as [H3 H4]. split; [done|]. intros He.
  assert (Hrun : rs_run k l rs_init (es ++ es2) = Some (s2, tr ++ tr2)) by (rewrite rs_run_app, Hr, H2; done).
  destruct (run_present _ _ _ _ _ n c Hrun) as [Hs|Hs]; [apply elem_of_app; by left| |done].
  pose proof (owes_pos _ _ _ _ H4 Hs). lia.
Qed.

Lemma c105_step : forall k l es s tr n c W,
  rs_run k l rs_init es = Some (s, tr) -> SvoCall n c ∈ tr -> SvoCancel n ∉ tr -> (forall r, SvoRet n r ∉ tr) ->
  (k = Single \/ forall w, ra_users (actor w s) = ∅) -> (forall s q, verdict_ok l q (wo_verdict W s q) = true) ->
  serves n s (next_for W n s) = true /\ is_Some (rs_step k l s (next_for W n s)).
Proof.
  intros k l es s tr n c W Hr Hc Hcan Hret Hf Hv.
  destruct (run_present _ _ _ _ _ _ _ Hr Hc) as [Hs|[?|[r ?]]]; [|done|by destruct (Hret r)].
  split; [by apply serves_next|]. apply (next_enabled k l tr s W n); try done. by apply (run_rinv _ _ _ _ _ Hr).
Qed.

Lemma c105_attended : forall k l es s tr n c W b,
  rs_run k l rs_init es = Some (s, tr) -> SvoCall n c ∈ tr -> SvoCancel n ∉ tr -> (forall r, SvoRet n r ∉ tr) ->
  (k = Single \/ forall w, ra_users (actor w s) = ∅) -> (forall s q, verdict_ok l q (wo_verdict W s q) = true) ->
  (forall w, load (actor w s) <= b)%nat ->
  exists r, SvoRet n r ∈ attend k l W n (enough c b) s.
Proof.
  intros k l es s tr n c W b Hr Hc Hcan Hret Hf Hv Hl.
  destruct (run_present _ _ _ _ _ _ _ Hr Hc) as [Hs|[?|[r ?]]]; [|done|by destruct (Hret r)].
  destruct (owes_reachable _ _ _ _ _ _ _ b Hr Hc) as [Hlt Ho]; [intros p w m _; apply Hl|].
  apply (attend_returns k l W n b Hv _ tr); try done; [by apply (run_rinv _ _ _ _ _ Hr)|].
  intros w. specialize (Hl w). lia.
Qed.

Lemma at_most_others k l b n es : forall s, Forall (fun x => x <> SvAsk n) es -> at_most k l b n s es.
Proof.
  induction es as [|x es IH]; intros s H; [done|]. apply Forall_cons in H as [H1 H2]. cbn [at_most]. split.
  - destruct x; try done. intros ->. done.
  - destruct (rs_step k l s x) as [[s' o]|]; [by apply IH|done].
Qed.
