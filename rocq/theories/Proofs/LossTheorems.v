(** Proofs of the theorems of Properties/LossProperties.v. *)
From Coq Require Import ZifyBool ZifyN ZifyNat Lia.
From Verif Require Import Model.Base Model.Defense Model.MCaptcha Model.HashCache Model.Queue Model.Pow Model.Counter Model.Master
  Model.System Model.SystemLoss Spec.SystemSpec Proofs.MasterProofs Proofs.SystemProofs Proofs.SystemHistory
  Proofs.DelayTheorems Proofs.SystemTheorems
  Spec.LossSpec.

Lemma step_plain p l s e s' o : l_step p l s e = Some (s', o) ->
  exists o', s_step p l s (plain e) = Some (s', o') /\ Forall2 lost_or_same o o'.
Proof.
  destruct e as [e|n]; cbn [l_step plain].
  - intros H. exists o. split; [done|]. clear. induction o; constructor; [by left|done].
  - intros H. unfold s_step. destruct (qs_mgr (sy_q s)); try done.
    all: destruct (sy_clients s !! n) as [[]|]; try done.
    all: destruct (sy_replies s !! k) as [x|]; try done; destruct (by_future x && negb (my_alive (sy_m s))); try done.
    all: unfold s_return in H; injection H as <- <-; eexists; split; [done|]; constructor; [|constructor]; right; by exists n.
Qed.

Lemma run_plain p l es : forall s s' tr, l_run p l s es = Some (s', tr) ->
  exists tr', s_run p l s (plain <$> es) = Some (s', tr') /\ Forall2 lost_or_same tr tr'.
Proof.
  induction es as [|e es IH]; intros s s' tr H; cbn in H |- *.
  - injection H as <- <-. exists []. split; [done|constructor].
  - destruct (l_step p l s e) as [[s1 o]|] eqn:E; [|done]. destruct (l_run p l s1 es) as [[s2 os]|] eqn:E2; [|done]. injection H as <- <-.
    destruct (step_plain _ _ _ _ _ _ E) as (o' & -> & Ho). destruct (IH _ _ _ E2) as (os' & -> & Hos).
    eexists. split; [done|]. by apply Forall2_app.
Qed.

(** What the two traces agree on. *)
Lemma agree {A} (f : sout -> option A) tr tr' : Forall2 lost_or_same tr tr' ->
  (forall n r, f (SoRet n r) = None) -> (forall n, f (SoCancel n) = None) -> omap f tr = omap f tr'.
Proof.
  intros H Hr Hc. induction H as [|o o' tr tr' [->|(n & -> & ->)] H IH]; cbn; [done|by rewrite IH|]. by rewrite Hr, Hc.
Qed.

Lemma in_plain tr tr' o : Forall2 lost_or_same tr tr' -> o ∈ tr ->
  o ∈ tr' \/ exists n, o = SoRet n (RGetPow (Err RecvError)) /\ SoCancel n ∈ tr'.
Proof.
  intros H. induction H as [|a b tr tr' Hab H IH]; [by intros ?%elem_of_nil|]. intros [->|Ho]%elem_of_cons.
  - destruct Hab as [->|(n & -> & ->)]; [left; by left|]. right. exists n. split; [done|]. by left.
  - destruct (IH Ho) as [|(n & -> & ?)]; [left; by right|]. right. exists n. split; [done|]. by right.
Qed.

Lemma of_plain tr tr' o : Forall2 lost_or_same tr tr' -> o ∈ tr' -> (forall n, o <> SoCancel n) -> o ∈ tr.
Proof.
  intros H. induction H as [|a b tr tr' Hab H IH]; [by intros ?%elem_of_nil|]. intros [->|Ho]%elem_of_cons Hn.
  - destruct Hab as [->|(n & -> & ->)]; [by left|]. by destruct (Hn n).
  - right. by apply IH.
Qed.

(** A dead Master stays dead. *)
Lemma m_run_dead p es : forall s s' o, m_run p s es = Some (s', o) -> my_alive s = false -> my_alive s' = false.
Proof.
  induction es as [|e es IH]; intros s s' o H Ha; cbn in H; [by injection H as <- _|].
  destruct (m_step p s e) as [[s1 o1]|] eqn:E; [|done]. destruct (m_run p s1 es) as [[s2 o2]|] eqn:E2; [|done]. injection H as <- _.
  by eapply IH, dead_stays.
Qed.

Lemma run_dead p l es : forall s s' tr, l_run p l s es = Some (s', tr) -> my_alive (sy_m s) = false -> my_alive (sy_m s') = false.
Proof.
  induction es as [|e es IH]; intros s s' tr H Ha; cbn in H; [by injection H as <- _|].
  destruct (l_step p l s e) as [[s1 o]|] eqn:E; [|done]. destruct (l_run p l s1 es) as [[s2 os]|] eqn:E2; [|done]. injection H as <- _.
  eapply IH; [exact E2|]. destruct (step_plain _ _ _ _ _ _ E) as (o' & Hs & _).
  eapply m_run_dead; [exact (scase_m _ _ _ _ _ _ (s_step_case _ _ _ _ _ _ Hs))|done].
Qed.

Lemma c106_as_cancelled : forall p l t gc wk ql es s tr,
  l_run p l (sys_start t gc wk ql) es = Some (s, tr) ->
  exists tr', s_run p l (sys_start t gc wk ql) (plain <$> es) = Some (s, tr') /\ Forall2 lost_or_same tr tr'.
Proof. intros. by apply run_plain. Qed.

Lemma c106_no_loss : forall p l s es, l_run p l s (LeDo <$> es) = s_run p l s es.
Proof.
  intros p l s es. revert s. induction es as [|e es IH]; intros s; cbn; [done|].
  destruct (s_step p l s e) as [[s1 o]|]; [|done]. by rewrite IH.
Qed.

Lemma c106_earned : forall p l t gc wk ql es s tr n tok d,
  l_run p l (sys_start t gc wk ql) es = Some (s, tr) -> returned tr n (RVerifyPow (Ok (tok, d))) ->
  exists w ip n0, called tr n (CVerifyPow w ip) /\ sufficient l w d true /\ valid l w true /\
    n0 ∈ issuers (w_string w) tr /\ called tr n0 (CGetPow (w_key w)).
Proof.
  intros p l t gc wk ql es s tr n tok d Hr Hret. destruct (run_plain _ _ _ _ _ _ Hr) as (tr' & Hs & Hf).
  destruct (in_plain _ _ _ Hf Hret) as [Hret'|(? & ? & _)]; [|done].
  destruct (c50_sound _ _ _ _ _ _ _ _ _ _ _ _ Hs Hret') as (w & ip & dur & n0 & r0 & tr1 & tr2 & tr3 & Hc & H1 & H2 & H3).
  destruct H3 as (H3 & E & _). exists w, ip, n0. split; [by apply (of_plain _ _ _ Hf)|]. split; [done|]. split; [done|].
  split; [|by apply (of_plain _ _ _ Hf)]. assert (Hi : issuers (w_string w) tr = issuers (w_string w) tr') by (by apply agree).
  rewrite Hi. apply elem_of_issuers. eexists _, _. split; [rewrite E; apply elem_of_app; right; by left|done].
Qed.

Lemma c106_once : forall p l t gc wk ql es s tr x ns,
  l_run p l (sys_start t gc wk ql) es = Some (s, tr) -> NoDup ns ->
  (Forall (fun n => verified tr n x) ns -> (length ns <= length (issuers x tr))%nat) /\
  (Forall (fun n => exists key, validated tr n x key) ns -> (length ns <= length (minters x tr))%nat).
Proof.
  intros p l t gc wk ql es s tr x ns Hr Hnd. destruct (run_plain _ _ _ _ _ _ Hr) as (tr' & Hs & Hf). split; intros Hn.
  - assert (Hi : issuers x tr = issuers x tr') by (by apply agree). rewrite Hi.
    apply (c51_at_most_once _ _ _ _ _ _ _ _ _ _ _ Hs Hnd). eapply Forall_impl; [exact Hn|]. cbn. intros n (w & ip & tok & d & Hc & Hw & Hv).
    destruct (in_plain _ _ _ Hf Hc) as [Hc'|(? & ? & _)]; [|done]. destruct (in_plain _ _ _ Hf Hv) as [Hv'|(? & ? & _)]; [|done].
    by exists w, ip, tok, d.
  - assert (Hi : minters x tr = minters x tr') by (by apply agree). rewrite Hi.
    apply (c52_token_once _ _ _ _ _ _ _ _ _ _ _ Hs Hnd). eapply Forall_impl; [exact Hn|]. cbn. intros n (key & Hc & Hv).
    destruct (in_plain _ _ _ Hf Hc) as [Hc'|(? & ? & _)]; [|done]. destruct (in_plain _ _ _ Hf Hv) as [Hv'|(? & ? & _)]; [|done].
    exists key. by split.
Qed.

Lemma c106_right_site : forall p l t gc wk ql es s tr n tok key,
  l_run p l (sys_start t gc wk ql) es = Some (s, tr) -> validated tr n tok key ->
  exists n0 w ip, n0 ∈ minters tok tr /\ called tr n0 (CVerifyPow w ip) /\ w_key w = key /\ valid l w true.
Proof.
  intros p l t gc wk ql es s tr n tok key Hr [Hc Hv]. destruct (run_plain _ _ _ _ _ _ Hr) as (tr' & Hs & Hf).
  destruct (in_plain _ _ _ Hf Hc) as [Hc'|(? & ? & _)]; [|done]. destruct (in_plain _ _ _ Hf Hv) as [Hv'|(? & ? & _)]; [|done].
  destruct (c52_right_site _ _ _ _ _ _ _ _ _ _ _ _ Hs (conj Hc' Hv')) as (n0 & w & ip & c & r & tr1 & tr2 & tr3 & E & _ & H1 & H2 & _ & _ & H4 & _).
  exists n0, w, ip. split; [|split; [by apply (of_plain _ _ _ Hf)|done]].
  assert (Hi : minters tok tr = minters tok tr') by (by apply agree). rewrite Hi. apply elem_of_minters. eexists _, _. split; [rewrite E; apply elem_of_app; right; by left|done].
Qed.

Lemma c106_only_dead : forall p l t gc wk ql es s tr,
  l_run p l (sys_start t gc wk ql) es = Some (s, tr) -> my_alive (sy_m s) = true ->
  s_run p l (sys_start t gc wk ql) (plain <$> es) = Some (s, tr).
Proof.
  intros p l t gc wk ql es s tr Hr Ha. generalize dependent (sys_start t gc wk ql). revert tr.
  induction es as [|e es IH]; intros tr s0 Hr; cbn in Hr |- *; [done|].
  destruct (l_step p l s0 e) as [[s1 o]|] eqn:E; [|done]. destruct (l_run p l s1 es) as [[s2 os]|] eqn:E2; [|done]. injection Hr as -> <-.
  destruct e as [e|n]; cbn [plain l_step] in E |- *; [by rewrite E, (IH _ _ E2)|]. exfalso.
  assert (my_alive (sy_m s0) = false /\ sy_m s1 = sy_m s0) as [H0 H1].
  { destruct (qs_mgr (sy_q s0)); try done.
    all: destruct (sy_clients s0 !! n) as [[]|]; try done.
    all: destruct (sy_replies s0 !! k) as [x|]; try done; destruct (by_future x && negb (my_alive (sy_m s0))) eqn:Eb; try done.
    all: unfold s_return in E; injection E as <- <-; split; [lia|done]. }
  rewrite <- H1 in H0. by rewrite (run_dead _ _ _ _ _ _ E2 H0) in Ha.
Qed.

(** A visitor is served and validated; later a removal during a cleanup kills the
    Master while another visitor's answer is under way. *)
Definition ex_lose : list levent :=
  (LeDo <$> ex_issue ++ ex_solve ++ ex_check ++
   [SeMaster (MeReq (RqAddSite "b" ex_site)); SeMaster (MeTask 0); SeMaster (MeTask 2); SeMaster (MeReq (RqRemove "site"));
    SeMaster (MeTask 3); SeCall (CGetPow "b"); SeAct 3 ""; SeMaster (MeTask 4); SeMaster (MeTask 2)]) ++
  [LeLose 3; LeDo (SeMaster (MeDirect 1 CmGetCurrentVisitorCount))].

Lemma c106_counted_unanswered : forall p, exists s tr,
  l_run p ex_lib ex_start ex_lose = Some (s, tr) /\ returned tr 3 (RGetPow (Err RecvError)) /\
  MoDirect 1 (CrCount 1) ∈ mouts tr.
Proof.
  intros p. eexists _, _. split; [by destruct p; vm_compute|]. split; [unfold returned; repeat (first [by left|right])|].
  repeat (first [by left|right]).
Qed.
