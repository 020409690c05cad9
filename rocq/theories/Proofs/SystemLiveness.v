(** Proofs about progress of the System's clients and of the queue's runners. *)
From Coq Require Import ZifyBool ZifyN ZifyNat Lia.
From Verif Require Import Model.Base Model.Defense Model.MCaptcha Model.Counter Model.Master
  Model.HashCache Model.Queue Model.Pow Model.System
  Spec.CacheSpec Spec.QueueSpec Spec.MasterSpec Spec.SystemSpec
  Proofs.CacheProofs Proofs.QueueProofs Proofs.MasterProofs Proofs.MasterTasks Proofs.SystemProofs
  Proofs.SystemHistory.

(** * Runners keep running *)
Definition states (im : inner) : list rstate := rn_state <$> im_runners im.
Lemma running_states q r j : running_job q r = Some j <-> states (qs_im q) !! r = Some (RRunning j).
Proof.
  unfold running_job, states. rewrite list_lookup_fmap. destruct (_ !! r) as [[c st]|]; cbn; [|done].
  destruct st; split; congruence.
Qed.
Lemma send_states m (i : nat) (rs : list runner) : rn_state <$> alter (rn_send m) i rs = rn_state <$> rs.
Proof.
  apply list_eq. intros k. rewrite !list_lookup_fmap. destruct (decide (k = i)) as [->|Hne].
  - rewrite list_lookup_alter. by destruct (rs !! i).
  - by rewrite list_lookup_alter_ne.
Qed.
Lemma dispatch_to_states p im name im' o : dispatch_to p im name = Val (im', o) -> states im' = states im.
Proof.
  unfold dispatch_to, obind. intros H. repeat case_match; try done; injection H as <- <-; try done;
    unfold states; cbn [im_runners]; apply send_states.
Qed.
Lemma dispatch_names_states p names im im' o :
  dispatch_names p im names = Val (im', o) -> states im' = states im.
Proof.
  revert im im' o. induction names as [|n ns IH]; intros im im' o; cbn [dispatch_names].
  - by intros [= <- <-].
  - destruct (_ !! n); [|done]. unfold obind. destruct (dispatch_to p im n) as [[im1 o1]|] eqn:E1; [|done].
    destruct (dispatch_names p im1 ns) as [[im2 o2]|] eqn:E2; [|done]. intros [= <- <-].
    rewrite (IH _ _ _ E2). by eapply dispatch_to_states.
Qed.
Lemma schedule_states p im ip j im' o x : schedule p im ip j = Val (im', o, x) -> states im' = states im.
Proof.
  unfold schedule, obind, dispatch. destruct (_ =? _); [by intros [= <- <- <-]|].
  destruct (im_queues _ !! ip);
    match goal with |- match ?d with _ => _ end = _ -> _ => destruct d as [[im2 o2]|] eqn:E2 end; try done;
    intros [= <- <- <-]; by apply dispatch_names_states in E2.
Qed.
Lemma mgr_step_states p q q' o : mgr_step p q = Some (q', o) -> states (qs_im q') = states (qs_im q).
Proof.
  unfold mgr_step. destruct (qs_mgr q); try done. destruct (qs_inbox q) as [|[|name|j ip] rest]; try done.
  - destruct (forallb _ _); intros [= <- <-]; [|done]. unfold states. cbn [qs_im with_runners im_runners].
    rewrite <- list_fmap_compose. done.
  - destruct (dispatch_to _ _ _) as [[im o']|] eqn:E; intros [= <- <-]; [|done]. by apply dispatch_to_states in E.
  - destruct (schedule _ _ _ _) as [[[im o'] x]|] eqn:E; intros [= <- <-]; [|done]. by apply schedule_states in E.
Qed.
Definition at_runner (e : qevent) : option nat :=
  match e with QeRecv r | QeFinish r | QePanic r => Some r | _ => None end.
Lemma q_step_states p q e q' o r :
  q_step p q e = Some (q', o) -> at_runner e <> Some r -> states (qs_im q') !! r = states (qs_im q) !! r.
Proof.
  intros H Hr. unfold q_step in H. assert (qs_mgr q <> MAborted) as Hna by (by destruct (qs_mgr q)).
  assert (forall r' x ib, r' <> r -> states (qs_im (set_runner q r' x ib)) !! r = states (qs_im q) !! r) as Hset.
  { intros r' x ib Hne. unfold states. cbn [set_runner qs_im with_runners im_runners].
    rewrite !list_lookup_fmap. by rewrite list_lookup_insert_ne. }
  destruct e as [ip| |r'|r'|r'| |].
  - destruct (qs_mgr q); try done; destruct (qs_dropped q); try done; by injection H as <- <-.
  - assert (mgr_step p q = Some (q', o)) as H' by (by destruct (qs_mgr q)). by rewrite (mgr_step_states _ _ _ _ H').
  - assert (runner_recv q r' = Some (q', o)) as H' by (by destruct (qs_mgr q)). unfold runner_recv in H'.
    repeat case_match; try done; injection H' as <- <-; apply Hset; cbn in Hr; congruence.
  - assert (runner_finish q r' = Some (q', o)) as H' by (by destruct (qs_mgr q)). unfold runner_finish in H'.
    repeat case_match; try done; injection H' as <- <-; apply Hset; cbn in Hr; congruence.
  - assert (runner_panic q r' = Some (q', o)) as H' by (by destruct (qs_mgr q)). unfold runner_panic in H'.
    repeat case_match; try done; injection H' as <- <-; apply Hset; cbn in Hr; congruence.
  - destruct (qs_mgr q); try done; destruct (qs_dropped q); try done; by injection H as <- <-.
  - destruct (qs_mgr q); try done. destruct (forallb _ _); [|done]. by injection H as <- <-.
Qed.
Lemma running_recv p q r j : running_job q r = Some j -> q_step p q (QeRecv r) = None.
Proof.
  unfold running_job, q_step, runner_recv. intros H. destruct (_ !! r) as [[c []]|]; try done.
  destruct (qs_mgr q); try done; by destruct c as [|[] ?].
Qed.
Lemma q_step_running p q e q' o r j :
  q_step p q e = Some (q', o) -> running_job q r = Some j -> e <> QeFinish r -> e <> QePanic r ->
  running_job q' r = Some j.
Proof.
  intros H Hr H1 H2. assert (e <> QeRecv r) as H3 by (intros ->; by rewrite (running_recv _ _ _ _ Hr) in H).
  apply running_states. rewrite (q_step_states _ _ _ _ _ r H) by (destruct e; cbn; congruence).
  by apply running_states.
Qed.
Lemma q_step_starts p q e q' o r j :
  q_step p q e = Some (q', o) -> QStart r j ∈ o \/ QExit r ∈ o \/ QFinish r j ∈ o -> at_runner e = Some r.
Proof.
  intros H Ho. unfold q_step in H. assert (qs_mgr q <> MAborted) as Hna by (by destruct (qs_mgr q)).
  assert (forall o' : list qout, Forall (fun x => match x with QTry _ _ | QHand _ _ _ => True | _ => False end) o' ->
     QStart r j ∉ o' /\ QExit r ∉ o' /\ QFinish r j ∉ o') as Hs.
  { intros o' Ho'. rewrite Forall_forall in Ho'. split_and!; intros Hin; by destruct (Ho' _ Hin). }
  destruct e as [ip| |r'|r'|r'| |].
  - destruct (qs_mgr q); try done; destruct (qs_dropped q); try done; injection H as <- <-; set_solver.
  - assert (mgr_step p q = Some (q', o)) as H' by (by destruct (qs_mgr q)). exfalso. clear H.
    unfold mgr_step in H'. destruct (qs_mgr q); try done. destruct (qs_inbox q) as [|[|name|j' ip] rest]; [done|..].
    + destruct (forallb _ _); injection H' as <- <-; set_solver.
    + destruct (dispatch_to _ _ _) as [[im o']|] eqn:E; injection H' as <- <-; [|set_solver].
      apply dispatch_to_out, Hs in E. set_solver.
    + destruct (schedule _ _ _ _) as [[[im o'] x]|] eqn:E; injection H' as <- <-; [|set_solver].
      assert (Forall (fun x => match x with QTry _ _ | QHand _ _ _ => True | _ => False end) o') as Hx%Hs.
      { unfold schedule, obind, dispatch in E. destruct (_ =? _); [injection E as <- <- <-; auto|].
        destruct (im_queues _ !! ip);
            match type of E with match ?d with _ => _ end = _ => destruct d as [[im2 o2]|] eqn:E2 end; try done;
            injection E as <- <- <-; by apply dispatch_names_out in E2. }
      set_solver.
  - assert (runner_recv q r' = Some (q', o)) as H' by (by destruct (qs_mgr q)). unfold runner_recv in H'.
    repeat case_match; try done; injection H' as <- <-; cbn; f_equal; set_solver.
  - assert (runner_finish q r' = Some (q', o)) as H' by (by destruct (qs_mgr q)). unfold runner_finish in H'.
    repeat case_match; try done; injection H' as <- <-; cbn; f_equal; set_solver.
  - assert (runner_panic q r' = Some (q', o)) as H' by (by destruct (qs_mgr q)). unfold runner_panic in H'.
    repeat case_match; try done; injection H' as <- <-; set_solver.
  - destruct (qs_mgr q); try done; destruct (qs_dropped q); try done; injection H as <- <-; set_solver.
  - destruct (qs_mgr q); try done. destruct (forallb _ _); [|done]. injection H as <- <-. set_solver.
Qed.

(** * A client that does not act keeps its place *)
Definition not_by (n : nat) (e : sevent) : Prop := e <> SeCancel n /\ forall rnd, e <> SeAct n rnd.
Lemma client_frame p l wk ql tr s e s' o n c j v :
  sinv p l wk ql tr s -> scase p l s e s' o -> not_by n e ->
  sy_clients s !! n = Some c -> client_job c = Some j -> sy_jobs s !! j = Some v ->
  sy_clients s' !! n = Some c /\
  (sy_jobs s' !! j = Some v \/
   exists r b rest, e = SeSend r /\ running_job (sy_q s) r = Some j /\ vj_todo v = b :: rest /\
     (length (vj_buf v) < verdict_capacity)%nat /\
     sy_jobs s' !! j = Some (VJob (vj_buf v ++ [b]) rest (vj_returns v) true)).
Proof.
  intros Hi Hc [Hnc Hna] Hn Hj Hv.
  assert (vj_open v = true) as Hop.
  { destruct (si_own _ _ _ _ _ _ Hi _ _ _ Hn Hj) as (v' & Hv' & Ho & _). congruence. }
  assert (forall m c', m <> n -> <[m := c']> (sy_clients s) !! n = Some c) as Hins.
  { intros. by rewrite lookup_insert_ne. }
  assert (forall m c', m <> n -> sy_clients s !! m = Some c' ->
     sy_clients (leave s m c') !! n = Some c /\ sy_jobs (leave s m c') !! j = Some v) as Hlv.
  { intros m c' Hm Hc'. cbn [leave sy_clients sy_jobs]. split; [by rewrite lookup_delete_ne|].
    destruct (client_job c') as [j'|] eqn:Ej'; [|done]. rewrite lookup_alter_ne; [done|].
    intros ->. apply Hm. by eapply (si_inj _ _ _ _ _ _ Hi). }
  assert (sy_next s <> n) as Hfr.
  { intros <-. destruct (si_fresh _ _ _ _ _ _ Hi (sy_next s)) as [E _]; [done|congruence]. }
  destruct Hc; try (match goal with |- context [SeAct ?m ?rnd] => assert (m <> n) as Hm by (intros ->; by apply (Hna rnd)) end);
    cbn [with_m with_c with_q with_job with_client sy_clients sy_jobs]; try (by auto);
    try (match goal with H : sy_clients s !! ?m = Some ?c', Hm : ?m <> n |- context [leave _ ?m ?c'] =>
           destruct (Hlv m c' Hm H) as [A B] end; split; [exact A|left; exact B]).
  - assert (n0 <> n) as Hm by (by intros ->). destruct (Hlv n0 _ Hm H) as [A B]. auto.
  - split; [done|]. left. rewrite lookup_insert_ne; [done|]. intros ->. congruence.
  - split; [done|]. destruct (decide (j0 = j)) as [->|Hne].
    + right. assert (v0 = v) as -> by congruence. exists r, b, rest. by rewrite lookup_insert.
    + left. by rewrite lookup_insert_ne.
  - split; [auto|]. left. rewrite lookup_insert_ne; [done|]. intros E.
    assert (is_Some (sy_jobs s !! j)) as Hs by eauto. apply (si_dom _ _ _ _ _ _ Hi) in Hs. lia.
  - split; [auto|]. left. rewrite lookup_insert_ne; [done|]. intros ->. apply Hm.
    by eapply (si_inj _ _ _ _ _ _ Hi).
Qed.

(** * Blocked runners *)
Record waits_for (s : ssys) (r n : nat) (c : client) (j : job) (v : vjob) : Prop := {
  wf_client : sy_clients s !! n = Some c;
  wf_job : client_job c = Some j;
  wf_chan : sy_jobs s !! j = Some v;
  wf_open : vj_open v = true;
  wf_full : length (vj_buf v) = verdict_capacity;
  wf_more : vj_todo v <> [];
  wf_running : running_job (sy_q s) r = Some j }.
Lemma waits_stuck p l s r n c j v :
  waits_for s r n c j v -> s_step p l s (SeSend r) = None /\ s_step p l s (SeEnd r) = None /\ s_step p l s (SeRecv r) = None.
Proof.
  intros [H1 H2 H3 H4 H5 H6 H7]. split_and!.
  - destruct (s_step p l s (SeSend r)) as [[s' o]|] eqn:E; [|done]. apply s_step_eq in E as [_ E]. cbn [s_step'] in E.
    rewrite H7, H3 in E. destruct (vj_todo v); [done|]. rewrite H4 in E. cbn [negb] in E. by rewrite H5 in E.
  - destruct (s_step p l s (SeEnd r)) as [[s' o]|] eqn:E; [|done]. apply s_step_eq in E as [_ E]. cbn [s_step'] in E.
    rewrite H7, H3 in E. by destruct (vj_todo v).
  - destruct (s_step p l s (SeRecv r)) as [[s' o]|] eqn:E; [|done]. apply s_step_eq in E as [_ E]. cbn [s_step'] in E.
    unfold s_queue in E. by rewrite (running_recv _ _ _ _ H7) in E.
Qed.
Lemma waits_step p l wk ql tr s e s' o r n c j v :
  sinv p l wk ql tr s -> s_step p l s e = Some (s', o) -> not_by n e -> waits_for s r n c j v ->
  waits_for s' r n c j v /\ forall j', QStart r j' ∉ qouts o /\ QFinish r j' ∉ qouts o.
Proof.
  intros Hi Hs Hnb Hw. pose proof (s_step_case _ _ _ _ _ _ Hs) as Hc.
  destruct (waits_stuck p l _ _ _ _ _ _ Hw) as (K1 & K2 & K3).
  destruct Hw as [H1 H2 H3 H4 H5 H6 H7].
  destruct (client_frame _ _ _ _ _ _ _ _ _ _ _ _ _ Hi Hc Hnb H1 H2 H3) as [Hcl [Hv|(r' & b & rest & -> & Hr' & Ht & Hl & Hv)]];
    [|lia].
  assert (e <> SeRecv r /\ e <> SeEnd r) as [N1 N2] by (split; intros ->; congruence).
  assert (running_job (sy_q s') r = Some j) as Hrun.
  { clear -Hc N1 N2 H7.
    destruct Hc; try exact H7; cbn [with_q with_job with_client sy_q];
      match goal with H : q_step _ _ _ = _ |- _ => apply (q_step_running _ _ _ _ _ _ _ H H7) end; congruence. }
  split; [by split|]. intros j'. clear -Hc N1 N2.
  destruct Hc; try (by split; intros ?%elem_of_nil); unfold qouts; cbn [omap list_omap concat]; rewrite app_nil_r;
    match goal with H : q_step _ _ _ = _ |- _ => pose proof (fun X => q_step_starts _ _ _ _ _ r j' H X) as Hx end;
    cbn [at_runner] in Hx; (split; intros Hin;
      match type of Hx with _ -> ?a = _ => assert (a = Some r) as E by auto end; congruence).
Qed.
Lemma waits_run p l t gc wk ql es s tr es2 s2 tr2 r n c j v :
  s_run p l (sys_start t gc wk ql) es = Some (s, tr) -> waits_for s r n c j v ->
  Forall (not_by n) es2 -> s_run p l s es2 = Some (s2, tr2) ->
  waits_for s2 r n c j v /\ forall j', QStart r j' ∉ qouts tr2 /\ QFinish r j' ∉ qouts tr2.
Proof.
  intros Hr Hw. revert s2 tr2. induction es2 as [|e es2 IH] using rev_ind; intros s2 tr2 Hf H2.
  - injection H2 as <- <-. split; [done|]. intros. split; by intros ?%elem_of_nil.
  - apply s_run_snoc in H2 as (s1 & tr1 & o & H1 & H2 & ->). apply Forall_app in Hf as [Hf He].
    rewrite Forall_singleton in He. destruct (IH _ _ Hf H1) as [Hw1 Ho].
    assert (s_run p l (sys_start t gc wk ql) (es ++ es2) = Some (s1, tr ++ tr1)) as Hr1 by (apply s_run_app; eauto 10).
    destruct (waits_step _ _ _ _ _ _ _ _ _ _ _ _ _ _ (run_sinv _ _ _ _ _ _ _ _ _ Hr1) H2 He Hw1) as [Hw2 Ho2].
    split; [done|]. intros j'. rewrite qouts_app, !elem_of_app. destruct (Ho j'), (Ho2 j'). tauto.
Qed.

(** * Verdict channels and started jobs *)
Lemma running_started p q0 es q tr r j :
  (forall r j, running_job q0 r <> Some j) -> q_run p q0 es = Some (q, tr) ->
  running_job q r = Some j -> QStart r j ∈ tr.
Proof.
  intros H0. revert q tr r j. induction es as [|e es IH] using rev_ind; intros q tr r j Hr Hj.
  - injection Hr as <- <-. by destruct (H0 r j).
  - apply q_run_snoc in Hr as (q1 & tr1 & o & H1 & H2 & ->). apply elem_of_app.
    destruct (running_job q1 r) as [j1|] eqn:E1.
    + destruct (decide (e = QeFinish r)) as [->|Hne1].
      { exfalso. unfold q_step, runner_finish in H2. unfold running_job in E1.
        destruct (im_runners _ !! r) as [[c []]|] eqn:Er; try done. injection E1 as ->.
        assert (is_Some (im_runners (qs_im q1) !! r)) as Hlt%lookup_lt_is_Some by eauto.
        destruct (qs_mgr q1); try done; injection H2 as <- <-;
          unfold running_job in Hj; cbn [set_runner qs_im with_runners im_runners] in Hj;
          rewrite list_lookup_insert in Hj by done; done. }
      destruct (decide (e = QePanic r)) as [->|Hne2].
      { exfalso. unfold q_step, runner_panic in H2. unfold running_job in E1.
        destruct (im_runners _ !! r) as [[c []]|] eqn:Er; try done. injection E1 as ->.
        assert (is_Some (im_runners (qs_im q1) !! r)) as Hlt%lookup_lt_is_Some by eauto.
        destruct (qs_mgr q1); try done; injection H2 as <- <-;
          unfold running_job in Hj; cbn [set_runner qs_im with_runners im_runners] in Hj;
          rewrite list_lookup_insert in Hj by done; done. }
      rewrite (q_step_running _ _ _ _ _ _ _ H2 E1 Hne1 Hne2) in Hj. injection Hj as ->. left. by eapply IH.
    + destruct (decide (at_runner e = Some r)) as [Ha|Ha].
      * right. destruct e as [| |r'|r'|r'| |]; try done; injection Ha as ->; unfold q_step in H2.
        -- assert (runner_recv q1 r = Some (q, o)) as H' by (by destruct (qs_mgr q1)). clear H2.
           unfold runner_recv in H'. destruct (im_runners _ !! r) as [[c st]|] eqn:Er; [|done].
           assert (is_Some (im_runners (qs_im q1) !! r)) as Hlt%lookup_lt_is_Some by eauto.
           destruct c as [|[|j'] c]; [done|..]; destruct st; try done; injection H' as <- <-;
             unfold running_job in Hj; cbn [set_runner qs_im with_runners im_runners] in Hj;
             rewrite list_lookup_insert in Hj by done; try done. injection Hj as ->. by left.
        -- unfold runner_finish in H2. unfold running_job in E1.
           destruct (im_runners _ !! r) as [[c []]|]; by destruct (qs_mgr q1).
        -- unfold runner_panic in H2. unfold running_job in E1.
           destruct (im_runners _ !! r) as [[c []]|]; by destruct (qs_mgr q1).
      * exfalso. apply running_states in Hj. rewrite (q_step_states _ _ _ _ _ _ H2 Ha) in Hj.
        apply running_states in Hj. congruence.
Qed.
Lemma idle_start w ql r j : running_job (q_start w ql) r <> Some j.
Proof.
  unfold running_job, q_start, inner_new. cbn [qs_im im_runners].
  destruct (replicate w (Runner [] RIdle) !! r) as [x|] eqn:E; [|done].
  apply lookup_replicate in E as [-> _]. done.
Qed.

Definition chan_inv (tr : list sout) (s : ssys) : Prop :=
  forall j v, sy_jobs s !! j = Some v ->
    (length (vj_buf v) <= verdict_capacity)%nat /\ (vj_buf v <> [] -> exists r, QStart r j ∈ qouts tr).
Lemma chan_step p l wk ql tr s e s' o :
  sinv p l wk ql tr s -> scase p l s e s' o -> chan_inv tr s -> chan_inv (tr ++ o) s'.
Proof.
  intros Hi Hc H.
  assert (forall j v, sy_jobs s !! j = Some v ->
    (length (vj_buf v) <= verdict_capacity)%nat /\ (vj_buf v <> [] -> exists r, QStart r j ∈ qouts (tr ++ o))) as H'.
  { intros j v Hj. destruct (H _ _ Hj) as [A B]. split; [done|]. intros Hb. destruct (B Hb) as [r Hr]. exists r.
    rewrite qouts_app. apply elem_of_app. by left. }
  assert (forall n c, chan_inv (tr ++ o) (leave s n c)) as Hlv.
  { intros n c j v. cbn [leave sy_jobs]. destruct (client_job c) as [j'|]; [|apply H'].
    destruct (decide (j' = j)) as [->|Hne].
    - rewrite lookup_alter. intros (v' & Hv' & ->)%fmap_Some. cbn [vj_buf]. by apply H'.
    - rewrite lookup_alter_ne by done. apply H'. }
  destruct Hc; try exact H'; try apply Hlv.
  - intros j' v'. cbn [with_job sy_jobs]. destruct (decide (j = j')) as [<-|Hne].
    + rewrite lookup_insert. intros [= <-]. cbn [vj_buf]. by apply H'.
    + rewrite lookup_insert_ne by done. apply H'.
  - intros j' v'. cbn [with_job sy_jobs]. destruct (decide (j = j')) as [<-|Hne].
    + rewrite lookup_insert. intros [= <-]. cbn [vj_buf]. split; [rewrite app_length; cbn; lia|].
      intros _. exists r. rewrite qouts_app. apply elem_of_app. left.
      eapply running_started; [apply idle_start|by eapply si_q|done].
    + rewrite lookup_insert_ne by done. apply H'.
  - intros j' v'. cbn [with_job with_client with_q sy_jobs]. destruct (decide (qs_next (sy_q s) = j')) as [<-|Hne].
    + rewrite lookup_insert. intros [= <-]. cbn. split; [lia|done].
    + rewrite lookup_insert_ne by done. apply H'.
  - intros j' v'. cbn [with_job with_client sy_jobs]. destruct (decide (j = j')) as [<-|Hne].
    + rewrite lookup_insert. intros [= <-]. cbn [vj_buf]. destruct (H' _ _ H1) as [A B]. rewrite H2 in A, B.
      cbn in A. split; [lia|]. intros _. by apply B.
    + rewrite lookup_insert_ne by done. apply H'.
Qed.
Lemma run_chan p l t gc wk ql es s tr :
  s_run p l (sys_start t gc wk ql) es = Some (s, tr) -> chan_inv tr s.
Proof.
  revert s tr. induction es as [|e es IH] using rev_ind; intros s tr Hr.
  - injection Hr as <- <-. intros j v. cbn. by rewrite lookup_empty.
  - apply s_run_snoc in Hr as (s1 & tr1 & o & H1 & H2 & ->).
    eapply chan_step; [by eapply run_sinv|by apply s_step_case|by eapply IH].
Qed.

(** * Reaching the blocked state *)
Lemma step_send p l s r j v b rest :
  qs_mgr (sy_q s) <> MAborted -> running_job (sy_q s) r = Some j -> sy_jobs s !! j = Some v ->
  vj_todo v = b :: rest -> vj_open v = true -> (length (vj_buf v) < verdict_capacity)%nat ->
  s_step p l s (SeSend r) = Some (with_job s j (VJob (vj_buf v ++ [b]) rest (vj_returns v) true), []).
Proof.
  intros Ha Hr Hj Ht Ho Hl. apply s_step_eq. split; [done|]. cbn [s_step']. rewrite Hr, Hj, Ht, Ho. cbn [negb].
  apply Nat.ltb_lt in Hl. by rewrite Hl.
Qed.
Lemma blocks p l t gc wk ql es s tr r n w c j :
  s_run p l (sys_start t gc wk ql) es = Some (s, tr) -> qs_mgr (sy_q s) <> MAborted ->
  sy_clients s !! n = Some (VpAnswer w c j) \/ sy_clients s !! n = Some (VpPoll w c j) ->
  running_job (sy_q s) r = Some j ->
  sufficient l w (cc_difficulty_factor c) false -> valid l w false ->
  exists k s1 c' v, (k <= 2)%nat /\ s_run p l s (replicate k (SeSend r)) = Some (s1, []) /\ waits_for s1 r n c' j v.
Proof.
  intros Hr Hna Hcl Hrun Hs Hv. pose proof (run_sinv _ _ _ _ _ _ _ _ _ Hr) as Hi.
  assert (script l w (cc_difficulty_factor c) = ([false; false; true], true)) as Hsc.
  { unfold script, validate, sufficient, valid, work_pow, pow_of_work in *.
    cbn [qw_work qw_string qw_difficulty_factor]. by rewrite Hs, Hv. }
  assert (exists c' v, sy_clients s !! n = Some c' /\ client_job c' = Some j /\ sy_jobs s !! j = Some v /\ vj_open v = true /\
    vj_buf v ++ vj_todo v = [false; false; true]) as (c' & v & Hc' & Hj' & Hjv & Hop & Hbt).
  { destruct Hcl as [H|H]; (destruct (si_own _ _ _ _ _ _ Hi _ _ j H eq_refl) as (v & A & B & C); cbn [job_ok] in C;
      rewrite Hsc in C; injection C as C _; eexists _, v; (split; [exact H|]); by split). }
  destruct (run_chan _ _ _ _ _ _ _ _ _ Hr _ _ Hjv) as [Hle _].
  unfold verdict_capacity in Hle. destruct (vj_buf v) as [|b0 [|b1 [|b2 bs]]] eqn:Eb; cbn in Hbt, Hle; [..|lia].
  - exists 2%nat. eexists. exists c', (VJob [false; false] [true] (vj_returns v) true). split; [done|]. split.
    + cbn [replicate s_run]. rewrite (step_send p l s r j v false [false; true]) by (try done; rewrite Eb; cbn; unfold verdict_capacity; lia).
      rewrite Eb. cbn [app].
      rewrite (step_send p l _ r j (VJob [false] [false; true] (vj_returns v) true) false [true]); try done.
      * cbn [with_job sy_jobs]. apply lookup_insert.
      * cbn. unfold verdict_capacity. lia.
    + split; try done; cbn [with_job sy_jobs]; by rewrite lookup_insert.
  - injection Hbt as -> Ht. exists 1%nat. eexists. exists c', (VJob [false; false] [true] (vj_returns v) true). split; [lia|]. split.
    + cbn [replicate s_run]. rewrite (step_send p l s r j v false [true]) by (try done; rewrite Eb; cbn; unfold verdict_capacity; lia).
      rewrite Eb. cbn [app]. reflexivity.
    + split; try done; cbn [with_job sy_jobs]; by rewrite lookup_insert.
  - injection Hbt as -> -> Ht. exists 0%nat, s, c', v. split; [lia|]. split; [done|].
    split; try done; [by rewrite Eb|by rewrite Ht].
Qed.

(** * Stranded clients *)
Record stranded (s : ssys) (n : nat) (w : work) (c : cached_pow) (j : job) : Prop := {
  sd_mgr : qs_mgr (sy_q s) = MAlive;
  sd_quiet : quiescent (sy_q s);
  sd_client : sy_clients s !! n = Some (VpPoll w c j);
  sd_wait : j ∈ waiting_in_queues (sy_q s);
  sd_chan : exists v, sy_jobs s !! j = Some v /\ vj_buf v = [] }.
Lemma waiting_live q j : qs_mgr q = MAlive -> j ∈ waiting_in_queues q -> job_live q j = true.
Proof.
  intros Hm Hj. unfold job_live. rewrite Hm. cbn [andb]. apply orb_true_iff. left. apply orb_true_iff. right.
  apply concat_elem in Hj as (k & Hk & Hj). apply elem_of_list_fmap in Hk as (x & -> & Hx).
  eapply existsb_intro; [exact Hx|]. eapply existsb_intro; [exact Hj|apply Nat.eqb_refl].
Qed.
Lemma quiescent_idle q r : quiescent q -> running_job q r = None.
Proof.
  intros [_ Hq]. unfold running_job. destruct (_ !! r) as [x|] eqn:E; [|done].
  pose proof (Forall_lookup_1 _ _ _ _ Hq E) as [_ H]. destruct x as [ch st]. cbn in H. by subst.
Qed.
Lemma stranded_stuck p l s n w c j rnd : stranded s n w c j -> s_step p l s (SeAct n rnd) = None.
Proof.
  intros [H1 H2 H3 H4 (v & Hv & Hb)]. unfold s_step. rewrite H1, H3. cbn [client_act]. rewrite Hv, Hb.
  by rewrite (waiting_live _ _ H1 H4).
Qed.
Lemma stranded_step p l wk ql tr s e s' o n w c j :
  sinv p l wk ql tr s -> stranded s n w c j -> s_step p l s e = Some (s', o) -> e <> SeCancel n ->
  (forall m ip os, SoQueue m (QeAdd ip) os ∉ o) -> stranded s' n w c j /\ of_client n o = [].
Proof.
  intros Hi Hst Hs Hnc Hna. pose proof (stranded_stuck p l _ _ _ _ _ "" Hst) as _.
  assert (forall rnd, e <> SeAct n rnd) as Hact.
  { intros rnd ->. by rewrite (stranded_stuck _ _ _ _ _ _ _ _ Hst) in Hs. }
  pose proof (s_step_case _ _ _ _ _ _ Hs) as Hc. destruct Hst as [H1 H2 H3 H4 (v & Hv & Hb)].
  assert (sy_q s' = sy_q s) as Eq.
  { clear -Hc H2 Hna.
    destruct Hc; try reflexivity; exfalso;
      try (match goal with H : q_step _ _ ?e = Some _ |- _ =>
             rewrite quiescent_stuck in H; [done|done|done|done|done] end);
      try (match goal with H : running_job _ _ = Some _ |- _ => by rewrite quiescent_idle in H end).
    eapply Hna. by left. }
  destruct (client_frame _ _ _ _ _ _ _ _ _ _ _ _ _ Hi Hc (conj Hnc Hact) H3 eq_refl Hv)
    as [Hcl [Hj|(r & b & rest & -> & Hr & _)]]; [|by rewrite quiescent_idle in Hr].
  split; [split; rewrite ?Eq; try done; by exists v|].
  assert (sy_next s <> n) as Hfr.
  { intros <-. destruct (si_fresh _ _ _ _ _ _ Hi (sy_next s)) as [E _]; [done|congruence]. }
  clear -Hc Hnc Hact Hfr. unfold of_client.
  destruct Hc; rewrite ?filter_cons_False; try done; cbn [who]; try congruence;
    intros [= ->]; try (by apply (Hact rnd)); by apply Hnc.
Qed.
Lemma stranded_run p l t gc wk ql es s tr es2 s2 tr2 n w c j :
  s_run p l (sys_start t gc wk ql) es = Some (s, tr) -> stranded s n w c j ->
  s_run p l s es2 = Some (s2, tr2) -> SeCancel n ∉ es2 ->
  (forall m ip os, SoQueue m (QeAdd ip) os ∉ tr2) -> stranded s2 n w c j /\ of_client n tr2 = [].
Proof.
  intros Hr Hst. revert s2 tr2. induction es2 as [|e es2 IH] using rev_ind; intros s2 tr2 H2 Hnc Hna.
  - injection H2 as <- <-. done.
  - apply s_run_snoc in H2 as (s1 & tr1 & o & H1 & H2 & ->).
    destruct (IH _ _ H1) as [Hst1 Ho1]; [set_solver|intros m ip os Hin; apply (Hna m ip os); set_solver|].
    assert (s_run p l (sys_start t gc wk ql) (es ++ es2) = Some (s1, tr ++ tr1)) as Hr1 by (apply s_run_app; eauto 10).
    destruct (stranded_step _ _ _ _ _ _ _ _ _ _ _ _ _ (run_sinv _ _ _ _ _ _ _ _ _ Hr1) Hst1 H2) as [Hst2 Ho2].
    + intros ->. apply Hnc. set_solver.
    + intros m ip os Hin. apply (Hna m ip os). set_solver.
    + split; [done|]. by rewrite of_client_app, Ho1, Ho2.
Qed.
Lemma waiting_unstarted p wk ql tr q j :
  q_run p (q_start wk ql) (qtrace tr) = Some (q, qouts tr) -> ~ check_panicked tr ->
  j ∈ waiting_in_queues q -> forall r, QStart r j ∉ qouts tr.
Proof.
  intros Hq Hn Hj r Hs. pose proof (no_panics_of _ Hn) as Hnp.
  destruct (run_tinv _ _ _ _ _ _ Hnp Hq) as [_ Ht].
  destruct (conservation _ _ _ _ _ _ Hnp Hq) as (_ & Hp & Hnd & _).
  rewrite Hp in Hnd. apply NoDup_app in Hnd as (_ & Hdis & _). apply (Hdis j Hj).
  assert (j ∈ (started (qouts tr)).*2) as Hs'.
  { apply elem_of_list_fmap. exists (r, j). split; [done|]. apply elem_of_list_omap. by exists (QStart r j). }
  apply elem_of_cnt in Hs'. rewrite (ti_started_all _ _ _ Ht j) in Hs'.
  apply elem_of_app. right. apply elem_of_app. unfold running_jobs. rewrite !elem_of_cnt. lia.
Qed.

(** * Started jobs get served *)
Lemma foldl_answers_some os (m : gmap nat (result unit)) k :
  is_Some (m !! k) \/ (exists ip x, QAnswer k ip x ∈ os) ->
  is_Some (foldl (fun (r : gmap nat (result unit)) o => match o with QAnswer j _ x => <[j := x]> r | _ => r end) m os !! k).
Proof.
  revert m. induction os as [|o os IH]; intros m; cbn [foldl].
  - intros [H|(ip & x & H)]; [done|by apply elem_of_nil in H].
  - intros [H|(ip & x & [<-|H]%elem_of_cons)]; apply IH; [left|left|right; eauto].
    + destruct o; try done. rewrite lookup_insert_is_Some'. by right.
    + rewrite lookup_insert. by eexists.
Qed.
Lemma answers_complete p l t gc wk ql es s tr j ip x :
  s_run p l (sys_start t gc wk ql) es = Some (s, tr) ->
  QAnswer j ip x ∈ qouts tr -> is_Some (sy_answers s !! j).
Proof.
  revert s tr. induction es as [|e es IH] using rev_ind; intros s tr Hr Hin.
  - injection Hr as <- <-. by apply elem_of_nil in Hin.
  - apply s_run_snoc in Hr as (s1 & tr1 & o & H1 & H2 & ->). apply s_step_case in H2.
    rewrite qouts_app, elem_of_app in Hin.
    assert (is_Some (sy_answers s1 !! j) \/ QAnswer j ip x ∈ qouts o) as Hor by (destruct Hin; eauto).
    clear -H2 Hor.
    destruct H2; try (destruct Hor as [Hor|Hor]; [exact Hor|by apply elem_of_nil in Hor]);
      cbn [with_q with_job with_client sy_answers]; apply foldl_answers_some;
      unfold qouts in Hor; cbn [omap list_omap concat] in Hor; rewrite app_nil_r in Hor;
      destruct Hor; eauto.
Qed.
Lemma started_accepted p wk ql tr q r j :
  q_run p (q_start wk ql) (qtrace tr) = Some (q, qouts tr) -> ~ check_panicked tr ->
  QStart r j ∈ qouts tr ->
  (exists ip, QAnswer j ip (Ok tt) ∈ qouts tr) /\
  (j ∈ (finished (qouts tr)).*2 \/ exists r', running_job q r' = Some j).
Proof.
  intros Hq Hn Hs. pose proof (no_panics_of _ Hn) as Hnp.
  destruct (run_tinv _ _ _ _ _ _ Hnp Hq) as [_ Ht].
  destruct (conservation _ _ _ _ _ _ Hnp Hq) as (_ & Hp & _).
  assert (j ∈ (started (qouts tr)).*2) as Hs'.
  { apply elem_of_list_fmap. exists (r, j). split; [done|]. apply elem_of_list_omap. by exists (QStart r j). }
  apply elem_of_cnt in Hs'. rewrite (ti_started_all _ _ _ Ht j) in Hs'.
  assert (j ∈ running_jobs q \/ j ∈ (finished (qouts tr)).*2) as Hor.
  { unfold running_jobs. rewrite !elem_of_cnt. lia. }
  split.
  - assert (j ∈ (accepted (qouts tr)).*2) as Ha.
    { rewrite Hp. rewrite !elem_of_app. tauto. }
    apply elem_of_list_fmap in Ha as ([ip j'] & -> & Ha). apply elem_of_list_omap in Ha as (o & Ho & E).
    destruct o as [j1 ip1 [[]|]| | | | |]; try done. injection E as -> ->. by exists ip.
  - destruct Hor as [Hor|Hor]; [right|by left].
    apply concat_elem in Hor as (k & Hk & Hj). apply elem_of_list_fmap in Hk as (x & -> & Hx).
    apply elem_of_list_lookup in Hx as [r' Hx]. exists r'. unfold running_job. rewrite Hx.
    destruct x as [ch []]; cbn in Hj; try by apply elem_of_nil in Hj.
    by apply elem_of_list_singleton in Hj as ->.
Qed.
Lemma answered_ok p l t gc wk ql es s tr j ip :
  s_run p l (sys_start t gc wk ql) es = Some (s, tr) -> ~ check_panicked tr ->
  QAnswer j ip (Ok tt) ∈ qouts tr -> sy_answers s !! j = Some (Ok tt).
Proof.
  intros Hr Hn Ha. pose proof (run_sinv _ _ _ _ _ _ _ _ _ Hr) as Hi.
  destruct (answers_complete _ _ _ _ _ _ _ _ _ _ _ _ Hr Ha) as [x Hx]. rewrite Hx.
  destruct (si_ans _ _ _ _ _ _ Hi _ _ Hx) as [ip' Hin].
  destruct (si_anse _ _ _ _ _ _ Hi _ _ _ Hin) as [->|E]; [done|]. exfalso. subst x.
  destruct (conservation _ _ _ _ _ _ (no_panics_of _ Hn) (si_q _ _ _ _ _ _ Hi)) as (_ & _ & _ & Hd).
  apply (Hd j).
  - apply elem_of_list_omap. by exists (QAnswer j ip' (Err QueueFull)).
  - apply elem_of_list_fmap. exists (ip, j). split; [done|]. apply elem_of_list_omap. by exists (QAnswer j ip (Ok tt)).
Qed.

Lemma finish_poll p l s n w c j v rest tok :
  qs_mgr (sy_q s) <> MAborted -> sy_clients s !! n = Some (VpPoll w c j) -> sy_jobs s !! j = Some v ->
  vj_buf v = true :: rest ->
  exists s2, s_run p l s [SeAct n tok; SeAct n ""; SeAct n ""] =
    Some (s2, [mint_out n c tok; SoRet n (RVerifyPow (Ok (tok, cc_difficulty_factor c)))]).
Proof.
  intros Ha Hc Hj Hb. cbn [s_run].
  set (s1 := with_client (with_job s j (VJob rest (vj_todo v) (vj_returns v) (vj_open v))) n (VpStore w c j tok)).
  assert (s_step p l s (SeAct n tok) = Some (s1, [])) as ->.
  { apply s_step_eq. split; [done|]. cbn [s_step']. rewrite Hc. cbn [client_act]. by rewrite Hj, Hb. }
  assert (exists h, s_step p l s1 (SeAct n "") = Some (with_client (with_c s1 h) n (VpDone w c j tok), [mint_out n c tok])) as [h ->].
  { eexists. apply s_step_eq. split; [done|]. cbn [s_step']. unfold s1 at 1. cbn [with_client sy_clients].
    rewrite lookup_insert. cbn [client_act]. unfold s_cache_msg. cbn [hc_handle save_captcha_result]. reflexivity. }
  set (s2 := with_client (with_c s1 h) n (VpDone w c j tok)).
  assert (s_step p l s2 (SeAct n "") = Some (leave s2 n (VpDone w c j tok), [SoRet n (RVerifyPow (Ok (tok, cc_difficulty_factor c)))])) as ->.
  { apply s_step_eq. split; [done|]. cbn [s_step']. unfold s2 at 1. cbn [with_client sy_clients].
    rewrite lookup_insert. done. }
  eexists. reflexivity.
Qed.
Lemma served p l t gc wk ql es s tr n w c j r tok :
  s_run p l (sys_start t gc wk ql) es = Some (s, tr) -> ~ check_panicked tr ->
  sy_clients s !! n = Some (VpAnswer w c j) \/ sy_clients s !! n = Some (VpPoll w c j) ->
  good l w (cc_difficulty_factor c) -> QStart r j ∈ qouts tr ->
  exists es2 s2 tr2, s_run p l s es2 = Some (s2, tr2) /\
    returned tr2 n (RVerifyPow (Ok (tok, cc_difficulty_factor c))) /\
    Forall (fun e => (exists r', e = SeSend r') \/ (exists rnd, e = SeAct n rnd)) es2.
Proof.
  intros Hr Hn Hcl [Hg1 Hg2] Hst. pose proof (run_sinv _ _ _ _ _ _ _ _ _ Hr) as Hi.
  pose proof (mgr_alive _ _ _ _ _ (si_q _ _ _ _ _ _ Hi) Hn (si_drop _ _ _ _ _ _ Hi)) as Hm.
  destruct (started_accepted _ _ _ _ _ _ _ (si_q _ _ _ _ _ _ Hi) Hn Hst) as [[ip Ha] Hfr].
  pose proof (answered_ok _ _ _ _ _ _ _ _ _ _ _ Hr Hn Ha) as Hans.
  assert (exists v, sy_jobs s !! j = Some v /\ vj_open v = true /\ vj_buf v ++ vj_todo v = [true]) as (v & Hjv & Hop & Hbt).
  { destruct Hcl as [H|H]; (destruct (si_own _ _ _ _ _ _ Hi _ _ j H eq_refl) as (v & A & B & C); cbn [job_ok] in C;
      rewrite (script_good _ _ _ Hg1 Hg2) in C; injection C as C _; exists v; by split). }
  assert (exists es1 s1 v1, s_run p l s es1 = Some (s1, []) /\ Forall (fun e => exists r', e = SeSend r') es1 /\
    sy_q s1 = sy_q s /\ sy_clients s1 = sy_clients s /\ sy_answers s1 = sy_answers s /\
    sy_jobs s1 !! j = Some v1 /\ vj_buf v1 = [true]) as (es1 & s1 & v1 & R1 & F1 & Q1 & C1 & A1 & J1 & B1).
  { destruct (vj_buf v) as [|b rest] eqn:Eb.
    - cbn in Hbt. destruct Hfr as [Hf|[r' Hr']].
      { destruct (si_fin _ _ _ _ _ _ Hi _ Hf) as (v' & ? & ? & _). congruence. }
      assert (s_step p l s (SeSend r') = Some (with_job s j (VJob [true] [] (vj_returns v) true), [])) as Es.
      { rewrite (step_send p l s r' j v true []); try done; [by rewrite Eb|by rewrite Hm|].
        rewrite Eb. cbn. unfold verdict_capacity. lia. }
      exists [SeSend r'], (with_job s j (VJob [true] [] (vj_returns v) true)), (VJob [true] [] (vj_returns v) true).
      cbn [s_run]. rewrite Es. split; [reflexivity|]. split; [repeat constructor; eauto|]. split; [done|].
      split; [done|]. split; [done|]. cbn [with_job sy_jobs]. by rewrite lookup_insert.
    - exists [], s, v. cbn in Hbt. injection Hbt as -> Hbt. apply app_nil in Hbt as [-> _]. done. }
  assert (exists es3 s3, s_run p l s1 es3 = Some (s3, []) /\ Forall (fun e => exists rnd, e = SeAct n rnd) es3 /\
    sy_q s3 = sy_q s1 /\ sy_clients s3 !! n = Some (VpPoll w c j) /\ sy_jobs s3 = sy_jobs s1) as (es3 & s3 & R3 & F3 & Q3 & C3 & J3).
  { destruct Hcl as [H|H]; [|exists [], s1; rewrite C1; done].
    exists [SeAct n ""], (with_client s1 n (VpPoll w c j)). cbn [s_run].
    assert (s_step p l s1 (SeAct n "") = Some (with_client s1 n (VpPoll w c j), [])) as ->.
    { apply s_step_eq. rewrite Q1, Hm. split; [done|]. cbn [s_step']. rewrite C1, H. cbn [client_act].
      by rewrite A1, Hans. }
    split; [reflexivity|]. split; [repeat constructor; eauto|]. split; [done|]. split; [|done].
    cbn. by rewrite lookup_insert. }
  destruct (finish_poll p l s3 n w c j v1 [] tok) as [s4 R4]; try done.
  { by rewrite Q3, Q1, Hm. }
  { by rewrite J3. }
  exists (es1 ++ es3 ++ [SeAct n tok; SeAct n ""; SeAct n ""]), s4,
    [mint_out n c tok; SoRet n (RVerifyPow (Ok (tok, cc_difficulty_factor c)))]. split_and!.
  - apply s_run_app. eexists s1, [], _. split; [done|]. split; [|reflexivity].
    apply s_run_app. eexists s3, [], _. done.
  - unfold returned. cbn. set_solver.
  - rewrite !Forall_app. split_and!.
    + eapply Forall_impl; [exact F1|]. auto.
    + eapply Forall_impl; [exact F3|]. auto.
    + apply Forall_forall. intros e He. right. elem_cases; eauto.
Qed.
