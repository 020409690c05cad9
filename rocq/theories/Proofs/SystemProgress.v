(** What the proof checks in progress owe, and that runners not held up by
    worthless work can always proceed. *)
From Coq Require Import ZifyBool ZifyN ZifyNat Lia.
From Verif Require Import Model.Base Model.Defense Model.MCaptcha Model.Counter Model.Master
  Model.HashCache Model.Queue Model.Pow Model.System
  Spec.CacheSpec Spec.QueueSpec Spec.MasterSpec Spec.SystemSpec Spec.ExecutorSpec
  Proofs.CacheProofs Proofs.QueueProofs Proofs.MasterProofs Proofs.MasterTasks Proofs.SystemProofs
  Proofs.SystemHistory Proofs.SystemLiveness Proofs.QueueTheorems.

(** * Where the verdicts of every job come from *)
Definition spent (c : client) (v : vjob) : Prop :=
  match c with
  | VpStore _ _ _ _ | VpDone _ _ _ _ => vj_buf v ++ vj_todo v = []
  | _ => True
  end.
Record jok (l : pow_lib) (tr : list sout) (s : ssys) (j : job) (v : vjob) : Prop := {
  jk_from : exists n w ip d pre, called tr n (CVerifyPow w ip) /\
    script l w d = (pre ++ vj_todo v, vj_returns v) /\ (vj_open v = true -> exists pre', pre = pre' ++ vj_buf v);
  jk_open : vj_open v = true ->
    exists n c, sy_clients s !! n = Some c /\ client_job c = Some j /\ spent c v }.
Definition jinv (l : pow_lib) (tr : list sout) (s : ssys) : Prop :=
  forall j v, sy_jobs s !! j = Some v -> jok l tr s j v.

Lemma jok_ext l tr s s' j v : sy_clients s = sy_clients s' -> jok l tr s j v -> jok l tr s' j v.
Proof. intros E [H1 H2]. split; [done|]. by rewrite <- E. Qed.
Lemma jinv_frame l tr s o s' :
  jinv l tr s ->
  (forall n c, sy_clients s !! n = Some c -> client_job c <> None ->
     exists c', sy_clients s' !! n = Some c' /\ client_job c' = client_job c /\ forall v, spent c v -> spent c' v) ->
  forall j v, sy_jobs s !! j = Some v -> jok l (tr ++ o) s' j v.
Proof.
  intros H Hf j v Hj. destruct (H _ _ Hj) as [(n & w & ip & d & pre & Hc & Hs) Ho]. split.
  - exists n, w, ip, d, pre. split; [|done]. unfold called in *. apply elem_of_app. by left.
  - intros Hop. destruct (Ho Hop) as (m & c & Hm & Hjc & Hsp).
    destruct (Hf _ _ Hm ltac:(congruence)) as (c' & H1 & H2 & H3). exists m, c'. rewrite H2. auto.
Qed.
Lemma insert_frame s n c c' (m : nat) x :
  sy_clients s !! n = Some c -> client_job c = None \/ (client_job c' = client_job c /\ forall v, spent c v -> spent c' v) ->
  sy_clients s !! m = Some x -> client_job x <> None ->
  exists x', <[n := c']> (sy_clients s) !! m = Some x' /\ client_job x' = client_job x /\ forall v, spent x v -> spent x' v.
Proof.
  intros Hn Hc Hm Hx. destruct (decide (n = m)) as [<-|Hne].
  - assert (x = c) as -> by congruence. destruct Hc as [E|[E1 E2]]; [congruence|].
    exists c'. by rewrite lookup_insert.
  - exists x. by rewrite lookup_insert_ne.
Qed.
Lemma jinv_leave p l wk ql tr s o n c :
  sinv p l wk ql tr s -> jinv l tr s -> sy_clients s !! n = Some c -> jinv l (tr ++ o) (leave s n c).
Proof.
  intros Hi H Hn j v. cbn [leave sy_jobs]. intros Hj.
  assert (forall v0, sy_jobs s !! j = Some v0 -> client_job c <> Some j -> jok l (tr ++ o) (leave s n c) j v0) as Hk.
  { intros v0 Hv0 Hne. destruct (H _ _ Hv0) as [(m & w & ip & d & pre & Hc & Hs) Ho]. split.
    - exists m, w, ip, d, pre. split; [|done]. unfold called in *. apply elem_of_app. by left.
    - intros Hop. destruct (Ho Hop) as (m' & c' & Hm & Hjc & Hsp). exists m', c'. split; [|done].
      cbn [leave sy_clients]. rewrite lookup_delete_ne; [done|]. intros <-. congruence. }
  destruct (client_job c) as [j'|] eqn:Ec; [|by apply Hk].
  destruct (decide (j' = j)) as [->|Hne].
  - rewrite lookup_alter in Hj. apply fmap_Some in Hj as (v0 & Hv0 & ->).
    destruct (H _ _ Hv0) as [(m & w & ip & d & pre & Hc & Hs & _) _]. split; [|done].
    exists m, w, ip, d, pre. split; [|done]. unfold called in *. apply elem_of_app. by left.
  - rewrite lookup_alter_ne in Hj by done. apply Hk; [done|congruence].
Qed.
Lemma jinv_step p l wk ql tr s e s' o :
  sinv p l wk ql tr s -> scase p l s e s' o -> jinv l tr s -> jinv l (tr ++ o) s'.
Proof.
  intros Hi Hc H.
  assert (forall s', sy_clients s' = sy_clients s -> forall j v, sy_jobs s !! j = Some v -> jok l (tr ++ o) s' j v) as Hsame.
  { intros s1 E. apply jinv_frame; [done|]. rewrite E. eauto. }
  assert (forall s' n c c', sy_clients s' = <[n := c']> (sy_clients s) -> sy_clients s !! n = Some c ->
    client_job c = None \/ (client_job c' = client_job c /\ forall v, spent c v -> spent c' v) ->
    forall j v, sy_jobs s !! j = Some v -> jok l (tr ++ o) s' j v) as Hins.
  { intros s1 n c c' E Hn Hcc. apply jinv_frame; [done|]. rewrite E. intros m x. by apply insert_frame with c. }
  destruct Hc;
    try (by intros jx vx Hx; eapply Hsame; [reflexivity|exact Hx]);
    try (by (eapply jinv_leave; [exact Hi|exact H|eassumption]));
    try (by intros jx vx Hx; eapply Hins; [reflexivity|eassumption|cbn [client_job]; auto|exact Hx]).
  - (* call *) intros j v Hj. refine (jinv_frame _ _ _ _ _ H _ j v Hj). intros n x Hn Hx. cbn [sy_clients].
    exists x. rewrite lookup_insert_ne; [done|]. intros <-.
    destruct (si_fresh _ _ _ _ _ _ Hi (sy_next s)) as [E _]; [done|congruence].
  - (* send to a closed channel *) intros j' v'. cbn [with_job sy_jobs]. destruct (decide (j = j')) as [<-|Hne].
    + rewrite lookup_insert. intros [= <-]. destruct (Hsame (with_job s j v) eq_refl _ _ H1) as [(m & w & ip & d & pre & A & B & _) _].
      split; [|done]. cbn [vj_todo vj_open vj_returns]. exists m, w, ip, d, (pre ++ [b]). split; [done|]. split; [|done].
      rewrite H2 in B. by rewrite <- app_assoc.
    + rewrite lookup_insert_ne by done. intros Hj. by apply Hsame.
  - (* send *) intros j' v'. cbn [with_job sy_jobs]. destruct (decide (j = j')) as [<-|Hne].
    + rewrite lookup_insert. intros [= <-]. destruct (Hsame (with_job s j v) eq_refl _ _ H1) as [(m & w & ip & d & pre & A & B & C) D].
      split; cbn [vj_todo vj_open vj_returns vj_buf].
      * exists m, w, ip, d, (pre ++ [b]). split; [done|]. split; [rewrite H2 in B; by rewrite <- app_assoc|].
        intros _. destruct (C H3) as [pre' ->]. exists pre'. by rewrite <- app_assoc.
      * intros _. destruct (D H3) as (n & c & E1 & E2 & E3). exists n, c. split; [done|]. split; [done|].
        unfold spent in *. cbn [vj_buf vj_todo]. rewrite H2 in E3. by destruct c; try done; rewrite <- app_assoc.
    + rewrite lookup_insert_ne by done. intros Hj. by apply Hsame.
  - (* StringNotFound *) intros jx vx Hx. apply (jok_ext _ _ (leave s n (VpStart w ip))); [done|].
    by eapply jinv_leave.
  - intros jx vx Hx. apply (jok_ext _ _ (leave s n (VpStart w ip))); [done|]. by eapply jinv_leave.
  - (* add *) intros j' v'. cbn [with_job with_client with_q sy_jobs]. destruct (decide (qs_next (sy_q s) = j')) as [<-|Hne].
    + rewrite lookup_insert. intros [= <-]. split; cbn [vj_todo vj_open vj_returns vj_buf].
      * pose proof (si_log _ _ _ _ _ _ Hi _ _ H0) as [Hl _]. exists n, w, ip, (cc_difficulty_factor c), []. split_and!.
        -- unfold called. apply elem_of_app. left. assert (SoCall n (CVerifyPow w ip) ∈ of_client n tr) as [_ Hx]%elem_of_of_client; [|done].
           rewrite Hl. by left.
        -- exact H2.
        -- by exists [].
      * intros _. exists n, (VpAnswer w c (qs_next (sy_q s))). cbn [with_job with_client with_q sy_clients]. by rewrite lookup_insert.
    + rewrite lookup_insert_ne by done. intros Hj. by eapply Hins; [reflexivity|exact H0|left|exact Hj].
  - (* a true verdict *) intros j' v'. cbn [with_job with_client sy_jobs]. destruct (decide (j = j')) as [<-|Hne].
    + rewrite lookup_insert. intros [= <-].
      destruct (si_own _ _ _ _ _ _ Hi _ _ _ H0 eq_refl) as (v0 & Hv0 & Hop & Hok). assert (v0 = v) as -> by congruence.
      cbn [job_ok] in Hok. rewrite H2 in Hok. apply script_true in Hok as Hx. destruct Hx as (_ & _ & Hnil & Hret).
      apply app_eq_nil in Hnil as [-> Ht].
      pose proof (H _ _ H1) as [(m & w' & ip & d & pre & A & B & C) D].
      split; cbn [vj_todo vj_open vj_returns vj_buf].
      * exists m, w', ip, d, pre. split; [unfold called in *; apply elem_of_app; by left|]. split; [done|].
        intros _. exists pre. by rewrite app_nil_r.
      * intros _. exists n, (VpStore w c j rnd). cbn [with_job with_client sy_clients]. rewrite lookup_insert.
        split_and!; [done..|]. cbn. done.
    + rewrite lookup_insert_ne by done. intros Hj.
      destruct (H _ _ Hj) as [(m & w' & ip & d & pre & A & B) D]. split.
      * exists m, w', ip, d, pre. split; [|done]. unfold called in *. apply elem_of_app. by left.
      * intros Ho. destruct (D Ho) as (m' & c' & E1 & E2 & E3). exists m', c'. cbn [with_job with_client sy_clients].
        rewrite lookup_insert_ne; [done|]. intros <-. rewrite H0 in E1. injection E1 as <-. cbn in E2. congruence.
Qed.
Lemma run_jinv p l t gc wk ql es s tr :
  s_run p l (sys_start t gc wk ql) es = Some (s, tr) -> jinv l tr s.
Proof.
  revert s tr. induction es as [|e es IH] using rev_ind; intros s tr Hr.
  - injection Hr as <- <-. intros j v. cbn. by rewrite lookup_empty.
  - apply s_run_snoc in Hr as (s1 & tr1 & o & H1 & H2 & ->).
    eapply jinv_step; [by eapply run_sinv|by apply s_step_case|by eapply IH].
Qed.

(** * Who holds up a runner *)
Lemma running_elem q r j : running_job q r = Some j -> j ∈ running_jobs q.
Proof.
  unfold running_job, running_jobs. destruct (im_runners _ !! r) as [[c []]|] eqn:E; try done. intros [= ->].
  apply concat_elem. exists [j]. split; [|by left]. apply elem_of_list_fmap. eexists. split; [|by eapply elem_of_list_lookup_2].
  done.
Qed.
Lemma known_job p l wk ql tr s j :
  sinv p l wk ql tr s -> ~ check_panicked tr ->
  j ∈ at_runners (sy_q s) \/ j ∈ running_jobs (sy_q s) -> exists v, sy_jobs s !! j = Some v.
Proof.
  intros Hi Hn Hj. apply (si_dom _ _ _ _ _ _ Hi).
  pose proof (si_q _ _ _ _ _ _ Hi) as Hq. pose proof (no_panics_of _ Hn) as Hnp.
  destruct (conservation _ _ _ _ _ _ Hnp Hq) as (_ & Hp & _).
  assert (j ∈ (accepted (qouts tr)).*2) as Ha.
  { rewrite Hp, !elem_of_app. tauto. }
  pose proof (run_answers _ _ _ _ _ _ Hnp Hq) as Hs.
  assert (j ∈ answered (qouts tr) ++ sched_ids (qs_inbox (sy_q s))) as Hin.
  { apply elem_of_app. left. apply elem_of_list_fmap in Ha as ([ip j'] & -> & Ha). cbn.
    unfold accepted in Ha. apply elem_of_list_omap in Ha as (x & Hx & Ex).
    unfold answered. apply elem_of_list_omap. exists x. split; [done|]. destruct x as [j0 ip0 []| | | | |]; try done.
    by injection Ex as -> ->. }
  rewrite Hs in Hin. apply elem_of_seq in Hin. lia.
Qed.
Lemma script_long l w d bs r :
  script l w d = (bs, r) -> (3 <= length bs)%nat -> sufficient l w d false /\ valid l w false.
Proof.
  unfold script, validate, sufficient, valid, work_pow, pow_of_work. cbn [qw_work qw_string qw_difficulty_factor].
  destruct (is_sufficient_difficulty _ _ _) as [[]|]; destruct (is_valid_proof _ _ _) as [[]|]; cbn;
    intros [= <- <-]; cbn; try lia; done.
Qed.
Lemma end_enabled p l s r j v :
  qs_mgr (sy_q s) <> MAborted -> running_job (sy_q s) r = Some j -> sy_jobs s !! j = Some v -> vj_todo v = [] ->
  s_step p l s (SeEnd r) <> None.
Proof.
  intros Hm Hr Hv Ht E.
  assert (exists x, s_step' p l s (SeEnd r) = Some x) as [[s' o] Hx].
  { cbn [s_step']. rewrite Hr, Hv, Ht. unfold s_queue, q_step, runner_finish, runner_panic. unfold running_job in Hr.
    destruct (im_runners _ !! r) as [[c []]|] eqn:Er; try done.
    destruct (vj_returns v), (qs_mgr (sy_q s)) eqn:Em; try done; rewrite Er; by eexists. }
  rewrite (proj2 (s_step_eq p l s (SeEnd r) s' o) (conj Hm Hx)) in E. done.
Qed.
Lemma held_up p l t gc wk ql es s tr r j :
  s_run p l (sys_start t gc wk ql) es = Some (s, tr) -> ~ check_panicked tr ->
  running_job (sy_q s) r = Some j -> s_step p l s (SeSend r) = None -> s_step p l s (SeEnd r) = None ->
  exists n w c, (sy_clients s !! n = Some (VpAnswer w c j) \/ sy_clients s !! n = Some (VpPoll w c j)) /\
    sufficient l w (cc_difficulty_factor c) false /\ valid l w false.
Proof.
  intros Hr Hn Hrun Hs He. pose proof (run_sinv _ _ _ _ _ _ _ _ _ Hr) as Hi.
  pose proof (mgr_alive _ _ _ _ _ (si_q _ _ _ _ _ _ Hi) Hn (si_drop _ _ _ _ _ _ Hi)) as Hm.
  destruct (known_job _ _ _ _ _ _ j Hi Hn) as [v Hv]; [right; by eapply running_elem|].
  destruct (run_jinv _ _ _ _ _ _ _ _ _ Hr _ _ Hv) as [_ Hop].
  destruct (vj_todo v) as [|b rest] eqn:Et.
  { exfalso. refine (end_enabled p l s r j v _ Hrun Hv Et He). by rewrite Hm. }
  assert (qs_mgr (sy_q s) <> MAborted) as Hna by (by rewrite Hm).
  destruct (vj_open v) eqn:Eo.
  2:{ exfalso. assert (s_step' p l s (SeSend r) = Some (with_job s j (VJob (vj_buf v) rest (vj_returns v) false), [])) as Hx
        by (cbn [s_step']; by rewrite Hrun, Hv, Et, Eo).
      by rewrite (proj2 (s_step_eq p l s (SeSend r) _ _) (conj Hna Hx)) in Hs. }
  destruct (decide (length (vj_buf v) < verdict_capacity)%nat) as [Hl|Hl].
  { by rewrite (step_send p l s r j v b rest) in Hs. }
  destruct (Hop eq_refl) as (n & c & Hc & Hj & Hsp).
  destruct (si_own _ _ _ _ _ _ Hi _ _ _ Hc Hj) as (v' & Hv' & _ & Hok). assert (v' = v) as -> by congruence.
  assert (3 <= length (vj_buf v ++ vj_todo v))%nat as Hlen.
  { rewrite app_length, Et. cbn. unfold verdict_capacity in Hl. lia. }
  destruct c as [| | | | | |w c j'|w c j'|w c j' tok|w c j' tok| |]; try done; cbn in Hj; injection Hj as ->;
    try (cbn [spent] in Hsp; by rewrite Hsp in Hlen; cbn in Hlen; lia);
    cbn [job_ok] in Hok; exists n, w, c; (split; [auto|]); by eapply script_long.
Qed.

(** * Without worthless work every runner proceeds *)
Lemma script_decent l w d : decent l w ->
  exists bs, script l w d = (bs, true) /\ bs <> [] /\ (length bs <= 2)%nat.
Proof.
  intros H. destruct (H d) as (a & b & Ha & Hb & Hab).
  unfold script, validate, sufficient, valid, work_pow, pow_of_work in *. cbn [qw_work qw_string qw_difficulty_factor].
  rewrite Ha, Hb. destruct a, b; try done; eexists; (split; [reflexivity|]); (split; [done|cbn; lia]).
Qed.
(** The queue's own events at runner [r]. *)
Definition at_r (r : nat) (e : sevent) : Prop := e = SeRecv r \/ e = SeSend r \/ e = SeEnd r.
Record onward (p : profile) (l : pow_lib) (s : ssys) (tr : list sout) (r : nat) (s2 : ssys) (tr2 : list sout) (es2 : list sevent) : Prop := {
  ow_run : s_run p l s es2 = Some (s2, tr2);
  ow_ev : Forall (at_r r) es2;
  ow_clients : sy_clients s2 = sy_clients s;
  ow_calls : forall n x, ~ called tr2 n x;
  ow_panic : ~ check_panicked (tr ++ tr2) }.
Lemma onward_trans p l s tr r s2 tr2 es2 s3 tr3 es3 :
  onward p l s tr r s2 tr2 es2 -> onward p l s2 (tr ++ tr2) r s3 tr3 es3 ->
  onward p l s tr r s3 (tr2 ++ tr3) (es2 ++ es3).
Proof.
  intros [A1 A2 A3 A4 A5] [B1 B2 B3 B4 B5]. split.
  - apply s_run_app. eauto 10.
  - by apply Forall_app.
  - congruence.
  - intros n x. unfold called. rewrite elem_of_app. intros [H|H]; [by destruct (A4 n x)|by destruct (B4 n x)].
  - by rewrite (assoc_L (++)).
Qed.
Lemma onward_decent p l s tr r s2 tr2 es2 : onward p l s tr r s2 tr2 es2 -> all_decent l tr -> all_decent l (tr ++ tr2).
Proof.
  intros H Hd n w ip Hc. unfold called in Hc. apply elem_of_app in Hc as [Hc|Hc]; [by eapply Hd|].
  by destruct (ow_calls _ _ _ _ _ _ _ _ H _ _ Hc).
Qed.
Lemma onward_step p l s tr r e s' o :
  ~ check_panicked tr -> s_step p l s e = Some (s', o) -> at_r r e -> sy_clients s' = sy_clients s ->
  o = [] \/ (exists q os, o = [SoQueue None q os] /\ q <> QePanic r /\ (q = QeRecv r \/ q = QeFinish r)) ->
  onward p l s tr r s' o [e].
Proof.
  intros Hn Hs He Hc Ho. split.
  - cbn. rewrite Hs. by rewrite app_nil_r.
  - by apply Forall_singleton.
  - done.
  - intros n x. unfold called. destruct Ho as [->|(q & os & -> & _)]; [by intros ?%elem_of_nil|].
    by intros ?%elem_of_list_singleton.
  - destruct Ho as [->|(q & os & -> & Hq & Hq')]; [by rewrite app_nil_r|].
    intros [r' Hx]. rewrite qtrace_app, elem_of_app in Hx. destruct Hx as [Hx|Hx].
    + apply Hn. by exists r'.
    + cbn in Hx. apply elem_of_list_singleton in Hx. by destruct Hq' as [-> | ->].
Qed.
Section forward.
Context (p : profile) (l : pow_lib) (t gc : N) (wk : nat) (ql : N).
Local Notation reach es s tr := (s_run p l (sys_start t gc wk ql) es = Some (s, tr)).

Lemma alive_here es s tr : reach es s tr -> ~ check_panicked tr -> qs_mgr (sy_q s) = MAlive.
Proof.
  intros Hr Hn. pose proof (run_sinv _ _ _ _ _ _ _ _ _ Hr) as Hi.
  by apply (mgr_alive _ _ _ _ _ (si_q _ _ _ _ _ _ Hi) Hn (si_drop _ _ _ _ _ _ Hi)).
Qed.
Lemma send_goes es s tr r j v b rest :
  reach es s tr -> ~ check_panicked tr -> all_decent l tr ->
  running_job (sy_q s) r = Some j -> sy_jobs s !! j = Some v -> vj_todo v = b :: rest ->
  exists v', s_step p l s (SeSend r) = Some (with_job s j v', []) /\ vj_todo v' = rest /\ vj_returns v' = vj_returns v /\
    (vj_open v = true -> vj_buf v' <> []).
Proof.
  intros Hr Hn Hd Hrun Hv Ht. pose proof (alive_here _ _ _ Hr Hn) as Hm.
  assert (qs_mgr (sy_q s) <> MAborted) as Hna by (by rewrite Hm).
  destruct (run_jinv _ _ _ _ _ _ _ _ _ Hr _ _ Hv) as [(n & w & ip & d & pre & Hc & Hs & Ho) _].
  destruct (vj_open v) eqn:Eo.
  - destruct (Ho eq_refl) as [pre' ->]. destruct (script_decent l w d (Hd _ _ _ Hc)) as (bs & Hbs & _ & Hlen).
    rewrite Hs in Hbs. injection Hbs as Hbs _. rewrite <- Hbs, Ht, !app_length in Hlen. cbn in Hlen.
    eexists. split; [apply (step_send _ _ _ _ _ v b rest); try done; unfold verdict_capacity; lia|]. cbn [vj_todo vj_returns vj_buf].
    split_and!; try done. intros _ E. by destruct (vj_buf v).
  - exists (VJob (vj_buf v) rest (vj_returns v) false). split; [|by split].
    apply s_step_eq. split; [done|]. cbn [s_step']. by rewrite Hrun, Hv, Ht, Eo.
Qed.
Lemma job_finishes es s tr r j c :
  reach es s tr -> ~ check_panicked tr -> all_decent l tr ->
  im_runners (qs_im (sy_q s)) !! r = Some (Runner c (RRunning j)) ->
  exists s2 tr2 es2, onward p l s tr r s2 tr2 es2 /\ im_runners (qs_im (sy_q s2)) !! r = Some (Runner c RIdle).
Proof.
  intros Hr Hn Hd Hc.
  assert (running_job (sy_q s) r = Some j) as Hrun by (unfold running_job; by rewrite Hc).
  destruct (known_job _ _ _ _ _ _ j (run_sinv _ _ _ _ _ _ _ _ _ Hr) Hn) as [v Hv]; [right; by eapply running_elem|].
  remember (vj_todo v) as todo eqn:Et. symmetry in Et. revert es s tr v Hr Hn Hd Hc Hrun Hv Et.
  induction todo as [|b rest IH]; intros es s tr v Hr Hn Hd Hc Hrun Hv Et.
  - assert (vj_returns v = true) as Hret.
    { destruct (run_jinv _ _ _ _ _ _ _ _ _ Hr _ _ Hv) as [(n & w & ip & d & pre & Hca & Hs & Ho) _].
      destruct (script_decent l w d (Hd _ _ _ Hca)) as (bs & Hbs & _). rewrite Hs in Hbs. by injection Hbs. }
    pose proof (alive_here _ _ _ Hr Hn) as Hm.
    assert (s_step p l s (SeEnd r) =
      Some (with_q s (set_runner (sy_q s) r (Runner c RIdle) (qs_inbox (sy_q s) ++ [ImDispatch r])) [QFinish r j],
            [SoQueue None (QeFinish r) [QFinish r j]])) as Hs.
    { apply s_step_eq. split; [by rewrite Hm|]. cbn [s_step']. rewrite Hrun, Hv, Et, Hret.
      unfold s_queue, q_step, runner_finish. by rewrite Hm, Hc. }
    eexists _, _, _. split.
    + apply (onward_step _ _ _ _ _ _ _ _ Hn Hs); [unfold at_r; auto|done|]. right. eauto 10.
    + cbn [with_q sy_q set_runner qs_im with_runners im_runners]. apply list_lookup_insert.
      by apply lookup_lt_is_Some; eauto.
  - destruct (send_goes _ _ _ _ _ _ _ _ Hr Hn Hd Hrun Hv Et) as (v' & Hs & Ht' & Hret' & _).
    assert (onward p l s tr r (with_job s j v') [] [SeSend r]) as H1.
    { apply (onward_step _ _ _ _ _ _ _ _ Hn Hs); [unfold at_r; auto|done|by left]. }
    destruct (IH (es ++ [SeSend r]) (with_job s j v') (tr ++ []) v') as (s2 & tr2 & es2 & H2 & H3).
    + apply s_run_snoc. eauto 10.
    + by rewrite app_nil_r.
    + by rewrite app_nil_r.
    + done.
    + done.
    + cbn [with_job sy_jobs]. apply lookup_insert.
    + done.
    + exists s2, ([] ++ tr2), ([SeSend r] ++ es2). split; [|done]. by eapply onward_trans.
Qed.
(** A job in a runner's channel gets its turn. *)
Lemma job_turn es s tr r x j :
  reach es s tr -> ~ check_panicked tr -> all_decent l tr ->
  im_runners (qs_im (sy_q s)) !! r = Some x -> j ∈ proves (rn_chan x) ->
  exists s2 tr2 es2, onward p l s tr r s2 tr2 es2 /\ running_job (sy_q s2) r = Some j.
Proof.
  intros Hr Hn Hd Hx Hj. remember (length (rn_chan x)) as k eqn:Ek.
  revert es s tr x Hr Hn Hd Hx Hj Ek. induction k as [|k IH]; intros es s tr x Hr Hn Hd Hx Hj Ek.
  { destruct (rn_chan x); [by apply elem_of_nil in Hj|done]. }
  pose proof (run_sinv _ _ _ _ _ _ _ _ _ Hr) as Hi. pose proof (alive_here _ _ _ Hr Hn) as Hm.
  destruct (run_tinv _ _ _ _ _ _ (no_panics_of _ Hn) (si_q _ _ _ _ _ _ Hi)) as [Hq _].
  pose proof (proj1 (Forall_forall _ _) (qi_runners _ _ _ Hq) x (elem_of_list_lookup_2 _ _ _ Hx)) as Hrx.
  rewrite Hm in Hrx. destruct Hrx as [Hopen Hns]. destruct x as [ch st]. cbn [rn_chan] in *.
  (* first finish what is running *)
  assert (exists s1 tr1 es1, onward p l s tr r s1 tr1 es1 /\ im_runners (qs_im (sy_q s1)) !! r = Some (Runner ch RIdle))
    as (s1 & tr1 & es1 & H1 & Hx1).
  { destruct st as [|j0| |]; try done.
    - exists s, [], []. split; [|done]. split; [done|by constructor|done|by intros ? ? ?%elem_of_nil|by rewrite app_nil_r].
    - by eapply job_finishes. }
  assert (reach (es ++ es1) s1 (tr ++ tr1)) as Hr1 by (apply s_run_app; exists s, tr, tr1; split; [done|split; [apply H1|done]]).
  pose proof (ow_panic _ _ _ _ _ _ _ _ H1) as Hn1. pose proof (onward_decent _ _ _ _ _ _ _ _ H1 Hd) as Hd1.
  pose proof (alive_here _ _ _ Hr1 Hn1) as Hm1.
  destruct ch as [|[|j1] ch]; [done|by inversion Hns|].
  assert (s_step p l s1 (SeRecv r) =
    Some (with_q s1 (set_runner (sy_q s1) r (Runner ch (RRunning j1)) (qs_inbox (sy_q s1))) [QStart r j1],
          [SoQueue None (QeRecv r) [QStart r j1]])) as Hs.
  { apply s_step_eq. split; [by rewrite Hm1|]. cbn [s_step']. unfold s_queue, q_step, runner_recv. by rewrite Hm1, Hx1. }
  assert (im_runners (qs_im (set_runner (sy_q s1) r (Runner ch (RRunning j1)) (qs_inbox (sy_q s1)))) !! r =
     Some (Runner ch (RRunning j1))) as Hx2.
  { cbn [set_runner qs_im with_runners im_runners]. apply list_lookup_insert. apply lookup_lt_is_Some; eauto. }
  set (s2 := with_q s1 _ _) in Hs. set (tr2 := [SoQueue None (QeRecv r) [QStart r j1]]) in Hs.
  assert (onward p l s1 (tr ++ tr1) r s2 tr2 [SeRecv r]) as H2.
  { apply (onward_step _ _ _ _ _ _ _ _ Hn1 Hs); [unfold at_r; auto|done|]. right. eauto 10. }
  pose proof (onward_trans _ _ _ _ _ _ _ _ _ _ _ H1 H2) as H12.
  cbn [proves omap list_omap] in Hj. apply elem_of_cons in Hj as [->|Hj].
  - eexists _, _, _. split; [exact H12|]. unfold running_job. cbn [s2 with_q sy_q]. by rewrite Hx2.
  - destruct (IH ((es ++ es1) ++ [SeRecv r]) s2 (tr ++ tr1 ++ tr2) (Runner ch (RRunning j1))) as (s3 & tr3 & es3 & H3 & Hrun).
    + rewrite (assoc_L (++)). apply s_run_snoc. eauto 10.
    + apply H12.
    + by eapply onward_decent.
    + exact Hx2.
    + done.
    + cbn in Ek. cbn. lia.
    + eexists _, _, _. split; [|exact Hrun]. by eapply onward_trans.
Qed.
(** A client that spins can leave the loop. *)
Lemma poll_leaves s n w c j v b rest rnd :
  qs_mgr (sy_q s) <> MAborted -> sy_clients s !! n = Some (VpPoll w c j) -> sy_jobs s !! j = Some v ->
  vj_buf v = b :: rest ->
  exists s' o, s_step p l s (SeAct n rnd) = Some (s', o) /\
    (forall w' c' j', sy_clients s' !! n <> Some (VpPoll w' c' j')).
Proof.
  intros Hm Hn Hv Hb. destruct b.
  - eexists _, _. split.
    + apply s_step_eq. split; [done|]. cbn [s_step']. rewrite Hn. cbn [client_act]. rewrite Hv, Hb. reflexivity.
    + cbn. intros ???. by rewrite lookup_insert.
  - eexists _, _. split.
    + apply s_step_eq. split; [done|]. cbn [s_step']. rewrite Hn. cbn [client_act]. rewrite Hv, Hb. reflexivity.
    + cbn. intros ???. by rewrite lookup_delete.
Qed.
Lemma spinner_released es s tr n w c j rnd :
  reach es s tr -> ~ check_panicked tr -> all_decent l tr -> (distinct_ips (qouts tr) <= wk)%nat ->
  sy_clients s !! n = Some (VpPoll w c j) ->
  exists r es2 s2 tr2, Forall (at_r r) es2 /\ s_run p l s (es2 ++ [SeAct n rnd]) = Some (s2, tr2) /\
    (forall w' c' j', sy_clients s2 !! n <> Some (VpPoll w' c' j')).
Proof.
  intros Hr Hn Hd Hle Hcl. pose proof (run_sinv _ _ _ _ _ _ _ _ _ Hr) as Hi.
  pose proof (si_q _ _ _ _ _ _ Hi) as Hq. pose proof (no_panics_of _ Hn) as Hnp.
  assert (forall r s1 tr1 es1, onward p l s tr r s1 tr1 es1 ->
    (exists v, sy_jobs s1 !! j = Some v /\ vj_buf v <> []) ->
    exists r es2 s2 tr2, Forall (at_r r) es2 /\ s_run p l s (es2 ++ [SeAct n rnd]) = Some (s2, tr2) /\
    (forall w' c' j', sy_clients s2 !! n <> Some (VpPoll w' c' j'))) as Hend.
  { intros r s1 tr1 es1 H1 (v & Hv & Hb). destruct (vj_buf v) as [|b rest] eqn:Eb; [done|].
    destruct (poll_leaves s1 n w c j v b rest rnd) as (s2 & o & Hs & Hl).
    - assert (reach (es ++ es1) s1 (tr ++ tr1)) as Hr1
        by (apply s_run_app; exists s, tr, tr1; split; [done|split; [apply H1|done]]).
      by rewrite (alive_here _ _ _ Hr1 (ow_panic _ _ _ _ _ _ _ _ H1)).
    - by rewrite (ow_clients _ _ _ _ _ _ _ _ H1).
    - done.
    - done.
    - exists r, es1, s2, (tr1 ++ o). split; [apply H1|]. split; [|done]. apply s_run_snoc.
      exists s1, tr1, o. split; [apply H1|done]. }
  assert (onward p l s tr 0 s [] []) as H0.
  { split; [done|by constructor|done|by intros ? ? ?%elem_of_nil|by rewrite app_nil_r]. }
  destruct (si_own _ _ _ _ _ _ Hi _ _ _ Hcl eq_refl) as (v & Hv & Hop & Hok). cbn [job_ok] in Hok.
  destruct (run_jinv _ _ _ _ _ _ _ _ _ Hr _ _ Hv) as [(m & w0 & ip & d & pre & Hca & Hs & _) _].
  assert (decent l w) as Hdw.
  { pose proof (si_log _ _ _ _ _ _ Hi _ _ Hcl) as [[ip' Hl] _]. apply (Hd n w ip').
    assert (SoCall n (CVerifyPow w ip') ∈ of_client n tr) as [_ Hx]%elem_of_of_client; [|done]. rewrite Hl. by left. }
  destruct (script_decent l w (cc_difficulty_factor c) Hdw) as (bs & Hbs & Hne & _). rewrite Hok in Hbs.
  injection Hbs as Hbs Hret.
  destruct (decide (vj_buf v = [])) as [Eb|Eb]; [|by eapply Hend; eauto].
  rewrite Eb in Hbs. cbn in Hbs.
  assert (forall r s1 tr1 es1, onward p l s tr r s1 tr1 es1 -> running_job (sy_q s1) r = Some j ->
    exists r es2 s2 tr2, Forall (at_r r) es2 /\ s_run p l s (es2 ++ [SeAct n rnd]) = Some (s2, tr2) /\
    (forall w' c' j', sy_clients s2 !! n <> Some (VpPoll w' c' j'))) as Hgo.
  { intros r s1 tr1 es1 H1 Hrun.
    assert (reach (es ++ es1) s1 (tr ++ tr1)) as Hr1
        by (apply s_run_app; exists s, tr, tr1; split; [done|split; [apply H1|done]]).
    assert (sy_clients s1 !! n = Some (VpPoll w c j)) as Hcl1 by (by rewrite (ow_clients _ _ _ _ _ _ _ _ H1)).
    destruct (si_own _ _ _ _ _ _ (run_sinv _ _ _ _ _ _ _ _ _ Hr1) _ _ _ Hcl1 eq_refl) as (v1 & Hv1 & Hop1 & Hok1).
    cbn [job_ok] in Hok1. rewrite Hok in Hok1. injection Hok1 as Hok1 _. rewrite Eb in Hok1. cbn in Hok1.
    destruct (decide (vj_buf v1 = [])) as [Eb1|Eb1]; [|by eapply Hend; eauto].
    rewrite Eb1 in Hok1. cbn in Hok1. destruct (vj_todo v1) as [|b rest] eqn:Et1.
    { exfalso. apply Hne. by rewrite <- Hbs, Hok1. }
    pose proof (ow_panic _ _ _ _ _ _ _ _ H1) as Hn1.
    destruct (send_goes _ _ _ _ _ _ _ _ Hr1 Hn1 (onward_decent _ _ _ _ _ _ _ _ H1 Hd) Hrun Hv1 Et1)
      as (v2 & Hs2 & _ & _ & Hb2).
    eapply (Hend r (with_job s1 j v2) (tr1 ++ []) (es1 ++ [SeSend r])).
    - eapply onward_trans; [exact H1|]. apply (onward_step _ _ _ _ _ _ _ _ Hn1 Hs2); [unfold at_r; auto|done|by left].
    - exists v2. cbn [with_job sy_jobs]. rewrite lookup_insert. auto. }
  destruct (si_poll _ _ _ _ _ _ Hi _ _ _ _ Hcl) as [ip' Ha].
  destruct (c45_enough_runners _ _ _ _ _ _ Hnp Hq Hle) as [Hw _].
  destruct (conservation _ _ _ _ _ _ Hnp Hq) as (_ & Hp & _).
  assert (j ∈ (accepted (qouts tr)).*2) as Hj.
  { apply elem_of_list_fmap. exists (ip', j). split; [done|]. apply elem_of_list_omap. by exists (QAnswer j ip' (Ok tt)). }
  rewrite Hp, Hw in Hj. cbn [app] in Hj. rewrite !elem_of_app in Hj. destruct Hj as [Hj|[Hj|Hj]].
  - apply concat_elem in Hj as (k & Hk & Hj). apply elem_of_list_fmap in Hk as (x & -> & Hx).
    apply elem_of_list_lookup in Hx as [r Hx].
    destruct (job_turn _ _ _ r x j Hr Hn Hd Hx Hj) as (s1 & tr1 & es1 & H1 & Hrun). by eapply Hgo.
  - apply concat_elem in Hj as (k & Hk & Hj). apply elem_of_list_fmap in Hk as (x & -> & Hx).
    apply elem_of_list_lookup in Hx as [r Hx]. destruct x as [ch st]. cbn [rn_state] in Hj.
    destruct st; try by apply elem_of_nil in Hj. apply elem_of_list_singleton in Hj as <-.
    eapply (Hgo r s [] []); [split; [done|by constructor|done|by intros ? ? ?%elem_of_nil|by rewrite app_nil_r]|].
    unfold running_job. by rewrite Hx.
  - destruct (si_fin _ _ _ _ _ _ Hi _ Hj) as (v' & Hv' & Ht & _). exfalso. apply Hne. rewrite <- Hbs. congruence.
Qed.
End forward.
