(** Proofs about System calls sharing executor threads. *)
From Coq Require Import ZifyBool ZifyN ZifyNat Lia.
From Verif Require Import Model.Base Model.Defense Model.MCaptcha Model.Counter Model.Master
  Model.HashCache Model.Queue Model.Pow Model.System
  Spec.CacheSpec Spec.QueueSpec Spec.MasterSpec Spec.SystemSpec Spec.ExecutorSpec
  Proofs.CacheProofs Proofs.QueueProofs Proofs.MasterProofs Proofs.MasterTasks Proofs.SystemProofs
  Proofs.SystemHistory Proofs.SystemLiveness.

Lemma permitted_snoc th p l s es e :
  permitted_run th p l s (es ++ [e]) -> forall s1 tr1, s_run p l s es = Some (s1, tr1) ->
  permitted_run th p l s es /\ permitted th s1 e.
Proof.
  revert s. induction es as [|e0 es IH]; intros s; cbn [app permitted_run s_run].
  - intros [H _] s1 tr1 [= <- <-]. done.
  - intros [H0 H] s1 tr1. destruct (s_step p l s e0) as [[s' o]|]; [|done].
    destruct (s_run p l s' es) as [[s2 os]|] eqn:E; [|done]. intros [= <- <-].
    destruct (IH _ H _ _ E) as [A B]. done.
Qed.

(** * A stranded client on the only thread *)
Lemma lonely_event th s n e :
  (forall m, th_client th m = th_client th n) -> spinning s n -> permitted th s e ->
  (forall c, e <> SeCall c) /\ (forall m, e <> SeCancel m) /\ (forall m rnd, e = SeAct m rnd -> m = n).
Proof.
  intros Hth Hn He. split_and!.
  - intros c ->. apply He. exists n. by rewrite (Hth (sy_next s)).
  - intros m ->. apply He. exists n. by rewrite (Hth m).
  - intros m rnd ->. destruct He as [He _]. symmetry. apply He; [by rewrite (Hth m)|done].
Qed.
(** What a step reports that is not done by a client. *)
Definition no_client (o : list sout) : Prop :=
  forall m, of_client m o = [].
Lemma env_no_client p l s e s' o :
  scase p l s e s' o -> (forall c, e <> SeCall c) -> (forall m, e <> SeCancel m) -> (forall m rnd, e <> SeAct m rnd) ->
  no_client o.
Proof.
  intros Hc H1 H2 H3 m. unfold of_client.
  destruct Hc; try (by edestruct H1); try (by edestruct H2); try (by edestruct H3); by rewrite ?filter_cons_False.
Qed.
Lemma no_client_queue o m e os : no_client o -> SoQueue (Some m) e os ∉ o.
Proof.
  intros H Hin. assert (SoQueue (Some m) e os ∈ of_client m o) as Hx by (by apply elem_of_of_client).
  rewrite H in Hx. by apply elem_of_nil in Hx.
Qed.
Lemma lonely_run th p l t gc wk ql es s tr es2 s2 tr2 n w c j :
  s_run p l (sys_start t gc wk ql) es = Some (s, tr) -> stranded s n w c j ->
  (forall m, th_client th m = th_client th n) ->
  s_run p l s es2 = Some (s2, tr2) -> permitted_run th p l s es2 ->
  stranded s2 n w c j /\ no_client tr2.
Proof.
  intros Hr Hst Hth. revert s2 tr2. induction es2 as [|e es2 IH] using rev_ind; intros s2 tr2 H2 Hp.
  - injection H2 as <- <-. done.
  - apply s_run_snoc in H2 as (s1 & tr1 & o & H1 & H2 & ->).
    destruct (permitted_snoc _ _ _ _ _ _ Hp _ _ H1) as [Hp1 He].
    destruct (IH _ _ H1 Hp1) as [Hst1 Ho1].
    assert (s_run p l (sys_start t gc wk ql) (es ++ es2) = Some (s1, tr ++ tr1)) as Hr1 by (apply s_run_app; eauto 10).
    pose proof (sd_client _ _ _ _ _ Hst1) as Hc1.
    assert (spinning s1 n) as Hsp by (by exists w, c, j).
    destruct (lonely_event _ _ _ _ Hth Hsp He) as (N1 & N2 & N3).
    assert (forall m rnd, e <> SeAct m rnd) as N4.
    { intros m rnd ->. rewrite (N3 m rnd eq_refl) in H2. by rewrite (stranded_stuck _ _ _ _ _ _ _ _ Hst1) in H2. }
    pose proof (s_step_case _ _ _ _ _ _ H2) as Hc.
    pose proof (env_no_client _ _ _ _ _ _ Hc N1 N2 N4) as Ho.
    destruct (stranded_step _ _ _ _ _ _ _ _ _ _ _ _ _ (run_sinv _ _ _ _ _ _ _ _ _ Hr1) Hst1 H2) as [Hst2 _].
    + apply N2.
    + intros m ip os Hin. destruct m as [m|]; [by eapply no_client_queue|].
      clear -Hc N1 N2 N4 Hin. destruct Hc; try (by edestruct N4); by elem_cases.
    + split; [done|]. intros m. by rewrite of_client_app, Ho1, Ho.
Qed.
Lemma no_client_quiet tr : no_client tr -> forall m, (forall r, ~ returned tr m r) /\ (forall c, ~ called tr m c).
Proof.
  intros H m. split; intros x Hx; [assert (SoRet m x ∈ of_client m tr) as Hi by (by apply elem_of_of_client)
    | assert (SoCall m x ∈ of_client m tr) as Hi by (by apply elem_of_of_client)];
    rewrite H in Hi; by apply elem_of_nil in Hi.
Qed.

(** * All runners blocked by clients of one thread *)
(** Client [m] spins on thread [t]; its job has not been started; every runner
    waits for a client of that thread. *)
Record seized (th : threads) (tr : list sout) (s : ssys) (t m : nat) (w : work) (c : cached_pow) (j : job) : Prop := {
  sz_panic : ~ check_panicked tr;
  sz_client : sy_clients s !! m = Some (VpPoll w c j);
  sz_thread : th_client th m = t;
  sz_start : forall r, QStart r j ∉ qouts tr;
  sz_chan : exists v, sy_jobs s !! j = Some v /\ vj_buf v = [];
  sz_runners : forall r, (r < length (im_runners (qs_im (sy_q s))))%nat ->
    exists n c' j' v', th_client th n = t /\ n <> m /\ waits_for s r n c' j' v' }.

Lemma accepted_of tr j ip : QAnswer j ip (Ok tt) ∈ tr -> j ∈ (accepted tr).*2.
Proof.
  intros H. apply elem_of_list_fmap. exists (ip, j). split; [done|]. apply elem_of_list_omap. by exists (QAnswer j ip (Ok tt)).
Qed.
Lemma runner_live q r rn j :
  im_runners (qs_im q) !! r = Some rn -> rn_open rn = true -> j ∈ proves (rn_chan rn) -> job_live q j = true.
Proof.
  intros Hr Ho Hj. unfold job_live. apply orb_true_iff. right.
  eapply existsb_intro; [by eapply elem_of_list_lookup_2|]. rewrite Ho. cbn [andb]. apply orb_true_iff. left.
  unfold proves in Hj. apply elem_of_list_omap in Hj as (x & Hx & E). destruct x as [|j']; [done|]. injection E as ->.
  eapply existsb_intro; [exact Hx|apply Nat.eqb_refl].
Qed.
Lemma seized_stuck p l t0 gc wk ql es s tr th t m w c j rnd :
  s_run p l (sys_start t0 gc wk ql) es = Some (s, tr) -> seized th tr s t m w c j ->
  s_step p l s (SeAct m rnd) = None.
Proof.
  intros Hr Hz. pose proof (run_sinv _ _ _ _ _ _ _ _ _ Hr) as Hi.
  destruct Hz as [Hn Hcl Hth Hst (v & Hv & Hb) Hrn].
  pose proof (mgr_alive _ _ _ _ _ (si_q _ _ _ _ _ _ Hi) Hn (si_drop _ _ _ _ _ _ Hi)) as Hm.
  assert (job_live (sy_q s) j = true) as Hl.
  { destruct (si_poll _ _ _ _ _ _ Hi _ _ _ _ Hcl) as [ip Ha]. apply accepted_of in Ha.
    pose proof (no_panics_of _ Hn) as Hnp. pose proof (si_q _ _ _ _ _ _ Hi) as Hq.
    destruct (conservation _ _ _ _ _ _ Hnp Hq) as (_ & Hp & _).
    destruct (run_tinv _ _ _ _ _ _ Hnp Hq) as [_ Ht].
    rewrite Hp, !elem_of_app in Ha. destruct Ha as [Ha|[Ha|[Ha|Ha]]].
    - by apply waiting_live.
    - apply concat_elem in Ha as (k & Hk & Hj). apply elem_of_list_fmap in Hk as (rn & -> & Hx).
      apply elem_of_list_lookup in Hx as [r Hx]. eapply runner_live; [exact Hx| |exact Hj].
      destruct (Hrn r) as (n & c' & j' & v' & _ & _ & Hw); [by eapply lookup_lt_Some|].
      pose proof (wf_running _ _ _ _ _ _ Hw) as Hr'. unfold running_job in Hr'. rewrite Hx in Hr'.
      by destruct rn as [ch []].
    - exfalso. assert (j ∈ (started (qouts tr)).*2) as Hs'.
      { apply elem_of_cnt. rewrite (ti_started_all _ _ _ Ht j). unfold running_jobs in Ha. rewrite elem_of_cnt in Ha. lia. }
      apply elem_of_list_fmap in Hs' as ([r j'] & -> & Hs'). apply elem_of_list_omap in Hs' as (o & Ho & E).
      destruct o; try done. injection E as -> ->. by apply (Hst r).
    - exfalso. assert (j ∈ (started (qouts tr)).*2) as Hs'.
      { apply elem_of_cnt. rewrite (ti_started_all _ _ _ Ht j). rewrite elem_of_cnt in Ha. lia. }
      apply elem_of_list_fmap in Hs' as ([r j'] & -> & Hs'). apply elem_of_list_omap in Hs' as (o & Ho & E).
      destruct o; try done. injection E as -> ->. by apply (Hst r). }
  destruct (s_step p l s (SeAct m rnd)) as [[s' o]|] eqn:E; [|done]. exfalso.
  apply s_step_eq in E as [_ E]. cbn [s_step'] in E. rewrite Hcl in E. cbn [client_act] in E. by rewrite Hv, Hb, Hl in E.
Qed.

Lemma states_length im : length (states im) = length (im_runners im).
Proof. apply fmap_length. Qed.
Lemma runners_step p q e q' o :
  q_step p q e = Some (q', o) -> length (im_runners (qs_im q')) = length (im_runners (qs_im q)).
Proof.
  intros H. rewrite <- !states_length. unfold q_step in H. destruct e as [ip| |r|r|r| |].
  - repeat case_match; try done; by simplify_eq.
  - repeat case_match; try done; by rewrite (mgr_step_states _ _ _ _ H).
  - assert (runner_recv q r = Some (q', o)) as H' by (by destruct (qs_mgr q)). unfold runner_recv in H'.
    repeat case_match; try done; injection H' as <- <-; unfold states, set_runner; cbn; by rewrite !fmap_length, ?insert_length.
  - assert (runner_finish q r = Some (q', o)) as H' by (by destruct (qs_mgr q)). unfold runner_finish in H'.
    repeat case_match; try done; injection H' as <- <-; unfold states, set_runner; cbn; by rewrite !fmap_length, ?insert_length.
  - assert (runner_panic q r = Some (q', o)) as H' by (by destruct (qs_mgr q)). unfold runner_panic in H'.
    repeat case_match; try done; injection H' as <- <-; unfold states, set_runner; cbn; by rewrite !fmap_length, ?insert_length.
  - repeat case_match; try done; by simplify_eq.
  - repeat case_match; try done; by simplify_eq.
Qed.
Lemma runners_case p l s e s' o : scase p l s e s' o ->
  length (im_runners (qs_im (sy_q s'))) = length (im_runners (qs_im (sy_q s))).
Proof.
  intros Hc. destruct Hc; try reflexivity; cbn [with_q with_job with_client sy_q]; by eapply runners_step.
Qed.

Lemma qtrace_panic p l s e s' o r : scase p l s e s' o -> QePanic r ∈ qtrace o -> e = SeEnd r.
Proof.
  intros Hc H. destruct Hc; unfold qtrace in H; cbn [omap list_omap] in H; elem_cases; simplify_eq; try done.
Qed.
Lemma seized_step p l t0 gc wk ql es s tr e s' o th t m w c j :
  s_run p l (sys_start t0 gc wk ql) es = Some (s, tr) -> seized th tr s t m w c j ->
  permitted th s e -> s_step p l s e = Some (s', o) ->
  seized th (tr ++ o) s' t m w c j /\ (forall r j', QStart r j' ∉ qouts o) /\
  (forall n, th_client th n = t -> of_client n o = []).
Proof.
  intros Hr Hz He Hs. pose proof (run_sinv _ _ _ _ _ _ _ _ _ Hr) as Hi.
  pose proof (s_step_case _ _ _ _ _ _ Hs) as Hc.
  pose proof (seized_stuck _ _ _ _ _ _ _ _ _ _ _ _ _ _ _ "" Hr Hz) as _.
  assert (forall rnd, e <> SeAct m rnd) as Hna.
  { intros rnd ->. by rewrite (seized_stuck _ _ _ _ _ _ _ _ _ _ _ _ _ _ _ _ Hr Hz) in Hs. }
  destruct Hz as [Hn Hcl Hth Hst (v & Hv & Hb) Hrn].
  assert (spinning s m) as Hsp by (by exists w, c, j).
  assert (occupied th s t) as Hoc by (by exists m).
  assert (forall n, th_client th n = t -> not_by n e) as Hnb.
  { intros n Ht. split.
    - intros ->. by rewrite <- Ht in Hoc.
    - intros rnd ->. destruct He as [He _]. assert (m = n) as -> by (apply He; [by rewrite Ht|done]). by apply (Hna rnd). }
  assert (forall r j', QStart r j' ∉ qouts o) as Hns.
  { intros r j' Hin. destruct (decide (r < length (im_runners (qs_im (sy_q s))))%nat) as [Hlt|Hge].
    - destruct (Hrn r Hlt) as (n & c' & j1 & v' & Ht & _ & Hw).
      destruct (waits_step _ _ _ _ _ _ _ _ _ _ _ _ _ _ Hi Hs (Hnb n Ht) Hw) as [_ Ho]. by destruct (Ho j').
    - assert (e = SeRecv r) as ->.
      { clear -Hc Hin. destruct Hc; try (by apply elem_of_nil in Hin); unfold qouts in Hin; cbn [omap list_omap concat] in Hin;
          rewrite app_nil_r in Hin;
          match goal with H : q_step _ _ _ = _ |- _ => pose proof (q_step_starts _ _ _ _ _ r j' H (or_introl Hin)) as Hx end;
          cbn [at_runner] in Hx; simplify_eq; try done.
        - exfalso. unfold q_step, runner_finish in *. repeat case_match; try done; simplify_eq; set_solver.
        - exfalso. unfold q_step, runner_panic in *. repeat case_match; try done; simplify_eq; set_solver. }
      apply s_step_eq in Hs as [_ Hs]. cbn [s_step'] in Hs. unfold s_queue, q_step, runner_recv in Hs.
      rewrite (lookup_ge_None_2 (im_runners (qs_im (sy_q s))) r) in Hs by lia. by destruct (qs_mgr (sy_q s)). }
  destruct (client_frame _ _ _ _ _ _ _ _ _ _ _ _ _ Hi Hc (Hnb m Hth) Hcl eq_refl Hv)
    as [Hcl' Hj'].
  split; [|split; [done|]].
  - split; try done.
    + intros [r Hp]. rewrite qtrace_app in Hp. apply elem_of_app in Hp as [Hp|Hp]; [by apply Hn; exists r|].
      pose proof (qtrace_panic _ _ _ _ _ _ _ Hc Hp) as ->.
      destruct (decide (r < length (im_runners (qs_im (sy_q s))))%nat) as [Hlt|Hge].
      * destruct (Hrn r Hlt) as (n & c' & j1 & v' & Ht & _ & Hw).
        destruct (waits_stuck p l _ _ _ _ _ _ Hw) as (_ & K & _). congruence.
      * apply s_step_eq in Hs as [_ Hs]. cbn [s_step'] in Hs. unfold running_job in Hs.
        by rewrite (lookup_ge_None_2 (im_runners (qs_im (sy_q s))) r) in Hs by lia.
    + intros r Hin. rewrite qouts_app in Hin. apply elem_of_app in Hin as [Hin|Hin]; [by apply (Hst r)|by apply (Hns r j)].
    + destruct Hj' as [Hj'|(r & b & rest & -> & Hr' & _)]; [by exists v|]. exfalso.
      destruct (decide (r < length (im_runners (qs_im (sy_q s))))%nat) as [Hlt|Hge].
      * destruct (Hrn r Hlt) as (n & c' & j1 & v' & Ht & _ & Hw).
        destruct (waits_stuck p l _ _ _ _ _ _ Hw) as (K & _ & _). congruence.
      * unfold running_job in Hr'. by rewrite (lookup_ge_None_2 (im_runners (qs_im (sy_q s))) r) in Hr' by lia.
    + intros r Hlt. rewrite (runners_case _ _ _ _ _ _ Hc) in Hlt.
      destruct (Hrn r Hlt) as (n & c' & j1 & v' & Ht & Hne & Hw). exists n, c', j1, v'. split; [done|]. split; [done|].
      by destruct (waits_step _ _ _ _ _ _ _ _ _ _ _ _ _ _ Hi Hs (Hnb n Ht) Hw).
  - intros n Ht. destruct (Hnb n Ht) as [N1 N2].
    assert (forall x, e <> SeCall x \/ sy_next s <> n) as N3.
    { intros x. destruct (decide (sy_next s = n)) as [En|]; [left|by right]. intros ->. unfold permitted in He.
      by rewrite En, Ht in He. }
    clear -Hc N1 N2 N3. unfold of_client.
    destruct Hc; rewrite ?filter_cons_False; try done; cbn [who]; try congruence;
      intros E; injection E as E; first [by destruct (N3 c) | subst; by apply (N2 rnd) | subst; by apply N1].
Qed.
Lemma seized_run p l t0 gc wk ql es s tr es2 s2 tr2 th t m w c j :
  s_run p l (sys_start t0 gc wk ql) es = Some (s, tr) -> seized th tr s t m w c j ->
  s_run p l s es2 = Some (s2, tr2) -> permitted_run th p l s es2 ->
  seized th (tr ++ tr2) s2 t m w c j /\ (forall r j', QStart r j' ∉ qouts tr2) /\
  (forall n, th_client th n = t -> of_client n tr2 = []).
Proof.
  intros Hr Hz. revert s2 tr2. induction es2 as [|e es2 IH] using rev_ind; intros s2 tr2 H2 Hp.
  - injection H2 as <- <-. rewrite app_nil_r. split; [done|]. split; [|done]. intros r j' Hin. by apply elem_of_nil in Hin.
  - apply s_run_snoc in H2 as (s1 & tr1 & o & H1 & H2 & ->).
    destruct (permitted_snoc _ _ _ _ _ _ Hp _ _ H1) as [Hp1 He].
    destruct (IH _ _ H1 Hp1) as (Hz1 & Ho1 & Hn1).
    assert (s_run p l (sys_start t0 gc wk ql) (es ++ es2) = Some (s1, tr ++ tr1)) as Hr1 by (apply s_run_app; eauto 10).
    destruct (seized_step _ _ _ _ _ _ _ _ _ _ _ _ _ _ _ _ _ _ Hr1 Hz1 He H2) as (Hz2 & Ho2 & Hn2).
    rewrite app_assoc. split; [done|]. split.
    + intros r j' Hin. rewrite qouts_app in Hin. apply elem_of_app in Hin as [Hin|Hin]; [by eapply Ho1|by eapply Ho2].
    + intros n Ht. by rewrite of_client_app, Hn1, Hn2.
Qed.

(** A runner that can neither send nor end, running work that fails both checks
    for a client that is still there, waits for that client. *)
Lemma blocked_waits p l t gc wk ql es s tr r n w c j :
  s_run p l (sys_start t gc wk ql) es = Some (s, tr) -> qs_mgr (sy_q s) <> MAborted ->
  sy_clients s !! n = Some (VpAnswer w c j) -> running_job (sy_q s) r = Some j ->
  sufficient l w (cc_difficulty_factor c) false -> valid l w false ->
  s_step p l s (SeSend r) = None ->
  exists v, waits_for s r n (VpAnswer w c j) j v.
Proof.
  intros Hr Hna Hcl Hrun Hs Hv Hb.
  destruct (blocks _ _ _ _ _ _ _ _ _ _ _ _ _ _ Hr Hna (or_introl Hcl) Hrun Hs Hv) as (k & s1 & c' & v & Hk & H1 & Hw).
  destruct k as [|k]; [|cbn [replicate s_run] in H1; by rewrite Hb in H1].
  injection H1 as <-. pose proof (wf_client _ _ _ _ _ _ Hw) as E. rewrite Hcl in E. injection E as <-. by exists v.
Qed.

(** * A checker for schedules of the single thread *)
Definition polling (s : ssys) : list nat :=
  omap (fun x : nat * client => match snd x with VpPoll _ _ _ => Some (fst x) | _ => None end) (map_to_list (sy_clients s)).
Definition idle (s : ssys) : bool := match polling s with [] => true | _ => false end.
Definition permits (s : ssys) (e : sevent) : bool :=
  match e with
  | SeAct n _ =>
      forallb (Nat.eqb n) (polling s) &&
      (match sy_clients s !! n with Some c => negb (at_actor c) | None => true end || idle s)
  | SeCall _ | SeCancel _ | SeMaster _ | SeExpire _ _ => idle s
  | _ => true
  end.
Fixpoint permits_run (p : profile) (l : pow_lib) (s : ssys) (es : list sevent) : bool :=
  match es with
  | [] => true
  | e :: rest => permits s e && match s_step p l s e with Some (s1, _) => permits_run p l s1 rest | None => true end
  end.
Lemma polling_spec s m : spinning s m <-> m ∈ polling s.
Proof.
  unfold spinning, polling. rewrite elem_of_list_omap. split.
  - intros (w & c & j & H). exists (m, VpPoll w c j). split; [by apply elem_of_map_to_list|done].
  - intros ([m' c] & Hin & E). apply elem_of_map_to_list in Hin. destruct c; try done. injection E as ->. eauto.
Qed.
Lemma idle_spec s t : idle s = true -> ~ occupied one_thread s t.
Proof.
  intros H (m & _ & Hm). apply polling_spec in Hm. unfold idle in H. destruct (polling s); [by apply elem_of_nil in Hm|done].
Qed.
Lemma permits_sound s e : permits s e = true -> permitted one_thread s e.
Proof.
  destruct e; cbn; intros H; try done; try (by apply idle_spec).
  apply andb_true_iff in H as [H1 H2]. split.
  - intros m _ Hm. apply polling_spec in Hm. rewrite forallb_forall in H1. apply elem_of_list_In in Hm.
    by apply H1, Nat.eqb_eq in Hm.
  - intros c Hc Ha. rewrite Hc, Ha in H2. cbn in H2. by apply idle_spec.
Qed.
Lemma permits_run_sound p l s es : permits_run p l s es = true -> permitted_run one_thread p l s es.
Proof.
  revert s. induction es as [|e es IH]; intros s; [done|]. cbn. intros [H1 H2]%andb_true_iff.
  split; [by apply permits_sound|]. destruct (s_step p l s e) as [[s1 o]|]; [by apply IH|done].
Qed.

(** * A thread has one spinning client at most *)
Lemma spin_case p l s e s' o m :
  scase p l s e s' o -> spinning s' m -> spinning s m \/ exists rnd, e = SeAct m rnd.
Proof.
  intros Hc (w & c & j & H). unfold spinning.
  assert (forall n x, sy_clients (leave s n x) !! m = Some (VpPoll w c j) -> sy_clients s !! m = Some (VpPoll w c j)) as Hlv.
  { intros n x. cbn [leave sy_clients]. by intros [_ ?]%lookup_delete_Some. }
  assert (forall n x, <[n := x]> (sy_clients s) !! m = Some (VpPoll w c j) ->
    (n = m /\ x = VpPoll w c j) \/ sy_clients s !! m = Some (VpPoll w c j)) as Hin.
  { intros n x [[? ?]|[_ ?]]%lookup_insert_Some; auto. }
  destruct Hc; try (left; by eauto);
    cbn [with_m with_c with_q with_job with_client sy_clients leave] in H;
    try (apply Hin in H as [[-> Hx]|H]; [|left; by eauto]; by eauto);
    try (apply Hlv in H; left; by eauto);
    try (apply lookup_delete_Some in H as [_ H]; left; by eauto).
  apply Hin in H as [[_ Hx]|H]; [by destruct c0|left; by eauto].
Qed.
Lemma one_spinner th p l t gc wk ql es s tr n m :
  s_run p l (sys_start t gc wk ql) es = Some (s, tr) -> permitted_run th p l (sys_start t gc wk ql) es ->
  spinning s n -> spinning s m -> th_client th n = th_client th m -> n = m.
Proof.
  revert s tr. induction es as [|e es IH] using rev_ind; intros s tr Hr Hp Hsn Hsm Ht.
  - injection Hr as <- <-. destruct Hsn as (w & c & j & H). cbn in H. by rewrite lookup_empty in H.
  - apply s_run_snoc in Hr as (s1 & tr1 & o & H1 & H2 & ->). destruct (permitted_snoc _ _ _ _ _ _ Hp _ _ H1) as [Hp1 He].
    pose proof (s_step_case _ _ _ _ _ _ H2) as Hc.
    destruct (spin_case _ _ _ _ _ _ _ Hc Hsn) as [Hn|[rnd ->]]; destruct (spin_case _ _ _ _ _ _ _ Hc Hsm) as [Hm|[rnd' E]].
    + by eapply IH.
    + subst e. destruct He as [He _]. by apply He.
    + destruct He as [He _]. symmetry. by apply He.
    + by injection E.
Qed.

Lemma permitted_app th p l s es1 s1 tr1 es2 :
  s_run p l s es1 = Some (s1, tr1) -> permitted_run th p l s es1 -> permitted_run th p l s1 es2 ->
  permitted_run th p l s (es1 ++ es2).
Proof.
  revert s tr1. induction es1 as [|e es1 IH]; intros s tr1; cbn [app permitted_run s_run].
  - by intros [= <- <-] _ H.
  - destruct (s_step p l s e) as [[s0 o]|]; [|done]. destruct (s_run p l s0 es1) as [[s3 os]|] eqn:E; [|done].
    intros [= <- <-] [A B] C. split; [done|]. by eapply IH.
Qed.
(** A runner's steps are always permitted, and then the spinning client's. *)
Lemma runner_then_act th p l t gc wk ql es s tr r es2 n rnd w c j s2 tr2 :
  s_run p l (sys_start t gc wk ql) es = Some (s, tr) -> permitted_run th p l (sys_start t gc wk ql) es ->
  Forall (fun e => e = SeRecv r \/ e = SeSend r \/ e = SeEnd r) es2 ->
  sy_clients s !! n = Some (VpPoll w c j) -> s_run p l s (es2 ++ [SeAct n rnd]) = Some (s2, tr2) ->
  permitted_run th p l s (es2 ++ [SeAct n rnd]).
Proof.
  intros Hr Hp Hf Hc H2. apply s_run_snoc in H2 as (s1 & tr1 & o & H1 & H2 & ->).
  assert (permitted_run th p l s es2) as Hp2.
  { clear -Hf. revert s. induction Hf as [|e es2 He Hf IH]; intros s; [done|]. cbn. split.
    - by destruct He as [->|[->| ->]].
    - destruct (s_step p l s e) as [[s1 o]|]; [apply IH|done]. }
  assert (sy_clients s1 = sy_clients s) as Hcl.
  { clear -Hf H1. revert s tr1 H1. induction Hf as [|e es2 He Hf IH]; intros s tr1 H1.
    - by injection H1 as <- <-.
    - cbn [s_run] in H1. destruct (s_step p l s e) as [[s0 o]|] eqn:E; [|done].
      destruct (s_run p l s0 es2) as [[s3 os]|] eqn:E2; [|done]. injection H1 as <- <-. rewrite (IH _ _ E2).
      apply s_step_case in E. by destruct He as [->|[->| ->]]; inversion E. }
  eapply permitted_app; [done..|]. cbn [permitted_run]. split; [|by rewrite H2].
  assert (s_run p l (sys_start t gc wk ql) (es ++ es2) = Some (s1, tr ++ tr1)) as Hr1 by (apply s_run_app; eauto 10).
  split.
  - intros m Ht Hm. eapply one_spinner; [exact Hr1|by eapply permitted_app|done| |done].
    exists w, c, j. by rewrite Hcl.
  - intros c' Hc' Ha. rewrite Hcl, Hc in Hc'. injection Hc' as <-. done.
Qed.
