(** Runs of the System cut at an observation; the visits behind issued
    challenges. *)
From Coq Require Import ZifyBool ZifyN ZifyNat Lia.
From Verif Require Import Model.Base Model.Defense Model.MCaptcha Model.Counter Model.Master
  Model.HashCache Model.Queue Model.Pow Model.System
  Spec.CacheSpec Spec.QueueSpec Spec.MasterSpec Spec.SystemSpec
  Proofs.CacheProofs Proofs.QueueProofs Proofs.MasterProofs Proofs.MasterTasks Proofs.SystemProofs
  Proofs.SystemHistory Proofs.MasterTheorems.

Lemma app_cons_split {A} (a b c d : list A) o :
  a ++ b = c ++ o :: d ->
  (exists e, a = c ++ o :: e /\ d = e ++ b) \/ (exists e, c = a ++ e /\ b = e ++ o :: d).
Proof.
  revert c. induction a as [|x a IH]; intros c H.
  - right. by exists c.
  - destruct c as [|y c]; cbn in H; injection H as -> H.
    + left. exists a. done.
    + destruct (IH _ H) as [(e & -> & ->)|(e & -> & ->)]; [left|right]; by exists e.
Qed.
Lemma run_boundary p l s0 es s tr tr1 o tr2 :
  s_run p l s0 es = Some (s, tr) -> tr = tr1 ++ o :: tr2 ->
  exists es1 e es2 s1 s2 ta oa ob tb, es = es1 ++ e :: es2 /\ s_run p l s0 es1 = Some (s1, ta) /\
    s_step p l s1 e = Some (s2, oa ++ o :: ob) /\ s_run p l s2 es2 = Some (s, tb) /\
    tr1 = ta ++ oa /\ tr2 = ob ++ tb.
Proof.
  revert s tr tr2. induction es as [|e es IH] using rev_ind; intros s tr tr2 Hr E.
  - injection Hr as <- <-. by destruct tr1.
  - apply s_run_snoc in Hr as (s1 & tr' & o' & H1 & H2 & ->).
    apply app_cons_split in E as [(x & -> & ->)|(x & -> & ->)].
    + destruct (IH _ _ _ H1 eq_refl) as (es1 & e1 & es2 & s2 & s3 & ta & oa & ob & tb & -> & G1 & G2 & G3 & -> & ->).
      exists es1, e1, (es2 ++ [e]), s2, s3, ta, oa, ob, (tb ++ o'). rewrite <- !app_assoc. split; [done|].
      split; [done|]. split; [done|]. split; [|by rewrite <- ?app_assoc]. apply s_run_snoc. eauto 10.
    + exists es, e, [], s1, s, tr', x, tr2, []. rewrite app_nil_r. done.
Qed.
Lemma s_run_m p l s es s' tr :
  s_run p l s es = Some (s', tr) -> m_run p (sy_m s) (mtrace tr) = Some (sy_m s', mouts tr).
Proof.
  revert s' tr. induction es as [|e es IH] using rev_ind; intros s' tr Hr.
  - by injection Hr as <- <-.
  - apply s_run_snoc in Hr as (s1 & tr' & o' & H1 & H2 & ->). rewrite mtrace_app, mouts_app.
    apply m_run_app. do 3 eexists. split; [by apply IH|]. split; [|done]. by eapply scase_m, s_step_case.
Qed.
Lemma s_run_q p l s es s' tr :
  s_run p l s es = Some (s', tr) -> q_run p (sy_q s) (qtrace tr) = Some (sy_q s', qouts tr).
Proof.
  revert s' tr. induction es as [|e es IH] using rev_ind; intros s' tr Hr.
  - by injection Hr as <- <-.
  - apply s_run_snoc in Hr as (s1 & tr' & o' & H1 & H2 & ->). rewrite qtrace_app, qouts_app.
    apply q_run_app. do 3 eexists. split; [by apply IH|]. split; [|done]. by eapply scase_q, s_step_case.
Qed.

(** No answer precedes its question. *)
Lemma elem_of_answers k x o : x ∈ answers k o <-> MoReply k x ∈ o.
Proof.
  unfold answers. rewrite elem_of_list_omap. split.
  - intros ([r|k' y|c y] & Hin & E); try done. destruct (Nat.eqb_spec k' k) as [->|]; [|done]. by injection E as ->.
  - intros Hin. eexists. split; [exact Hin|]. cbn. by rewrite Nat.eqb_refl.
Qed.
Lemma m_step_early p s e s' o k :
  minv s -> m_step p s e = Some (s', o) -> (my_reqs s' <= k)%nat -> answers k o = [].
Proof.
  intros Hi Hs Hk. pose proof (m_step_reqs _ _ _ _ _ Hs) as Hle.
  destruct e as [r|t|c id|c msg|d]; cbn [m_step] in Hs.
  - destruct (my_alive s).
    + destruct (m_handle _ _ r) as [s1 o1] eqn:E. injection Hs as <- <-.
      apply m_handle_frame in E as (_ & Hr & _ & _ & _ & Ha & _). cbn in Hr. cbn. apply Ha.
      intros [= E]. lia.
    + injection Hs as <- <-. cbn in *. destruct (Nat.eqb_spec (my_reqs s) k); [lia|done].
  - destruct (my_alive s); [|done]. unfold task_step in Hs.
    destruct (my_tasks s !! t) as [x|] eqn:Et; [|done].
    destruct (mv_task _ Hi _ _ Et) as (_ & _ & Hq & _).
    assert (forall s1, my_tasks s1 = my_tasks s -> answers k (m_die s1).2 = []) as Hdie.
    { intros s1 E1. cbn [m_die snd]. rewrite answers_dropped, E1. rewrite filter_none; [done|].
      intros j Hj ->. apply elem_of_list_bind in Hj as (y & Hy & Hin). apply elem_of_list_fmap in Hin as ([t' y'] & -> & Hin).
      apply elem_of_map_to_list in Hin. destruct (mv_task _ Hi _ _ Hin) as (_ & _ & Hq' & _).
      rewrite Forall_forall in Hq'. specialize (Hq' _ Hy). cbn in *. lia. }
    assert (forall j y, j ∈ task_req x -> answers k (reply (Some j) y) = []) as Hrep.
    { intros j y Hj. apply answers_reply_ne. intros [= ->]. rewrite Forall_forall in Hq. specialize (Hq _ Hj). cbn in Hq. lia. }
    assert (forall kk y, task_req x = option_list kk -> answers k (reply kk y) = []) as Hrep'.
    { intros [j|] y E; [|done]. apply Hrep. rewrite E. by left. }
    assert (forall c msg s1 r, send_counter p s c msg = Some (s1, r) -> my_tasks s1 = my_tasks s) as Hsc.
    { intros c msg s1 r E. apply send_counter_eq in E as (y & y' & _ & _ & ->). done. }
    assert (forall s0 r s1 o1, m_handle s0 None r = (s1, o1) -> answers k (MoHandle r :: o1) = []) as Hmh.
    { intros s0 r s1 o1 E. apply m_handle_frame in E as (_ & _ & _ & _ & _ & Ha & _). cbn. by apply Ha. }
    destruct x as [due|[|[id [rd c]] rest] ph|kk c|kk c|kk [|[id [rd c]] rest] acc|c m|id m].
    + destruct (due <=? my_now s); [|done]. destruct (m_handle _ _ _) as [s1 o1] eqn:E. injection Hs as <- <-. by eapply Hmh.
    + by injection Hs as <- <-.
    + destruct ph.
      * destruct (send_counter _ _ _ _) as [[s1 []]|] eqn:E; try done; injection Hs as <- <-; try done; by eapply (Hdie s1), Hsc.
      * destruct (send_counter _ _ _ _) as [[s1 []]|] eqn:E; try done; injection Hs as <- <-; try done; by eapply (Hdie s1), Hsc.
      * destruct (m_handle _ _ _) as [s1 o1] eqn:E. injection Hs as <- <-. by eapply Hmh.
    + destruct (send_counter _ _ _ _) as [[s1 []]|] eqn:E; try done; injection Hs as <- <-; by apply Hrep'; destruct kk.
    + destruct (send_counter _ _ _ _) as [[s1 []]|] eqn:E; try done; injection Hs as <- <-; by apply Hrep'; destruct kk.
    + injection Hs as <- <-. by apply Hrep'; destruct kk.
    + destruct (send_counter _ _ _ _) as [[s1 []]|] eqn:E; try done; by injection Hs as <- <-.
    + destruct (send_counter _ _ _ _) as [[s1 ?]|] eqn:E; try done; by injection Hs as <- <-.
    + destruct (m_handle _ _ _) as [s1 o1] eqn:E. injection Hs as <- <-. by eapply Hmh.
  - destruct (my_ctrs s !! c); [|done]. destruct (counter_fire _ _ _); [|done]. by injection Hs as <- <-.
  - destruct (send_counter p s c _) as [[s2 r]|]; [|done]. by injection Hs as <- <-.
  - by injection Hs as <- <-.
Qed.
Lemma m_run_early p t gc es s tr k :
  m_run p (m_start t gc) es = Some (s, tr) -> (my_reqs s <= k)%nat -> answers k tr = [].
Proof.
  intros Hr. assert (minv s /\ ((my_reqs s <= k)%nat -> answers k tr = [])) as [_ ?]; [|done].
  revert Hr. apply (m_run_ind (fun s tr => minv s /\ ((my_reqs s <= k)%nat -> answers k tr = []))).
  - split; [apply m_start_inv|done].
  - intros s1 tr1 e s2 o [Hi Ha] Hs. split; [by eapply m_step_inv|]. intros Hk.
    rewrite answers_app, (m_step_early _ _ _ _ _ _ Hi Hs Hk), Ha; [done|].
    pose proof (m_step_reqs _ _ _ _ _ Hs). lia.
Qed.

Lemma mtrace_split tr pre e post :
  mtrace tr = pre ++ e :: post ->
  exists tr1 w os tr2, tr = tr1 ++ SoMaster w e os :: tr2 /\ mtrace tr1 = pre /\ mtrace tr2 = post.
Proof.
  intros H. apply omap_split in H as (tr1 & o & tr2 & -> & Ho & <- & <-).
  destruct o as [| | |w e' os| |]; try done. injection Ho as ->. by exists tr1, w, os, tr2.
Qed.

Lemma one_or_two {A} (a b : list A) (o x : A) rest :
  x :: rest = a ++ o :: b -> (length rest <= 1)%nat ->
  (a = [] /\ o = x /\ b = rest) \/ (exists y, rest = [y] /\ a = [x] /\ o = y /\ b = []).
Proof.
  intros E Hl. destruct a as [|a0 [|a1 a]]; cbn in E; injection E as -> E.
  - left. done.
  - right. destruct rest as [|y [|? ?]]; [done| |cbn in Hl; lia]. injection E as -> <-. by exists o.
  - exfalso. subst rest. cbn in Hl. rewrite app_length in Hl. cbn in Hl. lia.
Qed.
Lemma master_step p l s e s' oa w me os ob :
  s_step p l s e = Some (s', oa ++ SoMaster w me os :: ob) ->
  oa = [] /\ (ob = [] \/ exists d, me = MeTick d) /\ m_step p (sy_m s) me = Some (sy_m s', os).
Proof.
  intros H. apply s_step_case in H. remember (oa ++ SoMaster w me os :: ob) as o eqn:E.
  destruct H; try (by destruct oa); apply one_or_two in E as [(-> & E & ->)|(y & E & -> & Ey & ->)]; try done;
    try (cbn; lia); simplify_eq; eauto.
Qed.

Lemma visited_counted p l t gc wk ql es s tr n id v :
  s_run p l (sys_start t gc wk ql) es = Some (s, tr) -> visited tr n id v ->
  visit_counted p l t gc wk ql es n id v.
Proof.
  intros Hr (k & (tr1 & os & tr2 & -> & Hk) & Hrep).
  destruct (run_boundary _ _ _ _ _ _ _ _ _ Hr eq_refl)
    as (es1 & e1 & es2 & s1 & s2 & ta & oa & ob & tb & -> & H1 & H2 & H3 & -> & ->).
  destruct (master_step _ _ _ _ _ _ _ _ _ _ H2) as (-> & [->|[? ?]] & M2); [|done].
  rewrite app_nil_r in *. cbn [app] in *.
  pose proof (s_run_m _ _ _ _ _ _ H1) as M1. cbn [sys_start sy_m] in M1.
  pose proof (s_run_m _ _ _ _ _ _ H3) as M3.
  pose proof (run_sinv _ _ _ _ _ _ _ _ _ H1) as Hi1.
  rewrite <- (si_reqs _ _ _ _ _ _ Hi1) in Hk. subst k.
  pose proof (run_inv _ _ _ _ _ _ M1) as I1. pose proof (m_step_inv _ _ _ _ _ I1 M2) as I2.
  (* the reply comes afterwards *)
  assert (MrVisit (Ok (Some v)) ∈ answers (my_reqs (sy_m s1)) (os ++ mouts tb)) as Hans.
  { unfold replied in Hrep. change (SoMaster (Some n) (MeReq (RqAddVisitor id)) os :: tb)
      with ([SoMaster (Some n) (MeReq (RqAddVisitor id)) os] ++ tb) in Hrep. rewrite !mouts_app in Hrep.
    apply elem_of_answers in Hrep. rewrite answers_app, (m_run_early _ _ _ _ _ _ _ M1) in Hrep by done.
    cbn [app] in Hrep. unfold mouts at 1 in Hrep. cbn [omap list_omap concat] in Hrep. by rewrite app_nil_r in Hrep. }
  destruct (my_alive (sy_m s1)) eqn:Ea.
  2:{ cbn [m_step] in M2. rewrite Ea in M2. injection M2 as E2 <-. exfalso.
      assert (gone (my_reqs (sy_m s1)) (sy_m s2)) as Hg.
      { rewrite <- E2. split; [cbn; lia|]. intros t0 x0 Hx Hq.
        destruct (mv_task _ I1 _ _ Hx) as (_ & _ & Hq' & _). rewrite Forall_forall in Hq'. specialize (Hq' _ Hq). cbn in Hq'. lia. }
      destruct (gone_run _ _ _ _ _ _ I2 Hg M3) as [_ E].
      rewrite answers_app, E in Hans. cbn in Hans. rewrite Nat.eqb_refl in Hans. cbn in Hans. set_solver. }
  destruct (bound (hist (mouts ta)) id) as [c|] eqn:Eb.
  2:{ exfalso. cbn [m_step] in M2. rewrite Ea in M2. cbn [m_handle] in M2.
      cbn [my_sites] in M2. unfold get_site in M2. rewrite (run_bound_none _ _ _ _ _ _ id M1 Eb) in M2.
      injection M2 as E2 <-.
      assert (gone (my_reqs (sy_m s1)) (sy_m s2)) as Hg.
      { rewrite <- E2. split; [cbn; lia|]. intros t0 x0 Hx Hq. cbn in Hx.
        destruct (mv_task _ I1 _ _ Hx) as (_ & _ & Hq' & _). rewrite Forall_forall in Hq'. specialize (Hq' _ Hq). cbn in Hq'. lia. }
      destruct (gone_run _ _ _ _ _ _ I2 Hg M3) as [_ E].
      rewrite answers_app, E in Hans. cbn in Hans. rewrite Nat.eqb_refl in Hans. cbn in Hans. set_solver. }
  destruct (c23_registered _ _ _ _ _ _ id c M1 Ea Eb) as (s' & E & Hc & Hreg).
  rewrite M2 in E. injection E as <- ->. cbn [app] in Hans.
  change (answers _ (MoHandle (RqAddVisitor id) :: mouts tb)) with (answers (my_reqs (sy_m s1)) (mouts tb)) in Hans.
  destruct (Hreg _ _ _ M3) as [(E & _)|[(E & _)|H]].
  - rewrite E in Hans. by apply elem_of_nil in Hans.
  - rewrite E in Hans. set_solver.
  - destruct H as (es3 & es4 & m3 & mo3 & m4 & o4 & x & x' & a & Es & _ & _ & R3 & S3 & Hx & Hx' & _ & Hv & E).
    rewrite E in Hans. apply elem_of_list_singleton in Hans as <-.
    apply mtrace_split in Es as (tb1 & w & os4 & tb2 & -> & <- & <-).
    destruct (run_boundary _ _ _ _ _ _ _ _ _ H3 eq_refl)
      as (es5 & e5 & es6 & s5 & s6 & ta5 & oa5 & ob5 & tb5 & -> & G1 & G2 & G3 & -> & ->).
    destruct (master_step _ _ _ _ _ _ _ _ _ _ G2) as (-> & _ & S5).
    rewrite app_nil_r in *. cbn [app] in *.
    pose proof (s_run_m _ _ _ _ _ _ G1) as R5. rewrite R3 in R5. injection R5 as -> ->.
    rewrite S3 in S5. injection S5 as -> ->.
    destruct Hv as [(v' & [= <-] & Hv)|[(? & _)|(? & _)]]; [|done..].
    exists es1, e1, es5, e5, es6, s1, s2, s5, s6, ta, ta5, [MoHandle (RqAddVisitor id)], (SoMaster w (MeTask (my_next (sy_m s1))) os4 :: ob5), c, x, x'.
    split_and!; done.
Qed.
