(** The work queue when jobs panic: facts about all runs, including those in
    which runner threads die. *)
From Coq Require Import ZifyBool ZifyN ZifyNat Lia.
From Verif Require Import Model.Base Model.Queue Spec.QueueSpec Proofs.QueueProofs.

Lemma dispatch_to_val p im name im' o :
  im_ok im -> im_ips im <> [] -> dispatch_to p im name = Val (im', o) ->
  dstep im name o im' \/ (im_runners im !! name = None /\ im' = im /\ o = []).
Proof.
  intros Hok Hne H. unfold dispatch_to in H. destruct (im_runners im !! name) as [r|] eqn:Hr.
  2:{ injection H as <- <-. by right. }
  left. pose proof (vlen_pos _ Hne). unfold usize_sub in H.
  replace (1 <=? vlen (im_ips im)) with true in H by (symmetry; apply N.leb_le; lia). simpl obind in H.
  fold (nidx im) in H. pose proof (nidx_lt im Hok Hne) as Hlt.
  unfold vindex, vget in H. replace (nidx im <? vlen (im_ips im)) with true in H by (symmetry; by apply N.ltb_lt).
  destruct (im_ips im !! N.to_nat (nidx im)) as [ip|] eqn:Hip; [|done].
  simpl obind in H. destruct (im_queues im !! ip) as [q|] eqn:Hq; [|done].
  simpl obind in H. destruct q as [|work rest].
  - injection H as <- <-. by econstructor.
  - destruct (rn_open r) eqn:Ho; [|done]. injection H as <- <-. by econstructor.
Qed.
Lemma dispatch_names_val p names im im' o :
  im_ok im -> im_ips im <> [] -> dispatch_names p im names = Val (im', o) -> dsteps im names o im'.
Proof.
  revert im im' o. induction names as [|n names IH]; intros im im' o Hok Hne H; simpl in H.
  { injection H as <- <-. constructor. }
  destruct (im_runners im !! n) as [r|] eqn:Hr; [|done].
  destruct (dispatch_to p im n) as [[im1 o1]|] eqn:E1; [|done]. simpl obind in H.
  destruct (dispatch_names p im1 names) as [[im2 o2]|] eqn:E2; [|done]. injection H as <- <-.
  destruct (dispatch_to_val _ _ _ _ _ Hok Hne E1) as [Hd|(? & _)]; [|congruence].
  destruct (dstep_ok _ _ _ _ Hok Hne Hd) as (Hok1 & Hips & _).
  econstructor; [exact Hd|]. apply (IH im1); [done|by rewrite Hips|done].
Qed.

(** * The invariant *)
Definition unmet (r : runner) : Prop := rn_state r <> RExited /\ no_stop (rn_chan r).
Record iminv (w : nat) (q : N) (es : list qevent) (js : list job) (next : nat) (alive : Prop) (im : inner)
    (tr : list qout) : Prop := {
  iv_ok : im_ok im;
  iv_len : im_queue_length im = q;
  iv_workers : length (im_runners im) = w;
  iv_alive : alive -> Forall unmet (im_runners im);
  iv_dead : forall r x, im_runners im !! r = Some x -> rn_state x = RDead <-> QePanic r ∈ es;
  iv_gone : forall r x, im_runners im !! r = Some x -> rn_state x = RDead -> rn_chan x = [];
  iv_jobs : forall j, (cnt j js + cnt j (waiting (im_queues im)) + cnt j (hjobs tr) <= if decide (j < next)%nat then 1 else 0)%nat;
  iv_run : forall r x, im_runners im !! r = Some x ->
    exists l, of_runner r (hrun tr) = of_runner r (started tr) ++ proves (rn_chan x) ++ l /\ (rn_state x <> RDead -> l = []) }.

Lemma dstep_iminv w q es js next alive im name o im' tr :
  im_ips im <> [] -> dstep im name o im' -> iminv w q es js next alive im tr -> iminv w q es js next alive im' (tr ++ o).
Proof.
  intros Hne Hd H. destruct (dstep_ok _ _ _ _ (iv_ok _ _ _ _ _ _ _ _ H) Hne Hd) as (O1 & O2 & O3 & O4 & _).
  destruct Hd as [r ip work rest Hr Hopen Hip Hlt Hq|r ip Hr Hip Hlt Hq].
  - pose proof (lookup_lt_Some _ _ _ Hr) as Hlr. rewrite (alter_insert _ _ _ _ Hr) in *. split; [done| | | | | | |].
    + rewrite O3. apply H.
    + rewrite O4. apply H.
    + intros Ha. simpl. pose proof (iv_alive _ _ _ _ _ _ _ _ H Ha) as Hf. apply Forall_insert; [done|].
      destruct (Forall_lookup_1 _ _ _ _ Hf Hr) as [U1 U2]. split; [done|]. by apply no_stop_snoc.
    + simpl. intros r' x Hx. destruct (decide (name = r')) as [<-|Hn].
      * rewrite list_lookup_insert in Hx by done. injection Hx as <-. exact (iv_dead _ _ _ _ _ _ _ _ H _ _ Hr).
      * rewrite list_lookup_insert_ne in Hx by done. exact (iv_dead _ _ _ _ _ _ _ _ H _ _ Hx).
    + simpl. intros r' x Hx. destruct (decide (name = r')) as [<-|Hn].
      * rewrite list_lookup_insert in Hx by done. injection Hx as <-. intros Hd. simpl in Hd.
        unfold rn_open in Hopen. by rewrite Hd in Hopen.
      * rewrite list_lookup_insert_ne in Hx by done. exact (iv_gone _ _ _ _ _ _ _ _ H _ _ Hx).
    + intros j. simpl. pose proof (iv_jobs _ _ _ _ _ _ _ _ H j) as Hj. rewrite hjobs_app, cnt_app.
      change (hjobs [QTry name ip; QHand name ip work]) with [work].
      pose proof (waiting_insert (im_queues im) ip (work :: rest) rest j Hq) as Hw.
      change (work :: rest) with ([work] ++ rest) in Hw. rewrite cnt_app in Hw. lia.
    + simpl. intros r' x Hx. rewrite hrun_app, started_app, !of_runner_app.
      change (started [QTry name ip; QHand name ip work]) with (@nil (nat * job)).
      change (hrun [QTry name ip; QHand name ip work]) with [(name, work)].
      replace (of_runner r' []) with (@nil job) by done. rewrite app_nil_r.
      destruct (decide (name = r')) as [<-|Hn].
      * rewrite list_lookup_insert in Hx by done. injection Hx as <-.
        destruct (iv_run _ _ _ _ _ _ _ _ H _ _ Hr) as (l & E & El). rewrite E.
        rewrite (El ltac:(intros Hd; unfold rn_open in Hopen; by rewrite Hd in Hopen)). rewrite app_nil_r.
        exists []. split; [|done]. unfold of_runner at 2. simpl. rewrite decide_True by done.
        rewrite proves_app, <- !app_assoc. done.
      * rewrite list_lookup_insert_ne in Hx by done.
        destruct (iv_run _ _ _ _ _ _ _ _ H _ _ Hx) as (l & E & El). exists l. split; [|done]. rewrite E.
        unfold of_runner at 2. simpl. rewrite decide_False by done. by rewrite app_nil_r.
  - split; [done| | | | | | |]; simpl; try apply H.
    + intros j. rewrite hjobs_app, cnt_app. change (hjobs [QTry name ip]) with (@nil job). rewrite cnt_nil, Nat.add_0_r.
      apply H.
    + intros r' x Hx. rewrite hrun_app, started_app, !of_runner_app.
      change (started [QTry name ip]) with (@nil (nat * job)). change (hrun [QTry name ip]) with (@nil (nat * job)).
      replace (of_runner r' []) with (@nil job) by done. rewrite !app_nil_r. by apply H.
Qed.
Lemma dsteps_iminv w q es js next alive im names o im' tr :
  im_ips im <> [] -> dsteps im names o im' -> iminv w q es js next alive im tr -> iminv w q es js next alive im' (tr ++ o).
Proof.
  intros Hne Hd. revert tr. induction Hd as [im|im name o im1 names o' im2 Hd Hds IH]; intros tr H.
  { by rewrite app_nil_r. }
  rewrite app_assoc. destruct (dstep_ok _ _ _ _ (iv_ok _ _ _ _ _ _ _ _ H) Hne Hd) as (_ & O2 & _).
  apply IH; [by rewrite O2|]. by eapply dstep_iminv.
Qed.

(** Outputs that are neither hand-outs nor starts. *)
Lemma iminv_out w q es js next alive im tr o :
  hrun o = [] -> started o = [] -> iminv w q es js next alive im tr -> iminv w q es js next alive im (tr ++ o).
Proof.
  intros H1 H2 H. assert (hjobs o = []) as H3.
  { unfold hrun in H1. unfold hjobs. by destruct (handed o). }
  split; try apply H.
  - intros j. rewrite hjobs_app, H3, app_nil_r. apply H.
  - intros r x Hx. rewrite hrun_app, started_app, H1, H2, !app_nil_r. by apply H.
Qed.
(** Changing one runner. *)
Lemma iminv_runner w q es es' js next (alive alive' : Prop) im tr o r y x :
  iminv w q es js next alive im tr -> im_runners im !! r = Some y -> hrun o = [] ->
  (alive' -> alive) -> (alive' -> unmet y -> unmet x) ->
  (forall r', r' <> r -> QePanic r' ∈ es' <-> QePanic r' ∈ es) ->
  (rn_state x = RDead <-> QePanic r ∈ es') -> (rn_state x = RDead -> rn_chan x = []) ->
  (forall l, (rn_state y <> RDead -> l = []) -> exists l', proves (rn_chan y) ++ l = of_runner r (started o) ++ proves (rn_chan x) ++ l' /\
      (rn_state x <> RDead -> l' = [])) ->
  (forall r', r' <> r -> of_runner r' (started o) = []) ->
  iminv w q es' js next alive' (with_runners im (<[r := x]> (im_runners im))) (tr ++ o).
Proof.
  intros H Hy Ho Ha Hu Hes Hd Hg Hl Hs. pose proof (lookup_lt_Some _ _ _ Hy) as Hlt.
  assert (hjobs o = []) as H3.
  { unfold hrun in Ho. unfold hjobs. by destruct (handed o). }
  split; simpl; try apply H.
  - destruct (iv_ok _ _ _ _ _ _ _ _ H). by split.
  - rewrite insert_length. apply H.
  - intros A. pose proof (iv_alive _ _ _ _ _ _ _ _ H (Ha A)) as Hf. apply Forall_insert; [done|].
    apply Hu; [done|]. by eapply (Forall_lookup_1 _ _ _ _ Hf).
  - intros r' z Hz. destruct (decide (r = r')) as [<-|Hn].
    + rewrite list_lookup_insert in Hz by done. injection Hz as <-. done.
    + rewrite list_lookup_insert_ne in Hz by done. rewrite Hes by done. exact (iv_dead _ _ _ _ _ _ _ _ H _ _ Hz).
  - intros r' z Hz. destruct (decide (r = r')) as [<-|Hn].
    + rewrite list_lookup_insert in Hz by done. injection Hz as <-. done.
    + rewrite list_lookup_insert_ne in Hz by done. exact (iv_gone _ _ _ _ _ _ _ _ H _ _ Hz).
  - intros j. rewrite hjobs_app, H3, app_nil_r. apply H.
  - intros r' z Hz. rewrite hrun_app, started_app, !of_runner_app, Ho.
    replace (of_runner r' []) with (@nil job) by done. rewrite app_nil_r. destruct (decide (r = r')) as [<-|Hn].
    + rewrite list_lookup_insert in Hz by done. injection Hz as <-.
      destruct (iv_run _ _ _ _ _ _ _ _ H _ _ Hy) as (l & E & El). destruct (Hl l El) as (l' & E' & El').
      exists l'. split; [|done]. by rewrite E, E', <- app_assoc.
    + rewrite list_lookup_insert_ne in Hz by done. rewrite Hs by done. rewrite app_nil_r. by apply H.
Qed.

Record pinv (w : nat) (q : N) (es : list qevent) (s : qsys) (tr : list qout) : Prop := {
  pv_im : iminv w q es (sched_ids (qs_inbox s)) (qs_next s) (qs_mgr s = MAlive) (qs_im s) tr;
  pv_stop : qs_mgr s = MAlive -> qs_dropped s = false -> Forall (fun m => ~ is_stop m) (qs_inbox s);
  pv_ips : forall ip, ip ∈ im_ips (qs_im s) <-> ip ∈ (fst <$> accepted tr);
  pv_empty : im_ips (qs_im s) = [] ->
     Forall (fun m => ¬ is_dispatch m) (qs_inbox s) /\
     Forall (fun r => proves (rn_chan r) = [] /\ running (rn_state r) = []) (im_runners (qs_im s)) }.

Lemma iminv_weaken w q es es' js js' next (alive alive' : Prop) im tr :
  iminv w q es js next alive im tr -> (forall r, QePanic r ∈ es' <-> QePanic r ∈ es) ->
  (forall j, cnt j js' <= cnt j js)%nat -> (alive' -> alive) -> iminv w q es' js' next alive' im tr.
Proof.
  intros H He Hj Ha. split; try apply H.
  - intros A. apply H. by apply Ha.
  - intros r x Hx. rewrite He. by apply H.
  - intros j. specialize (Hj j). pose proof (iv_jobs _ _ _ _ _ _ _ _ H j). lia.
Qed.
Lemma snoc_panic es e r : (forall r', e <> QePanic r') -> QePanic r ∈ es ++ [e] <-> QePanic r ∈ es.
Proof. intros He. rewrite elem_of_app, elem_of_list_singleton. split; [|by left]. by intros [?|E%eq_sym%He]. Qed.
Lemma sched_ids_app a b : sched_ids (a ++ b) = sched_ids a ++ sched_ids b.
Proof. apply omap_app. Qed.
Lemma cnt_sched_cons j m l : (cnt j (sched_ids l) <= cnt j (sched_ids (m :: l)))%nat.
Proof. change (m :: l) with ([m] ++ l). rewrite sched_ids_app, cnt_app. lia. Qed.

(** Scheduling, once there is room. *)
Definition push (im : inner) (ip : string) (j : job) : inner :=
  Inner (<[ip := default [] (im_queues im !! ip) ++ [j]]> (im_queues im)) (im_runners im)
    (if decide (ip ∈ im_ips im) then im_ips im else im_ips im ++ [ip]) (im_index im) (im_queue_length im).
Lemma schedule_push p im ip j :
  im_ok im ->
  schedule p im ip j =
    if vlen (im_ips im) =? im_queue_length im then Val (im, [], Err QueueFull)
    else olet (im2, o) := dispatch p (push im ip j) in Val (im2, o, Ok tt).
Proof.
  intros Hok. unfold schedule. rewrite (im_ok_size _ Hok). fold (vlen (im_ips im)).
  destruct (vlen (im_ips im) =? im_queue_length im); [done|]. unfold push.
  destruct (im_queues im !! ip) as [l|] eqn:E.
  - rewrite decide_True; [done|]. apply (io_dom _ Hok). by rewrite E.
  - rewrite decide_False; [done|]. intros Hin. apply (io_dom _ Hok) in Hin. rewrite E in Hin. by destruct Hin.
Qed.
Lemma push_ok im ip j :
  im_ok im -> vlen (im_ips im) < im_queue_length im -> im_ok (push im ip j) /\ im_ips (push im ip j) <> [].
Proof.
  intros Hok Hl. unfold push. destruct (decide (ip ∈ im_ips im)) as [Hi|Hi].
  - split; [|cbn; by destruct (im_ips im); [apply elem_of_nil in Hi|]].
    split; cbn; try apply Hok. intros ip'. rewrite <- (io_dom _ Hok). destruct (decide (ip = ip')) as [<-|Hn].
    + rewrite lookup_insert. apply (io_dom _ Hok) in Hi. split; eauto.
    + by rewrite lookup_insert_ne.
  - split; [|cbn; by destruct (im_ips im)]. split; cbn.
    + apply NoDup_app. split; [apply Hok|]. split; [|apply NoDup_singleton].
      intros x Hx. rewrite elem_of_list_singleton. intros ->. done.
    + intros ip'. rewrite elem_of_app, elem_of_list_singleton, <- (io_dom _ Hok). destruct (decide (ip = ip')) as [<-|Hn].
      * rewrite lookup_insert. split; eauto.
      * rewrite lookup_insert_ne by done. split; [by left|]. intros [?|?]; [done|congruence].
    + unfold vlen in *. rewrite app_length. cbn. lia.
    + intros E. by destruct (im_ips im).
    + intros _. unfold vlen. rewrite app_length. cbn. destruct (decide (im_ips im = [])) as [E|E].
      * rewrite (io_idx0 _ Hok E). lia.
      * pose proof (io_idx _ Hok E). unfold vlen in *. lia.
Qed.

Lemma pinv_step p w q es s tr e s' o :
  pinv w q es s tr -> q_step p s e = Some (s', o) -> pinv w q (es ++ [e]) s' (tr ++ o).
Proof.
  intros H Hs. pose proof (pv_im _ _ _ _ _ H) as Hi. pose proof (iv_ok _ _ _ _ _ _ _ _ Hi) as Hok.
  assert (qs_mgr s <> MAborted) as Hna by (intros E; unfold q_step in Hs; by rewrite E in Hs).
  destruct e as [ip| |r|r|r| |].
  - (* add *)
    assert (qs_dropped s = false /\ s' = QSys (qs_im s) (qs_inbox s ++ [ImSchedule (qs_next s) ip]) (qs_mgr s) false (S (qs_next s)) /\ o = [])
      as (Hd & -> & ->).
    { unfold q_step in Hs. destruct (qs_mgr s); try done; destruct (qs_dropped s); try done; by injection Hs as <- <-. }
    rewrite app_nil_r. split; cbn.
    + split; try apply Hi.
      * intros r x Hx. rewrite snoc_panic by done. by apply Hi.
      * intros j. rewrite sched_ids_app, cnt_app. pose proof (iv_jobs _ _ _ _ _ _ _ _ Hi j) as Hj.
        cbn [sched_ids omap list_omap]. unfold cnt at 2. cbn [count_occ].
        destruct (Nat.eq_dec (qs_next s) j) as [<-|Hn]; destruct (decide _) in Hj; destruct (decide _); lia.
    + intros A _. apply Forall_app. split; [by apply H|]. rewrite Forall_singleton. by intros [].
    + apply H.
    + intros E. destruct (pv_empty _ _ _ _ _ H E) as [E1 E2]. split; [|done]. apply Forall_app. split; [done|].
      rewrite Forall_singleton. by intros [].
  - (* the dispatcher *)
    assert (mgr_step p s = Some (s', o)) as Hs' by (unfold q_step in Hs; by destruct (qs_mgr s)). clear Hs.
    unfold mgr_step in Hs'. destruct (qs_mgr s) eqn:Em; try done. destruct (qs_inbox s) as [|m rest] eqn:Ein; [done|].
    assert (forall r, QePanic r ∈ es ++ [QeManager] <-> QePanic r ∈ es) as Hes by (intros; by apply snoc_panic).
    assert (qs_dropped s = false -> Forall (fun m => ~ is_stop m) rest) as Hst.
    { intros Hd. pose proof (pv_stop _ _ _ _ _ H Em Hd) as Hf. rewrite Ein in Hf. by apply Forall_cons in Hf as [_ ?]. }
    assert (im_ips (qs_im s) = [] -> ~ is_dispatch m /\ Forall (fun m => ¬ is_dispatch m) rest /\
       Forall (fun r => proves (rn_chan r) = [] /\ running (rn_state r) = []) (im_runners (qs_im s))) as Hem.
    { intros E. destruct (pv_empty _ _ _ _ _ H E) as [E1 E2]. rewrite Ein in E1. apply Forall_cons in E1 as [? ?]. done. }
    assert (iminv w q (es ++ [QeManager]) (sched_ids rest) (qs_next s) True (qs_im s) tr) as Hi'.
    { eapply iminv_weaken; [exact Hi|done| |done]. intros j. apply cnt_sched_cons. }
    assert (forall ms, ms <> MAlive -> pinv w q (es ++ [QeManager]) (QSys (qs_im s) rest ms (qs_dropped s) (qs_next s)) (tr ++ [])) as Hpanic.
    { intros ms Hms. rewrite app_nil_r. split; cbn; [|done|apply H|].
      - by eapply iminv_weaken.
      - intros E. by destruct (Hem E) as (_ & ? & ?). }
    destruct m as [|name|j ip].
    + destruct (forallb rn_open (im_runners (qs_im s))) eqn:Eo.
      2:{ injection Hs' as <- <-. by apply Hpanic. }
      injection Hs' as <- <-. rewrite app_nil_r. split; cbn; [|done|apply H|].
      * split; cbn; try apply Hi'.
        -- destruct Hok. by split.
        -- rewrite fmap_length. apply Hi.
        -- done.
        -- intros r x Hx. rewrite list_lookup_fmap in Hx. apply fmap_Some in Hx as (y & Hy & ->). cbn. by apply Hi'.
        -- intros r x Hx. rewrite list_lookup_fmap in Hx. apply fmap_Some in Hx as (y & Hy & ->). cbn. intros Hd.
           apply forallb_True in Eo || idtac. rewrite forallb_forall in Eo.
           assert (rn_open y = true) as Ho by (apply Eo; apply elem_of_list_In; by eapply elem_of_list_lookup_2).
           unfold rn_open in Ho. by rewrite Hd in Ho.
        -- intros r x Hx. rewrite list_lookup_fmap in Hx. apply fmap_Some in Hx as (y & Hy & ->). cbn.
           rewrite proves_app. cbn. rewrite app_nil_r. by apply Hi'.
      * intros E. destruct (Hem E) as (_ & E1 & E2). split; [done|]. apply Forall_fmap. eapply Forall_impl; [exact E2|].
        intros x [X1 X2]. cbn. rewrite proves_app, X1. done.
    + assert (im_ips (qs_im s) <> []) as Hne by (intros E; by destruct (Hem E) as (E1 & _); apply E1).
      destruct (dispatch_to p (qs_im s) name) as [[im o']|] eqn:Ed.
      2:{ injection Hs' as <- <-. apply Hpanic. by destruct (existsb _ _). }
      injection Hs' as <- <-. destruct (dispatch_to_val _ _ _ _ _ Hok Hne Ed) as [Hds|(_ & -> & ->)].
      * destruct (dstep_ok _ _ _ _ Hok Hne Hds) as (_ & Hips & _).
        destruct (dstep_silent _ _ _ _ Hds) as (Eacc & _). split; cbn; [| |rewrite Hips, accepted_app, Eacc, app_nil_r; apply H|by rewrite Hips].
        -- eapply iminv_weaken; [eapply dstep_iminv; [done|exact Hds|exact Hi']|done|done|done].
        -- done.
      * rewrite app_nil_r. split; cbn; [|done|apply H|].
        -- by eapply iminv_weaken.
        -- intros E. done.
    + rewrite schedule_push in Hs' by done. destruct (N.eqb_spec (vlen (im_ips (qs_im s))) (im_queue_length (qs_im s))) as [Ef|Ef].
      * injection Hs' as <- <-. split; cbn; [|done|rewrite accepted_app; cbn; rewrite app_nil_r; apply H|].
        -- apply iminv_out; [done|done|]. by eapply iminv_weaken.
        -- intros E. by destruct (Hem E) as (_ & ? & ?).
      * assert (vlen (im_ips (qs_im s)) < im_queue_length (qs_im s)) as Hlt by (pose proof (io_len _ Hok); lia).
        destruct (push_ok _ ip j Hok Hlt) as [Hok1 Hne1]. unfold dispatch in Hs'.
        destruct (dispatch_names p (push (qs_im s) ip j) _) as [[im2 o']|] eqn:Ed; cbn [obind] in Hs'.
        2:{ injection Hs' as <- <-. apply Hpanic. by destruct (existsb _ _). }
        injection Hs' as <- <-. pose proof (dispatch_names_val _ _ _ _ _ Hok1 Hne1 Ed) as Hds.
        destruct (dsteps_ok _ _ _ _ Hok1 Hne1 Hds) as (_ & Hips & _).
        destruct (dsteps_silent _ _ _ _ Hds) as (Eacc & _). rewrite app_assoc.
        assert (iminv w q (es ++ [QeManager]) (sched_ids rest) (qs_next s) True (push (qs_im s) ip j) tr) as Hi1.
        { split; cbn; try apply Hi'; [done|]. intros k. rewrite waiting_push.
          pose proof (iv_jobs _ _ _ _ _ _ _ _ Hi k) as Hk. change (ImSchedule j ip :: rest) with ([ImSchedule j ip] ++ rest) in Hk.
          rewrite sched_ids_app, cnt_app in Hk. change (sched_ids [ImSchedule j ip]) with [j] in Hk. lia. }
        split; cbn.
        -- apply iminv_out; [done|done|]. eapply iminv_weaken; [eapply dsteps_iminv; [done|exact Hds|exact Hi1]|done|done|done].
        -- done.
        -- intros ip'. rewrite Hips, !accepted_app, Eacc, app_nil_r, fmap_app, elem_of_app. cbn. rewrite elem_of_list_singleton.
           rewrite <- (pv_ips _ _ _ _ _ H ip'). destruct (decide (ip ∈ im_ips (qs_im s))).
           ++ split; [by left|]. intros [?| ->]; done.
           ++ by rewrite elem_of_app, elem_of_list_singleton.
        -- intros E. by rewrite Hips in E.
  - (* a runner receives *)
    assert (runner_recv s r = Some (s', o)) as Hs' by (unfold q_step in Hs; by destruct (qs_mgr s)). clear Hs.
    unfold runner_recv in Hs'. destruct (im_runners (qs_im s) !! r) as [[c st]|] eqn:Er; [|done].
    assert (st = RIdle /\ exists m c', c = m :: c') as (-> & m & c' & ->).
    { destruct c as [|[|j] c]; destruct st; try done; eauto. }
    assert (forall r', r' <> r -> QePanic r' ∈ es ++ [QeRecv r] <-> QePanic r' ∈ es) as Hes by (intros; by apply snoc_panic).
    assert (~ QePanic r ∈ es ++ [QeRecv r]) as Hnp.
    { rewrite snoc_panic by done. intros Hp. apply (iv_dead _ _ _ _ _ _ _ _ Hi _ _ Er) in Hp. done. }
    destruct m as [|j]; injection Hs' as <- <-; (split; cbn; [|apply H|rewrite accepted_app; cbn; rewrite app_nil_r; apply H|]).
    + eapply iminv_runner; [exact Hi|exact Er|done|done| |done|by split|done| |done].
      * intros _ [_ U]. apply Forall_cons in U as [U _]. by destruct (U eq_refl).
      * intros l Hl. exists l. split; [done|]. intros _. by apply Hl.
    + intros E. destruct (pv_empty _ _ _ _ _ H E) as [E1 E2]. split; [done|]. apply Forall_insert; [done|].
      by destruct (Forall_lookup_1 _ _ _ _ E2 Er).
    + eapply iminv_runner; [exact Hi|exact Er|done|done| |done|by split|done| |].
      * intros _ [_ U]. apply Forall_cons in U as [_ U]. by split.
      * intros l Hl. exists l. split; [unfold of_runner; cbn; by rewrite decide_True|]. intros _. by apply Hl.
      * intros r' Hr'. unfold of_runner. cbn. by rewrite decide_False.
    + intros E. destruct (pv_empty _ _ _ _ _ H E) as [E1 E2]. by destruct (Forall_lookup_1 _ _ _ _ E2 Er).
  - (* a job returns *)
    assert (runner_finish s r = Some (s', o)) as Hs' by (unfold q_step in Hs; by destruct (qs_mgr s)). clear Hs.
    unfold runner_finish in Hs'. destruct (im_runners (qs_im s) !! r) as [[c [|j| |]]|] eqn:Er; try done.
    assert (~ QePanic r ∈ es ++ [QeFinish r]) as Hnp.
    { rewrite snoc_panic by done. intros Hp. by apply (iv_dead _ _ _ _ _ _ _ _ Hi _ _ Er) in Hp. }
    assert (im_ips (qs_im s) <> []) as Hne.
    { intros E. destruct (pv_empty _ _ _ _ _ H E) as [_ E2]. by destruct (Forall_lookup_1 _ _ _ _ E2 Er). }
    assert ((qs_mgr s = MAlive \/ qs_mgr s = MDraining) /\ s' = set_runner s r (Runner c RIdle) (qs_inbox s ++ [ImDispatch r]) /\ o = [QFinish r j] \/
            qs_mgr s <> MAlive /\ s' = set_runner s r (Runner c RExited) (qs_inbox s) /\ o = [QFinish r j; QExit r]) as [(Hm & -> & ->)|(Hm & -> & ->)].
    { destruct (qs_mgr s); injection Hs' as <- <-; auto. }
    + split; cbn; [| |rewrite accepted_app; cbn; rewrite app_nil_r; apply H|done].
      * eapply iminv_runner; [|exact Er|done| | | |by split|done| |done].
        -- eapply (iminv_weaken _ _ es (es ++ [QeFinish r])); [exact Hi|intros; by apply snoc_panic| |exact (fun x => x)].
           intros k. by rewrite sched_ids_app, app_nil_r.
        -- done.
        -- intros _ [_ U]. by split.
        -- done.
        -- intros l Hl. exists l. split; [done|]. intros _. by apply Hl.
      * intros A Hd. apply Forall_app. split; [by apply H|]. rewrite Forall_singleton. by intros [].
    + split; cbn; [|done|rewrite accepted_app; cbn; rewrite app_nil_r; apply H|done].
      eapply iminv_runner; [exact Hi|exact Er|done|done|done|intros; by apply snoc_panic|by split|done| |done].
      intros l Hl. exists l. split; [done|]. intros _. by apply Hl.
  - (* a job panics *)
    assert (runner_panic s r = Some (s', o)) as Hs' by (unfold q_step in Hs; by destruct (qs_mgr s)). clear Hs.
    unfold runner_panic in Hs'. destruct (im_runners (qs_im s) !! r) as [[c [|j| |]]|] eqn:Er; try done.
    injection Hs' as <- <-. split; cbn; [|apply H|rewrite app_nil_r; apply H|].
    + eapply iminv_runner; [exact Hi|exact Er|done|done| | | |done| |done].
      * intros _ [_ U]. split; [done|]. by constructor.
      * intros r' Hr'. rewrite elem_of_app, elem_of_list_singleton. split; [|by left]. intros [?|[= ?]]; done.
      * split; [|done]. intros _. apply elem_of_app. right. by left.
      * intros l Hl. exists (proves c ++ l). split; [done|]. by intros [].
    + intros E. destruct (pv_empty _ _ _ _ _ H E) as [E1 E2]. split; [done|]. by apply Forall_insert.
  - (* the Manager is dropped *)
    assert (qs_dropped s = false /\ s' = QSys (qs_im s) (qs_inbox s ++ [ImStop]) (qs_mgr s) true (qs_next s) /\ o = [])
      as (Hd & -> & ->).
    { unfold q_step in Hs. destruct (qs_mgr s); try done; destruct (qs_dropped s); try done; by injection Hs as <- <-. }
    rewrite app_nil_r. split; cbn; [|done|apply H|].
    + eapply iminv_weaken; [exact Hi|intros; by apply snoc_panic| |done]. intros j. by rewrite sched_ids_app, app_nil_r.
    + intros E. destruct (pv_empty _ _ _ _ _ H E) as [E1 E2]. split; [|done]. apply Forall_app. split; [done|].
      rewrite Forall_singleton. by intros [].
  - (* joined *)
    assert (qs_mgr s = MDraining /\ s' = QSys (qs_im s) (qs_inbox s) MDone (qs_dropped s) (qs_next s) /\ o = []) as (Hm & -> & ->).
    { unfold q_step in Hs. destruct (qs_mgr s); try done. destruct (forallb _ _); try done. by injection Hs as <- <-. }
    rewrite app_nil_r. split; cbn; [|done|apply H|apply H].
    eapply iminv_weaken; [exact Hi|intros; by apply snoc_panic|done|done].
Qed.

Lemma pinv_start w q : pinv w q [] (q_start w q) [].
Proof.
  pose proof (q_start_inv w q) as H. split.
  - split.
    + apply H.
    + done.
    + apply replicate_length.
    + intros _. cbn. apply Forall_replicate. split; [done|]. by constructor.
    + intros r x [-> _]%lookup_replicate. cbn. split; [done|]. by intros ?%elem_of_nil.
    + intros r x [-> _]%lookup_replicate. done.
    + intros j. replace (waiting (im_queues (qs_im (q_start w q)))) with (@nil job) by done. cbn. rewrite !cnt_nil. lia.
    + intros r x [-> _]%lookup_replicate. exists []. done.
  - intros _ _. constructor.
  - intros ip. cbn. done.
  - intros _. cbn. split; [done|]. by apply Forall_replicate.
Qed.
Lemma run_pinv p w q es s tr : q_run p (q_start w q) es = Some (s, tr) -> pinv w q es s tr.
Proof.
  revert s tr. induction es as [|e es IH] using rev_ind; intros s tr Hr.
  - injection Hr as <- <-. apply pinv_start.
  - apply q_run_snoc in Hr as (s1 & tr1 & o & H1 & H2 & ->). eapply pinv_step; [by apply IH|done].
Qed.

(** * A dead runner and the next jobs *)
Lemma nidx_next im im' :
  im_ok im -> im_ips im <> [] -> im_ips im' = im_ips im -> im_index im' = nidx im ->
  nidx im' = (nidx im + 1) mod vlen (im_ips im).
Proof.
  intros Hok Hne Hi Hx. pose proof (nidx_lt _ Hok Hne) as Hlt. unfold nidx at 1. rewrite Hi, Hx.
  destruct (N.ltb_spec (nidx im) (vlen (im_ips im) - 1)).
  - rewrite N.mod_small by lia. done.
  - replace (nidx im + 1) with (vlen (im_ips im)) by lia. rewrite N.mod_same by lia. done.
Qed.

(** If runner [k + d] is gone and the IP whose turn it will be has a job
    waiting, dispatching to the runners from [k] on panics. *)
Lemma dispatch_hits p d k n im x ip j l :
  im_ok im -> im_ips im <> [] -> N.of_nat d < vlen (im_ips im) -> (d < n)%nat ->
  im_runners im !! (k + d)%nat = Some x -> rn_state x = RDead ->
  im_ips im !! N.to_nat ((nidx im + N.of_nat d) mod vlen (im_ips im)) = Some ip ->
  im_queues im !! ip = Some (j :: l) -> (forall i, (i < n)%nat -> is_Some (im_runners im !! (k + i)%nat)) ->
  dispatch_names p im (seq k n) = Panic.
Proof.
  revert k n im x j l. induction d as [|d IH]; intros k n im x j l Hok Hne Hd Hn Hx Hdead Hip Hq Hall;
    (destruct n as [|n]; [lia|]); cbn [seq dispatch_names].
  - rewrite Nat.add_0_r in Hx. rewrite Hx. pose proof (nidx_lt _ Hok Hne) as Hlt.
    rewrite N.add_0_r, N.mod_small in Hip by done.
    unfold dispatch_to. rewrite Hx. pose proof (vlen_pos _ Hne). unfold usize_sub.
    replace (1 <=? vlen (im_ips im)) with true by lia. cbn [obind]. fold (nidx im). unfold vindex, vget.
    replace (nidx im <? vlen (im_ips im)) with true by lia. rewrite Hip. cbn [obind]. rewrite Hq. cbn [unwrap obind].
    unfold rn_open. by rewrite Hdead.
  - destruct (Hall 0%nat) as [y Hy]; [lia|]. rewrite Nat.add_0_r in Hy. rewrite Hy.
    destruct (dispatch_to p im k) as [[im1 o1]|] eqn:E; [|done]. cbn [obind].
    destruct (dispatch_to_val _ _ _ _ _ Hok Hne E) as [Hds|(? & _)]; [|congruence].
    destruct (dstep_ok _ _ _ _ Hok Hne Hds) as (Hok1 & Hips & _ & Hl1 & Hix).
    pose proof (nidx_next _ _ Hok Hne Hips Hix) as Hnx. pose proof (vlen_pos _ Hne) as Hpos.
    assert (im_queues im1 !! ip = Some (j :: l) /\ exists x1, im_runners im1 !! (S k + d)%nat = Some x1 /\ rn_state x1 = RDead) as (Hq1 & x1 & Hx1 & Hd1).
    { replace (k + S d)%nat with (S k + d)%nat in Hx by lia.
      destruct Hds as [r' ip' work rest Hr' Hopen Hip' Hlt' Hq'|r' ip' Hr' Hip' Hlt' Hq']; cbn.
      - assert (ip' <> ip) as Hnip.
        { intros ->. pose proof (NoDup_lookup _ _ _ _ (io_nodup _ Hok) Hip' Hip) as Eq.
          assert (nidx im = (nidx im + N.of_nat (S d)) mod vlen (im_ips im)) as Eq' by lia.
          rewrite N.mod_eq in Eq' by lia. set (Q := (nidx im + N.of_nat (S d)) / vlen (im_ips im)) in *.
          assert (N.of_nat (S d) = vlen (im_ips im) * Q) as Eq2.
          { assert (vlen (im_ips im) * Q <= nidx im + N.of_nat (S d)) by (apply N.mul_div_le; lia). lia. }
          destruct (N.eq_dec Q 0) as [->|]; [lia|]. assert (vlen (im_ips im) * 1 <= vlen (im_ips im) * Q) by (apply N.mul_le_mono_l; lia). lia. }
        rewrite lookup_insert_ne by done. split; [done|]. exists x. split; [|done].
        rewrite list_lookup_alter_ne by lia. done.
      - split; [done|]. by exists x. }
    rewrite (IH (S k) n im1 x1 j l); [done|done|by rewrite Hips|rewrite Hips; lia|lia|done|done| |done|].
    + rewrite Hips, Hnx. rewrite N.add_mod_idemp_l by lia. rewrite <- Hip. do 3 f_equal. lia.
    + intros i Hi. apply lookup_lt_is_Some. rewrite Hl1. apply lookup_lt_is_Some. replace (S k + i)%nat with (k + S i)%nat by lia.
      apply Hall. lia.
Qed.

Lemma aborted_stuck p s e : qs_mgr s = MAborted -> q_step p s e = None.
Proof. intros H. unfold q_step. by rewrite H. Qed.
Lemma mgr_panic_aborts s rest r x :
  im_runners (qs_im s) !! r = Some x -> rn_state x = RDead -> qs_mgr (mgr_panic s rest) = MAborted.
Proof.
  intros Hx Hd. unfold mgr_panic. cbn. replace (existsb _ _) with true; [done|]. symmetry. apply existsb_exists.
  exists x. split; [apply elem_of_list_In; by eapply elem_of_list_lookup_2|]. unfold rn_open. by rewrite Hd.
Qed.

Lemma add_manager p s ip :
  qs_mgr s = MAlive -> qs_dropped s = false -> qs_inbox s = [] ->
  q_run p s [QeAdd ip; QeManager] =
    match schedule p (qs_im s) ip (qs_next s) with
    | Val (im, o, res) => Some (QSys im [] MAlive false (S (qs_next s)), o ++ [QAnswer (qs_next s) ip res])
    | Panic => Some (mgr_panic (QSys (qs_im s) [ImSchedule (qs_next s) ip] MAlive false (S (qs_next s))) [], [])
    end.
Proof.
  destruct s as [im inbox mgr dropped next]. cbn [qs_im qs_inbox qs_mgr qs_dropped qs_next]. intros -> -> ->.
  cbn. destruct (schedule p im ip next) as [[[im' o] res]|]; [|done]. by rewrite app_nil_r.
Qed.

(** Enough IPs known: there is one whose next job aborts the process. *)
Lemma next_job_aborts p w q es s tr r :
  pinv w q es s tr -> qs_mgr s = MAlive -> qs_dropped s = false -> qs_inbox s = [] ->
  (r < w)%nat -> QePanic r ∈ es -> (r < length (im_ips (qs_im s)))%nat -> vlen (im_ips (qs_im s)) < q ->
  exists ip s', ip ∈ im_ips (qs_im s) /\ q_run p s [QeAdd ip; QeManager] = Some (s', []) /\ qs_mgr s' = MAborted.
Proof.
  intros H Ha Hd Hin Hw Hp Hr Hlt. pose proof (pv_im _ _ _ _ _ H) as Hi. pose proof (iv_ok _ _ _ _ _ _ _ _ Hi) as Hok.
  assert (im_ips (qs_im s) <> []) as Hne by (by destruct (im_ips (qs_im s)); [cbn in Hr; lia|]).
  destruct (lookup_lt_is_Some_2 (im_runners (qs_im s)) r) as [x Hx]; [by rewrite (iv_workers _ _ _ _ _ _ _ _ Hi)|].
  pose proof (proj2 (iv_dead _ _ _ _ _ _ _ _ Hi _ _ Hx) Hp) as Hdead.
  set (n := vlen (im_ips (qs_im s))) in *. pose proof (vlen_pos _ Hne) as Hpos. fold n in Hpos.
  set (i := (nidx (qs_im s) + N.of_nat r) mod n). assert (i < n) as Hil by (apply N.mod_lt; lia).
  destruct (lookup_lt_is_Some_2 (im_ips (qs_im s)) (N.to_nat i)) as [ip Hip]; [unfold n, vlen in *; lia|].
  assert (ip ∈ im_ips (qs_im s)) as Hmem by (by eapply elem_of_list_lookup_2).
  assert (schedule p (qs_im s) ip (qs_next s) = Panic) as E.
  { rewrite schedule_push by done. rewrite (iv_len _ _ _ _ _ _ _ _ Hi). fold n.
    replace (n =? q) with false by lia. unfold dispatch.
    assert (n < im_queue_length (qs_im s)) as Hroom by (by rewrite (iv_len _ _ _ _ _ _ _ _ Hi)).
    destruct (push_ok _ ip (qs_next s) Hok Hroom) as [Hok1 Hne1].
    assert (im_ips (push (qs_im s) ip (qs_next s)) = im_ips (qs_im s)) as Eips by (unfold push; cbn; by rewrite decide_True).
    assert (nidx (push (qs_im s) ip (qs_next s)) = nidx (qs_im s)) as Enx by (by apply nidx_same).
    assert (exists j l, default [] (im_queues (qs_im s) !! ip) ++ [qs_next s] = j :: l) as (j & l & Ej).
    { destruct (default [] _) as [|j l]; cbn; eauto. }
    rewrite (dispatch_hits p r 0 _ _ x ip j l); [done|done|done| | |done|done| | |].
    - rewrite Eips. unfold vlen. lia.
    - cbn. by rewrite (iv_workers _ _ _ _ _ _ _ _ Hi).
    - rewrite Enx, Eips. exact Hip.
    - cbn. rewrite lookup_insert. by rewrite Ej.
    - cbn. intros i' Hi'. by apply lookup_lt_is_Some. }
  exists ip. eexists. split; [done|]. split.
  - rewrite add_manager by done. rewrite E. reflexivity.
  - by apply (mgr_panic_aborts _ _ r x).
Qed.

(** New IPs can be used to get there. *)
Definition submit (ips : list string) : list qevent := concat ((fun ip => [QeAdd ip; QeManager]) <$> ips).
Lemma jobs_abort p w q r d es s tr :
  pinv w q es s tr -> qs_mgr s = MAlive -> qs_dropped s = false -> qs_inbox s = [] ->
  (r < w)%nat -> QePanic r ∈ es -> vlen (im_ips (qs_im s)) < q -> N.of_nat r + 1 < q ->
  (r + 1 - length (im_ips (qs_im s)) = d)%nat ->
  exists ips s' tr', (length ips <= d + 1)%nat /\ q_run p s (submit ips) = Some (s', tr') /\ qs_mgr s' = MAborted.
Proof.
  revert es s tr. induction d as [|d IH]; intros es s tr H Ha Hd Hin Hw Hp Hlt Hrq Ed.
  - destruct (next_job_aborts p w q es s tr r) as (ip & s' & _ & Hr' & Hab); try done; [lia|].
    exists [ip], s', []. split; [cbn; lia|]. by split.
  - pose proof (pv_im _ _ _ _ _ H) as Hi. pose proof (iv_ok _ _ _ _ _ _ _ _ Hi) as Hok.
    set (ip := fresh (list_to_set (im_ips (qs_im s)) : gset string)).
    assert (ip ∉ im_ips (qs_im s)) as Hip.
    { unfold ip. intros Hin'. apply (is_fresh (list_to_set (im_ips (qs_im s)) : gset string)). by apply elem_of_list_to_set. }
    destruct (lookup_lt_is_Some_2 (im_runners (qs_im s)) r) as [x Hx]; [by rewrite (iv_workers _ _ _ _ _ _ _ _ Hi)|].
    pose proof (proj2 (iv_dead _ _ _ _ _ _ _ _ Hi _ _ Hx) Hp) as Hdead.
    assert (vlen (im_ips (qs_im s)) < im_queue_length (qs_im s)) as Hroom by (by rewrite (iv_len _ _ _ _ _ _ _ _ Hi)).
    destruct (push_ok _ ip (qs_next s) Hok Hroom) as [Hok1 Hne1].
    assert (exists s' tr', q_run p s [QeAdd ip; QeManager] = Some (s', tr') /\
      (qs_mgr s' = MAborted \/
       qs_mgr s' = MAlive /\ qs_dropped s' = false /\ qs_inbox s' = [] /\ im_ips (qs_im s') = im_ips (qs_im s) ++ [ip]))
      as (s' & tr' & Hr' & [Hab|(A1 & A2 & A3 & A4)]).
    { rewrite add_manager by done. rewrite schedule_push by done. replace (vlen (im_ips (qs_im s)) =? im_queue_length (qs_im s)) with false by lia.
      unfold dispatch. destruct (dispatch_names p (push (qs_im s) ip (qs_next s)) _) as [[im2 o]|] eqn:E; cbn [obind].
      - eexists _, _. split; [reflexivity|]. right. cbn. do 3 (split; [done|]).
        pose proof (dispatch_names_val _ _ _ _ _ Hok1 Hne1 E) as Hds.
        destruct (dsteps_ok _ _ _ _ Hok1 Hne1 Hds) as (_ & -> & _). unfold push. cbn. by rewrite decide_False.
      - eexists _, _. split; [reflexivity|]. left. by apply (mgr_panic_aborts _ _ r x). }
    + exists [ip], s', tr'. split; [cbn; lia|]. by split.
    + cbn [q_run] in Hr'. destruct (q_step p s (QeAdd ip)) as [[s1 o1]|] eqn:E1; [|done].
      pose proof (pinv_step _ _ _ _ _ _ _ _ _ H E1) as P1.
      destruct (q_step p s1 QeManager) as [[s2 o2]|] eqn:E2; [|done]. injection Hr' as -> <-.
      pose proof (pinv_step _ _ _ _ _ _ _ _ _ P1 E2) as P2.
      destruct (IH _ _ _ P2) as (ips & s3 & tr3 & L3 & R3 & M3); try done.
      * rewrite !elem_of_app. auto.
      * rewrite A4. unfold vlen. rewrite app_length. cbn. lia.
      * rewrite A4, app_length. cbn. lia.
      * exists (ip :: ips), s3, ((o1 ++ o2 ++ []) ++ tr3). split; [cbn; lia|]. split; [|done].
        change (submit (ip :: ips)) with ([QeAdd ip; QeManager] ++ submit ips). apply q_run_app.
        exists s', (o1 ++ o2 ++ []), tr3. split; [|done]. cbn [q_run]. by rewrite E1, E2.
Qed.

(** * Jobs lost with a runner *)
Lemma dispatch_to_started p im name im' o : dispatch_to p im name = Val (im', o) -> started o = [].
Proof.
  unfold dispatch_to. destruct (im_runners im !! name) as [x|]; [|by injection 1 as <- <-].
  destruct (usize_sub p _ _) as [a|]; [|done]. cbn [obind].
  destruct (vindex _ _) as [b|]; [|done]. cbn [obind]. destruct (unwrap _) as [[|j l]|]; [| |done]; cbn [obind].
  - by injection 1 as <- <-.
  - destruct (rn_open x); [|done]. by injection 1 as <- <-.
Qed.
Lemma dispatch_names_started p names im im' o : dispatch_names p im names = Val (im', o) -> started o = [].
Proof.
  revert im im' o. induction names as [|n names IH]; intros im im' o H; cbn in H; [by injection H as <- <-|].
  destruct (im_runners im !! n); [|done]. destruct (dispatch_to p im n) as [[im1 o1]|] eqn:E1; [|done]. cbn in H.
  destruct (dispatch_names p im1 names) as [[im2 o2]|] eqn:E2; [|done]. injection H as <- <-.
  rewrite started_app, (dispatch_to_started _ _ _ _ _ E1). by eapply IH.
Qed.
Lemma schedule_started p im ip j im' o res : schedule p im ip j = Val (im', o, res) -> started o = [].
Proof.
  unfold schedule, dispatch. destruct (_ =? _); [by injection 1 as <- <- <-|].
  destruct (im_queues im !! ip); destruct (dispatch_names _ _ _) as [[im2 o2]|] eqn:E; cbn; try done;
    injection 1 as <- <- <-; by eapply dispatch_names_started.
Qed.
(** Only a runner that waits starts a job, and it is the first in its channel. *)
Lemma step_started p s e s' o :
  q_step p s e = Some (s', o) ->
  started o = [] \/ exists r j c, started o = [(r, j)] /\ im_runners (qs_im s) !! r = Some (Runner (RmProve j :: c) RIdle).
Proof.
  intros Hs. unfold q_step in Hs. destruct (qs_mgr s) eqn:Em; try done;
    (destruct e as [ip| |r|r|r| |];
     [left; destruct (qs_dropped s); [done|]; by injection Hs as <- <-
     |left; unfold mgr_step in Hs; rewrite Em in Hs
     |unfold runner_recv in Hs; destruct (im_runners (qs_im s) !! r) as [[[|[|j] c] []]|] eqn:Er; try done; injection Hs as <- <-;
        [by left|right; by exists r, j, c]
     |left; unfold runner_finish in Hs; rewrite Em in Hs; destruct (im_runners (qs_im s) !! r) as [[c []]|]; try done; by injection Hs as <- <-
     |left; unfold runner_panic in Hs; destruct (im_runners (qs_im s) !! r) as [[c []]|]; try done; by injection Hs as <- <-
     |left; destruct (qs_dropped s); [done|]; by injection Hs as <- <-
     |left; try done; destruct (forallb _ _); try done; by injection Hs as <- <-]); try done.
  destruct (qs_inbox s) as [|[|name|j ip] rest]; [done| | |].
  - destruct (forallb _ _); by injection Hs as <- <-.
  - destruct (dispatch_to p (qs_im s) name) as [[im o']|] eqn:E; injection Hs as <- <-; [|done]. by eapply dispatch_to_started.
  - destruct (schedule p (qs_im s) ip j) as [[[im o'] res]|] eqn:E; injection Hs as <- <-; [|done].
    rewrite started_app, (schedule_started _ _ _ _ _ _ _ E). done.
Qed.
Lemma dead_run p w q es s tr es' s' tr' r :
  pinv w q es s tr -> q_run p s es' = Some (s', tr') -> (r < w)%nat -> QePanic r ∈ es -> of_runner r (started tr') = [].
Proof.
  revert es s tr tr'. induction es' as [|e es' IH]; intros es s tr tr' H Hr Hw Hp; [by injection Hr as <- <-|].
  cbn in Hr. destruct (q_step p s e) as [[s1 o]|] eqn:E; [|done].
  destruct (q_run p s1 es') as [[s2 o2]|] eqn:E2; [|done]. injection Hr as -> <-.
  rewrite started_app, of_runner_app. erewrite (IH _ _ _ o2); [|by eapply pinv_step|done|done|set_solver]. rewrite app_nil_r.
  destruct (step_started _ _ _ _ _ E) as [->|(r' & j & c & -> & Hx)]; [done|]. unfold of_runner. cbn.
  destruct (decide (r' = r)) as [->|]; [|done].
  pose proof (proj2 (iv_dead _ _ _ _ _ _ _ _ (pv_im _ _ _ _ _ H) _ _ Hx) Hp). done.
Qed.

Lemma of_runner_elem r j l : j ∈ of_runner r l <-> (r, j) ∈ l.
Proof.
  unfold of_runner. rewrite elem_of_list_omap. split.
  - intros ([r' j'] & Hin & E). cbn in E. destruct (decide (r' = r)) as [->|]; [|done]. by injection E as <-.
  - intros Hin. exists (r, j). split; [done|]. cbn. by rewrite decide_True.
Qed.
Lemma handed_hrun r ip j tr : (r, (ip, j)) ∈ handed tr -> (r, j) ∈ hrun tr /\ j ∈ hjobs tr.
Proof. intros H. split; [exact (elem_of_list_fmap_1 _ _ _ H)|exact (elem_of_list_fmap_1 (fun x : nat * (string * job) => x.2.2) _ _ H)]. Qed.
(** Each job is handed out once, so to one runner. *)
Lemma hrun_once w q es s tr r r' j :
  pinv w q es s tr -> (r, j) ∈ hrun tr -> (r', j) ∈ hrun tr -> r = r'.
Proof.
  intros H H1 H2. pose proof (iv_jobs _ _ _ _ _ _ _ _ (pv_im _ _ _ _ _ H) j) as Hj.
  assert (cnt j (hjobs tr) <= 1)%nat as Hc by (destruct (decide _); lia). clear Hj H.
  unfold hrun, hjobs in *. revert H1 H2 Hc. generalize (handed tr). intros l.
  induction l as [|[a [i b]] l IH]; intros H1 H2 Hc; [by apply elem_of_nil in H1|]. cbn in H1, H2, Hc.
  assert (forall r, (r, j) ∈ ((fun x : nat * (string * job) => (x.1, x.2.2)) <$> l) ->
            (0 < cnt j ((fun x : nat * (string * job) => x.2.2) <$> l))%nat) as Hin.
  { intros r0 Hin. apply elem_of_cnt. apply elem_of_list_fmap in Hin as ([? [? ?]] & [= -> ->] & Hin).
    exact (elem_of_list_fmap_1 (fun x : nat * (string * job) => x.2.2) _ _ Hin). }
  change (b :: ?x) with ([b] ++ x) in Hc. rewrite cnt_app in Hc.
  apply elem_of_cons in H1 as [E1|H1]; apply elem_of_cons in H2 as [E2|H2]; simplify_eq; try done.
  - specialize (Hin _ H2). unfold cnt at 1 in Hc. cbn in Hc. destruct (Nat.eq_dec b b); [lia|done].
  - specialize (Hin _ H1). unfold cnt at 1 in Hc. cbn in Hc. destruct (Nat.eq_dec b b); [lia|done].
  - apply IH; [done|done|lia].
Qed.
(** What a runner starts was handed to it. *)
Lemma started_hrun w q es s tr r x j :
  pinv w q es s tr -> im_runners (qs_im s) !! r = Some x -> (r, j) ∈ started tr -> (r, j) ∈ hrun tr.
Proof.
  intros H Hx Hin. destruct (iv_run _ _ _ _ _ _ _ _ (pv_im _ _ _ _ _ H) _ _ Hx) as (l & E & _).
  apply of_runner_elem. rewrite E. apply elem_of_app. left. by apply of_runner_elem.
Qed.
Lemma started_lt p w q es s tr r j : q_run p (q_start w q) es = Some (s, tr) -> (r, j) ∈ started tr -> (r < w)%nat.
Proof.
  revert s tr. induction es as [|e es IH] using rev_ind; intros s tr Hr Hin.
  { injection Hr as <- <-. by apply elem_of_nil in Hin. }
  apply q_run_snoc in Hr as (s1 & tr1 & o & H1 & H2 & ->). rewrite started_app in Hin. apply elem_of_app in Hin as [Hin|Hin]; [by eapply IH|].
  destruct (step_started _ _ _ _ _ H2) as [E|(r' & j' & c & E & Hx)]; rewrite E in Hin; [by apply elem_of_nil in Hin|].
  apply elem_of_list_singleton in Hin as [= -> ->].
  rewrite <- (iv_workers _ _ _ _ _ _ _ _ (pv_im _ _ _ _ _ (run_pinv _ _ _ _ _ _ H1))). by eapply lookup_lt_Some.
Qed.
Lemma lost p w q es1 es2 s1 tr1 s tr r ip j :
  q_run p (q_start w q) es1 = Some (s1, tr1) -> (r, (ip, j)) ∈ handed tr1 -> j ∉ (snd <$> started tr1) -> (r < w)%nat ->
  q_run p (q_start w q) (es1 ++ QePanic r :: es2) = Some (s, tr) -> j ∉ (snd <$> started tr).
Proof.
  intros H1 Hh Hn Hw Hr Hin. apply elem_of_list_fmap in Hin as ([r' j'] & Ej & Hin). cbn in Ej. subst j'.
  pose proof (started_lt _ _ _ _ _ _ _ _ Hr Hin) as Hw'. pose proof (run_pinv _ _ _ _ _ _ Hr) as H.
  destruct (lookup_lt_is_Some_2 (im_runners (qs_im s)) r') as [x Hx]; [by rewrite (iv_workers _ _ _ _ _ _ _ _ (pv_im _ _ _ _ _ H))|].
  pose proof (started_hrun _ _ _ _ _ _ _ _ H Hx Hin) as Hs.
  replace (es1 ++ QePanic r :: es2) with ((es1 ++ [QePanic r]) ++ es2) in Hr by (by rewrite <- app_assoc).
  apply q_run_app in Hr as (s2 & tr2 & tr3 & H2 & H3 & ->). pose proof (run_pinv _ _ _ _ _ _ H2) as P2.
  apply q_run_snoc in H2 as (s1' & tr1' & o & H1' & Hp & ->). rewrite H1 in H1'. injection H1' as <- <-.
  assert (r' = r) as ->.
  { eapply hrun_once; [exact H|exact Hs|]. rewrite !hrun_app. apply elem_of_app. left. apply elem_of_app. left. by eapply handed_hrun. }
  rewrite !started_app in Hin. apply elem_of_app in Hin as [Hin|Hin].
  - apply elem_of_app in Hin as [Hin|Hin].
    + apply Hn. exact (elem_of_list_fmap_1 snd _ _ Hin).
    + unfold q_step, runner_panic in Hp. destruct (qs_mgr s1); try done;
        destruct (im_runners (qs_im s1) !! r) as [[c []]|]; try done; injection Hp as <- <-; by apply elem_of_nil in Hin.
  - apply of_runner_elem in Hin. rewrite (dead_run _ _ _ _ _ _ _ _ _ _ P2 H3 Hw) in Hin; [by apply elem_of_nil in Hin|].
    apply elem_of_app. right. by left.
Qed.

Lemma panic_lt p w q es s tr r : q_run p (q_start w q) es = Some (s, tr) -> QePanic r ∈ es -> (r < w)%nat.
Proof.
  revert s tr. induction es as [|e es IH] using rev_ind; intros s tr Hr Hp; [by apply elem_of_nil in Hp|].
  apply q_run_snoc in Hr as (s1 & tr1 & o & H1 & H2 & ->). apply elem_of_app in Hp as [Hp|Hp]; [by eapply IH|].
  apply elem_of_list_singleton in Hp as <-.
  assert (is_Some (im_runners (qs_im s1) !! r)) as Hi.
  { unfold q_step, runner_panic in H2. destruct (qs_mgr s1); try done; by destruct (im_runners (qs_im s1) !! r). }
  apply lookup_lt_is_Some in Hi. by rewrite (iv_workers _ _ _ _ _ _ _ _ (pv_im _ _ _ _ _ (run_pinv _ _ _ _ _ _ H1))) in Hi.
Qed.
Lemma ips_accepted w q es s tr :
  pinv w q es s tr -> length (remove_dups (fst <$> accepted tr)) = length (im_ips (qs_im s)).
Proof.
  intros H. apply Permutation_length, NoDup_Permutation; [apply NoDup_remove_dups|apply (iv_ok _ _ _ _ _ _ _ _ (pv_im _ _ _ _ _ H))|].
  intros ip. by rewrite elem_of_remove_dups, (pv_ips _ _ _ _ _ H).
Qed.

(** * Dropping the queue *)
Lemma done_exited p w q es s tr :
  q_run p (q_start w q) es = Some (s, tr) -> qs_mgr s = MDone -> Forall (fun r => rn_state r = RExited) (im_runners (qs_im s)).
Proof.
  revert s tr. induction es as [|e es IH] using rev_ind; intros s tr Hr Hm; [by injection Hr as <- <-|].
  apply q_run_snoc in Hr as (s1 & tr1 & o & H1 & H2 & ->). specialize (IH _ _ H1).
  unfold q_step in H2. destruct (qs_mgr s1) eqn:Em; try done.
  - destruct e as [ip| |r|r|r| |]; try done; try (destruct (qs_dropped s1); [done|]; by injection H2 as <- <-).
    + unfold mgr_step in H2. rewrite Em in H2. destruct (qs_inbox s1) as [|[|name|j ip] rest]; [done| | |].
      * destruct (forallb _ _); by injection H2 as <- <-.
      * destruct (dispatch_to _ _ _) as [[im o']|]; injection H2 as <- <-; [done|].
        unfold mgr_panic in Hm. cbn in Hm. by destruct (existsb _ _).
      * destruct (schedule _ _ _ _) as [[[im o'] res]|]; injection H2 as <- <-; [done|].
        unfold mgr_panic in Hm. cbn in Hm. by destruct (existsb _ _).
    + unfold runner_recv in H2. destruct (im_runners _ !! r) as [[[|[|j] c] []]|]; try done; injection H2 as <- <-; cbn in Hm; congruence.
    + unfold runner_finish in H2. rewrite Em in H2. destruct (im_runners _ !! r) as [[c []]|]; try done; injection H2 as <- <-; cbn in Hm; congruence.
    + unfold runner_panic in H2. destruct (im_runners _ !! r) as [[c []]|]; try done; injection H2 as <- <-; cbn in Hm; congruence.
  - destruct e as [ip| |r|r|r| |]; try done;
      try (unfold mgr_step in H2; rewrite Em in H2; done); try (destruct (qs_dropped s1); [done|]; by injection H2 as <- <-);
      try (unfold runner_recv, runner_finish, runner_panic in H2; rewrite ?Em in H2; destruct (im_runners _ !! r) as [[[|[|j] c] []]|]; try done; injection H2 as <- <-; cbn in Hm; congruence).
    destruct (forallb is_exited (im_runners (qs_im s1))) eqn:Ef; [|done]. injection H2 as <- <-. cbn.
    apply Forall_forall. intros x Hx. rewrite forallb_forall in Ef. specialize (Ef x (proj1 (elem_of_list_In _ _) Hx)).
    unfold is_exited in Ef. by destruct (rn_state x).
  - specialize (IH eq_refl). destruct e as [ip| |r|r|r| |]; try done;
      try (unfold mgr_step in H2; rewrite Em in H2; done); try (destruct (qs_dropped s1); [done|]; by injection H2 as <- <-);
      exfalso; unfold runner_recv, runner_finish, runner_panic in H2; destruct (im_runners (qs_im s1) !! r) as [x|] eqn:Er; try done;
      apply (Forall_lookup_1 _ _ _ _ IH) in Er; destruct x as [c st]; cbn in Er; subst st; by destruct c as [|[]].
  - destruct e as [ip| |r|r|r| |]; try done;
      try (unfold mgr_step in H2; rewrite Em in H2; done); try (destruct (qs_dropped s1); [done|]; by injection H2 as <- <-);
      unfold runner_recv, runner_finish, runner_panic in H2; rewrite ?Em in H2; destruct (im_runners _ !! r) as [[[|[|j] c] []]|]; try done; injection H2 as <- <-; cbn in Hm; congruence.
Qed.
Lemma panicked_not_done p w q es s tr r :
  q_run p (q_start w q) es = Some (s, tr) -> QePanic r ∈ es -> qs_mgr s <> MDone.
Proof.
  intros Hr Hp Hm. pose proof (done_exited _ _ _ _ _ _ Hr Hm) as Hf. pose proof (run_pinv _ _ _ _ _ _ Hr) as H.
  pose proof (pv_im _ _ _ _ _ H) as Hi.
  destruct (lookup_lt_is_Some_2 (im_runners (qs_im s)) r) as [x Hx].
  { rewrite (iv_workers _ _ _ _ _ _ _ _ Hi). by eapply panic_lt. }
  pose proof (proj2 (iv_dead _ _ _ _ _ _ _ _ Hi _ _ Hx) Hp) as Hd. apply (Forall_lookup_1 _ _ _ _ Hf) in Hx. congruence.
Qed.
