(** Proofs of the theorems of Properties/MasterProperties.v. *)
From Coq Require Import ZifyBool ZifyN ZifyNat Lia.
From Verif Require Import Model.Base Model.Defense Model.MCaptcha Model.Counter Model.Master
  Spec.MCaptchaSpec Spec.CounterSpec Spec.MasterSpec
  Proofs.MasterProofs Proofs.MasterTasks Proofs.MasterAnswers
  Proofs.DefenseTheorems Proofs.MCaptchaTheorems.

Lemma run_bound p t gc es s tr id :
  m_run p (m_start t gc) es = Some (s, tr) -> my_sites s !! id = entry (hist tr) id.
Proof. intros H. by apply run_tracks in H as [H _]. Qed.

Lemma run_bound_some p t gc es s tr id c :
  m_run p (m_start t gc) es = Some (s, tr) -> bound (hist tr) id = Some c ->
  my_sites s !! id = Some (Site (used (hist tr) id) c).
Proof. intros H Hb. rewrite (run_bound _ _ _ _ _ _ id H). unfold entry. by rewrite Hb. Qed.

Lemma run_bound_none p t gc es s tr id :
  m_run p (m_start t gc) es = Some (s, tr) -> bound (hist tr) id = None -> my_sites s !! id = None.
Proof. intros H Hb. rewrite (run_bound _ _ _ _ _ _ id H). unfold entry. by rewrite Hb. Qed.

Lemma run_bound_iff p t gc es s tr id c :
  m_run p (m_start t gc) es = Some (s, tr) ->
  bound (hist tr) id = Some c <-> exists rd, my_sites s !! id = Some (Site rd c).
Proof.
  intros H. split; [intros Hb; eexists; by eapply run_bound_some|].
  intros (rd & Hx). rewrite (run_bound _ _ _ _ _ _ id H) in Hx. unfold entry in Hx.
  destruct (bound (hist tr) id); [|done]. by injection Hx as _ ->.
Qed.

Lemma run_extend p t gc es s tr e s' o :
  m_run p (m_start t gc) es = Some (s, tr) -> m_step p s e = Some (s', o) ->
  m_run p (m_start t gc) (es ++ [e]) = Some (s', tr ++ o).
Proof. intros H1 H2. apply m_run_snoc. eauto 10. Qed.

Lemma run_extend_run p t gc es s tr es' s' tr' :
  m_run p (m_start t gc) es = Some (s, tr) -> m_run p s es' = Some (s', tr') ->
  m_run p (m_start t gc) (es ++ es') = Some (s', tr ++ tr').
Proof. intros H1 H2. apply m_run_app. eauto 10. Qed.

Lemma entry_none h id : entry h id = None -> bound h id = None.
Proof. unfold entry. by destruct (bound h id). Qed.

Lemma entry_some h id x : entry h id = Some x -> bound h id = Some (si_ctr x) /\ used h id = si_read x.
Proof. unfold entry. destruct (bound h id); [|done]. by intros [= <-]. Qed.

Lemma used_none h id : bound h id = None -> used h id = false.
Proof.
  induction h as [|r h IH]; [done|].
  destruct r; cbn [bound used]; repeat case_match; intros; simplify_eq; try done; by apply IH.
Qed.

Lemma c22_registry : forall p t gc es s tr id,
  m_run p (m_start t gc) es = Some (s, tr) -> my_alive s = true ->
  exists s', m_step p s (MeReq (RqGetSite id)) =
    Some (s', [MoHandle (RqGetSite id); MoReply (my_reqs s) (MrSite (bound (hist tr) id))]).
Proof.
  intros p t gc es s tr id Hr Ha. cbn [m_step m_handle]. rewrite Ha. cbn [my_sites].
  destruct (get_site (my_sites s) id) as [ss a] eqn:E. eexists. do 3 f_equal. f_equal. f_equal.
  pose proof (get_site_addr (my_sites s) id) as Hg. rewrite E in Hg. simpl in Hg. subst a.
  rewrite (run_bound _ _ _ _ _ _ id Hr). unfold entry. by destruct (bound (hist tr) id).
Qed.

Lemma c22_registration : forall p t gc es s tr id m,
  m_run p (m_start t gc) es = Some (s, tr) -> my_alive s = true ->
  exists s' c, m_step p s (MeReq (RqAddSite id m)) =
      Some (s', [MoHandle (RqAddSite id m); MoReply (my_reqs s) (MrUnit (Ok tt))]) /\
    bound (RqAddSite id m :: hist tr) id = Some c /\ data_at s' c m /\
    (forall id', bound (hist tr) id' <> Some c) /\
    (forall c' x, my_ctrs s !! c' = Some x -> c' <> c /\ my_ctrs s' !! c' = Some x).
Proof.
  intros p t gc es s tr id m Hr Ha. cbn [m_step m_handle]. rewrite Ha.
  destruct (run_tracks _ _ _ _ _ _ Hr) as [_ Hlen].
  eexists _, (registrations (hist tr)). split; [done|]. cbn [bound]. rewrite String.eqb_refl.
  split; [done|]. split; [|split].
  - unfold data_at. cbn. rewrite <- Hlen, lookup_app_r by lia. rewrite Nat.sub_diag. by eexists.
  - intros id' Hb. apply bound_lt in Hb. lia.
  - intros c' x Hx. apply lookup_lt_Some in Hx as Hlt. split; [lia|]. cbn. by rewrite lookup_app_l.
Qed.

Lemma c23_unregistered : forall p t gc es s tr id,
  m_run p (m_start t gc) es = Some (s, tr) -> my_alive s = true -> bound (hist tr) id = None ->
  exists s', m_step p s (MeReq (RqAddVisitor id)) =
      Some (s', [MoHandle (RqAddVisitor id); MoReply (my_reqs s) (MrVisit (Ok None))]) /\
    my_ctrs s' = my_ctrs s /\ my_sites s' = my_sites s.
Proof.
  intros p t gc es s tr id Hr Ha Hb. cbn [m_step m_handle]. rewrite Ha. cbn [my_sites]. unfold get_site.
  rewrite (run_bound_none _ _ _ _ _ _ id Hr Hb). eexists. split; [done|]. done.
Qed.

Lemma visit_outcome_handle p now x x' r :
  counter_handle p now x CmAddVisitor = (x', r) -> visit_outcome p x x' (visit_answer r).
Proof.
  unfold counter_handle. destruct (ct_alive x) eqn:Ea.
  - unfold handle_add_visitor. cbn [ct_data spawn_timer].
    destruct (olet m := _ in _) as [[m v]|] eqn:E; intros [= <- <-].
    + left. exists v. split; [done|]. unfold counted. cbn. rewrite Ea.
      unfold obind in E. destruct (add_visitor p (ct_data x)) as [m1|] eqn:E1; [|done].
      destruct (avr_new m1) as [v1|] eqn:E2; [|done]. injection E as -> ->. done.
    + right. right. done.
  - intros [= <- <-]. right. left. done.
Qed.

Lemma c23_registered : forall p t gc es s tr id c,
  m_run p (m_start t gc) es = Some (s, tr) -> my_alive s = true -> bound (hist tr) id = Some c ->
  exists s1, m_step p s (MeReq (RqAddVisitor id)) = Some (s1, [MoHandle (RqAddVisitor id)]) /\
    my_ctrs s1 = my_ctrs s /\
    forall es2 s2 tr2, m_run p s1 es2 = Some (s2, tr2) ->
      let k := my_reqs s in
      let d := MeTask (my_next s) in
      (** still pending, and can be delivered *)
      (answers k tr2 = [] /\ d ∉ es2 /\ my_alive s2 = true /\ is_Some (m_step p s2 d)) \/
      (** the master died first *)
      (answers k tr2 = [MrDropped] /\ d ∉ es2 /\ my_alive s2 = false) \/
      (** delivered once, to that counter and no other *)
      (exists es3 es4 s3 tr3 s4 o4 x x' a,
         es2 = es3 ++ d :: es4 /\ d ∉ es3 /\ d ∉ es4 /\
         m_run p s1 es3 = Some (s3, tr3) /\ m_step p s3 d = Some (s4, o4) /\
         my_ctrs s3 !! c = Some x /\ my_ctrs s4 = <[c := x']> (my_ctrs s3) /\ my_sites s4 = my_sites s3 /\
         visit_outcome p x x' a /\ answers k tr2 = [a]).
Proof.
  intros p t gc es s tr id c Hr Ha Hb.
  pose proof (run_bound_some _ _ _ _ _ _ id c Hr Hb) as Hs. pose proof (run_inv _ _ _ _ _ _ Hr) as Hi.
  assert (exists s1, m_step p s (MeReq (RqAddVisitor id)) = Some (s1, [MoHandle (RqAddVisitor id)]) /\
            my_ctrs s1 = my_ctrs s /\ my_alive s1 = true /\
            my_tasks s1 !! my_next s = Some (TVisit (Some (my_reqs s)) c)) as (s1 & Hst & Hc1 & Ha1 & Ht1).
  { cbn [m_step m_handle]. rewrite Ha. cbn [my_sites]. unfold get_site. rewrite Hs. eexists.
    split; [done|]. split; [done|]. split; [done|]. cbn. apply lookup_insert. }
  exists s1. split; [done|]. split; [done|]. intros es2 s2 tr2 Hr2 k d.
  pose proof (m_step_inv _ _ _ _ _ Hi Hst) as Hi1.
  destruct (elem_task_dec es2 (my_next s)) as [Hin|Hin].
  - destruct (one_shot_run p es2 s1 s2 tr2 (my_next s) _ Hi1 Ha1 Ht1 I Hr2 Hin)
      as (es3 & es4 & s3 & tr3 & s4 & o4 & -> & Hn3 & Hn4 & Hr3 & Hi3 & Ha3 & Ht3 & Hs4 & Hre & tr4 & Hr4).
    right. right.
    destruct (visit_step _ _ _ _ _ _ _ Ht3 Ha3 Hs4) as (x & x' & r & Hx & Hh & -> & ->).
    exists es3, es4, s3, tr3. eexists _, _, x, x', (visit_answer r).
    split; [done|]. split; [done|]. split; [done|]. split; [done|]. split; [exact Hs4|]. split; [done|].
    split; [done|]. split; [done|]. split; [by eapply visit_outcome_handle|].
    assert (tr2 = tr3 ++ [MoReply k (visit_answer r)] ++ tr4) as ->.
    { eapply (inj Some). pose proof (run_cons _ _ _ _ _ _ _ _ Hs4 Hr4) as Hc.
      pose proof (proj2 (m_run_app p s1 es3 _ s2 _) (ex_intro _ _ (ex_intro _ _ (ex_intro _ _ (conj Hr3 (conj Hc eq_refl)))))) as He.
      rewrite He in Hr2. by injection Hr2 as <-. }
    rewrite !answers_app.
    assert (answers k tr3 = []) as ->.
    { destruct (visit_run p s1 _ _ _ _ _ _ Hi1 Ha1 Ht1 Hr3) as [(? & _)|[(_ & Hx' & _)|H]]; [done|congruence|].
      destruct H as (es5 & es6 & H). destruct H as (? & ? & ? & ? & ? & ? & ? & -> & _). exfalso. apply Hn3. set_solver. }
    change (answers k [MoReply k (visit_answer r)]) with (answers k (reply (Some k) (visit_answer r))).
    rewrite answers_reply_eq.
    assert (gone k (end_task (set_ctrs s3 (<[c:=x']> (my_ctrs s3))) (my_next s))) as Hg;
      [|by destruct (gone_run p _ _ _ _ k (m_step_inv _ _ _ _ _ Hi3 Hs4) Hg Hr4) as [_ ->]].
    destruct (mv_task _ Hi3 _ _ Ht3) as (_ & _ & Hk & _). cbn in Hk. rewrite Forall_singleton in Hk.
    split; [done|]. intros t' y Hy Hky. cbn in Hy. apply lookup_delete_Some in Hy as [Hne Hy].
    apply Hne. eapply (mv_uniq _ Hi3 _ _ _ _ k Ht3 Hy); [by left|done].
  - destruct (visit_run p s1 _ _ _ _ _ _ Hi1 Ha1 Ht1 Hr2) as [(H1 & H2 & H3)|[(H1 & H2 & H3)|H]].
    + left. split; [done|]. split; [done|]. split; [done|]. cbn [m_step d]. rewrite H2. unfold task_step. rewrite H3.
      unfold send_counter. pose proof (run_inv_from _ _ _ _ _ Hi1 Hr2) as Hi2.
      destruct (mv_task _ Hi2 _ _ H3) as (_ & Hf & _). cbn in Hf. rewrite Forall_singleton in Hf.
      destruct (lookup_lt_is_Some_2 _ _ Hf) as [x Hx]. rewrite Hx.
      destruct (counter_handle p (my_now s2) x CmAddVisitor) as [x' []]; eauto.
    + right. left. done.
    + destruct H as (es3 & es4 & s3 & tr3 & s4 & o & x & x' & r & -> & _). exfalso. apply Hin. unfold d. set_solver.
Qed.

Lemma c24_undisturbed_cleanup : forall p t gc es s tr w due,
  m_run p (m_start t gc) es = Some (s, tr) -> my_alive s = true ->
  my_tasks s !! w = Some (TWake due) -> due <= my_now s ->
  (forall id c, bound (hist tr) id = Some c -> alive_at s c) ->
  let g := my_next s in
  exists n s' tr', m_run p s (MeTask w :: replicate n (MeTask g)) = Some (s', tr') /\
    (** the pass has ended and sleeps for the next one *)
    my_alive s' = true /\ my_tasks s' !! g = Some (TWake (my_now s + my_gc s * NS)) /\
    (** idle, used sites are gone and their counters stopped *)
    (forall id c, bound (hist tr) id = Some c -> used (hist tr) id = true -> count_at s c 0 ->
       bound (hist (tr ++ tr')) id = None /\ dead_at s' c) /\
    (** every other site keeps its counter and flag, and the counter its state *)
    (forall id c, bound (hist tr) id = Some c -> used (hist tr) id = false \/ ~ count_at s c 0 ->
       bound (hist (tr ++ tr')) id = Some c /\ used (hist (tr ++ tr')) id = used (hist tr) id /\
       my_ctrs s' !! c = my_ctrs s !! c) /\
    (forall id, bound (hist tr) id = None -> bound (hist (tr ++ tr')) id = None) /\
    (forall c, (forall id, bound (hist tr) id <> Some c) -> my_ctrs s' !! c = my_ctrs s !! c) /\
    (forall k, answers k tr' = []).
Proof.
  intros p t gc es s tr w due Hr Ha Hw Hd Hal g. pose proof (run_inv _ _ _ _ _ _ Hr) as Hi.
  set (s1 := spawn (end_task s w) (TClean (sites_iter (my_sites s)) PCount)).
  assert (m_step p s (MeTask w) = Some (s1, [MoHandle RqCleanUp])) as H1.
  { cbn [m_step]. rewrite Ha. unfold task_step. rewrite Hw. by replace (due <=? my_now s) with true by lia. }
  pose proof (m_step_inv _ _ _ _ _ Hi H1) as Hi1.
  destruct (clean_pass p g (sites_iter (my_sites s)) s1) as (n & s' & o & Hrun & Hwk & Ha' & Hnow & Han & Hgone & Hkeep & Hkill & Hothers).
  { done. } { done. } { unfold s1, g. cbn. apply lookup_insert. }
  { intros id x Hx. apply sites_iter_elem in Hx. exists (si_read x). cbn. rewrite Hx. by destruct x. }
  { intros id x Hx. apply sites_iter_elem in Hx. apply (Hal id). apply (run_bound_iff _ _ _ _ _ _ _ _ Hr).
    exists (si_read x). rewrite Hx. by destruct x. }
  assert (forall id c, bound (hist tr) id = Some c -> (id, Site (used (hist tr) id) c) ∈ sites_iter (my_sites s)) as Hbel.
  { intros id c Hb. apply sites_iter_elem. by eapply run_bound_some. }
  assert (forall id x, (id, x) ∈ sites_iter (my_sites s) -> bound (hist tr) id = Some (si_ctr x) /\ used (hist tr) id = si_read x) as Hel.
  { intros id x Hx. apply sites_iter_elem in Hx. rewrite (run_bound _ _ _ _ _ _ id Hr) in Hx. unfold entry in Hx.
    destruct (bound (hist tr) id); [|done]. by injection Hx as <-. }
  assert (forall id c, bound (hist tr) id = Some c -> used (hist tr) id = true -> count_at s c 0 ->
            idle_b s1 (Site (used (hist tr) id) c) = true) as Hidle.
  { intros id c Hb Hu (y & Hy & _ & H0). unfold idle_b, s1. cbn [si_read si_ctr my_ctrs spawn end_task set_tasks]. rewrite Hu, Hy, H0. done. }
  assert (forall id c, bound (hist tr) id = Some c -> used (hist tr) id = false \/ ~ count_at s c 0 ->
            idle_b s1 (Site (used (hist tr) id) c) = false) as Hbusy.
  { intros id c Hb Hu. unfold idle_b, s1. cbn [si_read si_ctr my_ctrs spawn end_task set_tasks]. destruct Hu as [-> |Hu]; [done|].
    destruct (Hal id c Hb) as (y & Hy & Hya). rewrite Hy. apply andb_false_iff. right. apply N.eqb_neq.
    intros H0. apply Hu. by exists y. }
  pose proof (run_cons _ _ _ _ _ _ _ _ H1 Hrun) as Hfull.
  pose proof (run_extend_run _ _ _ _ _ _ _ _ _ Hr Hfull) as Hall.
  exists n, s', ([MoHandle RqCleanUp] ++ o). split; [done|]. split; [done|]. split; [done|].
  split; [|split; [|split; [|split]]].
  - intros id c Hb Hu H0. split.
    + pose proof (Hgone id _ (Hbel _ _ Hb) (Hidle _ _ Hb Hu H0)) as Hx.
      rewrite (run_bound _ _ _ _ _ _ id Hall) in Hx. by apply entry_none.
    + destruct (Hal id c Hb) as (y & Hy & _).
      pose proof (Hkill id _ y (Hbel _ _ Hb) (Hidle _ _ Hb Hu H0) Hy) as Hx. by eexists.
  - intros id c Hb Hu.
    assert (my_sites s' !! id = my_sites s !! id) as Hx.
    { apply (Hkeep id). intros x Hx. destruct (Hel _ _ Hx) as [Hb' Hu'].
      assert (x = Site (used (hist tr) id) c) as -> by (rewrite Hb in Hb'; injection Hb' as ->; rewrite Hu'; by destruct x). by apply Hbusy. }
    rewrite (run_bound_some _ _ _ _ _ _ _ _ Hr Hb) in Hx.
    rewrite (run_bound _ _ _ _ _ _ id Hall) in Hx.
    apply entry_some in Hx as [Hx1 Hx2]. split; [done|]. split; [done|].
    apply (Hothers c). intros id' x Hx Hid Hc. destruct (Hel _ _ Hx) as [Hb' Hu']. rewrite Hc in Hb'.
    assert (id' = id) as -> by (by eapply bound_inj).
    assert (x = Site (used (hist tr) id) c) as -> by (rewrite <- Hc, Hu'; by destruct x).
    by rewrite Hbusy in Hid.
  - intros id Hb. assert (my_sites s' !! id = my_sites s !! id) as Hx.
    { apply (Hkeep id). intros x Hx. destruct (Hel _ _ Hx) as [Hb' _]. congruence. }
    rewrite (run_bound_none _ _ _ _ _ _ _ Hr Hb) in Hx.
    rewrite (run_bound _ _ _ _ _ _ id Hall) in Hx. by apply entry_none.
  - intros c Hno. apply (Hothers c). intros id x Hx _ Hc. destruct (Hel _ _ Hx) as [Hb' _]. apply (Hno id). by rewrite Hb', Hc.
  - intros k. rewrite answers_app, Han. done.
Qed.

Lemma task_removal p s t s' o id :
  m_step p s (MeTask t) = Some (s', o) -> MoHandle (RqRemove id) ∈ o ->
  exists x rest, my_tasks s !! t = Some (TClean ((id, x) :: rest) PRemove).
Proof.
  intros Hs Ho. cbn [m_step] in Hs. destruct (my_alive s); [|done]. unfold task_step in Hs.
  destruct (my_tasks s !! t) as [[due|[|[id' [rd c]] rest] [| |]|k c|k c|k [|[id' [rd c]] rest] acc|c m|id' m]|]; try done;
    repeat (let E := fresh in destruct (send_counter p s c _) as [[? []]|] eqn:E; clear E; try done);
    try (destruct (due <=? my_now s); [|done]); cbn in Hs; unfold reply in Hs;
    try (destruct k; cbn in Hs);
    try (injection Hs as <- <-;
         repeat first [ rewrite elem_of_list_fmap in Ho; by destruct Ho as (? & ? & _)
                      | apply elem_of_cons in Ho as [Ho|Ho]; [by try injection Ho as ->|]
                      | by apply elem_of_nil in Ho ]).
  all: unfold rm_site in Hs; cbn in Hs; destruct (my_sites s !! id'); injection Hs as <- <-;
    apply elem_of_list_singleton in Ho; injection Ho as <-; eauto.
Qed.

Lemma c24_collects_only_inspected_idle : forall p t0 gc es s tr w s' o id,
  m_run p (m_start t0 gc) es = Some (s, tr) ->
  m_step p s (MeTask w) = Some (s', o) -> MoHandle (RqRemove id) ∈ o ->
  exists es0 e0 es1 es2 s0 tr0 s0' o0 s1 tr1 c,
    es = es0 ++ e0 :: es1 ++ MeTask w :: es2 /\
    (** the pass begins *)
    m_run p (m_start t0 gc) es0 = Some (s0, tr0) /\ m_step p s0 e0 = Some (s0', o0) /\ MoHandle RqCleanUp ∈ o0 /\
    bound (hist tr0) id = Some c /\ used (hist tr0) id = true /\
    (** and comes to look at the counter *)
    m_run p s0' es1 = Some (s1, tr1) /\ count_at s1 c 0 /\ w = my_next s0.
Proof.
  intros p t0 gc es s tr w s' o id Hr Hs Ho.
  destruct (task_removal _ _ _ _ _ _ Hs Ho) as (x & rest & Ht).
  destruct (clean_history _ _ _ _ _ _ _ _ _ _ _ Hr Ht) as (es0 & e0 & es1 & s0 & tr0 & s0' & o0 & -> & H0 & Hs0 & Ho0 & -> & Hx & Hph).
  destruct (Hph ltac:(done)) as (Hrd & es10 & es11 & s1 & tr1 & -> & H1 & Hc).
  exists es0, e0, es10, es11, s0, tr0, s0', o0, s1, tr1, (si_ctr x). do 4 (split; [done|]).
  rewrite (run_bound _ _ _ _ _ _ id H0) in Hx. unfold entry in Hx.
  destruct (bound (hist tr0) id) as [c|]; [|done]. injection Hx as <-. simpl in *. done.
Qed.

Lemma clean_stop p s t id rd c rest x :
  my_alive s = true -> my_tasks s !! t = Some (TClean ((id, Site rd c) :: rest) PStop) ->
  my_ctrs s !! c = Some x -> ct_alive x = true ->
  m_step p s (MeTask t) =
    Some (set_task (set_ctrs s (<[c := kill x]> (my_ctrs s))) t (TClean ((id, Site rd c) :: rest) PRemove), []).
Proof.
  intros Ha Ht Hx Hax. cbn [m_step]. rewrite Ha. unfold task_step. rewrite Ht. unfold send_counter. rewrite Hx.
  unfold counter_handle. by rewrite Hax.
Qed.

Lemma clean_remove p s t id rd c rest :
  my_alive s = true -> my_tasks s !! t = Some (TClean ((id, Site rd c) :: rest) PRemove) ->
  exists s', m_step p s (MeTask t) = Some (s', [MoHandle (RqRemove id)]) /\
    my_sites s' = delete id (my_sites s) /\ my_ctrs s' = my_ctrs s /\ my_alive s' = true /\
    (my_sites s !! id = None -> my_next s' = my_next s) /\ my_reqs s' = my_reqs s.
Proof.
  intros Ha Ht. cbn [m_step]. rewrite Ha. unfold task_step. rewrite Ht. cbn [m_handle]. unfold rm_site.
  cbn [my_sites set_task set_tasks]. destruct (my_sites s !! id); eexists; (split; [done|]); done.
Qed.

Lemma c25_visitor_dropped_refuted :
  (** mechanism: once the cleanup task has read zero, the site and its counter
      go, however many visitors it has by then *)
  (forall p s w id c rest n,
     my_alive s = true -> my_tasks s !! w = Some (TClean ((id, Site true c) :: rest) PStop) ->
     count_at s c n ->
     exists s' tr', m_run p s [MeTask w; MeTask w] = Some (s', tr') /\
       my_sites s' = delete id (my_sites s) /\ dead_at s' c) /\
  (** it happens: a visitor is accepted, no time passes, and the site is gone *)
  (forall p, exists es s tr,
     m_run p (m_start 0 60) es = Some (s, tr) /\
     es = [MeReq (RqAddSite "a" ex_m3); MeReq (RqGetSite "a"); MeTask 0; MeReq (RqAddVisitor "a");
           MeTask 1; MeTask 2; MeTask 1; MeTask 1; MeReq (RqAddVisitor "a")] /\
     answers 2 tr = [MrVisit (Ok (Some (AddVisitorResult 30 10)))] /\ dead_at s 0 /\
     answers 3 tr = [MrVisit (Ok None)]).
Proof.
  split.
  - intros p s w id c rest n Ha Ht (x & Hx & Hax & _).
    pose proof (clean_stop p s w id true c rest x Ha Ht Hx Hax) as H1.
    match type of H1 with _ = Some (?a, _) => set (s1 := a) in * end.
    destruct (clean_remove p s1 w id true c rest Ha) as (s2 & H2 & Hs & Hc & _); [apply lookup_insert|].
    exists s2, [MoHandle (RqRemove id)]. split; [cbn [m_run]; by rewrite H1, H2|]. split; [done|].
    exists (kill x). rewrite Hc. split; [|done]. cbn. apply list_lookup_insert. by eapply lookup_lt_Some.
  - intros p. eexists _, _, _. split; [|split; [done|]]; [by destruct p; vm_compute|].
    split; [by vm_compute|]. split; [by eexists; vm_compute|]. by vm_compute.
Qed.

Lemma c26_reregistration_removed_refuted :
  (forall p s w id c rest m n,
     my_alive s = true -> my_tasks s !! w = Some (TClean ((id, Site true c) :: rest) PStop) ->
     count_at s c n ->
     exists s' tr', m_run p s [MeReq (RqAddSite id m); MeTask w; MeTask w] = Some (s', tr') /\
       answers (my_reqs s) tr' = [MrUnit (Ok tt)] /\ my_sites s' !! id = None /\
       data_at s' (length (my_ctrs s)) m /\
       exists s'' tr'', m_run p s' [MeReq (RqAddVisitor id)] = Some (s'', tr'') /\
         answers (my_reqs s') tr'' = [MrVisit (Ok None)]) /\
  (forall p, exists es s tr,
     m_run p (m_start 0 60) es = Some (s, tr) /\
     es = [MeReq (RqAddSite "a" ex_m3); MeReq (RqGetSite "a"); MeTask 0; MeTask 1;
           MeReq (RqAddSite "a" ex_m3); MeTask 1; MeTask 1; MeReq (RqAddVisitor "a")] /\
     answers 2 tr = [MrUnit (Ok tt)] /\ answers 3 tr = [MrVisit (Ok None)]).
Proof.
  split.
  - intros p s w id c rest m n Ha Ht (x & Hx & Hax & _).
    assert (exists s0, m_step p s (MeReq (RqAddSite id m)) =
              Some (s0, [MoHandle (RqAddSite id m); MoReply (my_reqs s) (MrUnit (Ok tt))]) /\
            my_alive s0 = true /\ my_tasks s0 = my_tasks s /\ my_ctrs s0 = my_ctrs s ++ [counter_start m])
      as (s0 & H0 & Ha0 & Ht0 & Hc0).
    { cbn [m_step m_handle]. rewrite Ha. eexists. split; [done|]. done. }
    pose proof (lookup_lt_Some _ _ _ Hx) as Hlt.
    pose proof (clean_stop p s0 w id true c rest x Ha0) as H1. rewrite Ht0, Hc0 in H1.
    specialize (H1 Ht ltac:(by rewrite lookup_app_l) Hax).
    match type of H1 with _ = Some (?a, _) => set (s1 := a) in * end.
    destruct (clean_remove p s1 w id true c rest Ha0) as (s2 & H2 & Hs & Hc & Ha2 & _); [apply lookup_insert|].
    exists s2. eexists. split; [cbn [m_run]; by rewrite H0, H1, H2|].
    split; [cbn; by rewrite Nat.eqb_refl|]. split; [rewrite Hs; apply lookup_delete|]. split.
    + exists (counter_start m). rewrite Hc. unfold s1. cbn [my_ctrs set_task set_tasks set_ctrs].
      rewrite list_lookup_insert_ne by lia. rewrite lookup_app_r by lia. by rewrite Nat.sub_diag.
    + eexists _, _. split.
      * cbn [m_run m_step m_handle]. rewrite Ha2. cbn [my_sites]. unfold get_site. rewrite Hs, lookup_delete. done.
      * cbn. by rewrite Nat.eqb_refl.
  - intros p. eexists _, _, _. split; [|split; [done|]]; [by destruct p; vm_compute|]. split; by vm_compute.
Qed.

Lemma c27_rename_dead_refuted :
  (forall p t gc es s tr w id id2 rd c rest n,
     m_run p (m_start t gc) es = Some (s, tr) -> my_alive s = true ->
     my_tasks s !! w = Some (TClean ((id, Site true c) :: rest) PStop) ->
     my_sites s !! id = Some (Site rd c) -> count_at s c n -> id2 <> id ->
     exists s' tr', m_run p s [MeReq (RqRename id id2); MeTask w; MeTask w; MeReq (RqGetSite id2);
                               MeReq (RqAddVisitor id2); MeTask (my_next s)] = Some (s', tr') /\
       answers (my_reqs s) tr' = [MrUnit (Ok tt)] /\
       answers (S (my_reqs s)) tr' = [MrSite (Some c)] /\
       answers (S (S (my_reqs s))) tr' = [MrVisit (Err MailboxError)]) /\
  (forall p, exists es s tr,
     m_run p (m_start 0 60) es = Some (s, tr) /\
     es = [MeReq (RqAddSite "a" ex_m3); MeReq (RqGetSite "a"); MeTask 0; MeTask 1;
           MeReq (RqRename "a" "b"); MeTask 1; MeTask 1; MeReq (RqGetSite "b");
           MeReq (RqAddVisitor "b"); MeTask 2] /\
     answers 3 tr = [MrSite (Some 0%nat)] /\ answers 4 tr = [MrVisit (Err MailboxError)]).
Proof.
  split.
  - intros p t gc es s tr w id id2 rd c rest n Hr%run_inv Ha Ht Hsi (x & Hx & Hax & _) Hne. rename Hr into Hi.
    pose proof (lookup_lt_Some _ _ _ Hx) as Hlt. destruct (mv_task _ Hi _ _ Ht) as (Hw & _).
    assert (exists s0, m_step p s (MeReq (RqRename id id2)) =
              Some (s0, [MoHandle (RqRename id id2); MoReply (my_reqs s) (MrUnit (Ok tt))]) /\
            my_alive s0 = true /\ my_tasks s0 = my_tasks s /\ my_ctrs s0 = my_ctrs s /\
            my_sites s0 = <[id2 := Site false c]> (delete id (my_sites s)) /\ my_next s0 = my_next s /\
            my_reqs s0 = S (my_reqs s))
      as (s0 & H0 & Ha0 & Ht0 & Hc0 & Hs0 & Hn0 & Hr0).
    { cbn [m_step m_handle]. rewrite Ha. eexists. split; [done|]. cbn. unfold rename. rewrite Hsi. done. }
    pose proof (clean_stop p s0 w id true c rest x Ha0) as H1. rewrite Ht0, Hc0 in H1.
    specialize (H1 Ht Hx Hax).
    match type of H1 with _ = Some (?a, _) => set (s1 := a) in * end.
    assert (my_sites s1 !! id = None) as Hid.
    { cbn. rewrite Hs0, lookup_insert_ne by done. apply lookup_delete. }
    destruct (clean_remove p s1 w id true c rest Ha0) as (s2 & H2 & Hs & Hc & Ha2 & Hn2 & Hr2); [apply lookup_insert|].
    specialize (Hn2 Hid). rewrite delete_notin in Hs by done. cbn in Hs, Hn2, Hr2.
    assert (my_sites s2 !! id2 = Some (Site false c)) as Hid2 by (rewrite Hs, Hs0; apply lookup_insert).
    assert (exists s3, m_step p s2 (MeReq (RqGetSite id2)) =
              Some (s3, [MoHandle (RqGetSite id2); MoReply (S (my_reqs s)) (MrSite (Some c))]) /\
            my_alive s3 = true /\ my_ctrs s3 = my_ctrs s2 /\ my_sites s3 !! id2 = Some (Site true c) /\
            my_next s3 = my_next s /\ my_reqs s3 = S (S (my_reqs s)))
      as (s3 & H3 & Ha3 & Hc3 & Hs3 & Hn3 & Hr3).
    { cbn [m_step m_handle]. rewrite Ha2. cbn [my_sites]. unfold get_site. rewrite Hid2. rewrite Hr2, Hr0.
      eexists. split; [done|]. cbn. rewrite Hn2. repeat (split; [done|]). split; [apply lookup_insert|]. done. }
    assert (exists s4, m_step p s3 (MeReq (RqAddVisitor id2)) = Some (s4, [MoHandle (RqAddVisitor id2)]) /\
            my_alive s4 = true /\ my_ctrs s4 = my_ctrs s2 /\
            my_tasks s4 !! my_next s = Some (TVisit (Some (S (S (my_reqs s)))) c))
      as (s4 & H4 & Ha4 & Hc4 & Ht4).
    { cbn [m_step m_handle]. rewrite Ha3. cbn [my_sites]. unfold get_site. rewrite Hs3.
      eexists. split; [done|]. cbn. split; [done|]. split; [done|]. rewrite Hn3, Hr3. apply lookup_insert. }
    assert (my_ctrs s4 !! c = Some (kill x)) as Hc5.
    { rewrite Hc4, Hc. cbn. apply list_lookup_insert. done. }
    eexists _, _. split.
    { cbn [m_run]. rewrite H0. rewrite H1, H2, H3, H4. cbn [m_step]. rewrite Ha4. unfold task_step. rewrite Ht4.
      unfold send_counter. rewrite Hc5. cbn. reflexivity. }
    repeat split; cbn -[Nat.eqb];
      repeat match goal with |- context [(?a =? ?b)%nat] =>
        let E := fresh in destruct (Nat.eqb_spec a b) as [E|E]; try lia end; done.
  - intros p. eexists _, _, _. split; [|split; [done|]]; [by destruct p; vm_compute|]. split; by vm_compute.
Qed.

Lemma dead_answers p s r :
  my_alive s = false -> exists s', m_step p s (MeReq r) = Some (s', [MoReply (my_reqs s) MrClosed]).
Proof. intros Ha. cbn [m_step]. rewrite Ha. eauto. Qed.

Lemma c28_concurrent_removal_refuted :
  (forall p t gc es s tr w id x rest rd,
     m_run p (m_start t gc) es = Some (s, tr) -> my_alive s = true ->
     my_tasks s !! w = Some (TClean ((id, x) :: rest) PCount) ->
     my_sites s !! id = Some (Site rd (si_ctr x)) -> alive_at s (si_ctr x) ->
     exists s' tr', m_run p s [MeReq (RqRemove id); MeTask (my_next s); MeTask w] = Some (s', tr') /\
       answers (my_reqs s) tr' = [MrUnit (Ok tt)] /\
       forall es s'' tr'' r, m_run p s' es = Some (s'', tr'') ->
         exists s3, m_step p s'' (MeReq r) = Some (s3, [MoReply (my_reqs s'') MrClosed])) /\
  (** it happens: while the pass waits for site "a", site "b" is removed *)
  (forall p, exists es s tr,
     m_run p (m_start 0 60) es = Some (s, tr) /\
     es = [MeReq (RqAddSite "a" ex_m3); MeReq (RqAddSite "b" ex_m3); MeTask 0; MeReq (RqRemove "b"); MeTask 1;
           MeTask 2; MeTask 1; MeReq (RqAddSite "c" ex_m3)] /\
     answers 2 tr = [MrUnit (Ok tt)] /\ answers 3 tr = [MrClosed]) /\
  (** and: the pass has asked for the visitors of a used, idle site, which is
      removed before the pass stops it *)
  (forall p, exists es s tr,
     m_run p (m_start 0 60) es = Some (s, tr) /\
     es = [MeReq (RqAddSite "a" ex_m3); MeReq (RqGetSite "a"); MeTask 0; MeReq (RqRemove "a"); MeTask 1;
           MeTask 2; MeTask 1; MeReq (RqAddSite "c" ex_m3)] /\
     answers 2 tr = [MrUnit (Ok tt)] /\ answers 3 tr = [MrClosed]).
Proof.
  split; [|split].
  - intros p t0 gc0 es0 s tr0 w id x rest rd Hi%run_inv Ha Ht Hsi (y & Hy & Hya). destruct (mv_task _ Hi _ _ Ht) as (Hw & _).
    pose proof (lookup_lt_Some _ _ _ Hy) as Hlt.
    assert (exists s0, m_step p s (MeReq (RqRemove id)) = Some (s0, [MoHandle (RqRemove id)]) /\
            my_alive s0 = true /\ my_tasks s0 = <[my_next s := TStop (Some (my_reqs s)) (si_ctr x)]> (my_tasks s) /\
            my_ctrs s0 = my_ctrs s /\ my_reqs s0 = S (my_reqs s))
      as (s0 & H0 & Ha0 & Ht0 & Hc0 & Hk0).
    { cbn [m_step m_handle]. rewrite Ha. unfold rm_site. cbn [my_sites]. rewrite Hsi. eexists. split; [done|]. done. }
    assert (exists s1, m_step p s0 (MeTask (my_next s)) = Some (s1, [MoReply (my_reqs s) (MrUnit (Ok tt))]) /\
            my_alive s1 = true /\ my_tasks s1 !! w = Some (TClean ((id, x) :: rest) PCount) /\ dead_at s1 (si_ctr x) /\
            my_reqs s1 = my_reqs s0 /\ my_tasks s1 = delete (my_next s) (my_tasks s0))
      as (s1 & H1 & Ha1 & Ht1 & Hd1 & Hk1 & Ht1').
    { cbn [m_step]. rewrite Ha0. unfold task_step. rewrite Ht0, lookup_insert. unfold send_counter.
      rewrite Hc0, Hy. unfold counter_handle. rewrite Hya. eexists. split; [done|]. split; [done|]. split.
      - cbn. rewrite Ht0. rewrite lookup_delete_ne by lia. by rewrite lookup_insert_ne by lia.
      - split; [|cbn; by rewrite ?Ht0]. exists (kill y). split; [|done]. cbn. by apply list_lookup_insert. }
    destruct (death_step p s1 w id x rest PCount Ha1 Ht1 ltac:(done) Hd1) as (s2 & o & H2 & Ha2).
    pose proof (m_step_inv _ _ _ _ _ Hi H0) as Hi0. pose proof (m_step_inv _ _ _ _ _ Hi0 H1) as Hi1.
    exists s2. eexists. split; [cbn [m_run]; by rewrite H0, H1, H2|]. split.
    + rewrite (answers_app _ [_]). rewrite (answers_app _ [_]).
      assert (gone (my_reqs s) s1) as Hg.
      { split; [lia|]. intros t z Hz Hin. rewrite Ht1', Ht0 in Hz. apply lookup_delete_Some in Hz as [Hne Hz].
        rewrite lookup_insert_ne in Hz by done. destruct (mv_task _ Hi _ _ Hz) as (_ & _ & Hk & _).
        rewrite Forall_forall in Hk. specialize (Hk _ Hin). lia. }
      destruct (gone_step _ _ _ _ _ _ Hi1 Hg H2) as [_ Ho]. rewrite app_nil_r, Ho. cbn.
      by rewrite Nat.eqb_refl.
    + intros es s3 tr3 r Hr3. apply dead_answers. by destruct (dead_run _ _ _ _ _ Ha2 Hr3).
  - intros p. eexists _, _, _. split; [|split; [done|]]; [by destruct p; vm_compute|]. split; by vm_compute.
  - intros p. eexists _, _, _. split; [|split; [done|]]; [by destruct p; vm_compute|]. split; by vm_compute.
Qed.

Lemma c29_snapshot_exact : forall p t gc es s tr,
  m_run p (m_start t gc) es = Some (s, tr) -> my_alive s = true ->
  exists n s' d,
    m_run p s (MeReq RqGetData :: replicate n (MeTask (my_next s))) =
      Some (s', [MoHandle RqGetData; MoReply (my_reqs s) (MrData d)]) /\
    (forall id m, d !! id = Some m <-> exists c, bound (hist tr) id = Some c /\ data_at s c m) /\
    my_sites s' = my_sites s /\ my_ctrs s' = my_ctrs s /\ my_tasks s' = my_tasks s /\
    my_now s' = my_now s /\ my_alive s' = true.
Proof.
  intros p t gc es s tr Hr Ha. pose proof (run_inv _ _ _ _ _ _ Hr) as Hi.
  set (s1 := spawn (MSys (my_now s) (my_alive s) (my_gc s) (my_sites s) (my_ctrs s) (my_tasks s)
                  (my_next s) (S (my_reqs s))) (TGet (Some (my_reqs s)) (sites_iter (my_sites s)) ∅)).
  assert (m_step p s (MeReq RqGetData) = Some (s1, [MoHandle RqGetData])) as H1.
  { unfold s1. cbn [m_step m_handle]. by rewrite !Ha. }
  pose proof (m_step_inv _ _ _ _ _ Hi H1) as Hi1.
  destruct (get_pass p (my_next s) (Some (my_reqs s)) (sites_iter (my_sites s)) ∅ s1 Hi1) as (d & Hrun & Hin & Hout).
  { done. } { cbn. apply lookup_insert. }
  eexists _, _, d. split; [by eapply (run_cons _ _ _ _ _ _ _ _ H1 Hrun)|]. split; [|split; [done|split; [done|]]].
  - intros id m. destruct (bound (hist tr) id) as [c|] eqn:Hb.
    + pose proof (run_bound_some _ _ _ _ _ _ _ _ Hr Hb) as Hx.
      pose proof (mv_site _ Hi _ _ Hx) as Hlt. cbn in Hlt. destruct (lookup_lt_is_Some_2 _ _ Hlt) as [y Hy].
      rewrite (Hin id _ y (proj2 (sites_iter_elem _ _ _) Hx) Hy). rewrite lookup_empty. split.
      * destruct (ct_alive y) eqn:Ey; [|done]. intros [= <-]. exists c. split; [done|]. by exists y.
      * intros (c' & [= <-] & y' & Hy' & Hya & <-). rewrite Hy in Hy'. injection Hy' as <-. by rewrite Hya.
    + rewrite Hout; [rewrite lookup_empty; split; [done|by intros (c & ? & _)]|].
      intros Hel. apply elem_of_list_fmap in Hel as ([id' x] & -> & Hel). apply sites_iter_elem in Hel.
      cbn [fst] in Hb. rewrite (run_bound_none _ _ _ _ _ _ _ Hr Hb) in Hel. done.
  - split; [|done]. cbn. apply delete_insert. apply eq_None_not_Some. intros [x Hx].
    destruct (mv_task _ Hi _ _ Hx) as (Hlt & _). lia.
Qed.

Lemma c30_restore_installs : forall p t gc es s tr d order,
  m_run p (m_start t gc) es = Some (s, tr) -> my_alive s = true ->
  order ≡ₚ seq 0 (size d) ->
  exists s' tr',
    m_run p s (MeReq (RqSetData d) :: ((fun i => MeTask (my_next s + i)%nat) <$> order)) = Some (s', tr') /\
    answers (my_reqs s) tr' = [MrUnit (Ok tt)] /\
    let h := hist tr in
    let h' := hist (tr ++ tr') in
    (forall id m, d !! id = Some m ->
       exists c, bound h' id = Some c /\
         (bound h id = None \/ (bound h id = Some c /\ alive_at s c) -> data_at s' c m) /\
         (forall c0, bound h id = Some c0 -> c = c0)) /\
    (forall id, d !! id = None -> bound h' id = bound h id /\ used h' id = used h id /\
       forall c, bound h id = Some c -> my_ctrs s' !! c = my_ctrs s !! c).
Proof.
  intros p t gc es s tr d order Hr Ha Hperm. pose proof (run_inv _ _ _ _ _ _ Hr) as Hi.
  assert (exists s1 o1, m_step p s (MeReq (RqSetData d)) = Some (s1, o1)) as (s1 & o1 & H1).
  { cbn [m_step m_handle]. rewrite Ha. eauto. }
  destruct (set_inv_start _ _ _ _ _ Hi Ha H1) as [Hsi ->].
  assert (NoDup (map_to_list d).*1) as Hnd by apply NoDup_fst_map_to_list.
  assert (length (map_to_list d) = size d) as Hlen by done.
  destruct (set_inv_run p s (map_to_list d) order [] s1 Hi Hnd Hsi) as (s' & o & Hrun & Hsi' & Han).
  { rewrite Hperm. apply NoDup_seq. }
  { intros i Hin. rewrite Hperm in Hin. apply elem_of_seq in Hin. split; [lia|apply not_elem_of_nil]. }
  pose proof (run_cons _ _ _ _ _ _ _ _ H1 Hrun) as Hfull.
  pose proof (run_extend_run _ _ _ _ _ _ _ _ _ Hr Hfull) as Hall.
  assert (forall i nm, map_to_list d !! i = Some nm -> i ∈ reverse order ++ []) as Hdone.
  { intros i nm Hin. rewrite app_nil_r, elem_of_reverse, Hperm. apply elem_of_seq.
    apply lookup_lt_Some in Hin. lia. }
  eexists _, _. split; [exact Hfull|]. split.
  { rewrite answers_app, Han. cbn. by rewrite Nat.eqb_refl. }
  intros h h'. split.
  - intros id m Hd. apply elem_of_map_to_list in Hd as Hel. apply elem_of_list_lookup in Hel as [i Hl].
    destruct (bound h id) as [c|] eqn:Hb.
    + pose proof (run_bound_some _ _ _ _ _ _ _ _ Hr Hb) as Hx.
      destruct (si_known _ _ _ _ Hsi' id _ Hx) as (rd & Hx' & _). cbn in Hx'.
      exists c. split; [apply (run_bound_iff _ _ _ _ _ _ _ _ Hall); by exists rd|].
      split; [|by intros c0 [= <-]]. intros [?|[_ (y & Hy & Hya)]]; [done|].
      destruct (si_ctrs _ _ _ _ Hsi' c y Hy) as [(i' & id' & m' & x' & Hl' & _ & Hx2 & Hc2 & y' & Hy' & Hya' & Hda)|[Hno _]].
      * assert (id' = id) as -> by (by eapply (mv_inj _ Hi _ _ _ _ Hx2 Hx)).
        assert (m' = m) as ->.
        { apply elem_of_list_lookup_2 in Hl'. apply elem_of_map_to_list in Hl'. congruence. }
        exists y'. split; [done|]. split; [congruence|by apply Hda].
      * exfalso. by apply (Hno i id m _ Hl Hx eq_refl), (Hdone _ _ Hl).
    + pose proof (run_bound_none _ _ _ _ _ _ _ Hr Hb) as Hx.
      destruct (si_new _ _ _ _ Hsi' id Hx) as [(i' & m' & Hl' & _ & c & Hx' & _ & Hc)|[Hno _]].
      * assert (m' = m) as ->.
        { apply elem_of_list_lookup_2 in Hl'. apply elem_of_map_to_list in Hl'. congruence. }
        exists c. split; [apply (run_bound_iff _ _ _ _ _ _ _ _ Hall); by exists false|].
        split; [|done]. intros _. by exists (counter_start m).
      * exfalso. by apply (Hno i m Hl), (Hdone _ _ Hl).
  - intros id Hd.
    assert (id ∉ (map_to_list d).*1) as Hni.
    { intros Hel. apply elem_of_list_fmap in Hel as ([id' m] & -> & Hel). apply elem_of_map_to_list in Hel.
      simpl in Hd. congruence. }
    destruct (bound h id) as [c|] eqn:Hb.
    + pose proof (run_bound_some _ _ _ _ _ _ _ _ Hr Hb) as Hx.
      destruct (si_known _ _ _ _ Hsi' id _ Hx) as (rd & Hx' & Hrd). specialize (Hrd Hni). cbn in Hx', Hrd.
      rewrite (run_bound _ _ _ _ _ _ id Hall) in Hx'. apply entry_some in Hx' as [Hx1 Hx2].
      split; [done|]. split; [by subst rd|]. intros c0 [= <-].
      pose proof (mv_site _ Hi _ _ Hx) as Hlt. cbn in Hlt. destruct (lookup_lt_is_Some_2 _ _ Hlt) as [y Hy].
      destruct (si_ctrs _ _ _ _ Hsi' c y Hy) as [(i' & id' & m' & x' & Hl' & _ & Hx3 & Hc3 & _)|[_ ->]]; [|done].
      assert (id' = id) as -> by (by eapply (mv_inj _ Hi _ _ _ _ Hx3 Hx)).
      exfalso. apply Hni. apply elem_of_list_fmap. exists (id, m'). split; [done|]. by eapply elem_of_list_lookup_2.
    + pose proof (run_bound_none _ _ _ _ _ _ _ Hr Hb) as Hx.
      destruct (si_new _ _ _ _ Hsi' id Hx) as [(i' & m' & Hl' & _)|[_ Hno]].
      { exfalso. apply Hni. apply elem_of_list_fmap. exists (id, m'). split; [done|]. by eapply elem_of_list_lookup_2. }
      rewrite (run_bound _ _ _ _ _ _ id Hall) in Hno. apply entry_none in Hno as Hb'.
      split; [done|]. split; [|done]. by rewrite !used_none.
Qed.

Lemma c31_stays_unregistered : forall p t gc es s tr id s1 o1 es2 s2 tr2,
  m_run p (m_start t gc) es = Some (s, tr) -> my_alive s = true ->
  m_step p s (MeReq (RqRemove id)) = Some (s1, o1) ->
  m_run p s1 es2 = Some (s2, tr2) -> my_alive s2 = true ->
  Forall (fun r => ~ rebinds id r) (handled tr2) ->
  exists s3, m_step p s2 (MeReq (RqAddVisitor id)) =
    Some (s3, [MoHandle (RqAddVisitor id); MoReply (my_reqs s2) (MrVisit (Ok None))]).
Proof.
  intros p t gc es s tr id s1 o1 es2 s2 tr2 Hr Ha H1 Hr2 Ha2 Hnr.
  pose proof (run_extend _ _ _ _ _ _ _ _ _ Hr H1) as Hr1.
  pose proof (run_extend_run _ _ _ _ _ _ _ _ _ Hr1 Hr2) as Hall.
  destruct (c23_unregistered _ _ _ _ _ _ id Hall Ha2) as (s3 & Hs & _); [|by exists s3].
  unfold hist. rewrite !handled_app, !reverse_app. apply bound_none_ext; [|by apply Forall_reverse].
  assert (handled o1 = [RqRemove id]) as ->.
  { cbn [m_step m_handle] in H1. rewrite Ha in H1. unfold rm_site in H1. cbn [my_sites] in H1.
    destruct (my_sites s !! id); by injection H1 as <- <-. }
  cbn. by rewrite String.eqb_refl.
Qed.

Lemma c31_stops_counter : forall p t gc es s tr id c s1 o1,
  m_run p (m_start t gc) es = Some (s, tr) -> my_alive s = true -> bound (hist tr) id = Some c ->
  m_step p s (MeReq (RqRemove id)) = Some (s1, o1) ->
  o1 = [MoHandle (RqRemove id)] /\
  forall es2 s2 tr2, m_run p s1 es2 = Some (s2, tr2) ->
    (** the stop message can be delivered until it is (or the master dies); from
        then on the counter never answers again; the removal is answered by then,
        with an error exactly if the counter had stopped before *)
    (MeTask (my_next s) ∈ es2 -> dead_at s2 c /\
       exists es3 es4 s3 tr3, es2 = es3 ++ MeTask (my_next s) :: es4 /\ m_run p s1 es3 = Some (s3, tr3) /\
         ((alive_at s3 c /\ answers (my_reqs s) tr2 = [MrUnit (Ok tt)]) \/
          (dead_at s3 c /\ answers (my_reqs s) tr2 = [MrUnit (Err MailboxError)]))) /\
    (MeTask (my_next s) ∉ es2 -> my_alive s2 = true -> is_Some (m_step p s2 (MeTask (my_next s)))).
Proof.
  intros p t gc es s tr id c s1 o1 Hr Ha Hb H1. pose proof (run_inv _ _ _ _ _ _ Hr) as Hi.
  pose proof (m_step_inv _ _ _ _ _ Hi H1) as Hi1.
  pose proof (run_bound_some _ _ _ _ _ _ _ _ Hr Hb) as Hx.
  assert (o1 = [MoHandle (RqRemove id)] /\ my_alive s1 = true /\
          my_tasks s1 !! my_next s = Some (TStop (Some (my_reqs s)) c)) as (-> & Ha1 & Ht1).
  { cbn [m_step m_handle] in H1. rewrite Ha in H1. unfold rm_site in H1. cbn [my_sites] in H1. rewrite Hx in H1.
    injection H1 as <- <-. split; [done|]. split; [done|]. cbn. apply lookup_insert. }
  split; [done|]. intros es2 s2 tr2 Hr2. split.
  - intros Hin.
    destruct (one_shot_run p es2 s1 s2 tr2 (my_next s) _ Hi1 Ha1 Ht1 I Hr2 Hin)
      as (es3 & es4 & s3 & tr3 & s4 & o4 & -> & Hn3 & Hn4 & Hr3 & Hi3 & Ha3 & Ht3 & Hs4 & Hre & tr4 & Hr4).
    assert ((dead_at s4 c /\ my_alive s4 = true /\ no_task (my_reqs s) s4 /\ (my_reqs s < my_reqs s4)%nat) /\
      ((alive_at s3 c /\ o4 = [MoReply (my_reqs s) (MrUnit (Ok tt))]) \/
       (dead_at s3 c /\ o4 = [MoReply (my_reqs s) (MrUnit (Err MailboxError))]))) as [(Hd4 & Ha4 & Hno4 & Hrq4) Hans].
    { destruct (mv_task _ Hi3 _ _ Ht3) as (_ & _ & Hk3 & _). cbn in Hk3. rewrite Forall_singleton in Hk3.
      cbn [m_step] in Hs4. rewrite Ha3 in Hs4. unfold task_step in Hs4.
      rewrite Ht3 in Hs4. destruct (send_counter p s3 c CmStop) as [[s5 r]|] eqn:E; [|done].
      apply send_counter_eq in E as (x & x' & Hx3 & Hh & ->). apply lookup_lt_Some in Hx3 as Hlt.
      assert (forall cs, no_task (my_reqs s) (end_task (set_ctrs s3 cs) (my_next s))) as Hend.
      { intros cs t' y. cbn. intros [Hne Hy]%lookup_delete_Some Hink. apply Hne.
        eapply (mv_uniq _ Hi3); [exact Ht3|exact Hy|by left|done]. }
      unfold counter_handle in Hh.
      destruct (ct_alive x) eqn:Ex; injection Hh as <- <-; injection Hs4 as <- <-.
      + split; [|left; split; [by exists x|done]].
        split; [exists (kill x); split; [|done]; cbn; by apply list_lookup_insert|]. done.
      + split; [|right; split; [by exists x|done]].
        split; [exists x; split; [|done]; cbn; by apply list_lookup_insert|]. done. }
    split; [by eapply dead_at_run|]. exists es3, es4, s3, tr3. split; [done|]. split; [done|].
    assert (m_run p s1 (es3 ++ MeTask (my_next s) :: es4) = Some (s2, tr3 ++ o4 ++ tr4)) as Hall.
    { apply m_run_app. exists s3, tr3, (o4 ++ tr4). split; [done|]. split; [|done]. by eapply run_cons. }
    rewrite Hall in Hr2. injection Hr2 as <-.
    assert (answers (my_reqs s) tr3 = []) as H3.
    { assert (m_run p (m_start t gc) (es ++ MeReq (RqRemove id) :: es3)
        = Some (s3, tr ++ [MoHandle (RqRemove id)] ++ tr3)) as Hr03.
      { apply m_run_app. eexists s, tr, _. split; [done|]. split; [by eapply run_cons|done]. }
      destruct (run_ainv _ _ _ _ _ _ Hr03) as (_ & _ & Hk). destruct (Hk (my_reqs s)) as [_ Hk'].
      destruct (mv_task _ Hi3 _ _ Ht3) as (_ & _ & Hk3 & _). cbn in Hk3. rewrite Forall_singleton in Hk3.
      destruct (Hk' Hk3) as [[Hn _]|[_ Hn]].
      - rewrite !answers_app in Hn. by apply app_eq_nil in Hn as [_ [_ ?]%app_eq_nil].
      - exfalso. apply (Hn _ _ Ht3). by left. }
    destruct (gone_run p s4 es4 s2 tr4 (my_reqs s)) as [_ H4]; [by eapply m_step_inv|done|done|].
    rewrite !answers_app, H3, H4. destruct Hans as [[? ->]|[? ->]]; [left|right]; (split; [done|]);
      simpl; by rewrite Nat.eqb_refl.
  - intros Hn Ha2.
    assert (my_tasks s2 !! my_next s = Some (TStop (Some (my_reqs s)) c)) as Ht2.
    { clear -Hi1 Ha1 Ht1 Hr2 Hn Ha2. revert s1 tr2 Hi1 Ha1 Ht1 Hr2.
      induction es2 as [|e es2 IH]; intros s1 tr2 Hi1 Ha1 Ht1 Hr2; [by injection Hr2 as <- _|].
      cbn [m_run] in Hr2. destruct (m_step p s1 e) as [[s3 o]|] eqn:E; [|done].
      destruct (m_run p s3 es2) as [[s4 os]|] eqn:E2; [|done]. injection Hr2 as <- <-.
      apply not_elem_of_cons in Hn as [Hne Hn].
      destruct (m_step_tasks _ _ _ _ _ Hi1 E) as [(s0 & _ & [= -> ->] & _)|(Hal & Hk & _)].
      - destruct (dead_run p es2 (m_die s0).1 _ _ eq_refl E2) as [Hd _]. congruence.
      - apply (IH Hn s3 os); [by eapply m_step_inv|by rewrite Hal|apply Hk; [done|congruence]|done]. }
    cbn [m_step]. rewrite Ha2. unfold task_step. rewrite Ht2. unfold send_counter.
    pose proof (run_inv_from _ _ _ _ _ Hi1 Hr2) as Hi2.
    destruct (mv_task _ Hi2 _ _ Ht2) as (_ & Hf & _). cbn in Hf. rewrite Forall_singleton in Hf.
    destruct (lookup_lt_is_Some_2 _ _ Hf) as [x Hx2]. rewrite Hx2.
    destruct (counter_handle p (my_now s2) x CmStop) as [x' []]; eauto.
Qed.

Lemma c31_local : forall p t gc es s tr id s1 o1,
  m_run p (m_start t gc) es = Some (s, tr) -> my_alive s = true ->
  m_step p s (MeReq (RqRemove id)) = Some (s1, o1) ->
  my_ctrs s1 = my_ctrs s /\
  (forall id', id' <> id -> my_sites s1 !! id' = my_sites s !! id') /\
  (bound (hist tr) id = None -> my_sites s1 = my_sites s /\ my_tasks s1 = my_tasks s /\
     o1 = [MoHandle (RqRemove id); MoReply (my_reqs s) (MrUnit (Ok tt))]).
Proof.
  intros p t gc es s tr id s1 o1 Hr Ha H1.
  cbn [m_step m_handle] in H1. rewrite Ha in H1. unfold rm_site in H1. cbn [my_sites] in H1.
  split; [by destruct (my_sites s !! id); injection H1 as <- <-|]. split.
  - intros id' Hne. destruct (my_sites s !! id); injection H1 as <- <-; cbn; by rewrite lookup_delete_ne.
  - intros Hb. rewrite (run_bound_none _ _ _ _ _ _ _ Hr Hb) in H1. injection H1 as <- <-. cbn.
    split; [|done]. apply delete_notin. by eapply run_bound_none.
Qed.

Lemma c65_dead_counter_kills_master_refuted :
  (** any registered counter that has stopped is found by the next pass, which
      then unwinds the master: no message is ever answered again *)
  (forall p t gc es s tr w due id c,
     m_run p (m_start t gc) es = Some (s, tr) -> my_alive s = true ->
     my_tasks s !! w = Some (TWake due) -> due <= my_now s ->
     bound (hist tr) id = Some c -> dead_at s c ->
     exists n s' tr', m_run p s (MeTask w :: replicate n (MeTask (my_next s))) = Some (s', tr') /\
       forall es2 s2 tr2 r, m_run p s' es2 = Some (s2, tr2) ->
         exists s3, m_step p s2 (MeReq r) = Some (s3, [MoReply (my_reqs s2) MrClosed])) /\
  (** it happens: a client that looked up a site sends its counter Stop *)
  (forall p, exists es s tr,
     m_run p (m_start 0 60) es = Some (s, tr) /\
     es = [MeReq (RqAddSite "a" ex_m3); MeReq (RqAddSite "b" ex_m3); MeReq (RqGetSite "a");
           MeDirect 0 CmStop; MeTask 0; MeTask 1; MeReq (RqAddVisitor "b")] /\
     answers 3 tr = [MrClosed]) /\
  (** and: a site whose MCaptcha has an empty ladder (possible through
      SetInternalData or deserialisation) kills its counter at the first visit *)
  (forall p, exists es s tr,
     m_run p (m_start 0 60) es = Some (s, tr) /\
     es = [MeReq (RqAddSite "a" (MCaptcha 0 (Defense [] 0) 30)); MeReq (RqAddSite "b" ex_m3);
           MeReq (RqAddVisitor "a"); MeTask 1; MeTask 0; MeTask 2; MeReq (RqAddVisitor "b")] /\
     answers 2 tr = [MrVisit (Err MailboxError)] /\ answers 3 tr = [MrClosed]).
Proof.
  split; [|split].
  - intros p t gc es s tr w due id c Hr Ha Hw Hd Hb Hdead. pose proof (run_inv _ _ _ _ _ _ Hr) as Hi.
    set (s1 := spawn (end_task s w) (TClean (sites_iter (my_sites s)) PCount)).
    assert (m_step p s (MeTask w) = Some (s1, [MoHandle RqCleanUp])) as H1.
    { cbn [m_step]. rewrite Ha. unfold task_step. rewrite Hw. by replace (due <=? my_now s) with true by lia. }
    destruct (death_pass p (my_next s) (sites_iter (my_sites s)) s1) as (n & s' & o & Hrun & Ha').
    { by eapply m_step_inv. } { done. } { unfold s1. cbn. apply lookup_insert. }
    { intros id' x Hx. apply sites_iter_elem in Hx. exists (si_read x). cbn. rewrite Hx. by destruct x. }
    { exists id, (Site (used (hist tr) id) c). split; [|done]. apply sites_iter_elem. by eapply run_bound_some. }
    exists n, s'. eexists. split; [by eapply (run_cons _ _ _ _ _ _ _ _ H1 Hrun)|].
    intros es2 s2 tr2 r Hr2. apply dead_answers. by destruct (dead_run _ _ _ _ _ Ha' Hr2).
  - intros p. eexists _, _, _. split; [|split; [done|]]; by destruct p; vm_compute.
  - intros p. eexists _, _, _. split; [|split; [done|]]; [by destruct p; vm_compute|]. by destruct p; vm_compute.
Qed.

Lemma c65_only_cause : forall p t gc es s tr e s' o,
  m_run p (m_start t gc) es = Some (s, tr) -> my_alive s = true ->
  m_step p s e = Some (s', o) -> my_alive s' = false ->
  exists w id x rest ph, e = MeTask w /\ my_tasks s !! w = Some (TClean ((id, x) :: rest) ph) /\
    dead_at s (si_ctr x) /\
    (** found registered when the pass began *)
    exists es0 e0 es1 s0 tr0 s0' o0, es = es0 ++ e0 :: es1 /\ m_run p (m_start t gc) es0 = Some (s0, tr0) /\
      m_step p s0 e0 = Some (s0', o0) /\ MoHandle RqCleanUp ∈ o0 /\ w = my_next s0 /\
      bound (hist tr0) id = Some (si_ctr x).
Proof.
  intros p t gc es s tr e s' o Hr Ha Hs Ha'.
  destruct (death_cause _ _ _ _ _ Hs Ha Ha') as (w & id & x & rest & ph & -> & Ht & _ & Hd).
  exists w, id, x, rest, ph. split; [done|]. split; [done|]. split; [done|].
  destruct (clean_history _ _ _ _ _ _ _ _ _ _ _ Hr Ht) as (es0 & e0 & es1 & s0 & tr0 & s0' & o0 & -> & H0 & Hs0 & Ho0 & Hw & Hx & _).
  exists es0, e0, es1, s0, tr0, s0', o0. do 5 (split; [done|]).
  rewrite (run_bound _ _ _ _ _ _ id H0) in Hx. by apply entry_some in Hx as [Hx _].
Qed.

Lemma c75_answered_once : forall p t gc es s tr k,
  m_run p (m_start t gc) es = Some (s, tr) ->
  (** never more than one answer, none before the request *)
  (length (answers k tr) <= 1)%nat /\ ((my_reqs s <= k)%nat -> answers k tr = []) /\
  (** a request without answer is being worked on: one task, run alone, answers it *)
  ((k < my_reqs s)%nat -> answers k tr = [] ->
     my_alive s = true /\
     exists w n s' tr', m_run p s (replicate n (MeTask w)) = Some (s', tr') /\ length (answers k tr') = 1%nat).
Proof.
  intros p t gc es s tr k Hr. destruct (run_ainv _ _ _ _ _ _ Hr) as (Hi & _ & Hk).
  destruct (Hk k) as [H1 H2]. destruct (decide (k < my_reqs s)%nat) as [Hlt|Hge].
  - split; [|split; [lia|]].
    + destruct (H2 Hlt) as [(-> & _)|[-> _]]; simpl; lia.
    + intros _ Hn. destruct (H2 Hlt) as [(_ & Ha & w & x & Hl)|[Hl _]]; [|by rewrite Hn in Hl].
      split; [done|]. exists w. by eapply pending_completes.
  - rewrite H1 by lia. split; [simpl; lia|]. split; [done|]. lia.
Qed.

Lemma c75_immediate : forall p t gc es s tr r,
  m_run p (m_start t gc) es = Some (s, tr) ->
  exists s' o, m_step p s (MeReq r) = Some (s', o) /\ my_reqs s' = S (my_reqs s) /\
    (my_alive s = false -> answers (my_reqs s) o = [MrClosed]) /\
    (my_alive s = true ->
     match r with
     | RqAddSite _ _ | RqRename _ _ | RqSetData _ | RqCleanUp => answers (my_reqs s) o = [MrUnit (Ok tt)]
     | RqGetSite id => answers (my_reqs s) o = [MrSite (bound (hist tr) id)]
     | RqRemove id => answers (my_reqs s) o = if bound (hist tr) id then [] else [MrUnit (Ok tt)]
     | RqAddVisitor id => answers (my_reqs s) o = if bound (hist tr) id then [] else [MrVisit (Ok None)]
     | RqGetData => answers (my_reqs s) o = []
     end).
Proof.
  intros p t gc es s tr r Hr. cbn [m_step]. destruct (my_alive s) eqn:Ha.
  - destruct (m_handle _ _ r) as [s1 o1] eqn:E. eexists _, _. split; [done|].
    split; [by apply m_handle_frame in E as (_ & -> & _)|]. split; [done|]. intros _.
    assert (forall x, answers (my_reqs s) (MoHandle r :: reply (Some (my_reqs s)) x) = [x]) as Hrep.
    { intros x. simpl. by rewrite Nat.eqb_refl. }
    destruct r; cbn [m_handle] in E; cbn [my_sites] in E.
    + injection E as <- <-. apply Hrep.
    + injection E as <- <-. apply Hrep.
    + unfold rm_site in E. rewrite (run_bound _ _ _ _ _ _ id Hr) in E. unfold entry in E.
      destruct (bound _ id); injection E as <- <-; [done|apply Hrep].
    + unfold get_site in E. rewrite (run_bound _ _ _ _ _ _ id Hr) in E. unfold entry in E.
      destruct (bound _ id); injection E as <- <-; [done|apply Hrep].
    + unfold get_site in E. rewrite (run_bound _ _ _ _ _ _ id Hr) in E. unfold entry in E.
      destruct (bound _ id); injection E as <- <-; apply Hrep.
    + by injection E as <- <-.
    + injection E as <- <-. apply Hrep.
    + injection E as <- <-. apply Hrep.
  - eexists _, _. split; [done|]. split; [done|]. split; [|done]. intros _. simpl. by rewrite Nat.eqb_refl.
Qed.
