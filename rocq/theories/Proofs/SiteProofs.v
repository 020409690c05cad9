(** Each site of a Master as a Counter of its own, and what follows for its
    visitors. *)
From Coq Require Import ZifyBool ZifyN ZifyNat Lia.
From Verif Require Import Model.Base Model.Defense Model.MCaptcha Model.Counter Model.Master
  Spec.DefenseSpec Spec.MCaptchaSpec Spec.CounterSpec Spec.MasterSpec Spec.SiteSpec
  Proofs.DefenseProofs Proofs.MCaptchaProofs Proofs.CounterProofs Proofs.MasterProofs Proofs.MasterTasks
  Proofs.MasterAnswers Proofs.SiteCounter.

(** * Logs *)
Lemma m_log_acc p s es acc : m_log p s es acc = m_log p s es [] ++ acc.
Proof.
  revert s acc. induction es as [|e es IH]; intros s acc; cbn; [done|].
  destruct (m_step p s e) as [[s1 o]|]; [|done]. rewrite IH, (IH s1 [_]), <- app_assoc. done.
Qed.
Lemma m_log_snoc p s es s1 tr e s2 o :
  m_run p s es = Some (s1, tr) -> m_step p s1 e = Some (s2, o) ->
  m_log p s (es ++ [e]) [] = (e, o) :: m_log p s es [].
Proof.
  revert s tr. induction es as [|x es IH]; intros s tr Hr Hs; cbn in Hr |- *.
  - injection Hr as <- <-. by rewrite Hs.
  - destruct (m_step p s x) as [[s0 ox]|]; [|done].
    destruct (m_run p s0 es) as [[s3 os]|] eqn:E; [|done]. injection Hr as <- <-.
    rewrite m_log_acc, (m_log_acc p s0 es), (IH s0 os) by done. done.
Qed.
Lemma log_hist_cons e o l : log_hist ((e, o) :: l) = reverse (handled o) ++ log_hist l.
Proof. done. Qed.
Lemma log_hist_eq p s es s1 tr : m_run p s es = Some (s1, tr) -> log_hist (m_log p s es []) = hist tr.
Proof.
  revert s1 tr. induction es as [|e es IH] using rev_ind; intros s1 tr Hr; [by injection Hr as <- <-|].
  apply m_run_snoc in Hr as (s2 & tr1 & o & H1 & H2 & ->).
  rewrite (m_log_snoc _ _ _ _ _ _ _ _ H1 H2), log_hist_cons, (IH _ _ H1). unfold hist. by rewrite handled_app, reverse_app.
Qed.

(** * What a step does to the counters *)
Definition tells (x : mout) : bool :=
  match x with MoReply _ (MrVisit (Ok (Some _))) | MoDirect _ (CrAdded _) => true | _ => false end.
Definition silent (o : list mout) : Prop := Forall (fun x => tells x = false) o.
Lemma silent_said o l c : silent o -> omap (said l c) o = [].
Proof.
  intros H. induction H as [|x o Hx _ IH]; [done|]. cbn. rewrite IH.
  by destruct x as [|k [[[v|]|]| | | | |]|c' []].
Qed.
Definition no_reg (o : list mout) : Prop := forall id m, handled o <> [RqAddSite id m].
Inductive effect (p : profile) (s : msys) (e : mevent) : msys -> list mout -> Prop :=
| ef_none s' o : my_ctrs s' = my_ctrs s -> my_now s' = my_now s -> silent o -> no_reg o -> (forall d, e <> MeTick d) ->
    effect p s e s' o
| ef_tick d s' : e = MeTick d -> my_ctrs s' = my_ctrs s -> my_now s' = my_now s + d -> effect p s e s' []
| ef_new id m s' o : my_ctrs s' = my_ctrs s ++ [counter_start m] -> my_now s' = my_now s -> silent o ->
    handled o = [RqAddSite id m] -> (forall d, e <> MeTick d) -> effect p s e s' o
| ef_fire c id x x' s' : e = MeFire c id -> my_ctrs s !! c = Some x -> counter_fire (my_now s) x id = Some x' ->
    my_ctrs s' = <[c := x']> (my_ctrs s) -> my_now s' = my_now s -> effect p s e s' []
| ef_direct c msg x x' r s' : e = MeDirect c msg -> my_ctrs s !! c = Some x ->
    counter_handle p (my_now s) x msg = (x', r) -> my_ctrs s' = <[c := x']> (my_ctrs s) -> my_now s' = my_now s ->
    effect p s e s' [MoDirect c r]
| ef_visit t k c x x' r s' : e = MeTask t -> my_tasks s !! t = Some (TVisit k c) -> my_ctrs s !! c = Some x ->
    counter_handle p (my_now s) x CmAddVisitor = (x', r) -> my_ctrs s' = <[c := x']> (my_ctrs s) -> my_now s' = my_now s ->
    effect p s e s' (reply k (MrVisit (match r with CrAdded v => Ok (Some v) | _ => Err MailboxError end)))
| ef_msg t c msg x x' r s' o : e = MeTask t -> my_ctrs s !! c = Some x ->
    counter_handle p (my_now s) x msg = (x', r) -> my_ctrs s' = <[c := x']> (my_ctrs s) -> my_now s' = my_now s ->
    silent o -> no_reg o -> msg <> CmAddVisitor ->
    (forall d, msg = CmSetInternalData d -> my_tasks s !! t = Some (TSet c d)) -> effect p s e s' o.

Lemma silent_reply k x : (forall v, x <> MrVisit (Ok (Some v))) -> silent (reply k x).
Proof.
  intros Hx. destruct k as [k|]; [|by constructor]. constructor; [|by constructor].
  destruct x as [[[v|]|]| | | | |]; try done. by destruct (Hx v).
Qed.
Lemma silent_handle r o : silent o -> silent (MoHandle r :: o).
Proof. by constructor. Qed.
Lemma silent_dropped l : silent ((fun k => MoReply k MrDropped) <$> l).
Proof. apply Forall_fmap, Forall_true. done. Qed.
Lemma silent_nil : silent [].
Proof. by constructor. Qed.
Lemma silent_mailbox k x : (forall v, x <> MrVisit (Ok (Some v))) -> silent [MoReply k x].
Proof. apply (silent_reply (Some k)). Qed.
Local Hint Resolve silent_nil : core.
Lemma m_handle_effect s k r s' o :
  m_handle s k r = (s', o) ->
  silent o /\ handled o = [] /\ my_now s' = my_now s /\
  match r with
  | RqAddSite id m => my_ctrs s' = my_ctrs s ++ [counter_start m]
  | _ => my_ctrs s' = my_ctrs s
  end.
Proof.
  intros Hh. assert (forall k x, (forall v, x <> MrVisit (Ok (Some v))) -> silent (reply k x) /\ handled (reply k x) = []) as Hrep.
  { intros k' x Hx. split; [by apply silent_reply|apply handled_reply]. }
  destruct r; cbn [m_handle] in Hh.
  - injection Hh as <- <-. destruct (Hrep k (MrUnit (Ok tt))); done.
  - injection Hh as <- <-. destruct (Hrep k (MrUnit (Ok tt))); done.
  - unfold rm_site in Hh. destruct (my_sites s !! id); injection Hh as <- <-; [done|]. destruct (Hrep k (MrUnit (Ok tt))); done.
  - destruct (get_site (my_sites s) id) as [ss [a|]]; injection Hh as <- <-; [done|]. destruct (Hrep k (MrVisit (Ok None))); done.
  - destruct (get_site (my_sites s) id) as [ss a]; injection Hh as <- <-. destruct (Hrep k (MrSite a)); done.
  - injection Hh as <- <-. done.
  - injection Hh as <- <-. destruct (Hrep k (MrUnit (Ok tt))); [done|].
    destruct (set_data_frame (map_to_list d) s) as (H1 & H2 & _). by rewrite H1, H2.
  - injection Hh as <- <-. destruct (Hrep k (MrUnit (Ok tt))); done.
Qed.
Lemma m_step_effect p s e s' o : m_step p s e = Some (s', o) -> effect p s e s' o.
Proof.
  intros Hs.
  assert (forall a k r s1 o1, m_handle a k r = (s1, o1) -> my_ctrs a = my_ctrs s -> my_now a = my_now s ->
     (forall d, e <> MeTick d) -> effect p s e s1 (MoHandle r :: o1)) as Hown.
  { intros a k r s1 o1 E Hc Hn Hne. apply m_handle_effect in E as (E1 & E2 & E3 & E4). rewrite Hn in E3.
    destruct r; rewrite Hc in E4;
      first [ eapply ef_new; [done|done|by apply silent_handle|cbn; by fold (handled o1); rewrite E2|done]
            | eapply ef_none; [done|done|by apply silent_handle| |done]; intros ? ?; cbn; fold (handled o1); by rewrite E2 ]. }
  destruct e as [r|t|c id|c msg|d]; cbn [m_step] in Hs.
  - destruct (my_alive s).
    + destruct (m_handle _ _ r) as [s1 o1] eqn:E. injection Hs as <- <-. by eapply Hown.
    + injection Hs as <- <-. by eapply ef_none; [| |apply silent_mailbox|..].
  - destruct (my_alive s); [|done]. unfold task_step in Hs.
    destruct (my_tasks s !! t) as [[due|[|[id [rd c]] rest] []|k c|k c|k [|[id [rd c]] rest] acc|c m|id m]|] eqn:Et; [..|done];
    repeat match goal with
    | H : (if ?b then _ else _) = Some _ |- _ => destruct b; [|done]
    | H : match send_counter p s ?c ?m with _ => _ end = Some _ |- _ =>
        destruct (send_counter p s c m) as [[s1 r]|] eqn:E; [|done];
        apply send_counter_eq in E as (x & x' & Hx & Hh & ->); try destruct r
    | H : (let '(_, _) := ?x in _) = Some _ |- _ => destruct x as [s1 o1] eqn:E
    end; try (injection Hs as <- <-);
    first [ by eapply Hown
          | by eapply ef_none
          | eapply (ef_none _ _ _ (end_task s t)); [done|done|by apply silent_reply| |done];
              intros ? ?; by rewrite handled_reply
          | eapply (ef_visit _ _ _ t k c x x' (CrAdded _)); done
          | eapply (ef_visit _ _ _ t k c x x' (CrCount _)); done
          | eapply (ef_visit _ _ _ t k c x x' CrUnit); done
          | eapply (ef_visit _ _ _ t k c x x' (CrData _)); done
          | eapply (ef_visit _ _ _ t k c x x' CrMailboxError); done
          | eapply (ef_msg _ _ _ t c _ x x'); [done|done|exact Hh|done|done|
              first [done|by apply silent_reply|apply silent_dropped]|
              intros ? ?; first [done|by rewrite handled_reply|by rewrite handled_dropped]|done|intros ? [= <-]; done] ].
  - destruct (my_ctrs s !! c) eqn:Ec; [|done]. destruct (counter_fire _ _ _) eqn:Ef; [|done].
    injection Hs as <- <-. by eapply ef_fire.
  - destruct (send_counter p s c _) as [[s1 r]|] eqn:E; [|done].
    apply send_counter_eq in E as (x & x' & Hx & Hh & ->). injection Hs as <- <-. by eapply ef_direct.
  - injection Hs as <- <-. by eapply ef_tick.
Qed.

(** New visits and restores. *)
Lemma m_handle_new s k r s' o t :
  m_handle s k r = (s', o) ->
  (forall j c, my_tasks s' !! t = Some (TVisit j c) -> my_tasks s !! t = Some (TVisit j c) \/
     (j = k /\ exists id, r = RqAddVisitor id /\ si_ctr <$> my_sites s !! id = Some c)) /\
  (forall c m, my_tasks s' !! t = Some (TSet c m) -> my_tasks s !! t = Some (TSet c m) \/
     exists d id, r = RqSetData d /\ is_Some (d !! id) /\ si_ctr <$> my_sites s !! id = Some c).
Proof.
  intros Hh. destruct r; cbn [m_handle] in Hh.
  - injection Hh as <- <-. eauto.
  - injection Hh as <- <-. eauto.
  - unfold rm_site in Hh. destruct (my_sites s !! id); injection Hh as <- <-; [|eauto].
    cbn. destruct (decide (t = my_next s)) as [->|Hn]; [rewrite lookup_insert|rewrite lookup_insert_ne by done]; eauto; done.
  - pose proof (get_site_addr (my_sites s) id) as Ha.
    destruct (get_site (my_sites s) id) as [ss [a|]]; injection Hh as <- <-; [|eauto].
    cbn. destruct (decide (t = my_next s)) as [->|Hn]; [rewrite lookup_insert|rewrite lookup_insert_ne by done]; eauto.
    split; [|done]. intros j c [= <- <-]. right. eauto.
  - destruct (get_site (my_sites s) id) as [ss a]; injection Hh as <- <-. eauto.
  - injection Hh as <- <-.
    cbn. destruct (decide (t = my_next s)) as [->|Hn]; [rewrite lookup_insert|rewrite lookup_insert_ne by done]; eauto; done.
  - injection Hh as <- <-. rewrite set_data_tasks. destruct (decide _); [|eauto].
    destruct (_ !! _) as [y|] eqn:Ey; [|done]. cbn. unfold set_task_of.
    apply elem_of_list_lookup_2 in Ey. destruct y as [nm m0]. apply elem_of_map_to_list in Ey. cbn.
    destruct (my_sites s !! nm) as [x|] eqn:Ex; [|done]. split; [done|]. intros c m [= <- <-]. right.
    exists d, nm. rewrite Ex. split; [done|]. split; [by eexists|done].
  - injection Hh as <- <-.
    cbn. destruct (decide (t = my_next s)) as [->|Hn]; [rewrite lookup_insert|rewrite lookup_insert_ne by done]; eauto; done.
Qed.
Lemma m_step_new p s e s' o t :
  m_step p s e = Some (s', o) ->
  (forall j c, my_tasks s' !! t = Some (TVisit j c) -> my_tasks s !! t = Some (TVisit j c) \/
     (j = Some (my_reqs s) /\ exists id, e = MeReq (RqAddVisitor id) /\ si_ctr <$> my_sites s !! id = Some c)) /\
  (forall c m, my_tasks s' !! t = Some (TSet c m) -> my_tasks s !! t = Some (TSet c m) \/
     exists d id, RqSetData d ∈ handled o /\ is_Some (d !! id) /\ si_ctr <$> my_sites s !! id = Some c).
Proof.
  intros Hs.
  assert (forall s1 t', my_tasks s1 = my_tasks s -> 
     (forall j c, my_tasks (end_task s1 t') !! t = Some (TVisit j c) -> my_tasks s !! t = Some (TVisit j c)) /\
     (forall c m, my_tasks (end_task s1 t') !! t = Some (TSet c m) -> my_tasks s !! t = Some (TSet c m))) as Hend.
  { intros s1 t' H. cbn. rewrite H. split; intros ? ? [_ Hx]%lookup_delete_Some; done. }
  assert (forall s1 t' y, my_tasks s1 = my_tasks s -> (forall j c, y <> TVisit j c) -> (forall c m, y <> TSet c m) ->
     (forall j c, my_tasks (set_task s1 t' y) !! t = Some (TVisit j c) -> my_tasks s !! t = Some (TVisit j c)) /\
     (forall c m, my_tasks (set_task s1 t' y) !! t = Some (TSet c m) -> my_tasks s !! t = Some (TSet c m))) as Hset.
  { intros s1 t' y H Hy1 Hy2. cbn. rewrite H.
    destruct (decide (t = t')) as [->|Hn]; [rewrite lookup_insert|rewrite lookup_insert_ne by done]; [|done].
    split; intros ? ? [= E]; [by destruct (Hy1 _ _ E)|by destruct (Hy2 _ _ E)]. }
  assert (forall a r s1 o1, m_handle a None r = (s1, o1) -> my_sites a = my_sites s -> (forall id, r <> RqAddVisitor id) ->
     (forall d, r <> RqSetData d) ->
     (forall j c, my_tasks a !! t = Some (TVisit j c) -> my_tasks s !! t = Some (TVisit j c)) ->
     (forall c m, my_tasks a !! t = Some (TSet c m) -> my_tasks s !! t = Some (TSet c m)) ->
     (forall j c, my_tasks s1 !! t = Some (TVisit j c) -> my_tasks s !! t = Some (TVisit j c)) /\
     (forall c m, my_tasks s1 !! t = Some (TSet c m) -> my_tasks s !! t = Some (TSet c m))) as Hown.
  { intros a r s1 o1 E Es Hr Hr' H1 H2. apply (m_handle_new _ _ _ _ _ t) in E as [E1 E2]. split.
    - intros j c Hj. destruct (E1 _ _ Hj) as [?|(_ & id & -> & _)]; [by apply H1|by destruct (Hr id)].
    - intros c m Hj. destruct (E2 _ _ Hj) as [?|(d & id & -> & _)]; [by apply H2|by destruct (Hr' d)]. }
  destruct e as [r|t'|c id|c msg|d]; cbn [m_step] in Hs.
  - destruct (my_alive s).
    + destruct (m_handle _ _ r) as [s1 o1] eqn:E. injection Hs as <- <-.
      apply (m_handle_new _ _ _ _ _ t) in E as [E1 E2]. cbn in E1, E2. split.
      * intros j c Hj. destruct (E1 _ _ Hj) as [?|(-> & id & -> & ?)]; [by left|right]. eauto.
      * intros c m Hj. destruct (E2 _ _ Hj) as [?|(d & id & -> & ? & ?)]; [by left|right]. exists d, id.
        split; [|done]. cbn. by left.
    + injection Hs as <- <-. cbn. eauto.
  - destruct (my_alive s); [|done]. unfold task_step in Hs.
    enough ((forall j c, my_tasks s' !! t = Some (TVisit j c) -> my_tasks s !! t = Some (TVisit j c)) /\
            (forall c m, my_tasks s' !! t = Some (TSet c m) -> my_tasks s !! t = Some (TSet c m))) as [H1 H2]
      by (split; intros ? ? Hj; left; [by apply H1|by apply H2]).
    destruct (my_tasks s !! t') as [[due|[|[id [rd c]] rest] []|k c|k c|k [|[id [rd c]] rest] acc|c m|id m]|] eqn:Et; [..|done];
    repeat match goal with
    | H : (if ?b then _ else _) = Some _ |- _ => destruct b; [|done]
    | H : match send_counter p s ?c ?m with _ => _ end = Some _ |- _ =>
        destruct (send_counter p s c m) as [[s1 r]|] eqn:E; [|done];
        apply send_counter_eq in E as (x & x' & Hx & Hh & ->); try destruct r
    | H : (let '(_, _) := ?x in _) = Some _ |- _ => destruct x as [s1 o1] eqn:E
    end; try (injection Hs as <- <-);
    first [ by apply Hend
          | by eapply (Hown _ _ _ _ E); [done|done|done|apply (Hend s t' eq_refl)..]
          | by apply Hset
          | apply Hset; [done|intros; by destruct (_ && _)..]
          | eapply (Hown _ _ _ _ E); [done|done|done|apply (Hset s t' (TClean rest PCount) eq_refl); done..]
          | cbn; split; intros ? ?; rewrite lookup_empty; done ].
  - destruct (my_ctrs s !! c); [|done]. destruct (counter_fire _ _ _); [|done]. injection Hs as <- <-. cbn. eauto.
  - destruct (send_counter p s c _) as [[s1 r]|] eqn:E; [|done].
    apply send_counter_eq in E as (x & x' & Hx & Hh & ->). injection Hs as <- <-. cbn. eauto.
  - injection Hs as <- <-. cbn. eauto.
Qed.

(** * The counter of a registration, on its own *)
Definition own_run (p : profile) (t : N) (s0 : msys) (es : list mevent) (l : mlog) (now : N) (c : nat) (x : counter) : Prop :=
  exists t0 m0 sched os, registered t c l = Some (t0, m0) /\
    counter_run p (CounterSys t0 (counter_start m0)) sched = Some (CounterSys now x, os) /\
    c_visits t0 sched os = visits t c l /\
    (forall d, CeMsg (CmSetInternalData d) ∈ sched -> restored c l) /\
    (prompt p s0 es c -> prompt_c p (CounterSys t0 (counter_start m0)) sched).
Record site_inv (p : profile) (t : N) (s0 : msys) (es : list mevent) (l : mlog) (s : msys) : Prop := SiteInv {
  sv_now : my_now s = log_time t l;
  sv_req : my_reqs s = log_requests l;
  sv_visit : forall tk k c, my_tasks s !! tk = Some (TVisit k c) -> exists k', k = Some k' /\ routed l k' = Some c;
  sv_set : forall tk c d, my_tasks s !! tk = Some (TSet c d) -> restored c l;
  sv_own : forall c x, my_ctrs s !! c = Some x -> own_run p t s0 es l (my_now s) c x;
  sv_range : forall c, (length (my_ctrs s) <= c)%nat -> visits t c l = [] }.

Lemma log_time_cons t e o l : (forall d, e <> MeTick d) -> log_time t ((e, o) :: l) = log_time t l.
Proof. intros H. destruct e; try done. by destruct (H d). Qed.
Lemma registered_cons t c e o l : no_reg o -> registered t c ((e, o) :: l) = registered t c l.
Proof.
  intros H. cbn. destruct (handled o) as [|[] [|]] eqn:E; try done. by destruct (H id m).
Qed.
Lemma visits_silent t c e o l : silent o -> visits t c ((e, o) :: l) = visits t c l.
Proof. intros H. cbn. rewrite silent_said by done. cbn. apply app_nil_r. Qed.
Lemma restored_cons c e o l : restored c l -> restored c ((e, o) :: l).
Proof. intros. right. by right. Qed.
Lemma routed_cons e o l k : (k < log_requests l)%nat -> routed ((e, o) :: l) k = routed l k.
Proof. intros Hk. destruct e as [[]| | | |]; try done. cbn. destruct (decide _); [lia|done]. Qed.
Lemma prompt_init p s0 es e c : prompt p s0 (es ++ [e]) c -> prompt p s0 es c.
Proof.
  intros H es1 e' es2 s1 tr1 s2 o x v id ->. eapply (H es1 e' (es2 ++ [e])). by rewrite <- app_assoc.
Qed.

(** One more event of the Master: nothing for this counter, or an event of its
    own. *)
Lemma own_keep p t s0 es e o l now c x :
  own_run p t s0 es l now c x -> registered t c ((e, o) :: l) = registered t c l ->
  visits t c ((e, o) :: l) = visits t c l -> own_run p t s0 (es ++ [e]) ((e, o) :: l) now c x.
Proof.
  intros (t0 & m0 & sched & os & H1 & H2 & H3 & H4 & H5) Hr Hv. exists t0, m0, sched, os.
  rewrite Hr, Hv. split_and!; try done.
  - intros d Hd. by eapply restored_cons, H4.
  - intros Hp. apply H5. by eapply prompt_init.
Qed.
Lemma own_step p t s0 es e o l now now' c x x' ce r :
  own_run p t s0 es l now c x -> now = log_time t l ->
  registered t c ((e, o) :: l) = registered t c l ->
  counter_step p (CounterSys now x) ce = Some (CounterSys now' x', r) ->
  visits t c ((e, o) :: l) = visits t c l ++ match ce, r with CeMsg _, Some (CrAdded v) => [(log_time t l, v)] | _, _ => [] end ->
  (forall d, ce = CeMsg (CmSetInternalData d) -> restored c ((e, o) :: l)) ->
  (forall v, r = Some (CrAdded v) -> ce = CeMsg CmAddVisitor -> prompt p s0 (es ++ [e]) c -> no_overdue p (CounterSys now x)) ->
  own_run p t s0 (es ++ [e]) ((e, o) :: l) now' c x'.
Proof.
  intros (t0 & m0 & sched & os & H1 & H2 & H3 & H4 & H5) Hn Hr Hstep Hv Hset Hp.
  exists t0, m0, (sched ++ [ce]), (os ++ [r]). rewrite Hr, Hv. split_and!; try done.
  - apply counter_run_snoc. eauto 6.
  - rewrite c_visits_snoc by by eapply counter_run_length. rewrite H3.
    pose proof (counter_run_now _ _ _ _ _ H2) as Hc. cbn in Hc. by rewrite <- Hc, Hn.
  - intros d [Hd|Hd]%elem_of_app; [by eapply restored_cons, H4|]. apply elem_of_list_singleton in Hd. by eapply Hset.
  - intros Hpr a b s1 os1 s2 v Hab Hrun Hadd. destruct b as [|y b _] using rev_ind.
    + apply app_inj_2 in Hab as [-> [= ->]]; [|done]. rewrite H2 in Hrun. injection Hrun as <- <-.
      rewrite Hstep in Hadd. injection Hadd as _ ->. by eapply Hp.
    + rewrite app_comm_cons, app_assoc in Hab. apply app_inj_2 in Hab as [-> _]; [|done].
      eapply H5; [by eapply prompt_init|done|done|done].
Qed.

Lemma added_visit p now x x' v msg : counter_handle p now x msg = (x', CrAdded v) -> msg = CmAddVisitor.
Proof. unfold counter_handle. destruct (ct_alive x); [|done]. by destruct msg. Qed.

Lemma site_inv_step p t gc es s tr e s' o :
  let s0 := m_start t gc in let l := m_log p s0 es [] in
  m_run p s0 es = Some (s, tr) -> site_inv p t s0 es l s -> m_step p s e = Some (s', o) ->
  site_inv p t s0 (es ++ [e]) ((e, o) :: l) s'.
Proof.
  intros s0 l Hrun Hi Hs.
  pose proof (run_tracks _ _ _ _ _ _ Hrun) as [Ht1 Ht2]. rewrite <- (log_hist_eq _ _ _ _ _ Hrun) in Ht1, Ht2. fold s0 l in Ht1, Ht2.
  pose proof (run_inv _ _ _ _ _ _ Hrun) as Hm.
  assert (forall id, si_ctr <$> my_sites s !! id = bound (log_hist l) id) as Hb.
  { intros id. rewrite Ht1. unfold entry. by destruct (bound _ _). }
  assert (forall c id, prompt p s0 (es ++ [e]) c -> (exists x v, x ∈ o /\ said l c x = Some v) ->
     forall x, my_ctrs s !! c = Some x -> counter_fire (my_now s) x id = None) as Hprompt.
  { intros c id Hp (x & v & Hx & Hsaid) y Hy.
    pose proof (Hp es e [] s tr s' o x v id eq_refl Hrun Hs Hx Hsaid) as Hf. cbn in Hf. rewrite Hy in Hf.
    by destruct (counter_fire _ _ _). }
  pose proof (m_step_effect _ _ _ _ _ Hs) as He.
  assert ((my_now s' = log_time t ((e, o) :: l)) /\
    (forall c x, my_ctrs s' !! c = Some x -> own_run p t s0 (es ++ [e]) ((e, o) :: l) (my_now s') c x) /\
    (forall c, (length (my_ctrs s') <= c)%nat -> visits t c ((e, o) :: l) = [])) as (G1 & G2 & G3).
  { pose proof (sv_now _ _ _ _ _ _ Hi) as Hnow.
    assert (forall c x x' r msg, my_ctrs s !! c = Some x -> counter_handle p (my_now s) x msg = (x', r) ->
        my_ctrs s' = <[c := x']> (my_ctrs s) -> my_now s' = my_now s -> no_reg o -> (forall d, e <> MeTick d) ->
        (forall c', omap (said l c') o = match r with CrAdded v => if decide (c' = c) then [v] else [] | _ => [] end) ->
        (forall d, msg = CmSetInternalData d -> restored c ((e, o) :: l)) ->
        (my_now s' = log_time t ((e, o) :: l)) /\
        (forall c x, my_ctrs s' !! c = Some x -> own_run p t s0 (es ++ [e]) ((e, o) :: l) (my_now s') c x) /\
        (forall c, (length (my_ctrs s') <= c)%nat -> visits t c ((e, o) :: l) = [])) as Hmsg.
    { intros c x x' r msg Hx Hh Hc Hn Hnr Hnt Hom Hset. rewrite log_time_cons by done. split; [by rewrite Hn|].
      assert (forall c', visits t c' ((e, o) :: l) = visits t c' l ++
         (pair (log_time t l) <$> match r with CrAdded v => if decide (c' = c) then [v] else [] | _ => [] end)) as Hv.
      { intros c'. cbn. by rewrite Hom. }
      assert (forall c', c' <> c -> visits t c' ((e, o) :: l) = visits t c' l) as Hvn.
      { intros c' Hne. rewrite Hv. destruct r; cbn; rewrite ?app_nil_r; try done. rewrite decide_False by done. apply app_nil_r. }
      split.
      - intros c' y. rewrite Hc, Hn. intros Hy. destruct (decide (c' = c)) as [->|Hne].
        + rewrite list_lookup_insert in Hy by by eapply lookup_lt_Some. injection Hy as <-.
          eapply (own_step _ _ _ _ _ _ _ (my_now s) _ _ x _ (CeMsg msg) (Some r)).
          * by apply (sv_own _ _ _ _ _ _ Hi).
          * done.
          * by apply registered_cons.
          * cbn. by rewrite Hh.
          * rewrite Hv. destruct r; cbn; try done. by rewrite decide_True.
          * intros d [= Hd]. by eapply Hset.
          * intros v [= ->] [= ->] Hp id. cbn.
            rewrite (Hprompt c id Hp); [done| |done].
            specialize (Hom c). rewrite decide_True in Hom by done.
            assert (v ∈ omap (said l c) o) as Hin by (rewrite Hom; by left).
            apply elem_of_list_omap in Hin as (z & ? & ?). eauto.
        + rewrite list_lookup_insert_ne in Hy by done. apply own_keep; [|by apply registered_cons|by apply Hvn].
          by apply (sv_own _ _ _ _ _ _ Hi).
      - intros c'. rewrite Hc, insert_length. intros Hle. rewrite Hvn; [by apply (sv_range _ _ _ _ _ _ Hi)|].
        intros ->. apply lookup_lt_Some in Hx. lia. }
    destruct He as [s' o Hc Hn Hsil Hnr Hnt|d s' He Hc Hn|id m s' o Hc Hn Hsil Hh Hnt|c id x x' s' He Hx Hf Hc Hn
      |c msg x x' r s' He Hx Hh Hc Hn|tk k c x x' r s' He Ht Hx Hh Hc Hn|tk c msg x x' r s' o He Hx Hh Hc Hn Hsil Hnr Hna Hset].
    - rewrite log_time_cons by done. split; [by rewrite Hn|]. split.
      + intros c x. rewrite Hc, Hn. intros Hx. apply own_keep; [|by apply registered_cons|by apply visits_silent].
        by apply (sv_own _ _ _ _ _ _ Hi).
      + intros c. rewrite Hc, visits_silent by done. by apply (sv_range _ _ _ _ _ _ Hi).
    - subst e. cbn [log_time]. split; [by rewrite Hn, Hnow|]. split.
      + intros c x. rewrite Hc, Hn. intros Hx.
        eapply (own_step _ _ _ _ _ _ _ (my_now s) _ _ x _ (CeTick d) None); try done.
        by apply (sv_own _ _ _ _ _ _ Hi).
      + intros c. rewrite Hc, visits_silent by done. by apply (sv_range _ _ _ _ _ _ Hi).
    - rewrite log_time_cons by done. split; [by rewrite Hn|].
      assert (forall c, registered t c ((e, o) :: l) =
         if decide (c = length (my_ctrs s)) then Some (log_time t l, m) else registered t c l) as Hreg.
      { intros c. cbn. rewrite Hh, Ht2. done. }
      split.
      + intros c x. rewrite Hc, Hn. intros Hx. apply lookup_app_Some in Hx as [Hx|[Hle Hx]].
        * apply own_keep; [|rewrite Hreg, decide_False; [done|]|by apply visits_silent].
          -- by apply (sv_own _ _ _ _ _ _ Hi).
          -- apply lookup_lt_Some in Hx. lia.
        * destruct (c - length (my_ctrs s))%nat as [|] eqn:E; [|done]. cbn in Hx. injection Hx as <-.
          exists (log_time t l), m, [], []. rewrite Hreg, decide_True by lia. rewrite <- Hnow.
          split_and!; [done|done| | |].
          -- rewrite visits_silent by done. cbn. symmetry. by apply (sv_range _ _ _ _ _ _ Hi).
          -- intros d Hd. by apply elem_of_nil in Hd.
          -- intros _ [] b s1 os1 s2 v Hb'; done.
      + intros c. rewrite Hc, app_length, visits_silent by done. intros Hle. apply (sv_range _ _ _ _ _ _ Hi). lia.
    - subst e. cbn [log_time]. split; [by rewrite Hn|]. split.
      + intros c' y. rewrite Hc, Hn. intros Hy. destruct (decide (c' = c)) as [->|Hne].
        * rewrite list_lookup_insert in Hy by by eapply lookup_lt_Some. injection Hy as <-.
          eapply (own_step _ _ _ _ _ _ _ (my_now s) _ _ x _ (CeFire id) None); try done.
          -- by apply (sv_own _ _ _ _ _ _ Hi).
          -- cbn. by rewrite Hf.
        * rewrite list_lookup_insert_ne in Hy by done. apply own_keep; [|done|by apply visits_silent].
          by apply (sv_own _ _ _ _ _ _ Hi).
      + intros c'. rewrite Hc, insert_length, visits_silent by done. by apply (sv_range _ _ _ _ _ _ Hi).
    - subst e. eapply Hmsg; try done.
      + intros c'. cbn. destruct r; try done. cbn. destruct (decide (c = c')), (decide (c' = c)); subst; done.
      + intros d ->. left. by eexists.
    - subst e. destruct (sv_visit _ _ _ _ _ _ Hi _ _ _ Ht) as (k' & -> & Hk'). eapply Hmsg; try done.
      intros c'. cbn. destruct r; cbn; try done. rewrite Hk'.
      destruct (decide (Some c = Some c')), (decide (c' = c)); try done; congruence.
    - subst e. eapply Hmsg; try done.
      + intros c'. rewrite silent_said by done. destruct r; try done. by apply added_visit in Hh.
      + intros d Hd. apply restored_cons. eapply (sv_set _ _ _ _ _ _ Hi). by eapply Hset. }
  assert (forall k, (k < my_reqs s)%nat -> routed ((e, o) :: l) k = routed l k) as Hrt.
  { intros k Hk. apply routed_cons. by rewrite <- (sv_req _ _ _ _ _ _ Hi). }
  split; try done.
  - assert ((exists r, e = MeReq r) \/ forall r, e <> MeReq r) as [[r ->]|Hr] by (destruct e; eauto).
    + cbn [log_requests]. rewrite <- (sv_req _ _ _ _ _ _ Hi). cbn [m_step] in Hs.
      destruct (my_alive s); [|by injection Hs as <- <-].
      destruct (m_handle _ _ r) as [s1 o1] eqn:E. injection Hs as <- <-. by apply m_handle_frame in E as (_ & -> & _).
    + rewrite (m_step_reqs_eq _ _ _ _ _ Hr Hs), (sv_req _ _ _ _ _ _ Hi). destruct e; try done. by destruct (Hr r).
  - intros tk k c Hk. destruct (m_step_new _ _ _ _ _ tk Hs) as [H1 _].
    destruct (H1 _ _ Hk) as [Ho|(-> & id & -> & Hid)].
    + destruct (sv_visit _ _ _ _ _ _ Hi _ _ _ Ho) as (k' & -> & Hk'). exists k'. split; [done|].
      rewrite Hrt; [done|]. apply (mv_task _ Hm) in Ho as (_ & _ & Ho & _). by apply Forall_cons in Ho as [? _].
    + exists (my_reqs s). split; [done|]. cbn. rewrite decide_True by apply (sv_req _ _ _ _ _ _ Hi). by rewrite <- Hb.
  - intros tk c d Hk. destruct (m_step_new _ _ _ _ _ tk Hs) as [_ H1].
    destruct (H1 _ _ Hk) as [Ho|(d' & id & ? & ? & Hid)].
    + by eapply restored_cons, sv_set.
    + right. left. exists d', id. by rewrite <- Hb.
Qed.
Lemma site_inv_run p t gc es s tr :
  m_run p (m_start t gc) es = Some (s, tr) -> site_inv p t (m_start t gc) es (m_log p (m_start t gc) es []) s.
Proof.
  revert s tr. induction es as [|e es IH] using rev_ind; intros s tr Hr.
  - injection Hr as <- <-. split; cbn; try done.
    + intros tk k c. destruct (decide (tk = 0%nat)) as [->|]; [by rewrite lookup_singleton|].
      by rewrite lookup_singleton_ne.
    + intros tk c d. destruct (decide (tk = 0%nat)) as [->|]; [by rewrite lookup_singleton|].
      by rewrite lookup_singleton_ne.
  - apply m_run_snoc in Hr as (s1 & tr1 & o & H1 & H2 & ->).
    rewrite (m_log_snoc _ _ _ _ _ _ _ _ H1 H2). eapply site_inv_step; [exact H1|by eapply IH|done].
Qed.

(** * What the sites' visitors get *)
Lemma prompt_c_prefix p s0 a b : prompt_c p s0 (a ++ b) -> prompt_c p s0 a.
Proof. intros H a' b' s1 os1 s2 v ->. apply (H a' (b' ++ b)). by rewrite <- app_assoc. Qed.
Lemma not_restored_no_restore (sched : list counter_event) c l :
  (forall d, CeMsg (CmSetInternalData d) ∈ sched -> restored c l) -> ~ restored c l -> no_restore sched.
Proof.
  intros H Hn. apply Forall_forall. intros [[]| |] Hin; try done. by apply Hn, (H m).
Qed.
Lemma site_own p t gc es s tr c t0 m :
  m_run p (m_start t gc) es = Some (s, tr) -> registered t c (m_log p (m_start t gc) es []) = Some (t0, m) ->
  exists x, my_ctrs s !! c = Some x.
Proof.
  intros Hr Hreg. apply lookup_lt_is_Some. pose proof (run_tracks _ _ _ _ _ _ Hr) as [_ ->].
  rewrite <- (log_hist_eq _ _ _ _ _ Hr). remember (m_log p (m_start t gc) es []) as l. clear Heql Hr.
  induction l as [|[e o] l IH]; [done|]. rewrite log_hist_cons. cbn in Hreg.
  assert (forall a h, (registrations h <= registrations (a ++ h))%nat) as Hle.
  { intros a h. unfold registrations. rewrite omap_app, app_length. lia. }
  assert (registered t c l = Some (t0, m) -> (c < registrations (reverse (handled o) ++ log_hist l))%nat) as IH'.
  { intros H. specialize (IH H). pose proof (Hle (reverse (handled o)) (log_hist l)). lia. }
  destruct (handled o) as [|r [|]] eqn:E; [by apply IH'| |by destruct r; apply IH'].
  destruct r; try (by apply IH').
  change (reverse [_] ++ ?h) with (RqAddSite id m0 :: h). rewrite registrations_cons.
  destruct (decide _); [|specialize (IH Hreg)]; lia.
Qed.

Lemma site_count_saved p t gc es s tr c t0 m n :
  m_run p (m_start t gc) es = Some (s, tr) ->
  let l := m_log p (m_start t gc) es [] in let times := (visits t c l).*1 in
  registered t c l = Some (t0, m) -> reachable_mcaptcha p m -> ~ restored c l ->
  m_visitors m + count times <= u32_max -> count_at s c n ->
  m_visitors m + window (m_duration m) (my_now s) times <= n <= m_visitors m + count times /\
  ((forall id, m_step p s (MeFire c id) = None) -> n = m_visitors m + window (m_duration m) (my_now s) times).
Proof.
  intros Hr l times Hreg Hb Hnr Hfit (x & Hx & Ha & Hn).
  destruct (reachable_mwf p m Hb) as (Hm & _).
  destruct (sv_own _ _ _ _ _ _ (site_inv_run _ _ _ _ _ _ Hr) _ _ Hx) as (t1 & m1 & sched & os & G1 & G2 & G3 & G4 & _).
  fold l in G1, G3, G4. rewrite Hreg in G1. injection G1 as <- <-.
  pose proof (not_restored_no_restore _ _ _ G4 Hnr) as Hno.
  destruct (alive_visits _ _ _ _ _ _ G2 Hno Ha) as [Hvo Ht]. rewrite G3 in Ht. fold times in Ht.
  assert (m_visitors m + count (arrivals_of 0 t0 sched) <= u32_max) as Hfit'.
  { revert Hfit. rewrite Ht. unfold count. by rewrite fmap_length. }
  destruct (window_from_start p t0 m sched _ os Hm Hvo G2) as (n' & W1 & W2 & W3 & W4); [done|].
  assert (n' = n) as ->.
  { unfold reads_count in W1. cbn in W1. unfold counter_handle in W1. rewrite Ha in W1. injection W1 as <-. done. }
  pose proof (counter_run_now _ _ _ _ _ G2) as Hclk. cbn in Hclk. rewrite <- Hclk in W3, W4.
  rewrite <- window_young, <- Ht in W3, W4. split; [split; [done|]|].
  - rewrite W2, Ht. unfold count, unexpired. rewrite fmap_length.
    pose proof (filter_length (fun a : nat * N => CeFire a.1 ∉ sched) (arrivals_of 0 t0 sched)). lia.
  - intros Hp. apply W4. intros id. specialize (Hp id). cbn in Hp |- *. rewrite Hx in Hp.
    by destruct (counter_fire _ _ _).
Qed.
Lemma site_count p t gc es s tr c t0 m n :
  m_run p (m_start t gc) es = Some (s, tr) ->
  let l := m_log p (m_start t gc) es [] in let times := (visits t c l).*1 in
  registered t c l = Some (t0, m) -> built_mcaptcha p m -> ~ restored c l -> count times <= u32_max ->
  count_at s c n ->
  window (m_duration m) (my_now s) times <= n <= count times /\
  ((forall id, m_step p s (MeFire c id) = None) -> n = window (m_duration m) (my_now s) times).
Proof.
  intros Hr l times Hreg Hb Hnr Hfit Hn. destruct (built_mwf p m Hb) as (_ & H0 & _).
  assert (reachable_mcaptcha p m) as Hre by (by exists m, []).
  pose proof (site_count_saved _ _ _ _ _ _ _ _ _ n Hr Hreg Hre Hnr) as H.
  rewrite H0 in H. rewrite !N.add_0_l in H. by apply H.
Qed.

Lemma site_told p t gc es s tr c t0 m :
  m_run p (m_start t gc) es = Some (s, tr) ->
  let l := m_log p (m_start t gc) es [] in
  let vs := visits t c l in let times := vs.*1 in
  let ls := d_levels (m_defense m) in
  registered t c l = Some (t0, m) -> built_mcaptcha p m -> ~ restored c l ->
  Forall (fun v => avr_duration v = m_duration m /\
    exists lv, lv ∈ ls /\ avr_difficulty_factor v = difficulty_factor lv) vs.*2 /\
  (count times <= u32_max ->
   exists ns, length ns = length vs /\
    Some <$> (avr_difficulty_factor <$> vs.*2) = climb ls (N.to_nat (d_current (m_defense m))) ns /\
    (forall k n, ns !! k = Some n -> exists tm, times !! k = Some tm /\
       1 + window (m_duration m) tm (take k times) <= n <= N.of_nat k + 1) /\
    (forall k a b, ns !! k = Some a -> ns !! S k = Some b -> b <= a + 1) /\
    (prompt p (m_start t gc) es c -> ns = numbers (m_duration m) times)).
Proof.
  intros Hr l vs times ls Hreg Hb Hnr. destruct (built_mwf p m Hb) as (Hm & H0 & _).
  destruct (site_own _ _ _ _ _ _ _ _ _ Hr Hreg) as (x & Hx).
  destruct (sv_own _ _ _ _ _ _ (site_inv_run _ _ _ _ _ _ Hr) _ _ Hx) as (t1 & m1 & sched & os & G1 & G2 & G3 & G4 & G5).
  fold l in G1, G3, G4. fold vs in G3. rewrite Hreg in G1. injection G1 as <- <-.
  pose proof (not_restored_no_restore _ _ _ G4 Hnr) as Hno. split.
  - destruct (told_in_ladder _ _ _ _ _ _ Hm Hno G2) as (_ & _ & _ & H). rewrite G3 in H.
    apply Forall_fmap. exact H.
  - intros Hfit. destruct (alive_prefix _ _ _ _ _ _ G2) as (a & b & s1 & os1 & -> & A1 & A2 & A3). rewrite G3 in A3.
    apply Forall_app in Hno as [Hno _]. destruct (alive_visits _ _ _ _ _ _ A1 Hno A2) as [Hvo Ht]. rewrite A3 in Ht. fold times in Ht.
    destruct (counter_told p t0 m a s1 os1 Hm H0 Hvo A1) as (_ & ns & N1 & N2 & N3 & N4 & N5 & N6 & _).
    { revert Hfit. rewrite Ht. unfold count. by rewrite fmap_length. }
    rewrite A3 in N1, N2, N4, N5. exists ns. split_and!; try done. intros Hp. apply N5.
    by eapply prompt_c_prefix, G5.
Qed.

(** Who is told something is a visitor of the registration the request was for. *)
Lemma log_step p s es s' tr x :
  m_run p s es = Some (s', tr) -> x ∈ tr ->
  exists es1 e es2 s1 tr1 s2 o, es = es1 ++ e :: es2 /\ m_run p s es1 = Some (s1, tr1) /\ m_step p s1 e = Some (s2, o) /\ x ∈ o.
Proof.
  revert s' tr. induction es as [|e es IH] using rev_ind; intros s' tr Hr Hx.
  - injection Hr as <- <-. by apply elem_of_nil in Hx.
  - apply m_run_snoc in Hr as (s1 & tr1 & o & H1 & H2 & ->). apply elem_of_app in Hx as [Hx|Hx].
    + destruct (IH _ _ H1 Hx) as (es1 & e1 & es2 & a & tra & b & oa & -> & ? & ? & ?).
      exists es1, e1, (es2 ++ [e]), a, tra, b, oa. rewrite <- app_assoc. done.
    + exists es, e, [], s1, tr1, s', o. done.
Qed.
Lemma m_log_app p s es1 es2 s1 tr1 :
  m_run p s es1 = Some (s1, tr1) -> m_log p s (es1 ++ es2) [] = m_log p s1 es2 [] ++ m_log p s es1 [].
Proof.
  revert s tr1. induction es1 as [|e es1 IH]; intros s tr1 Hr; cbn in Hr |- *.
  - injection Hr as <- <-. by rewrite app_nil_r.
  - destruct (m_step p s e) as [[s2 o]|]; [|done]. destruct (m_run p s2 es1) as [[s3 os]|] eqn:E; [|done].
    injection Hr as <- <-. rewrite m_log_acc, (IH _ _ E), (m_log_acc p s2 es1 [_]), <- app_assoc. done.
Qed.
Lemma visits_app t c l1 l2 x : x ∈ visits t c l2 -> x ∈ visits t c (l1 ++ l2).
Proof.
  intros H. induction l1 as [|[e o] l1 IH]; [done|]. cbn. apply elem_of_app. by left.
Qed.
Lemma routed_app l1 l2 k : (k < log_requests l2)%nat -> routed (l1 ++ l2) k = routed l2 k.
Proof.
  intros Hk. induction l1 as [|[e o] l1 IH]; [done|]. cbn [app]. rewrite routed_cons; [done|].
  clear IH. induction l1 as [|[e1 o1] l1 IH]; [done|]. cbn. destruct e1; lia.
Qed.
Lemma told_visit p t gc es s tr k v :
  m_run p (m_start t gc) es = Some (s, tr) -> MoReply k (MrVisit (Ok (Some v))) ∈ tr ->
  let l := m_log p (m_start t gc) es [] in
  exists c, routed l k = Some c /\ v ∈ (visits t c l).*2.
Proof.
  intros Hr Hin l. destruct (log_step _ _ _ _ _ _ Hr Hin) as (es1 & e & es2 & s1 & tr1 & s2 & o & -> & H1 & H2 & Ho).
  pose proof (site_inv_run _ _ _ _ _ _ H1) as Hi. pose proof (run_inv _ _ _ _ _ _ H1) as Hm.
  destruct (m_step_effect _ _ _ _ _ H2) as [s' o Hc Hn Hsil Hnr Hnt|d s' He Hc Hn|id m s' o Hc Hn Hsil Hh Hnt|c id x x' s' He Hx Hf Hc Hn
      |c msg x x' r s' He Hx Hh Hc Hn|tk k0 c x x' r s' He Ht Hx Hh Hc Hn|tk c msg x x' r s' o He Hx Hh Hc Hn Hsil Hnr Hna Hset].
  - unfold silent in Hsil. rewrite Forall_forall in Hsil. by specialize (Hsil _ Ho).
  - by apply elem_of_nil in Ho.
  - unfold silent in Hsil. rewrite Forall_forall in Hsil. by specialize (Hsil _ Ho).
  - by apply elem_of_nil in Ho.
  - by apply elem_of_list_singleton in Ho.
  - destruct (sv_visit _ _ _ _ _ _ Hi _ _ _ Ht) as (k' & -> & Hk'). cbn in Ho. apply elem_of_list_singleton in Ho.
    injection Ho as -> Hv. destruct r as [v'| | | |]; try done. injection Hv as ->.
    exists c. unfold l. rewrite (m_log_app _ _ _ _ _ _ H1). cbn [m_log]. rewrite H2, m_log_acc, <- app_assoc. cbn [app].
    destruct (mv_task _ Hm _ _ Ht) as (_ & _ & Hq & _). apply Forall_cons in Hq as [Hq _].
    rewrite (sv_req _ _ _ _ _ _ Hi) in Hq. split.
    + rewrite routed_app; [by rewrite routed_cons|]. cbn. by rewrite He.
    + apply elem_of_list_fmap. eexists (_, v'). split; [done|]. apply visits_app. cbn. apply elem_of_app. right.
      rewrite decide_True by done. by left.
  - unfold silent in Hsil. rewrite Forall_forall in Hsil. by specialize (Hsil _ Ho).
Qed.
Lemma routed_request p t gc es1 s1 tr1 id es2 s tr :
  m_run p (m_start t gc) es1 = Some (s1, tr1) ->
  m_run p (m_start t gc) (es1 ++ MeReq (RqAddVisitor id) :: es2) = Some (s, tr) ->
  routed (m_log p (m_start t gc) (es1 ++ MeReq (RqAddVisitor id) :: es2) []) (my_reqs s1) = bound (hist tr1) id.
Proof.
  intros H1 H2. pose proof (site_inv_run _ _ _ _ _ _ H1) as Hi.
  rewrite (m_log_app _ _ _ _ _ _ H1). cbn [m_log].
  apply m_run_app in H2 as (s2 & tr2 & tr3 & H2 & H3 & ->). rewrite H1 in H2. injection H2 as <- <-.
  cbn [Master.m_run] in H3.
  destruct (m_step p s1 (MeReq (RqAddVisitor id))) as [[s2 o]|] eqn:E; [|done].
  rewrite m_log_acc, <- app_assoc. cbn [app]. rewrite routed_app.
  - cbn. rewrite decide_True by apply (sv_req _ _ _ _ _ _ Hi). by rewrite (log_hist_eq _ _ _ _ _ H1).
  - cbn. rewrite (sv_req _ _ _ _ _ _ Hi). lia.
Qed.
(** Registrations are told apart and dated by the log. *)
Lemma registered_some p t gc es s tr c x :
  m_run p (m_start t gc) es = Some (s, tr) -> my_ctrs s !! c = Some x ->
  exists t0 m, registered t c (m_log p (m_start t gc) es []) = Some (t0, m).
Proof.
  intros Hr Hx. destruct (sv_own _ _ _ _ _ _ (site_inv_run _ _ _ _ _ _ Hr) _ _ Hx) as (t0 & m & ? & ? & ? & _). eauto.
Qed.

(** What a log says stays said. *)
Lemma registered_app t c l1 l2 x : registered t c l2 = Some x -> registered t c (l1 ++ l2) = Some x.
Proof.
  intros H2. assert (c < registrations (log_hist l2))%nat as Hlt.
  { clear l1. induction l2 as [|[e o] l IH]; [done|]. rewrite log_hist_cons. cbn in H2.
    assert (forall a h, (registrations h <= registrations (a ++ h))%nat) as Hle.
    { intros a h. unfold registrations. rewrite omap_app, app_length. lia. }
    assert (registered t c l = Some x -> (c < registrations (reverse (handled o) ++ log_hist l))%nat) as IH'.
    { intros H. specialize (IH H). pose proof (Hle (reverse (handled o)) (log_hist l)). lia. }
    destruct (handled o) as [|r [|]] eqn:E; [by apply IH'| |by destruct r; apply IH'].
    destruct r; try (by apply IH').
    change (reverse [_] ++ ?h) with (RqAddSite id m :: h). rewrite registrations_cons.
    destruct (decide _); [|specialize (IH H2)]; lia. }
  induction l1 as [|[e o] l1 IH]; [done|]. cbn.
  assert (registrations (log_hist l2) <= registrations (log_hist (l1 ++ l2)))%nat as Hle.
  { unfold log_hist. rewrite bind_app. unfold registrations. rewrite omap_app, app_length. lia. }
  destruct (handled o) as [|r [|]]; [done| |by destruct r].
  destruct r; try done. destruct (decide _); [lia|done].
Qed.
Lemma restored_app c l1 l2 : restored c l2 -> restored c (l1 ++ l2).
Proof. intros H. induction l1 as [|[e o] l1 IH]; [done|]. by apply restored_cons. Qed.
Lemma visits_app_count t c l1 l2 : count (visits t c l2).*1 <= count (visits t c (l1 ++ l2)).*1.
Proof.
  unfold count. rewrite !fmap_length. induction l1 as [|[e o] l1 IH]; [done|]. cbn. rewrite app_length. lia.
Qed.
(** * Quiet and busy sites *)
Lemma climb_quiet ls l ns :
  ls !! 0%nat = Some l -> Forall (fun n => n <= visitor_threshold l) ns ->
  climb ls 0 ns = replicate (length ns) (Some (difficulty_factor l)).
Proof.
  intros Hl. induction ns as [|n ns IH]; intros Hq; [done|]. apply Forall_cons in Hq as [Hn Hq]. cbn [climb length replicate].
  assert (next_level ls 0 n = 0%nat) as ->. { unfold next_level. rewrite Hl. replace (_ <? _) with false by lia. done. }
  rewrite Hl, IH by done. done.
Qed.
Lemma climb_end_calm ls i l ns :
  ascending ls -> ls !! 0%nat = Some l -> (i < length ls)%nat -> Forall (fun n => n <= visitor_threshold l) ns ->
  climb_end ls i ns = (i - length ns)%nat.
Proof.
  intros Ha Hl. revert i. induction ns as [|n ns IH]; intros i Hi Hq; cbn; [lia|]. apply Forall_cons in Hq as [Hn Hq].
  assert (next_level ls i n = (i - 1)%nat) as ->; [|rewrite IH; [lia|lia|done]].
  unfold next_level. destruct (lookup_lt_is_Some_2 ls i Hi) as [x Hx]. rewrite Hx.
  assert (visitor_threshold l <= visitor_threshold x) as Hle; [|by replace (_ <? _) with false by lia].
  unfold ascending in Ha. destruct ls as [|h r]; [done|]. injection Hl as ->. apply StronglySorted_inv in Ha as [_ Ha].
  destruct i as [|i]; [by injection Hx as ->|]. rewrite Forall_lookup in Ha. specialize (Ha _ _ Hx). lia.
Qed.
Lemma climb_app ls i a b : climb ls i (a ++ b) = climb ls i a ++ climb ls (climb_end ls i a) b.
Proof. revert i. induction a as [|n a IH]; intros i; [done|]. cbn. by rewrite IH. Qed.
Lemma climb_end_app ls i a b : climb_end ls i (a ++ b) = climb_end ls (climb_end ls i a) b.
Proof. revert i. induction a as [|n a IH]; intros i; [done|]. apply IH. Qed.
Lemma climb_end_lt ls i ns : (i < length ls)%nat -> (climb_end ls i ns < length ls)%nat.
Proof.
  revert i. induction ns as [|n ns IH]; intros i Hi; [done|]. cbn. apply IH. unfold next_level.
  destruct (ls !! i); [|done]. destruct (_ <? _); lia.
Qed.
Lemma sorted_lookup_lt {A} (R : A -> A -> Prop) (l : list A) :
  StronglySorted R l -> forall i j x y, (i < j)%nat -> l !! i = Some x -> l !! j = Some y -> R x y.
Proof.
  induction 1 as [|h r Hr IH Hh]; intros i j x y Hij Hx Hy; [done|]. destruct j as [|j]; [lia|]. cbn in Hy.
  destruct i as [|i]; cbn in Hx; [|by apply (IH i j); [lia|..]].
  injection Hx as <-. rewrite Forall_lookup in Hh. by apply (Hh j).
Qed.
(** When the numbers rise by at most one at a time, a visitor whose number exceeds
    the threshold of a level is told at least this level. *)
Lemma next_floor ls i b n :
  ascending ls -> (i < length ls)%nat -> n <= b + 1 ->
  (forall x, ls !! S i = Some x -> b <= visitor_threshold x) ->
  forall x, ls !! S (next_level ls i n) = Some x -> n <= visitor_threshold x.
Proof.
  intros Ha Hi Hn Hb x Hx. destruct (lookup_lt_is_Some_2 ls i Hi) as [l Hl]. unfold next_level in Hx. rewrite Hl in Hx.
  destruct (N.ltb_spec (visitor_threshold l) n) as [Hlt|Hge].
  - destruct (decide (S i < length ls)%nat) as [Hs|Hs].
    + replace (Nat.min (i + 1) (length ls - 1)) with (S i) in Hx by lia.
      destruct (lookup_lt_is_Some_2 ls (S i) Hs) as [y Hy]. specialize (Hb _ Hy).
      enough (visitor_threshold y < visitor_threshold x) by lia.
      apply (sorted_lookup_lt _ _ Ha (S i) (S (S i))); [lia|done|done].
    + replace (Nat.min (i + 1) (length ls - 1)) with i in Hx by lia. apply lookup_lt_Some in Hx. lia.
  - destruct i as [|i].
    + enough (visitor_threshold l < visitor_threshold x) by lia.
      apply (sorted_lookup_lt _ _ Ha 0%nat 1%nat); [lia|done|done].
    + cbn in Hx. rewrite Nat.sub_0_r, Hl in Hx. by injection Hx as <-.
Qed.
Lemma climb_end_floor ls i ns :
  ascending ls -> (i < length ls)%nat -> (forall n, ns !! 0%nat = Some n -> n <= 1) ->
  (forall k a b, ns !! k = Some a -> ns !! S k = Some b -> b <= a + 1) ->
  forall x, ls !! S (climb_end ls i ns) = Some x -> default 0 (last ns) <= visitor_threshold x.
Proof.
  intros Ha Hi. induction ns as [|n ns IH] using rev_ind; intros H0 Hr x Hx; [cbn; lia|].
  rewrite last_snoc. cbn. rewrite climb_end_snoc in Hx. revert x Hx. apply (next_floor _ _ (default 0 (last ns))); [done|by apply climb_end_lt| |].
  - destruct ns as [|y ns _] using rev_ind; [cbn; by apply H0|]. rewrite last_snoc. cbn. apply (Hr (length ns)).
    + rewrite <- app_assoc. by apply list_lookup_middle.
    + rewrite lookup_app_r; rewrite app_length; cbn; [|lia]. by replace (S (length ns) - (length ns + 1))%nat with 0%nat by lia.
  - apply IH.
    + intros y Hy. apply H0. by apply lookup_app_l_Some.
    + intros k a b Hka Hkb. apply (Hr k a b); by apply lookup_app_l_Some.
Qed.
Lemma climb_lookup ls i ns k :
  (k < length ns)%nat -> climb ls i ns !! k = Some (difficulty_factor <$> ls !! climb_end ls i (take (S k) ns)).
Proof.
  intros Hk. destruct (lookup_lt_is_Some_2 ns k Hk) as [n Hn]. rewrite (take_S_r _ _ _ Hn), climb_end_snoc.
  rewrite <- (take_drop_middle ns k n Hn) at 1. rewrite climb_app.
  rewrite lookup_app_r by (rewrite climb_length, take_length; lia).
  rewrite climb_length, take_length. by replace (k - min k (length ns))%nat with 0%nat by lia.
Qed.
Lemma climb_end_high ls i ns k n q x :
  ascending ls -> (i < length ls)%nat -> (forall n, ns !! 0%nat = Some n -> n <= 1) ->
  (forall k a b, ns !! k = Some a -> ns !! S k = Some b -> b <= a + 1) ->
  ns !! k = Some n -> ls !! q = Some x -> visitor_threshold x < n ->
  (q <= climb_end ls i (take (S k) ns) < length ls)%nat.
Proof.
  intros Ha Hi H0 Hr Hk Hq Hn. set (j := climb_end ls i (take (S k) ns)).
  assert (j < length ls)%nat as Hj by by apply climb_end_lt. split; [|done].
  destruct (decide (q <= j)%nat) as [|Hqj]; [done|]. exfalso.
  destruct (lookup_lt_is_Some_2 ls (S j)) as [z Hz]; [apply lookup_lt_Some in Hq; lia|].
  assert (n <= visitor_threshold z) as Hle.
  { pose proof (climb_end_floor ls i (take (S k) ns) Ha Hi) as Hf. fold j in Hf.
    rewrite (take_S_r _ _ _ Hk), last_snoc in Hf. cbn [from_option default] in Hf. rewrite <- (take_S_r _ _ _ Hk) in Hf.
    apply Hf; [|intros k' a b Hka Hkb|done].
    - intros y' Hy'. apply H0. by apply lookup_take_Some in Hy' as [? _].
    - apply lookup_take_Some in Hka as [? _]. apply lookup_take_Some in Hkb as [? _]. by eapply Hr. }
  destruct (decide (q = S j)) as [->|]; [rewrite Hq in Hz; injection Hz as ->; lia|].
  pose proof (sorted_lookup_lt _ _ Ha (S j) q z x ltac:(lia) Hz Hq) as Hzx. cbv beta in Hzx. lia.
Qed.
Lemma factors_le ls q j x y :
  factors_nondecreasing ls -> (q <= j)%nat -> ls !! q = Some x -> ls !! j = Some y -> difficulty_factor x <= difficulty_factor y.
Proof.
  intros Hf Hqj Hq Hj. destruct (decide (q = j)) as [->|]; [rewrite Hq in Hj; injection Hj as ->; lia|].
  apply (sorted_lookup_lt _ _ Hf q j); [lia|done|done].
Qed.
Lemma climb_floor ls i ns k n x :
  ladder ls -> (i < length ls)%nat -> (forall n, ns !! 0%nat = Some n -> n <= 1) ->
  (forall k a b, ns !! k = Some a -> ns !! S k = Some b -> b <= a + 1) ->
  ns !! k = Some n -> x ∈ ls -> visitor_threshold x < n ->
  exists d, climb ls i ns !! k = Some (Some d) /\ difficulty_factor x <= d.
Proof.
  intros Hlad Hi H0 Hr Hk Hx Hn. apply elem_of_list_lookup in Hx as [q Hq].
  rewrite climb_lookup by (by eapply lookup_lt_Some).
  destruct (climb_end_high ls i ns k n q x (ladder_ascending _ Hlad) Hi H0 Hr Hk Hq Hn) as [H1 H2].
  destruct (lookup_lt_is_Some_2 _ _ H2) as [y Hy]. rewrite Hy. exists (difficulty_factor y). split; [done|].
  eapply factors_le; [apply Hlad|exact H1|done|done].
Qed.
(** Two in a row above the threshold of a level: one of them is told more. *)
Lemma climb_two ls i ns k n n' q x y :
  ladder ls -> (i < length ls)%nat -> (forall n, ns !! 0%nat = Some n -> n <= 1) ->
  (forall k a b, ns !! k = Some a -> ns !! S k = Some b -> b <= a + 1) ->
  ns !! k = Some n -> ns !! S k = Some n' -> ls !! q = Some x -> ls !! S q = Some y ->
  visitor_threshold x < n -> visitor_threshold x < n' ->
  exists d d', climb ls i ns !! k = Some (Some d) /\ climb ls i ns !! S k = Some (Some d') /\
    (difficulty_factor y <= d \/ difficulty_factor y <= d').
Proof.
  intros Hlad Hi H0 Hr Hk Hk' Hq Hy Hn Hn'.
  destruct (climb_end_high ls i ns k n q x (ladder_ascending _ Hlad) Hi H0 Hr Hk Hq Hn) as [H1 H2].
  destruct (climb_end_high ls i ns (S k) n' q x (ladder_ascending _ Hlad) Hi H0 Hr Hk' Hq Hn') as [H3 H4].
  rewrite !climb_lookup by (by eapply lookup_lt_Some).
  destruct (lookup_lt_is_Some_2 _ _ H2) as [z Hz]. destruct (lookup_lt_is_Some_2 _ _ H4) as [z' Hz']. rewrite Hz, Hz'.
  exists (difficulty_factor z), (difficulty_factor z'). split; [done|]. split; [done|].
  destruct (decide (S q <= climb_end ls i (take (S k) ns))%nat) as [Hl|Hl].
  - left. eapply factors_le; [apply Hlad|exact Hl|done|done].
  - right. assert (climb_end ls i (take (S k) ns) = q) as E by lia.
    rewrite (take_S_r _ _ _ Hk'), climb_end_snoc, E in Hz'. unfold next_level in Hz'. rewrite Hq in Hz'.
    replace (visitor_threshold x <? n') with true in Hz' by lia. pose proof (lookup_lt_Some _ _ _ Hy).
    replace (Nat.min (q + 1) (length ls - 1)) with (S q) in Hz' by lia. rewrite Hy in Hz'. injection Hz' as <-. lia.
Qed.
