(** Proofs of the theorems of Properties/RedisSystemProperties.v. *)
From Coq Require Import ZifyBool ZifyN ZifyNat Lia.
From Verif Require Import Model.Base Model.MCaptcha Model.HashCache Model.Pow Model.System Model.Master Model.Json Model.Serde Model.Redis
  Model.RedisActor Model.RedisTokens Model.SystemProgram Model.SystemShared Model.RedisSystem
  Spec.RedisActorSpec Spec.ProgramSpec Spec.SharedSpec Spec.RedisSystemSpec
  Proofs.RedisActorProofs Proofs.ProgramProofs Proofs.SharedProofs Proofs.RedisSystemProofs
  Proofs.RedisActorTheorems Proofs.SharedTheorems.

Lemma closed_cache n tr s k l es s' o : rinv k l tr s -> died (actor_obs AtCache tr) -> rs_run k l s es = Some (s', o) ->
  forall e, e ∈ told_to n o -> forall op x, exchange_of e = Some (AtCache, op, x) -> closed e.
Proof.
  intros Hi Hd H e He op x Hx. destruct (run_told _ _ _ _ _ _ _ Hi H) as [_ Hg].
  apply elem_of_list_omap in He as (y & Hy & He). destruct y; try discriminate. case_decide; [|done]. subst n0. injection He as ->.
  apply elem_of_list_split in Hy as (o1 & o2 & ->).
  destruct (Hg o1 n e o2 AtCache op x eq_refl Hx) as (o0 & ev & os & mid & _ & _ & _ & Hc). apply Hc.
  rewrite actor_obs_app. apply elem_of_app. by left.
Qed.

Lemma useless_calls salt c evs r : p_run (program salt c) evs = Some (PRet r) ->
  (forall e, e ∈ evs -> forall op x, exchange_of e = Some (AtCache, op, x) -> closed e) -> useless r.
Proof.
  intros H Hc. destruct c as [id|w ip|m].
  - apply c80_get_pow in H as (x & -> & Hx). intros cfg ->. destruct Hx as (v & -> & _).
    assert (Hbad : closed (PeCachePoW (CachePoW (pc_string cfg) (pc_difficulty_factor cfg) (avr_duration v) id) (An (Ok tt)))); [|done].
    eapply Hc; [right; right; by left|reflexivity].
  - apply c80_verify_pow in H as (x & -> & Hx).
    assert (Hfirst : forall a rest, evs = PeRetrieve (VerifyCaptchaResult (w_string w) (w_key w)) a :: rest -> a = AnClosed).
    { intros a rest ->. exact (Hc _ ltac:(by left) _ _ eq_refl). }
    destruct x as [[[token d]|e]|].
    + destruct Hx as (c & -> & _). by specialize (Hfirst _ _ eq_refl).
    + destruct Hx as [(a & -> & Ha)|[[-> _]|[(c & -> & _)|(c & _ & [->|[(b & -> & _)|(token & a & -> & _)]])]]];
        try (by specialize (Hfirst _ _ eq_refl)).
      rewrite (Hfirst _ _ eq_refl) in Ha. cbn in Ha. by subst e.
    + destruct Hx as (c & _ & ->). by specialize (Hfirst _ _ eq_refl).
  - apply c80_validate in H as (x & -> & a & -> & Hx).
    assert (a = AnClosed) as -> by exact (Hc _ ltac:(by left) _ _ eq_refl). destruct x as [b|e]; [done|]. cbn in Hx. by subst e.
Qed.

Lemma c98_gone_client_refuted : forall k l before s tr0 m r,
  rs_run k l rs_init before = Some (s, tr0) -> idle (rs_cache s) ->
  exists s' o, rs_run k l s (gives_up (rs_next s) m r) = Some (s', o) /\ ra_alive (rs_cache s') = false /\
    (** whoever comes later gets nothing done *)
    forall es s'' tr n c x, rs_run k l s' es = Some (s'', tr) -> SvoCall n c ∈ tr -> SvoRet n x ∈ tr -> useless x.
Proof.
  intros k l before s tr0 m r Hrun Hidle. pose proof (run_rinv _ _ _ _ _ Hrun) as Hi.
  destruct s as [ms [al box cur users nx] calls next]. destruct Hidle as (Ha & Hc & Hb & Hu).
  cbn [rs_cache ra_alive ra_cur ra_box ra_users] in Ha, Hc, Hb, Hu. subst al cur box users.
  assert (Hgo : exists s' o, rs_run k l (RSys ms (RActor true [] None ∅ nx) calls next) (gives_up next m r) = Some (s', o) /\
    ra_alive (rs_cache s') = false /\ died (actor_obs AtCache o)).
  { unfold gives_up. cbn [rs_run rs_step rs_calls rs_next rs_master rs_cache]. rewrite lookup_insert. cbn [program]. unfold validate_prog. cbn [message cache_action].
    unfold actor_step at 1. cbn [set_calls actor rs_cache ra_step ra_alive ra_next ra_box ra_cur ra_users app set_box settle_all rs_calls
      set_actor rs_master rs_next]. unfold actor_step at 1.
    cbn [set_calls actor rs_cache ra_step ra_alive ra_next ra_box ra_cur ra_users app set_box settle_all rs_calls set_actor rs_master
      rs_next rq_action borrowed set_cur rq_id rq_send settled_by].
    rewrite bool_decide_eq_false_2 by (intros Hf; by apply Hf).
    cbn [set_calls actor rs_cache ra_step ra_alive ra_next ra_box ra_cur ra_users app set_box settle_all rs_calls set_actor rs_master
      rs_next rq_action borrowed set_cur rq_id rq_send settled_by].
    rewrite lookup_insert. unfold actor_step at 1.
    cbn [set_calls actor rs_cache ra_step ra_alive ra_next ra_box ra_cur ra_users app set_box settle_all rs_calls set_actor rs_master
      rs_next rq_action borrowed set_cur rq_id rq_send settled_by List.filter existsb]. rewrite Nat.eqb_refl.
    cbn [set_calls actor rs_cache ra_step ra_alive ra_next ra_box ra_cur ra_users app set_box settle_all rs_calls set_actor rs_master
      rs_next rq_action borrowed set_cur rq_id rq_send settled_by]. unfold actor_step.
    cbn [set_calls actor rs_cache ra_step ra_alive ra_next ra_box ra_cur ra_users app set_box settle_all rs_calls set_actor rs_master
      rs_next rq_action borrowed set_cur rq_id rq_send settled_by].
    destruct (rc_answer _ r) as [x|]; cbn [die waiting ra_cur ra_box omap list_omap app fmap list_fmap settle_all settled_by];
      eexists _, _; (split; [reflexivity|]); (split; [done|]); unfold died; cbn; set_solver. }
  destruct Hgo as (s' & o & Hgo & Hdead & Hd). exists s', o. split; [done|]. split; [done|].
  intros es s'' tr n c x Hes Hcall Hret.
  destruct (run_told _ _ _ _ _ _ _ Hi Hgo) as [Hi' _]. destruct (run_told _ _ _ _ _ _ _ Hi' Hes) as [[Hb _] _].
  destruct (ri_ret _ _ _ _ Hb n x) as (_ & _ & c' & _ & Hp); [apply elem_of_app; by right|].
  rewrite told_to_app, (ri_new _ _ _ _ (proj1 Hi') n (later_calls _ _ _ _ _ _ _ _ Hes Hcall)) in Hp. cbn [app] in Hp.
  apply (useless_calls _ _ _ _ Hp). intros e He op y Hy.
  refine (closed_cache n _ _ _ _ _ _ _ Hi' _ Hes e He op y Hy). rewrite actor_obs_app. apply elem_of_app. by right.
Qed.

Lemma c99_own_answers : forall k l es s tr tr1 n e tr2 w op x,
  rs_run k l rs_init es = Some (s, tr) -> tr = tr1 ++ SvoTold n e :: tr2 -> exchange_of e = Some (w, op, x) ->
  exists tr0 ev os mid, tr1 = tr0 ++ SvoActor w ev os :: mid /\ actor_events w mid = [] /\
    match x with
    | Some y => exists r, ev = ReReply r /\ rc_answer op r = Val y /\ last_command (actor_obs w tr0) = Some (rc_cmd op)
    | None => died (actor_obs w tr0 ++ os)
    end.
Proof.
  intros k l es s tr tr1 n e tr2 w op x Hrun Htr Hx. destruct (run_told _ _ _ [] _ _ _ (rinv_init k l) Hrun) as [_ Hg].
  destruct (Hg tr1 n e tr2 w op x Htr Hx) as (o0 & ev & os & mid & H1 & H2 & H3 & _). by exists o0, ev, os, mid.
Qed.

Lemma c99_calls : forall k l es s tr n r,
  rs_run k l rs_init es = Some (s, tr) -> SvoRet n r ∈ tr ->
  exists c, SvoCall n c ∈ tr /\ p_run (program (pl_salt l) c) (told_to n tr) = Some (PRet r).
Proof.
  intros k l es s tr n r Hrun Hr. destruct (run_rinv _ _ _ _ _ Hrun) as [Hb _].
  by destruct (ri_ret _ _ _ _ Hb n r Hr) as (_ & _ & Hc).
Qed.

Lemma answers_replies ok k l es s tr w : rs_run k l rs_init es = Some (s, tr) -> answers ok w tr -> replies ok k (actor_events w tr).
Proof.
  intros Hrun Ha before r after a o cmd He Hb Hc.
  assert (Hsplit : exists tr1 os tr2, tr = tr1 ++ SvoActor w (ReReply r) os :: tr2 /\ actor_events w tr1 = before).
  { clear Hrun Ha Hb. revert before He. induction tr as [|x tr IH]; intros before He; [by destruct before|].
    change (x :: tr) with ([x] ++ tr) in He. rewrite actor_events_app in He.
    destruct x as [| w' e' os| | | ]; try (cbn [app] in He; destruct (IH _ He) as (t1 & os & t2 & -> & <-); by eexists (_ :: t1), os, t2).
    cbn in He. destruct (decide (w = w')) as [<-|Hne].
    - cbn in He. destruct before as [|b before]; injection He as -> He.
      + by exists [], os, tr.
      + destruct (IH _ He) as (t1 & os' & t2 & -> & <-). exists (SvoActor w b os :: t1), os', t2. split; [done|]. cbn. by rewrite decide_True.
    - cbn in He. destruct (IH _ He) as (t1 & os' & t2 & -> & <-). exists (SvoActor w' e' os :: t1), os', t2. split; [done|].
      cbn. by rewrite decide_False. }
  destruct Hsplit as (tr1 & os & tr2 & Htr & <-). destruct (run_prefix _ _ _ _ _ Hrun w _ _ Htr) as [a' Hp].
  rewrite Hp in Hb. injection Hb as <- <-. by apply (Ha _ _ _ _ _ Htr).
Qed.

Lemma unharmed k l es s tr w : rs_run k l rs_init es = Some (s, tr) ->
  ra_alive (actor w s) = true /\ ~ died (actor_obs w tr) /\ r_failed (actor_obs w tr) = [] ->
  ra_alive (actor w s) = true /\ forall n e op x, SvoTold n e ∈ tr -> exchange_of e = Some (w, op, x) -> x <> None.
Proof.
  intros Hrun (H1 & H2 & _). split; [done|]. intros n e op x Hin Hx ->. apply elem_of_list_split in Hin as (tr1 & tr2 & Htr).
  destruct (c99_own_answers _ _ _ _ _ _ _ _ _ _ _ _ Hrun Htr Hx) as (tr0 & ev & os & mid & -> & _ & Hd).
  apply H2. rewrite Htr, <- app_assoc, actor_obs_app. unfold died in *.
  apply elem_of_app in Hd as [Hd|Hd]; apply elem_of_app; [by left|right].
  cbn. rewrite decide_True by done. apply elem_of_app. by left.
Qed.

Lemma c99_cache_serves : forall k l es s tr,
  rs_run k l rs_init es = Some (s, tr) ->
  Forall stays es -> Forall (guests AtCache true) es -> answers sane_reply AtCache tr -> answers token_reply AtCache tr ->
  (k = Cluster \/ Forall (own_connection AtCache) es) ->
  ra_alive (rs_cache s) = true /\ forall n e op x, SvoTold n e ∈ tr -> exchange_of e = Some (AtCache, op, x) -> x <> None.
Proof.
  intros k l es s tr Hrun Hstay Hg H1 H2 Hk. apply (unharmed k l es s tr AtCache Hrun).
  pose proof (run_sources _ _ _ _ _ Hrun AtCache) as Hs. rewrite Forall_forall in Hstay, Hg.
  assert (Hev : forall e, e ∈ actor_events AtCache tr -> for_cache e /\ patient e).
  { intros e He. destruct (Hs e He) as (s1 & x & Hx & Hsrc). specialize (Hstay x Hx). specialize (Hg x Hx). destruct x; try done.
    - destruct Hsrc as (p & a & Hm & ->). split; [|done]. destruct p; cbn in Hm; try discriminate Hm; injection Hm as <-;
        solve [by exists (HmCachePoW m)|by exists (HmRetrivePoW m)|by exists (HmCacheResult m)|by exists (HmVerifyCaptchaResult m)].
    - destruct Hsrc as [-> ->]. specialize (Hg eq_refl). destruct e; try done. destruct Hg as (H3 & _ & H4). by split. }
  apply (c69_patient_callers k (actor_events AtCache tr)).
  - apply Forall_forall. intros e He. by apply Hev.
  - apply Forall_forall. intros e He. by apply Hev.
  - by apply (answers_replies _ k l es s).
  - by apply (answers_replies _ k l es s).
  - destruct Hk as [Hk|Hk]; [by left|right]. rewrite Forall_forall in Hk. apply Forall_forall. intros e He.
    destruct (Hs e He) as (s1 & x & Hx & Hsrc). specialize (Hk x Hx). destruct x; try done.
    + by destruct Hsrc as (p & a & _ & ->).
    + destruct Hsrc as [-> ->]. by destruct e.
    + by destruct Hsrc as [m ->].
  - apply (ri_actor _ _ _ _ (proj1 (run_rinv _ _ _ _ _ Hrun)) AtCache).
Qed.

Lemma c99_master_serves : forall k l es s tr,
  rs_run k l rs_init es = Some (s, tr) ->
  Forall (guests AtMaster false) es -> answers sane_reply AtMaster tr ->
  (k = Cluster \/ Forall (own_connection AtMaster) es) ->
  ra_alive (rs_master s) = true /\ forall n e op x, SvoTold n e ∈ tr -> exchange_of e = Some (AtMaster, op, x) -> x <> None.
Proof.
  intros k l es s tr Hrun Hg H1 Hk. apply (unharmed k l es s tr AtMaster Hrun).
  pose proof (run_sources _ _ _ _ _ Hrun AtMaster) as Hs. rewrite Forall_forall in Hg.
  assert (Hev : forall e, e ∈ actor_events AtMaster tr -> for_master e /\ no_internal_data e).
  { intros e He. destruct (Hs e He) as (s1 & x & Hx & Hsrc). specialize (Hg x Hx). destruct x; try done.
    - destruct Hsrc as (p & a & Hm & ->). destruct p; cbn in Hm; try discriminate Hm; injection Hm as <-. split; [|done]. by exists (RqAddVisitor id).
    - destruct Hsrc as [-> ->]. specialize (Hg eq_refl). destruct e; try done. destruct Hg as (_ & H3 & H4). by split.
    - by destruct Hsrc as [m ->]. }
  apply (c70_master_survives k (actor_events AtMaster tr)).
  - apply Forall_forall. intros e He. by apply Hev.
  - apply Forall_forall. intros e He. by apply Hev.
  - by apply (answers_replies _ k l es s).
  - destruct Hk as [Hk|Hk]; [by left|right]. rewrite Forall_forall in Hk. apply Forall_forall. intros e He.
    destruct (Hs e He) as (s1 & x & Hx & Hsrc). specialize (Hk x Hx). destruct x; try done.
    + by destruct Hsrc as (p & a & _ & ->).
    + destruct Hsrc as [-> ->]. by destruct e.
    + by destruct Hsrc as [m ->].
  - apply (ri_actor _ _ _ _ (proj1 (run_rinv _ _ _ _ _ Hrun)) AtMaster).
Qed.

Lemma c99_not_stuck : forall k l es s tr n c,
  rs_run k l rs_init es = Some (s, tr) -> SvoCall n c ∈ tr -> SvoCancel n ∉ tr -> (forall r, SvoRet n r ∉ tr) ->
  exists x, drives n x /\ is_Some (rs_step k l s x).
Proof.
  intros k l es s tr n c Hrun Hc Hcan Hret. destruct (run_rinv _ _ _ _ _ Hrun) as [Hb Hw].
  destruct (run_present _ _ _ _ _ _ _ Hrun Hc) as [[[p v] Hn]|[?|[r ?]]]; [|done|by destruct (Hret r)].
  destruct v as [[w m]|].
  - destruct (Hw _ _ _ _ Hn) as (a & _ & Hp). pose proof (ri_actor _ _ _ _ Hb w) as Ha.
    destruct (ra_cur (actor w s)) as [[[[m' op] st] b]|] eqn:Ecur.
    + exists (SvActor w (ReReply (RrVal RvNil))). split; [done|]. apply actor_enabled. cbn [ra_step]. rewrite Ecur.
      destruct (rc_answer op _); [|by eexists]. destruct b; [by eexists|]. destruct st; by eexists.
    + destruct Hp as [Hp|(op & st & _ & Hp)]; [|congruence]. destruct (ra_box (actor w s)) as [|q rest] eqn:Ebox; [by apply elem_of_nil in Hp|].
      destruct (alive_died _ _ _ _ Ha) as [[Hal _]|(_ & _ & _ & Hf)]; [|congruence].
      assert (Htake : is_Some (ra_step k (actor w s) ReTake) \/ borrowed (actor w s) = true).
      { cbn [ra_step]. rewrite Hal, Ecur, Ebox. destruct (rq_action q); [|left; by eexists|left; by eexists].
        destruct (borrowed (actor w s)); [by right|left; by eexists]. }
      destruct Htake as [Ht|Ht]; [exists (SvActor w ReTake); split; [done|]; by apply actor_enabled|].
      unfold borrowed in Ht. rewrite Ecur in Ht. apply bool_decide_eq_true in Ht.
      apply map_choose in Ht as (u & op & Hu). exists (SvActor w (ReUserReply u (RrVal RvNil))). split; [done|].
      apply actor_enabled. cbn [ra_step]. rewrite Hu. destruct (rc_answer op _); by eexists.
  - destruct p as [r|id kk|kk|mm kk|mm kk|ip q kk|q kk|mm kk|mm kk].
    + exists (SvReturn n). split; [done|]. cbn. rewrite Hn. by eexists.
    + exists (SvAsk n). split; [done|]. cbn [rs_step]. rewrite Hn. cbn [message master_action]. apply actor_enabled. cbn [ra_step].
      destruct (ra_alive _); by eexists.
    + exists (SvDo n (XDraw "")). split; [done|]. cbn [rs_step]. rewrite Hn. by eexists.
    + exists (SvAsk n). split; [done|]. cbn [rs_step]. rewrite Hn. cbn [message]. apply actor_enabled. cbn [ra_step].
      destruct (ra_alive _); by eexists.
    + exists (SvAsk n). split; [done|]. cbn [rs_step]. rewrite Hn. cbn [message]. apply actor_enabled. cbn [ra_step].
      destruct (ra_alive _); by eexists.
    + exists (SvDo n (XSubmit SuPanic)). split; [done|]. cbn [rs_step]. rewrite Hn. by eexists.
    + exists (SvDo n (XVerdict None)). split; [done|]. cbn [rs_step]. rewrite Hn. by eexists.
    + exists (SvAsk n). split; [done|]. cbn [rs_step]. rewrite Hn. cbn [message]. apply actor_enabled. cbn [ra_step].
      destruct (ra_alive _); by eexists.
    + exists (SvAsk n). split; [done|]. cbn [rs_step]. rewrite Hn. cbn [message]. apply actor_enabled. cbn [ra_step].
      destruct (ra_alive _); by eexists.
Qed.
