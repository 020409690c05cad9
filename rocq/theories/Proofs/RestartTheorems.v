(** Proofs of the theorems of Properties/RestartProperties.v. *)
From Coq Require Import ZifyBool ZifyN ZifyNat Lia.
From Verif Require Import Model.Base Model.Defense Model.MCaptcha Model.Counter Model.Json Model.Serde Model.Master
  Spec.DefenseSpec Spec.MCaptchaSpec Spec.CounterSpec Spec.MasterSpec Spec.SiteSpec Spec.SerdeSpec Spec.RestartSpec
  Proofs.DefenseProofs Proofs.MCaptchaProofs Proofs.CounterProofs Proofs.MasterProofs Proofs.MasterTasks
  Proofs.SiteCounter Proofs.SiteProofs Proofs.SerdeProofs Proofs.RestartProofs
  Proofs.DefenseTheorems Proofs.MCaptchaTheorems Proofs.MasterTheorems Proofs.SerdeTheorems.
Import Master.

Lemma dumped_exact p t gc es s tr d :
  m_run p (m_start t gc) es = Some (s, tr) -> my_alive s = true -> dumped p s d ->
  forall id m, d !! id = Some m <-> serves s tr id m.
Proof.
  intros Hr Ha (n & s1 & o & Hd & Hin).
  destruct (c29_snapshot_exact p t gc es s tr Hr Ha) as (n0 & s0 & d0 & H0 & Hex & _ & _ & Ht & _ & Ha0).
  assert (forall k e a b, m_run p s (MeReq RqGetData :: replicate k e) = Some a ->
     m_run p s (MeReq RqGetData :: replicate (S k) e) = Some b -> exists c z, m_step p a.1 e = Some (c, z)) as Hmore.
  { intros k e [a oa] b H1 H2. rewrite replicate_S_end in H2.
    change (MeReq RqGetData :: replicate k e ++ [e]) with ((MeReq RqGetData :: replicate k e) ++ [e]) in H2.
    destruct b as [b ob]. apply MasterProofs.m_run_app in H2 as (a' & oa' & ob' & H2 & H3 & _).
    rewrite H1 in H2. injection H2 as <- <-. cbn [m_run] in H3. cbn.
    destruct (m_step p a e) as [[c z]|]; [|done]. eauto. }
  assert (forall k k' e b, (k <= k')%nat -> m_run p s (MeReq RqGetData :: replicate k' e) = Some b ->
     exists a o', m_run p s (MeReq RqGetData :: replicate k e) = Some a /\ b.2 = a.2 ++ o') as Hless.
  { intros k k' e [b ob] Hle Hb. replace k' with (k + (k' - k))%nat in Hb by lia. rewrite replicate_add in Hb.
    change (MeReq RqGetData :: replicate k e ++ ?x) with ((MeReq RqGetData :: replicate k e) ++ x) in Hb.
    apply MasterProofs.m_run_app in Hb as (a & oa & ob' & H1 & _ & ->). eexists (a, oa), _. by split. }
  assert (d = d0) as ->.
  { destruct (decide (n <= n0)%nat) as [Hle|Hgt].
    - destruct (Hless _ _ _ _ Hle H0) as ([a oa] & o' & H1 & H2). rewrite Hd in H1. injection H1 as <- <-.
      cbn [snd] in H2. assert (MoReply (my_reqs s) (MrData d) ∈ o ++ o') as H3 by (apply elem_of_app; by left).
      rewrite <- H2 in H3. apply elem_of_cons in H3 as [H3|H3]; [done|]. apply elem_of_list_singleton in H3.
      by injection H3 as ->.
    - destruct (Hless (S n0) n _ _ ltac:(lia) Hd) as (a & o' & H1 & _).
      destruct (Hmore _ _ _ _ H0 H1) as (c & z & Hz). cbn [fst m_step] in Hz. rewrite Ha0 in Hz.
      unfold task_step in Hz. rewrite Ht in Hz. destruct (my_tasks s !! my_next s) as [x|] eqn:Ex; [|done].
      exfalso. destruct (mv_task _ (run_inv _ _ _ _ _ _ Hr) _ _ Ex) as (Hlt & _). lia. }
  intros id m. apply Hex.
Qed.

(** What the restore leads to. *)
Lemma moved_state p t gc es s tr d t' gc' es' :
  m_run p (m_start t gc) es = Some (s, tr) -> my_alive s = true -> Forall (sound_event p) es ->
  dumped p s d -> moves d es' ->
  exists order, order ≡ₚ seq 0 (size d) /\ es' = MeReq (RqSetData d) :: ((fun i => MeTask (S i)) <$> order) /\
  exists s' tr', m_run p (m_start t' gc') es' = Some (s', tr') /\ my_alive s' = true /\
    (forall id m, serves s tr id m <-> serves s' tr' id m) /\
    (forall id c, bound (hist tr') id = Some c -> exists m, d !! id = Some m /\ data_at s' c m).
Proof.
  intros Hr Ha Hf Hd (l & d' & order & Hl & Hdec & Hord & ->).
  pose proof (dumped_exact _ _ _ _ _ _ _ Hr Ha Hd) as Hex.
  assert (forall id m, d !! id = Some m -> sound_site p m) as Hs.
  { intros id m Hm. apply Hex in Hm as (c & _ & Hc). by eapply sound_kept. }
  assert (d' = d) as ->.
  { rewrite (c66_dump d l Hl) in Hdec; [by injection Hdec as <-|]. intros id m Hm. destruct (Hs _ _ Hm). by eapply reachable_ok. }
  exists order. split; [done|]. split; [done|].
  destruct (c30_restore_installs p t' gc' [] (m_start t' gc') [] d order eq_refl eq_refl Hord) as (s' & tr' & Hr' & _ & Hin & Hout).
  exists s', tr'. split; [done|].
  assert (forall id c, bound (hist tr') id = Some c -> exists m, d !! id = Some m /\ data_at s' c m) as Hall.
  { intros id c Hb. destruct (d !! id) as [m|] eqn:Em.
    - destruct (Hin _ _ Em) as (c' & Hb' & Hc' & _). cbn [app] in Hb'. rewrite Hb in Hb'. injection Hb' as <-.
      exists m. split; [done|]. apply Hc'. by left.
    - destruct (Hout _ Em) as [Hb' _]. cbn [app] in Hb'. rewrite Hb in Hb'. done. }
  split; [|split; [|done]].
  - cbn [m_run] in Hr'. destruct (m_step p (m_start t' gc') (MeReq (RqSetData d))) as [[s1 o1]|] eqn:E; [|done].
    assert (minv (m_start t' gc')) as Hi by (by eapply (run_inv p t' gc' [])).
    destruct (set_inv_start _ _ _ _ _ Hi eq_refl E) as [Hsi _]. assert (length (map_to_list d) = size d) as Hlen by done.
    destruct (set_inv_run p (m_start t' gc') (map_to_list d) order [] s1 Hi (NoDup_fst_map_to_list d) Hsi) as (s2 & o2 & H2 & Hs2 & _).
    { rewrite Hord. apply NoDup_seq. }
    { intros i Hi'. rewrite Hord in Hi'. apply elem_of_seq in Hi'. split; [lia|apply not_elem_of_nil]. }
    change (fun i : nat => MeTask (my_next (m_start t' gc') + i)%nat) with (fun i : nat => MeTask (S i)) in *.
    rewrite H2 in Hr'. injection Hr' as <- <-. by apply (si_alive _ _ _ _ Hs2).
  - intros id m. split.
    + intros Hm. apply Hex in Hm. destruct (Hin _ _ Hm) as (c & Hb & Hc & _). exists c. split; [done|]. apply Hc. by left.
    + intros (c & Hb & Hc). destruct (Hall _ _ Hb) as (m' & Hm' & Hc').
      assert (m' = m) as -> by (destruct Hc as (x & Hx & _ & <-), Hc' as (x' & Hx' & _ & <-); congruence). by apply Hex.
Qed.

Lemma c107_can_move : forall p t gc es s tr,
  m_run p (m_start t gc) es = Some (s, tr) -> my_alive s = true -> Forall (sound_event p) es ->
  exists d es', dumped p s d /\ moves d es'.
Proof.
  intros p t gc es s tr Hr Ha Hf.
  destruct (c29_snapshot_exact p t gc es s tr Hr Ha) as (n0 & s0 & d & H0 & Hex & _).
  assert (dumped p s d) as Hd by (eexists _, _, _; split; [exact H0|right; by left]).
  exists d, (MeReq (RqSetData d) :: ((fun i => MeTask (S i)) <$> seq 0 (size d))). split; [done|].
  exists (map_to_list d), d, (seq 0 (size d)). split; [done|]. split; [|done]. apply c66_dump; [done|].
  intros id m Hm. apply Hex in Hm as (c & _ & Hc). destruct (sound_kept _ _ _ _ _ _ _ _ Hr Hf Hc). by eapply reachable_ok.
Qed.

Lemma c107_same_sites : forall p t gc es s tr d t' gc' es',
  m_run p (m_start t gc) es = Some (s, tr) -> my_alive s = true -> Forall (sound_event p) es ->
  dumped p s d -> moves d es' ->
  exists s' tr', m_run p (m_start t' gc') es' = Some (s', tr') /\
    (forall id m, serves s tr id m <-> serves s' tr' id m) /\
    (forall id, bound (hist tr) id = None -> bound (hist tr') id = None).
Proof.
  intros p t gc es s tr d t' gc' es' Hr Ha Hf Hd Hm.
  destruct (moved_state p t gc es s tr d t' gc' es' Hr Ha Hf Hd Hm) as (order & _ & _ & s' & tr' & Hr' & _ & Hsv & Hall).
  exists s', tr'. split; [done|]. split; [done|]. intros id Hb.
  destruct (bound (hist tr') id) as [c|] eqn:Hb'; [|done]. destruct (Hall _ _ Hb') as (m & _ & Hc).
  destruct (proj2 (Hsv id m)) as (c' & Hc' & _); [by exists c|]. congruence.
Qed.

(** The first visitor of a site after the move is told what the old Master
    would have told them. *)
Lemma visitor_answer p t gc es s tr id c x :
  m_run p (m_start t gc) es = Some (s, tr) -> my_alive s = true -> bound (hist tr) id = Some c -> my_ctrs s !! c = Some x ->
  exists s1 o, m_run p s [MeReq (RqAddVisitor id); MeTask (my_next s)] = Some (s1, o) /\
    answers (my_reqs s) o = [MrVisit (match (counter_handle p (my_now s) x CmAddVisitor).2 with
                                      | CrAdded v => Ok (Some v) | _ => Err MailboxError end)].
Proof.
  intros Hr Ha Hb Hx. pose proof (run_bound_some _ _ _ _ _ _ _ _ Hr Hb) as Hs.
  cbn [m_run m_step]. rewrite Ha. cbn [m_handle my_sites]. unfold get_site. rewrite Hs.
  cbn [m_step my_alive spawn set_sites]. unfold task_step. cbn [spawn set_sites my_tasks my_next si_ctr].
  rewrite lookup_insert. unfold send_counter. cbn [spawn set_sites my_ctrs my_now]. rewrite Hx.
  destruct (counter_handle p (my_now s) x CmAddVisitor) as [x' r]. cbn [snd].
  destruct r; (eexists _, _; split; [reflexivity|]; cbn; by rewrite Nat.eqb_refl).
Qed.

Lemma c107_first_visitor : forall p t gc es s tr d t' gc' es' s' tr' id m,
  m_run p (m_start t gc) es = Some (s, tr) -> my_alive s = true -> Forall (sound_event p) es ->
  dumped p s d -> moves d es' -> m_run p (m_start t' gc') es' = Some (s', tr') -> serves s tr id m ->
  exists r s1 o s1' o',
    m_run p s [MeReq (RqAddVisitor id); MeTask (my_next s)] = Some (s1, o) /\ answers (my_reqs s) o = [MrVisit r] /\
    m_run p s' [MeReq (RqAddVisitor id); MeTask (my_next s')] = Some (s1', o') /\ answers (my_reqs s') o' = [MrVisit r].
Proof.
  intros p t gc es s tr d t' gc' es' s' tr' id m Hr Ha Hf Hd Hm Hr' Hs.
  destruct (moved_state p t gc es s tr d t' gc' es' Hr Ha Hf Hd Hm) as (order & _ & _ & s'' & tr'' & Hr'' & Ha' & Hsv & _).
  rewrite Hr' in Hr''. injection Hr'' as <- <-.
  pose proof (proj1 (Hsv id m) Hs) as (c' & Hb' & x' & Hx' & Hal' & Hd'). destruct Hs as (c & Hb & x & Hx & Hal & Hdx).
  destruct (visitor_answer _ _ _ _ _ _ _ _ _ Hr Ha Hb Hx) as (s1 & o & H1 & H2).
  destruct (visitor_answer _ _ _ _ _ _ _ _ _ Hr' Ha' Hb' Hx') as (s1' & o' & H1' & H2').
  eexists _, s1, o, s1', o'. split; [done|]. split; [done|]. split; [done|]. rewrite H2'. f_equal. f_equal.
  unfold counter_handle. rewrite Hal, Hal'. unfold handle_add_visitor. cbn [spawn_timer ct_data]. rewrite Hd', Hdx.
  destruct (add_visitor p m) as [m1|]; [|done]. cbn. by destruct (avr_new m1).
Qed.

(** But the visitors counted when the dump was taken are never forgotten: unless
    saved data is written again, the count stays at least what it was then,
    whatever the time. *)
Lemma moved_log p t gc es s tr d t' gc' es' s' tr' es2 s2 tr2 id m c :
  m_run p (m_start t gc) es = Some (s, tr) -> my_alive s = true -> Forall (sound_event p) es ->
  dumped p s d -> moves d es' -> m_run p (m_start t' gc') es' = Some (s', tr') ->
  serves s tr id m -> bound (hist tr') id = Some c ->
  m_run p s' es2 = Some (s2, tr2) -> Forall (fun e => ~ writes e) es2 ->
  m_run p (m_start t' gc') (es' ++ es2) = Some (s2, tr' ++ tr2) /\ reachable_mcaptcha p m /\
  let l := m_log p (m_start t' gc') (es' ++ es2) [] in
  (exists t0, registered t' c l = Some (t0, m)) /\ ~ restored c l.
Proof.
  intros Hr Ha Hf Hd Hm Hr' Hs Hb Hr2 Hw.
  destruct (moved_state p t gc es s tr d t' gc' es' Hr Ha Hf Hd Hm) as (order & Hord & He & _).
  split; [by eapply run_extend_run|]. split.
  { destruct Hs as (c0 & _ & Hc0). by destruct (sound_kept _ _ _ _ _ _ _ _ Hr Hf Hc0). }
  pose proof Hr' as Hrl. rewrite He in Hrl. destruct (restore_log _ _ _ _ _ _ _ Hord Hrl) as (lt & o & Hlog & Ho & Hadd).
  rewrite <- He in Hlog. intros l. unfold l. rewrite (m_log_app _ _ _ _ _ _ Hr'). split.
  - rewrite <- (log_hist_eq _ _ _ _ _ Hr'), Hlog in Hb.
    destruct (added_registered t' d lt _ o id c Ho Hadd Hb) as (_ & t0 & m' & Hm' & Hreg).
    assert (m' = m) as ->.
    { apply (dumped_exact _ _ _ _ _ _ _ Hr Ha Hd) in Hs. congruence. }
    exists t0. apply registered_app. by rewrite Hlog.
  - rewrite <- m_log_acc. eapply not_written; [exact Hr2|done|]. rewrite Hlog. by apply (added_not_restored d).
Qed.

Lemma c107_never_forgotten_refuted : forall p t gc es s tr d t' gc' es' s' tr' es2 s2 tr2 id m c n,
  m_run p (m_start t gc) es = Some (s, tr) -> my_alive s = true -> Forall (sound_event p) es ->
  dumped p s d -> moves d es' -> m_run p (m_start t' gc') es' = Some (s', tr') ->
  serves s tr id m -> bound (hist tr') id = Some c ->
  m_run p s' es2 = Some (s2, tr2) -> Forall (fun e => ~ writes e) es2 ->
  let times := (visits t' c (m_log p (m_start t' gc') (es' ++ es2) [])).*1 in
  m_visitors m + count times <= u32_max -> count_at s2 c n ->
  m_visitors m + window (m_duration m) (my_now s2) times <= n /\
  ((forall k, m_step p s2 (MeFire c k) = None) -> n = m_visitors m + window (m_duration m) (my_now s2) times).
Proof.
  intros p t gc es s tr d t' gc' es' s' tr' es2 s2 tr2 id m c n Hr Ha Hf Hd Hm Hr' Hs Hb Hr2 Hw times Hfit Hn.
  destruct (moved_log _ _ _ _ _ _ _ _ _ _ _ _ _ _ _ _ _ _ Hr Ha Hf Hd Hm Hr' Hs Hb Hr2 Hw) as (Hall & Hre & (t0 & Hreg) & Hnr).
  destruct (site_count_saved _ _ _ _ _ _ _ _ _ n Hall Hreg Hre Hnr Hfit Hn) as [[H1 _] H2]. by split.
Qed.

Lemma c107_hard_for_ever_refuted : forall p t gc es s tr d t' gc' es' s' tr' es2 s2 tr2 id m c e s3 o x v lv,
  m_run p (m_start t gc) es = Some (s, tr) -> my_alive s = true -> Forall (sound_event p) es ->
  dumped p s d -> moves d es' -> m_run p (m_start t' gc') es' = Some (s', tr') ->
  serves s tr id m -> bound (hist tr') id = Some c ->
  m_run p s' es2 = Some (s2, tr2) -> Forall (fun e => ~ writes e) es2 ->
  let l := m_log p (m_start t' gc') (es' ++ es2) [] in
  m_visitors m + count (visits t' c l).*1 < u32_max ->
  m_step p s2 e = Some (s3, o) -> x ∈ o -> said l c x = Some v ->
  lv ∈ d_levels (m_defense m) -> visitor_threshold lv <= m_visitors m ->
  difficulty_factor lv <= avr_difficulty_factor v.
Proof.
  intros p t gc es s tr d t' gc' es' s' tr' es2 s2 tr2 id m c e s3 o x v lv Hr Ha Hf Hd Hm Hr' Hs Hb Hr2 Hw l Hfit Hst Hx Hv Hlv Hle.
  destruct (moved_log _ _ _ _ _ _ _ _ _ _ _ _ _ _ _ _ _ _ Hr Ha Hf Hd Hm Hr' Hs Hb Hr2 Hw) as (Hall & Hre & (t0 & Hreg) & Hnr).
  eapply told_floor; [exact Hall|exact Hreg|done|done|exact Hfit|exact Hst|exact Hx|exact Hv|exact Hlv|]. lia.
Qed.

Lemma c107_old_forgets : forall p t gc es s tr c t0 m n,
  m_run p (m_start t gc) es = Some (s, tr) ->
  let l := m_log p (m_start t gc) es [] in let times := (visits t c l).*1 in
  registered t c l = Some (t0, m) -> built_mcaptcha p m -> ~ restored c l -> count times <= u32_max ->
  (forall tm, tm ∈ times -> tm + m_duration m * NS <= my_now s) -> (forall k, m_step p s (MeFire c k) = None) ->
  count_at s c n -> n = 0.
Proof.
  intros p t gc es s tr c t0 m n Hr l times Hreg Hb Hnr Hfit Hold Hov Hn.
  destruct (site_count _ _ _ _ _ _ _ _ _ n Hr Hreg Hb Hnr Hfit Hn) as [_ H]. rewrite (H Hov).
  unfold window, count. fold l times. replace (filter _ times) with (@nil N); [done|]. symmetry.
  apply elem_of_nil_inv. intros tm Htm. apply elem_of_list_filter in Htm as [H1 H2]. specialize (Hold _ H2). lia.
Qed.
