(** Proofs of the theorems of Properties/SiteProperties.v. *)
From Coq Require Import ZifyBool ZifyN ZifyNat Lia.
From Verif Require Import Model.Base Model.Defense Model.MCaptcha Model.Counter Model.HashCache Model.Queue Model.Pow
  Model.System Model.Master
  Spec.DefenseSpec Spec.MCaptchaSpec Spec.CounterSpec Spec.MasterSpec Spec.SystemSpec Spec.SiteSpec
  Proofs.DefenseProofs Proofs.MCaptchaProofs Proofs.MasterProofs Proofs.SystemProofs Proofs.SystemHistory
  Proofs.SystemVisits Proofs.SiteCounter Proofs.SiteProofs
  Proofs.DefenseTheorems Proofs.MCaptchaTheorems Proofs.CounterTheorems
  Proofs.MasterTheorems Proofs.SystemTheorems.
Import Master.

Lemma c21_never_collected : forall p t gc es s tr w s' o id,
  m_run p (m_start t gc) es = Some (s, tr) -> let l := site_log p t gc es in
  m_step p s (MeTask w) = Some (s', o) -> MoHandle (RqRemove id) ∈ o ->
  exists es0 e0 es1 s0 tr0 s0' o0 c t0 m,
    es = es0 ++ e0 :: es1 /\
    (** what the name stood for when the pass began *)
    m_run p (m_start t gc) es0 = Some (s0, tr0) /\ m_step p s0 e0 = Some (s0', o0) /\ MoHandle RqCleanUp ∈ o0 /\
    w = my_next s0 /\ bound (hist tr0) id = Some c /\ registered t c l = Some (t0, m) /\
    (reachable_mcaptcha p m -> ~ restored c l -> m_visitors m + count (visits t c l).*1 <= u32_max ->
     m_visitors m = 0).
Proof.
  intros p t gc es s tr w s' o id Hr l Hs Ho.
  destruct (c24_collects_only_inspected_idle _ _ _ _ _ _ _ _ _ _ Hr Hs Ho)
    as (es0 & e0 & es1 & es2 & s0 & tr0 & s0' & o0 & s1 & tr1 & c & -> & H0 & Hs0 & Hc0 & Hb & _ & H1 & Hn & ->).
  assert (m_run p (m_start t gc) (es0 ++ e0 :: es1) = Some (s1, tr0 ++ o0 ++ tr1)) as Hp.
  { apply MasterProofs.m_run_app. exists s0, tr0, (o0 ++ tr1). split; [done|]. split; [|done]. cbn. by rewrite Hs0, H1. }
  destruct Hn as (x & Hx & Ha & Hv).
  destruct (registered_some _ _ _ _ _ _ _ _ Hp Hx) as (t0 & m & Hreg).
  assert (exists l', l = l' ++ site_log p t gc (es0 ++ e0 :: es1)) as [l' Hl].
  { unfold l. eexists. replace (es0 ++ e0 :: es1 ++ MeTask (my_next s0) :: es2) with ((es0 ++ e0 :: es1) ++ MeTask (my_next s0) :: es2)
      by (by rewrite <- app_assoc). rewrite (m_log_app _ _ _ _ _ _ Hp). done. }
  exists es0, e0, (es1 ++ MeTask (my_next s0) :: es2), s0, tr0, s0', o0, c, t0, m.
  do 6 (split; [done|]). split; [rewrite Hl; by apply registered_app|].
  intros Hre Hnr Hfit.
  pose proof (visits_app_count t c l' (site_log p t gc (es0 ++ e0 :: es1))) as Hle. rewrite <- Hl in Hle.
  assert (~ restored c (site_log p t gc (es0 ++ e0 :: es1))) as Hnr'.
  { intros H. apply Hnr. rewrite Hl. by apply restored_app. }
  destruct (site_count_saved _ _ _ _ _ _ _ _ _ 0 Hp Hreg Hre Hnr') as [[H _] _]; [lia|by exists x|lia].
Qed.

Lemma c86_visits : forall p t gc es1 id es2 s1 tr1 s tr v,
  m_run p (m_start t gc) es1 = Some (s1, tr1) ->
  m_run p (m_start t gc) (es1 ++ MeReq (RqAddVisitor id) :: es2) = Some (s, tr) ->
  MrVisit (Ok (Some v)) ∈ answers (my_reqs s1) tr ->
  exists c t0 m, bound (hist tr1) id = Some c /\
    registered t c (site_log p t gc (es1 ++ MeReq (RqAddVisitor id) :: es2)) = Some (t0, m) /\
    v ∈ (visits t c (site_log p t gc (es1 ++ MeReq (RqAddVisitor id) :: es2))).*2.
Proof.
  intros p t gc es1 id es2 s1 tr1 s tr v H1 H2 Hv. apply elem_of_answers in Hv.
  destruct (told_visit _ _ _ _ _ _ _ _ H2 Hv) as (c & Hc & Hin).
  rewrite (routed_request _ _ _ _ _ _ _ _ _ _ H1 H2) in Hc.
  assert (exists x, my_ctrs s !! c = Some x) as [x Hx].
  { apply lookup_lt_is_Some. apply m_run_app in H2 as (s' & tr2 & tr3 & H2 & H3 & ->). rewrite H1 in H2. injection H2 as <- <-.
    pose proof (run_tracks _ _ _ _ _ _ H1) as [_ Hl]. pose proof (bound_lt _ _ _ Hc) as Hlt.
    assert (length (my_ctrs s1) <= length (my_ctrs s))%nat; [|lia].
    revert H3. apply (m_run_ind (fun s _ => length (my_ctrs s1) <= length (my_ctrs s))%nat); [lia|].
    intros a tra e b o Hle Hs. apply m_step_effect in Hs.
    destruct Hs as [? ? Hc'|? ? ? Hc'|? ? ? ? Hc'|? ? ? ? ? ? ? ? Hc'|? ? ? ? ? ? ? ? ? Hc'|? ? ? ? ? ? ? ? ? ? ? Hc'|? ? ? ? ? ? ? ? ? ? ? Hc'];
      rewrite Hc', ?insert_length, ?app_length; lia. }
  destruct (registered_some _ _ _ _ _ _ _ _ H2 Hx) as (t0 & m & Hreg). eauto 10.
Qed.

Lemma c87_site_told : forall p t gc es s tr c t0 m,
  m_run p (m_start t gc) es = Some (s, tr) ->
  let l := site_log p t gc es in
  let vs := visits t c l in let times := vs.*1 in let ls := d_levels (m_defense m) in
  registered t c l = Some (t0, m) -> fresh_mcaptcha m -> ~ restored c l -> count times <= u32_max ->
  Forall (fun v => avr_duration v = m_duration m) vs.*2 /\
  exists ns, Some <$> (avr_difficulty_factor <$> vs.*2) = climb ls 0 ns /\
    (forall k n, ns !! k = Some n -> exists tm, times !! k = Some tm /\
       1 + window (m_duration m) tm (take k times) <= n <= N.of_nat k + 1) /\
    (forall k a b, ns !! k = Some a -> ns !! S k = Some b -> b <= a + 1) /\
    (prompt p (m_start t gc) es c -> ns = numbers (m_duration m) times).
Proof.
  intros p t gc es s tr c t0 m Hr l vs times ls Hreg Hf Hnr Hfit.
  destruct (site_told p t gc es s tr c t0 m Hr Hreg (fresh_built _ _ Hf) Hnr) as [H1 H2]. fold l in H1, H2. split.
  - eapply Forall_impl; [exact H1|]. by intros v [? _].
  - destruct (H2 Hfit) as (ns & N1 & N2 & N3 & N4 & N5). rewrite (fresh_bottom _ Hf) in N2. by exists ns.
Qed.

Lemma c88_challenge_from_ladder : forall p l t gc wk ql es s tr n cfg,
  s_run p l (sys_start t gc wk ql) es = Some (s, tr) ->
  returned tr n (RGetPow (Ok (Some cfg))) ->
  let log := site_log p t gc (mtrace tr) in
  exists id tr1 os tr2 c t0 m,
    tr = tr1 ++ SoMaster (Some n) (MeReq (RqAddVisitor id)) os :: tr2 /\
    SoCall n (CGetPow id) ∈ tr1 /\ bound (hist (mouts tr1)) id = Some c /\ registered t c log = Some (t0, m) /\
    (built_mcaptcha p m -> ~ restored c log ->
     (exists lv, lv ∈ d_levels (m_defense m) /\ pc_difficulty_factor cfg = difficulty_factor lv) /\
     SoCache (Some n) (HeMsg (HmCachePoW (CachePoW (pc_string cfg) (pc_difficulty_factor cfg) (m_duration m) id)))
       (Some (HrUnit (Ok tt))) ∈ tr2).
Proof.
  intros p l t gc wk ql es s tr n cfg Hr Hin. cbn zeta.
  assert (exists id v os, of_client n tr =
      [SoCall n (CGetPow id); SoMaster (Some n) (MeReq (RqAddVisitor id)) os;
       SoCache (Some n) (HeMsg (HmCachePoW (CachePoW (pc_string cfg) (pc_difficulty_factor cfg) (avr_duration v) id)))
         (Some (HrUnit (Ok tt)));
       SoRet n (RGetPow (Ok (Some cfg)))] /\
    pc_difficulty_factor cfg = avr_difficulty_factor v /\ visited tr n id v) as (id & v & os & Ho & Hd & Hv).
  { assert (SoRet n (RGetPow (Ok (Some cfg))) ∈ of_client n tr) as Hc by (by apply elem_of_of_client).
    pose proof (run_story _ _ _ _ _ _ _ _ _ Hr n) as Hst. story_cases Hst Hc.
    - exfalso. by repeat case_match.
    - exists id0, v0, os0. done. }
  destruct Hv as (k & (tr1 & os' & tr2 & -> & Hk) & Hrep). exists id, tr1, os', tr2.
  unfold of_client in Ho. rewrite filter_app, filter_cons_True in Ho by done. fold (of_client n tr1) (of_client n tr2) in Ho.
  assert (of_client n tr1 = [SoCall n (CGetPow id)] /\
    of_client n tr2 = [SoCache (Some n) (HeMsg (HmCachePoW (CachePoW (pc_string cfg) (pc_difficulty_factor cfg) (avr_duration v) id)))
         (Some (HrUnit (Ok tt))); SoRet n (RGetPow (Ok (Some cfg)))]) as [Ho1 Ho2].
  { revert Ho. generalize (of_client n tr1), (of_client n tr2). intros a b Ho.
    destruct a as [|x1 [|x2 [|x3 [|x4 [|x5 r]]]]]; cbn in Ho; try done; by injection Ho as -> _ ->. }
  assert (forall x a, x ∈ of_client n a -> x ∈ a) as Hsub by (by intros x a [_ ?]%elem_of_of_client).
  destruct (run_boundary _ _ _ _ _ _ _ _ _ Hr eq_refl)
    as (es1 & e1 & es2 & s1 & s2 & ta & oa & ob & tb & -> & H1 & H2 & H3 & -> & ->).
  destruct (master_step _ _ _ _ _ _ _ _ _ _ H2) as (-> & [->|[? ?]] & M2); [|done].
  rewrite app_nil_r in *. cbn [app] in *.
  pose proof (s_run_m _ _ _ _ _ _ H1) as M1. cbn [sys_start sy_m] in M1.
  pose proof (s_run_m _ _ _ _ _ _ Hr) as M. cbn [sys_start sy_m] in M.
  pose proof (run_sinv _ _ _ _ _ _ _ _ _ H1) as Hi1.
  rewrite <- (si_reqs _ _ _ _ _ _ Hi1) in Hk. subst k. unfold replied in Hrep. apply elem_of_answers in Hrep.
  assert (mtrace (ta ++ SoMaster (Some n) (MeReq (RqAddVisitor id)) os' :: tb) =
    mtrace ta ++ MeReq (RqAddVisitor id) :: mtrace tb) as Emt by (by rewrite mtrace_app).
  rewrite Emt in M |- *.
  destruct (c86_visits _ _ _ _ _ _ _ _ _ _ _ M1 M Hrep) as (c & t0 & m & Hb & Hreg & Hin').
  exists c, t0, m. split; [done|]. split; [apply Hsub; rewrite Ho1; by left|]. split; [done|]. split; [done|].
  intros Hbm Hnr. destruct (site_told _ _ _ _ _ _ _ _ _ M Hreg Hbm Hnr) as [Hall _].
  rewrite Forall_forall in Hall. destruct (Hall _ Hin') as (<- & lv & Hlv & Hf). split; [by exists lv; rewrite Hd|].
  apply Hsub. rewrite Ho2. by left.
Qed.

Lemma c89_quiet_site : forall p t gc es s tr c t0 m lv,
  m_run p (m_start t gc) es = Some (s, tr) ->
  let l := site_log p t gc es in
  let vs := visits t c l in let times := vs.*1 in
  registered t c l = Some (t0, m) -> fresh_mcaptcha m -> ~ restored c l -> count times <= u32_max ->
  prompt p (m_start t gc) es c ->
  d_levels (m_defense m) !! 0%nat = Some lv ->
  (forall k tm, times !! k = Some tm -> 1 + window (m_duration m) tm (take k times) <= visitor_threshold lv) ->
  Forall (fun v => avr_difficulty_factor v = difficulty_factor lv) vs.*2.
Proof.
  intros p t gc es s tr c t0 m lv Hr l vs times Hreg Hf Hnr Hfit Hp Hlv Hq.
  destruct (c87_site_told p t gc es s tr c t0 m Hr Hreg Hf Hnr Hfit) as (_ & ns & N1 & N2 & _ & N3). fold l vs times in N1, N2, N3.
  rewrite (climb_quiet _ lv) in N1; [|done|].
  - apply Forall_forall. intros v Hv.
    assert (Some (avr_difficulty_factor v) ∈ Some <$> (avr_difficulty_factor <$> vs.*2)) as H by (by do 2 apply elem_of_list_fmap_1).
    rewrite N1 in H. apply elem_of_replicate in H as [[= ->] _]. done.
  - rewrite (N3 Hp). apply Forall_lookup. intros k n. unfold numbers. rewrite list_lookup_imap.
    destruct (times !! k) eqn:E; [|done]. intros [= <-]. by apply Hq.
Qed.

Lemma c89_calm_site : forall p t gc es s tr c t0 m lv v,
  m_run p (m_start t gc) es = Some (s, tr) ->
  let l := site_log p t gc es in
  let vs := visits t c l in let times := vs.*1 in let ls := d_levels (m_defense m) in
  registered t c l = Some (t0, m) -> built_mcaptcha p m -> ~ restored c l -> count times <= u32_max ->
  prompt p (m_start t gc) es c ->
  ls !! 0%nat = Some lv -> last vs.*2 = Some v -> (length ls - 1 <= length vs)%nat ->
  (forall k tm, times !! k = Some tm -> (length vs < k + length ls)%nat ->
     1 + window (m_duration m) tm (take k times) <= visitor_threshold lv) ->
  avr_difficulty_factor v = difficulty_factor lv.
Proof.
  intros p t gc es s tr c t0 m lv v Hr l vs times ls Hreg Hb Hnr Hfit Hp Hlv Hv Hlen Hq.
  destruct (site_told p t gc es s tr c t0 m Hr Hreg Hb Hnr) as [Hall Htold]. fold l vs times ls in Hall, Htold.
  destruct (Htold Hfit) as (ns & N1 & N2 & _ & _ & N4). specialize (N4 Hp).
  destruct (built_mwf p m Hb) as ((Hlad & Hwf & _) & _ & _).
  assert (length vs <> 0)%nat as Hne. { intros E. apply nil_length_inv in E. by rewrite E in Hv. }
  destruct (decide (length ls = 1)%nat) as [E1|E1].
  { rewrite Forall_forall in Hall. destruct (Hall v) as (_ & y & Hy & ->).
    - rewrite last_lookup in Hv. by eapply elem_of_list_lookup_2.
    - destruct ls as [|x [|x' r]]; [done| |done]. injection Hlv as ->. by apply elem_of_list_singleton in Hy as ->. }
  assert (last (climb ls (N.to_nat (d_current (m_defense m))) ns) = Some (Some (avr_difficulty_factor v))) as Hlast.
  { rewrite <- N2, !fmap_last. rewrite fmap_last in Hv. by rewrite Hv. }
  set (i := N.to_nat (d_current (m_defense m))) in *.
  assert (i < length ls)%nat as Hi by (destruct Hwf as (_ & Hwf & _); unfold vlen in Hwf; fold ls in Hwf; lia).
  destruct ns as [|n ns' _] using rev_ind; [by cbn in N1; lia|]. rewrite app_length in N1. cbn in N1.
  rewrite climb_snoc, last_snoc in Hlast. rewrite <- climb_end_snoc in Hlast.
  rewrite <- (take_drop (length vs - (length ls - 1)) (ns' ++ [n])) in Hlast.
  rewrite climb_end_app, (climb_end_calm ls _ lv) in Hlast; [|apply Hlad|done|by apply climb_end_lt|].
  - rewrite drop_length, app_length in Hlast. cbn [length] in Hlast.
    pose proof (climb_end_lt ls i (take (length vs - (length ls - 1)) (ns' ++ [n])) Hi) as Hlt.
    replace (_ - _)%nat with 0%nat in Hlast by lia. rewrite Hlv in Hlast. by injection Hlast as ->.
  - apply Forall_lookup. intros k x Hk. rewrite lookup_drop in Hk. pose proof (lookup_lt_Some _ _ _ Hk) as Hk'.
    rewrite app_length in Hk'. cbn in Hk'. rewrite N4 in Hk. unfold numbers in Hk. rewrite list_lookup_imap in Hk.
    destruct (times !! _) as [tm|] eqn:E; [|done]. injection Hk as <-. apply (Hq _ _ E). lia.
Qed.

Lemma c89_busy_site : forall p t gc es s tr c t0 m k tm v lv,
  m_run p (m_start t gc) es = Some (s, tr) ->
  let l := site_log p t gc es in
  let vs := visits t c l in let times := vs.*1 in
  registered t c l = Some (t0, m) -> built_mcaptcha p m -> ~ restored c l -> count times <= u32_max ->
  vs !! k = Some (tm, v) -> lv ∈ d_levels (m_defense m) ->
  visitor_threshold lv < 1 + window (m_duration m) tm (take k times) ->
  difficulty_factor lv <= avr_difficulty_factor v.
Proof.
  intros p t gc es s tr c t0 m k tm v lv Hr l vs times Hreg Hb Hnr Hfit Hk Hlv Hw.
  destruct (site_told p t gc es s tr c t0 m Hr Hreg Hb Hnr) as [_ Htold]. fold l vs times in Htold.
  destruct (Htold Hfit) as (ns & N1 & N2 & N3 & N4 & _).
  destruct (built_mwf p m Hb) as ((Hlad & Hwf & _) & _ & _).
  destruct (lookup_lt_is_Some_2 ns k) as [n Hn]; [rewrite N1; by eapply lookup_lt_Some|].
  destruct (N3 _ _ Hn) as (tm' & Htm & Hlow & _). unfold times in Htm. rewrite list_lookup_fmap, Hk in Htm. injection Htm as <-.
  destruct (climb_floor (d_levels (m_defense m)) (N.to_nat (d_current (m_defense m))) ns k n lv) as (d & Hd & Hle); try done.
  - destruct Hwf as (_ & Hwf & _). unfold vlen in Hwf. lia.
  - intros n0 H0. destruct (N3 _ _ H0) as (? & _ & _ & ?). lia.
  - lia.
  - rewrite <- N2, !list_lookup_fmap, Hk in Hd. by injection Hd as ->.
Qed.

Lemma c89_alternates : forall p t gc es s tr c t0 m k tm v tm' v' q lv lv',
  m_run p (m_start t gc) es = Some (s, tr) ->
  let l := site_log p t gc es in
  let vs := visits t c l in let times := vs.*1 in let ls := d_levels (m_defense m) in
  registered t c l = Some (t0, m) -> built_mcaptcha p m -> ~ restored c l -> count times <= u32_max ->
  vs !! k = Some (tm, v) -> vs !! S k = Some (tm', v') -> ls !! q = Some lv -> ls !! S q = Some lv' ->
  visitor_threshold lv < 1 + window (m_duration m) tm (take k times) ->
  visitor_threshold lv < 1 + window (m_duration m) tm' (take (S k) times) ->
  difficulty_factor lv' <= avr_difficulty_factor v \/ difficulty_factor lv' <= avr_difficulty_factor v'.
Proof.
  intros p t gc es s tr c t0 m k tm v tm' v' q lv lv' Hr l vs times ls Hreg Hb Hnr Hfit Hk Hk' Hlv Hlv' Hw Hw'.
  destruct (site_told p t gc es s tr c t0 m Hr Hreg Hb Hnr) as [_ Htold]. fold l vs times ls in Htold.
  destruct (Htold Hfit) as (ns & N1 & N2 & N3 & N4 & _).
  destruct (built_mwf p m Hb) as ((Hlad & Hwf & _) & _ & _).
  destruct (lookup_lt_is_Some_2 ns k) as [n Hn]; [rewrite N1; by eapply lookup_lt_Some|].
  destruct (lookup_lt_is_Some_2 ns (S k)) as [n' Hn']; [rewrite N1; by eapply lookup_lt_Some|].
  destruct (N3 _ _ Hn) as (? & Htm & Hlow & _). unfold times in Htm. rewrite list_lookup_fmap, Hk in Htm. injection Htm as <-.
  destruct (N3 _ _ Hn') as (? & Htm & Hlow' & _). unfold times in Htm. rewrite list_lookup_fmap, Hk' in Htm. injection Htm as <-.
  cbn [fst] in Hlow, Hlow'.
  destruct (climb_two ls (N.to_nat (d_current (m_defense m))) ns k n n' q lv lv') as (d & d' & Hd & Hd' & Hor); try done; try lia.
  - destruct Hwf as (_ & Hwf & _). unfold vlen in Hwf. fold ls in Hwf. lia.
  - intros n0 H0. destruct (N3 _ _ H0) as (? & _ & _ & ?). lia.
  - rewrite <- N2, !list_lookup_fmap in Hd, Hd'. rewrite Hk in Hd. rewrite Hk' in Hd'. injection Hd as ->. injection Hd' as ->. done.
Qed.

Lemma no_due now x id : forallb (fun y => now <? fst (snd y)) (ct_timers x) = true -> counter_fire now x id = None.
Proof.
  unfold counter_fire. destruct (ct_alive x); [|done]. intros H.
  assert (forall due e, timer_lookup id (ct_timers x) = Some (due, e) -> now < due) as Hd.
  { revert H. generalize (ct_timers x). intros ts. induction ts as [|[i y] ts IH]; [done|]. cbn. intros [H1 H2]%andb_true_iff due e.
    destruct (i =? id)%nat; [|by apply IH]. intros [= ->]. cbn in H1. lia. }
  destruct (timer_lookup id (ct_timers x)) as [[due e]|]; [|done]. specialize (Hd _ _ eq_refl).
  replace (due <=? now) with false by lia. done.
Qed.

Lemma ex_site_built p : built_mcaptcha p ex_site.
Proof.
  apply fresh_built. exists [MBDefense (Defense ex_ladder 0); MBDuration 30], (Defense ex_ladder 0).
  split; [done|]. split; [done|]. exists [DBAdd (Level 2 50); DBAdd (Level 5 70)]. split; [|done].
  repeat constructor; cbn; unfold u32_max; lia.
Qed.
