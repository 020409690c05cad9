(** Proofs of the theorems of Properties/CounterProperties.v. *)
From Coq Require Import ZifyBool ZifyN ZifyNat Lia.
From Verif Require Import Model.Base Model.Defense Model.MCaptcha Model.Counter
  Spec.DefenseSpec Spec.MCaptchaSpec Spec.CounterSpec
  Proofs.DefenseProofs Proofs.MCaptchaProofs Proofs.CounterProofs
  Proofs.DefenseTheorems Proofs.MCaptchaTheorems.

Lemma c16_window : forall p t0 m es s os,
  built_mcaptcha p m -> visits_only es ->
  counter_run p (CounterSys t0 (counter_start m)) es = Some (s, os) ->
  count (arrivals_of 0 t0 es) <= u32_max ->
  exists n, reads_count p s n /\
    n = count (unexpired es (arrivals_of 0 t0 es)) /\
    count (young (clock t0 es) (m_duration m) (arrivals_of 0 t0 es)) <= n /\
    (no_overdue p s -> n = count (young (clock t0 es) (m_duration m) (arrivals_of 0 t0 es))).
Proof.
  intros p t0 m es s os Hb Hv Hr Hfit. destruct (built_mwf p m Hb) as (Hm & H0 & _).
  pose proof (window_from_start p t0 m es s os Hm Hv Hr) as H. rewrite H0 in H. by apply H.
Qed.

Lemma c17_add_always_answered : forall p t0 m es s os,
  built_mcaptcha p m -> visits_only es ->
  counter_run p (CounterSys t0 (counter_start m)) es = Some (s, os) ->
  count (arrivals_of 0 t0 es) < u32_max ->
  exists s' o, counter_step p s (CeMsg CmAddVisitor) = Some (s', Some (CrAdded o)).
Proof.
  intros p t0 m es s os Hb Hv Hr Hfit. destruct (built_mwf p m Hb) as (Hm & H0 & _).
  destruct (count_run p t0 m es s os Hm Hv Hr) as (Ha & Hm' & Hc & _ & Hle); [lia|].
  apply add_always_answers; [done|done|]. unfold count in Hfit. lia.
Qed.

Lemma c17_reads_change_nothing : forall p s msg,
  msg = CmGetCurrentVisitorCount \/ msg = CmGetInternalData ->
  exists r, counter_step p s (CeMsg msg) = Some (s, Some r).
Proof.
  intros p [now c] msg Hm. simpl. unfold counter_handle.
  destruct (ct_alive c), Hm as [-> | ->]; eauto.
Qed.

Lemma c18_quiet_after_restore_is_zero : forall p m0 t0 es0 s os0 d es s' os' n,
  counter_run p (CounterSys t0 (counter_start m0)) es0 = Some (s, os0) ->
  no_restore es -> CeMsg CmAddVisitor ∉ es ->
  counter_run p s (CeMsg (CmSetInternalData d) :: es) = Some (s', os') ->
  reads_count p s' n -> no_overdue p s' ->
  cs_now s + m_duration d * NS <= clock (cs_now s) es -> n = 0.
Proof.
  intros p m0 t0 es0 s os0 d es s' os' n Hr0 Hn Hq Hr Hread Hno Hd.
  pose proof (restore_never_overcounts_timed p m0 t0 es0 s os0 d es s' os' n Hr0 Hn Hr Hread Hno) as H.
  simpl in H. replace (_ <? _) with false in H by lia.
  assert (arrivals_of (S (ct_next (cs_counter s))) (cs_now s) es = []) as Ha.
  { clear -Hq Hn. revert Hq Hn. generalize (S (ct_next (cs_counter s))) (cs_now s).
    induction es as [|e es IH]; intros k t Hq Hn; [done|].
    apply not_elem_of_cons in Hq as [He Hq]. apply Forall_cons in Hn as [Hn1 Hn].
    destruct e as [[]| |]; simpl; try done; by apply IH. }
  rewrite Ha in H. unfold count in H. simpl in H. lia.
Qed.

Lemma c18_fresh_restore_exact : forall p m0 t0 d es s os,
  reachable_mcaptcha p d -> visits_only es ->
  counter_run p (CounterSys t0 (counter_start m0)) (CeMsg (CmSetInternalData d) :: es) = Some (s, os) ->
  let arr := arrivals_of 1 t0 es in
  let now := clock t0 es in
  m_visitors d + count arr <= u32_max ->
  exists n, reads_count p s n /\
    n = (if bool_decide (CeFire 0 ∈ es) then 0 else m_visitors d) + count (unexpired es arr) /\
    (if now <? t0 + m_duration d * NS then m_visitors d else 0) + count (young now (m_duration d) arr) <= n /\
    (no_overdue p s ->
     n = (if now <? t0 + m_duration d * NS then m_visitors d else 0) + count (young now (m_duration d) arr)).
Proof.
  intros p m0 t0 d es s os Hd. destruct (reachable_mwf p d Hd) as (Hm & _). by apply fresh_restore_exact.
Qed.

Lemma c19_restored_counter_forgets_early_refuted : forall p m,
  built_mcaptcha p m ->
  exists s1 os1 m1 s2 os2,
    let before := [CeMsg CmAddVisitor] in
    let after := [CeMsg (CmSetInternalData m1); CeTick 1; CeMsg CmAddVisitor;
                  CeTick (m_duration m * NS - 1); CeFire 0; CeFire 1] in
    counter_run p (CounterSys 0 (counter_start m)) before = Some (s1, os1) /\
    reads_data p s1 m1 /\ reads_count p s1 1 /\
    counter_run p s1 after = Some (s2, os2) /\
    no_overdue p s2 /\ m_duration m1 = m_duration m /\
    count (young (clock 0 (before ++ after)) (m_duration m) (arrivals_of 0 0 (before ++ after))) = 1 /\
    reads_count p s2 0.
Proof.
  intros p m Hb. destruct (built_mwf p m Hb) as (Hm & H0 & Hd).
  destruct (add_visitor_mwf p m Hm) as (m1 & Ha1 & Hm1 & Hv1 & Hd1 & _); [rewrite H0; done|].
  destruct (avr_new_mwf _ Hm1) as [r1 Hr1].
  destruct (add_visitor_mwf p m1 Hm1) as (m2 & Ha2 & Hm2 & Hv2 & Hd2 & _); [rewrite Hv1, H0; done|].
  destruct (avr_new_mwf _ Hm2) as [r2 Hr2].
  set (D := m_duration m * NS). assert (0 < D) as HD.
  { unfold D, NS. lia. }
  assert (counter_run p (CounterSys 0 (counter_start m)) [CeMsg CmAddVisitor] =
          Some (CounterSys 0 (Counter m1 true 1 [(0%nat, (D, DeleteVisitor))]), [Some (CrAdded r1)])) as Hrun1.
  { cbn -[add_visitor avr_new NS decrement_visitor_by N.mul N.add N.sub N.leb]. unfold handle_add_visitor. cbn [ct_data spawn_timer counter_start].
    unfold m_get_duration. rewrite Ha1. cbn [obind]. rewrite Hr1. cbn [obind].
    cbn -[add_visitor avr_new NS decrement_visitor_by N.mul N.add N.sub N.leb]. fold D. reflexivity. }
  eexists _, _, m1, (CounterSys D (Counter (MCaptcha 0 (m_defense m2) (m_duration m2)) true 3
        [(2%nat, (1 + D, DeleteVisitor))])), _.
  cbn zeta. split; [exact Hrun1|]. split; [done|]. split.
  { unfold reads_count. simpl. unfold m_get_visitors. by rewrite Hv1, H0. }
  split.
  { cbn -[add_visitor avr_new NS decrement_visitor_by N.mul N.add N.sub N.leb]. unfold handle_add_visitor.
    cbn [ct_data spawn_timer with_data]. rewrite Ha2. cbn [obind]. rewrite Hr2. cbn [obind].
    cbn -[add_visitor avr_new NS decrement_visitor_by N.mul N.add N.sub N.leb].
    unfold m_get_duration, m_get_visitors. rewrite Hd1. fold D.
    rewrite !N.add_0_l. replace (1 + (D - 1)) with D by lia. rewrite N.leb_refl.
    cbn -[add_visitor avr_new NS decrement_visitor_by N.mul N.add N.sub N.leb].
    rewrite N.leb_refl, !decrement_eq. cbn [m_visitors m_defense m_duration].
    rewrite Hv2, Hv1, H0. reflexivity. }
  split.
  { intros id. simpl. destruct id as [|[|[|id]]]; try done. cbn.
    replace (1 + D <=? D) with false by lia. done. }
  split; [done|]. split.
  { simpl. fold D. replace (0 + 1 + (D - 1)) with D by lia.
    unfold young. fold D. rewrite filter_cons_False by (simpl; lia).
    rewrite filter_cons_True by (simpl; fold D; lia). done. }
  done.
Qed.

Lemma c20_stop : forall p s,
  (exists n, reads_count p s n) ->
  exists s', counter_step p s (CeMsg CmStop) = Some (s', Some CrUnit) /\
    forall es s'' os, counter_run p s' es = Some (s'', os) ->
      (forall id, CeFire id ∉ es) /\
      os = (fun e => match e with CeMsg _ => Some CrMailboxError | _ => None end) <$> es.
Proof.
  intros p s [n Hn]. apply reads_count_alive in Hn as [Ha _].
  destruct (stop_stops p s Ha) as (s' & Hs & Hd). exists s'. split; [done|].
  intros es s'' os Hr. destruct (dead_stays_dead p s' es s'' os Hd Hr) as (_ & _ & ? & ?). done.
Qed.

Lemma c21_saved_visitors_never_expire_refuted : forall p t0 m es s os,
  reachable_mcaptcha p m -> 0 < m_visitors m -> visits_only es ->
  counter_run p (CounterSys t0 (counter_start m)) es = Some (s, os) ->
  m_visitors m + count (arrivals_of 0 t0 es) <= u32_max ->
  exists n, reads_count p s n /\
    n = m_visitors m + count (unexpired es (arrivals_of 0 t0 es)) /\ 0 < n /\
    (no_overdue p s ->
     n = m_visitors m + count (young (clock t0 es) (m_duration m) (arrivals_of 0 t0 es))).
Proof.
  intros p t0 m es s os Hb Hv0 Hv Hr Hfit. destruct (reachable_mwf p m Hb) as (Hm & _).
  destruct (window_from_start p t0 m es s os Hm Hv Hr Hfit) as (n & H1 & H2 & H3 & H4).
  exists n. split; [done|]. split; [done|]. split; [lia|]. done.
Qed.
