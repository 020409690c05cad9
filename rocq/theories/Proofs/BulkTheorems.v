(** Proofs of the theorems of Properties/BulkProperties.v. *)
From Coq Require Import ZifyBool ZifyN ZifyNat Lia.
From Verif Require Import Model.Base Model.Defense Model.MCaptcha Model.Counter Model.HashCache Model.Queue Model.Pow
  Model.System Model.Master
  Spec.DefenseSpec Spec.MCaptchaSpec Spec.CounterSpec Spec.CacheSpec Spec.MasterSpec Spec.SystemSpec Spec.SiteSpec Spec.BulkSpec
  Proofs.DefenseProofs Proofs.MCaptchaProofs Proofs.MasterProofs Proofs.SystemProofs Proofs.SystemHistory
  Proofs.SystemVisits Proofs.SiteCounter Proofs.SiteProofs Proofs.BulkProofs
  Proofs.DefenseTheorems Proofs.MCaptchaTheorems Proofs.CounterTheorems
  Proofs.MasterTheorems Proofs.SystemTheorems Proofs.SiteTheorems.
Import Master.

Lemma bulk_positions : forall p l t gc wk ql es s tr c t0 m lv t1 ns,
  s_run p l (sys_start t gc wk ql) es = Some (s, tr) ->
  let log := site_log p t gc (mtrace tr) in
  registered t c log = Some (t0, m) -> built_mcaptcha p m -> ~ restored c log ->
  count (visits t c log) <= u32_max -> lv ∈ d_levels (m_defense m) ->
  NoDup ns ->
  (forall n, n ∈ ns -> exists ch, issued t tr c t1 (t1 + m_duration m * NS) n ch /\
     cp_difficulty_factor ch < difficulty_factor lv) ->
  exists a is, length is = length ns /\ NoDup is /\
    Forall (fun i => a <= i < a + N.to_nat (visitor_threshold lv))%nat is /\
    (forall q below, d_levels (m_defense m) !! q = Some below -> d_levels (m_defense m) !! S q = Some lv ->
      forall i, (a + N.to_nat (visitor_threshold below) <= i)%nat -> i ∈ is -> S i ∈ is -> False).
Proof.
  intros p l t gc wk ql es s tr c t0 m lv t1 ns Hr log Hreg Hb Hnr Hfit Hlv Hnd Hns.
  pose proof (s_run_m _ _ _ _ _ _ Hr) as M. cbn [sys_start sy_m] in M.
  destruct (bulk_index p t gc (mtrace tr) _ _ c t0 m lv t1 M Hreg Hb Hnr) as [a [Ha Hap]]; [by unfold count in *; rewrite fmap_length|done|].
  fold log in Ha, Hap.
  destruct (inj_list (fun n i => exists id k x, asked tr n id k /\ tvisits t c log !! i = Some x /\ fst (snd x) = Some k)
    (fun i => exists tm v, visits t c log !! i = Some (tm, v) /\ t1 <= tm /\ tm < t1 + m_duration m * NS /\
       avr_difficulty_factor v < difficulty_factor lv) ns Hnd) as (is & Hlen & Hnd' & Hf & _).
  - intros n Hn. destruct (Hns n Hn) as (ch & Hi & Hd).
    destruct (issued_visit _ _ _ _ _ _ _ _ _ _ _ _ _ _ Hr Hi) as (id & k & i & tm & v & H1 & H2 & H3 & H4 & H5). fold log in H2.
    exists i. split; [by exists id, k, (tm, (Some k, v))|]. exists tm, v. rewrite visits_untag, list_lookup_fmap, H2.
    split; [done|]. split; [done|]. split; [done|]. lia.
  - intros n n' i (id & k & x & A1 & A2 & A3) (id' & k' & x' & B1 & B2 & B3). rewrite A2 in B2. injection B2 as <-.
    rewrite A3 in B3. injection B3 as <-. by eapply asked_inj.
  - exists a, is. split; [done|]. split; [done|]. split.
    + eapply Forall_impl; [exact Hf|]. cbn beta. exact Ha.
    + intros q below H1 H2 i Hi Hin Hin'. rewrite Forall_forall in Hf. by apply (Hap q below i); [..|apply Hf|apply Hf].
Qed.

Lemma c96_bulk : forall p l t gc wk ql es s tr c t0 m lv t1 ns,
  s_run p l (sys_start t gc wk ql) es = Some (s, tr) ->
  let log := site_log p t gc (mtrace tr) in
  registered t c log = Some (t0, m) -> built_mcaptcha p m -> ~ restored c log ->
  count (visits t c log) <= u32_max -> lv ∈ d_levels (m_defense m) ->
  NoDup ns ->
  (forall n, n ∈ ns -> exists ch, issued t tr c t1 (t1 + m_duration m * NS) n ch /\
     cp_difficulty_factor ch < difficulty_factor lv) ->
  count ns <= visitor_threshold lv.
Proof.
  intros p l t gc wk ql es s tr c t0 m lv t1 ns Hr log Hreg Hb Hnr Hfit Hlv Hnd Hns.
  destruct (bulk_positions p l t gc wk ql es s tr c t0 m lv t1 ns Hr Hreg Hb Hnr Hfit Hlv Hnd Hns) as (a & is & Hlen & Hnd' & Hf & _).
  pose proof (range_length _ _ _ Hnd' Hf) as Hle. unfold count. rewrite <- Hlen. lia.
Qed.

Lemma c96_halves : forall p l t gc wk ql es s tr c t0 m q below lv t1 ns,
  s_run p l (sys_start t gc wk ql) es = Some (s, tr) ->
  let log := site_log p t gc (mtrace tr) in
  registered t c log = Some (t0, m) -> built_mcaptcha p m -> ~ restored c log ->
  count (visits t c log) <= u32_max ->
  d_levels (m_defense m) !! q = Some below -> d_levels (m_defense m) !! S q = Some lv ->
  NoDup ns ->
  (forall n, n ∈ ns -> exists ch, issued t tr c t1 (t1 + m_duration m * NS) n ch /\
     cp_difficulty_factor ch < difficulty_factor lv) ->
  count ns <= visitor_threshold below + (visitor_threshold lv - visitor_threshold below + 1) / 2.
Proof.
  intros p l t gc wk ql es s tr c t0 m q below lv t1 ns Hr log Hreg Hb Hnr Hfit Hq Hq' Hnd Hns.
  assert (lv ∈ d_levels (m_defense m)) as Hlv by (by eapply elem_of_list_lookup_2).
  destruct (bulk_positions p l t gc wk ql es s tr c t0 m lv t1 ns Hr Hreg Hb Hnr Hfit Hlv Hnd Hns) as (a & is & Hlen & Hnd' & Hf & Hap).
  set (v := N.to_nat (visitor_threshold below)) in *.
  rewrite Forall_forall in Hf.
  pose proof (filter_split_length (fun i => i < a + v)%nat is) as Hsp.
  assert (length (filter (fun i => i < a + v)%nat is) <= v)%nat as H1.
  { apply (range_length _ a); [by apply NoDup_filter|]. apply Forall_forall. intros i [? Hi]%elem_of_list_filter. specialize (Hf _ Hi). lia. }
  assert (length (filter (fun i => ~ i < a + v)%nat is) <= (N.to_nat (visitor_threshold lv) - v + 1) / 2)%nat as H2.
  { apply (apart_length _ (a + v)); [by apply NoDup_filter| |].
    - apply Forall_forall. intros i [? Hi]%elem_of_list_filter. specialize (Hf _ Hi). lia.
    - intros i [? Hi]%elem_of_list_filter [? Hi']%elem_of_list_filter. apply (Hap q below Hq Hq' i); [lia|done|done]. }
  unfold count. rewrite <- Hlen.
  assert ((N.to_nat (visitor_threshold lv) - v + 1) / 2 = N.to_nat ((visitor_threshold lv - visitor_threshold below + 1) / 2))%nat as E.
  { rewrite N2Nat.inj_div. f_equal. lia. }
  lia.
Qed.

Lemma c96_returned : forall p l t gc wk ql es s tr tr1 n id os tr2 cfg tr3 c t1 t2,
  s_run p l (sys_start t gc wk ql) es = Some (s, tr) ->
  tr = tr1 ++ SoMaster (Some n) (MeReq (RqAddVisitor id)) os :: tr2 ++ SoRet n (RGetPow (Ok (Some cfg))) :: tr3 ->
  bound (hist (mouts tr1)) id = Some c ->
  t1 <= clock t tr1 -> clock t (tr1 ++ SoMaster (Some n) (MeReq (RqAddVisitor id)) os :: tr2) < t2 ->
  exists ch, issued t tr c t1 t2 n ch /\ cp_string ch = pc_string cfg /\ cp_key ch = id /\
    cp_difficulty_factor ch = pc_difficulty_factor cfg.
Proof.
  intros p l t gc wk ql es s tr tr1 n id os tr2 cfg tr3 c t1 t2 Hr E Hb H1 H2.
  destruct (c49_issued _ _ _ _ _ _ _ _ _ n cfg Hr) as (id' & v & os' & Ho & _ & _ & _).
  { unfold returned. rewrite E. set_solver. }
  rewrite E in Ho. unfold of_client in Ho.
  rewrite filter_app, filter_cons_True, filter_app, filter_cons_True in Ho by done.
  assert (filter (fun o => who o = Some n) tr2 =
      [SoCache (Some n) (HeMsg (HmCachePoW (CachePoW (pc_string cfg) (pc_difficulty_factor cfg) (avr_duration v) id')))
         (Some (HrUnit (Ok tt)))] /\ id' = id) as [Hc ->].
  { revert Ho. generalize (filter (fun o => who o = Some n) tr1), (filter (fun o => who o = Some n) tr2), (filter (fun o => who o = Some n) tr3).
    intros a b d Ho. destruct a as [|x1 [|x2 [|x3 [|x4 [|x5 a]]]]]; cbn in Ho; try done. injection Ho as -> -> _ Ho.
    destruct b as [|y1 [|y2 b]]; cbn in Ho; try done; [by injection Ho as -> _|].
    injection Ho as _ _ Ho. by destruct b. }
  assert (SoCache (Some n) (HeMsg (HmCachePoW (CachePoW (pc_string cfg) (pc_difficulty_factor cfg) (avr_duration v) id)))
         (Some (HrUnit (Ok tt))) ∈ tr2) as Hin.
  { apply (elem_of_list_filter (fun o => who o = Some n)). rewrite Hc. by left. }
  apply elem_of_list_split in Hin as (a & b & ->). exists (CachePoW (pc_string cfg) (pc_difficulty_factor cfg) (avr_duration v) id). split; [|done].
  exists tr1, id, os, a. do 2 eexists. split; [rewrite E, <- app_assoc; reflexivity|]. split; [done|]. split; [done|].
  eapply N.le_lt_trans; [|exact H2]. unfold clock.
  change (tr1 ++ SoMaster (Some n) (MeReq (RqAddVisitor id)) os :: a ++ ?x) with (tr1 ++ (SoMaster (Some n) (MeReq (RqAddVisitor id)) os :: a) ++ x).
  rewrite (app_assoc tr1), (mtrace_app (tr1 ++ _)), ticks_app. lia.
Qed.

Lemma c97_token_origin : forall p l t gc wk ql es s tr n tok d,
  s_run p l (sys_start t gc wk ql) es = Some (s, tr) ->
  returned tr n (RVerifyPow (Ok (tok, d))) ->
  exists n0 ch w ip, solves tr n0 ch n /\ called tr n0 (CGetPow (cp_key ch)) /\ called tr n (CVerifyPow w ip) /\
    w_string w = cp_string ch /\ w_key w = cp_key ch /\ cp_difficulty_factor ch = d /\
    sufficient l w d true /\ valid l w true /\
    (forall n' ch', solves tr n0 ch' n' -> ch' = ch /\ n' = n).
Proof.
  intros p l t gc wk ql es s tr n tok d Hr Hin.
  destruct (c50_sound _ _ _ _ _ _ _ _ _ _ _ _ Hr Hin) as (w & ip & dur & n0 & r0 & tr1 & tr2 & tr3 & H1 & H2 & H3 & H4 & E & H5 & _).
  assert (solves tr n0 (CachePoW (w_string w) d dur (w_key w)) n) as Hs by (repeat eexists; [exact E|done|done]).
  exists n0, (CachePoW (w_string w) d dur (w_key w)), w, ip. split_and!; try done.
  intros n' ch' Hs'. by eapply solves_inj.
Qed.

Lemma c97_cheap_tokens : forall p l t gc wk ql es s tr c t0 m lv t1 ns,
  s_run p l (sys_start t gc wk ql) es = Some (s, tr) ->
  let log := site_log p t gc (mtrace tr) in
  registered t c log = Some (t0, m) -> built_mcaptcha p m -> ~ restored c log ->
  count (visits t c log) <= u32_max -> lv ∈ d_levels (m_defense m) ->
  NoDup ns ->
  (forall n, n ∈ ns -> exists tok d n0 ch, returned tr n (RVerifyPow (Ok (tok, d))) /\ d < difficulty_factor lv /\
     solves tr n0 ch n /\ issued t tr c t1 (t1 + m_duration m * NS) n0 ch) ->
  count ns <= visitor_threshold lv.
Proof.
  intros p l t gc wk ql es s tr c t0 m lv t1 ns Hr log Hreg Hb Hnr Hfit Hlv Hnd Hns.
  destruct (inj_list (fun n n0 => exists ch, solves tr n0 ch n)
    (fun n0 => exists ch, issued t tr c t1 (t1 + m_duration m * NS) n0 ch /\ cp_difficulty_factor ch < difficulty_factor lv)
    ns Hnd) as (ms & Hlen & Hnd' & Hf & _).
  - intros n Hn. destruct (Hns n Hn) as (tok & d & n0 & ch & H1 & H2 & H3 & H4). exists n0. split; [by exists ch|]. exists ch.
    split; [done|]. destruct (c97_token_origin _ _ _ _ _ _ _ _ _ _ _ _ Hr H1) as (n0' & ch' & w & ip & G1 & _ & _ & _ & _ & <- & _ & _ & _).
    by destruct (solves_origin _ _ _ _ _ _ _ _ _ _ _ _ _ _ Hr G1 H3) as [-> ->].
  - intros n n' n0 [ch H] [ch' H']. by destruct (solves_inj _ _ _ _ _ _ _ _ _ _ _ _ _ _ Hr H H') as [_ ?].
  - unfold count. rewrite <- Hlen. eapply (c96_bulk p l t gc wk ql es s tr c t0 m lv t1 ms); try done.
    intros n0 Hn. rewrite Forall_forall in Hf. by apply Hf.
Qed.

Lemma c97_pass_origin : forall p l t gc wk ql es s tr n tok key,
  s_run p l (sys_start t gc wk ql) es = Some (s, tr) ->
  validated tr n tok key ->
  exists n1 tk n0 ch w ip, presents tr n1 tk n /\ cr_token tk = tok /\ cr_key tk = key /\ solves tr n0 ch n1 /\
    called tr n0 (CGetPow key) /\ called tr n1 (CVerifyPow w ip) /\ w_string w = cp_string ch /\ w_key w = key /\
    cp_key ch = key /\ sufficient l w (cp_difficulty_factor ch) true /\ valid l w true /\
    (forall n' tk', presents tr n1 tk' n' -> n' = n) /\ (forall n' ch', solves tr n0 ch' n' -> n' = n1).
Proof.
  intros p l t gc wk ql es s tr n tok key Hr Hv. pose proof (validated_acceptor _ _ _ _ _ _ _ _ _ Hr _ _ _ Hv) as Hin.
  apply elem_of_list_split in Hin as (tra & tr3 & Etr).
  destruct (token_origin _ _ _ _ _ _ _ _ _ _ _ _ _ _ Hr Etr) as (tr1 & n1 & d & r & tr2 & -> & Hf).
  assert (presents tr n1 (CacheResult tok key d) n) as Hp.
  { do 5 eexists. split; [rewrite Etr, <- app_assoc; reflexivity|]. done. }
  assert (SoCache (Some n1) (HeMsg (HmCacheResult (CacheResult tok key d))) r ∈ tr) as Hm by (rewrite Etr; set_solver).
  destruct (mint_by _ _ _ _ _ _ _ _ _ Hr _ _ _ Hm) as (n2 & w & ip & c & [= <-] & Hcall & Em & Hk & [Hs Hg] & Hret & _).
  cbn in Em. injection Em as -> ->.
  apply elem_of_list_split in Hret as (trb & tr4 & Etr').
  destruct (challenge_origin _ _ _ _ _ _ _ _ _ _ _ _ _ _ _ Hr Etr') as (tr5 & n0 & r0 & tr6 & -> & Hc0 & Hf').
  assert (solves tr n0 (CachePoW (w_string w) (cc_difficulty_factor c) (cc_duration c) (cc_key c)) n1) as Hsol.
  { do 6 eexists. split; [rewrite Etr', <- app_assoc; reflexivity|]. done. }
  do 6 eexists. split; [exact Hp|]. split; [done|]. split; [done|]. split; [exact Hsol|]. split_and!; try done.
  - intros n' tk' H. by destruct (presents_inj _ _ _ _ _ _ _ _ _ _ _ _ _ _ Hr H Hp) as [_ ?].
  - intros n' ch' H. by destruct (solves_inj _ _ _ _ _ _ _ _ _ _ _ _ _ _ Hr H Hsol) as [_ ?].
Qed.

Lemma c97_cheap_passes : forall p l t gc wk ql es s tr c t0 m lv t1 ns,
  s_run p l (sys_start t gc wk ql) es = Some (s, tr) ->
  let log := site_log p t gc (mtrace tr) in
  registered t c log = Some (t0, m) -> built_mcaptcha p m -> ~ restored c log ->
  count (visits t c log) <= u32_max -> lv ∈ d_levels (m_defense m) ->
  NoDup ns ->
  (forall n, n ∈ ns -> exists n1 tk n0 ch, presents tr n1 tk n /\ solves tr n0 ch n1 /\
     issued t tr c t1 (t1 + m_duration m * NS) n0 ch /\ cp_difficulty_factor ch < difficulty_factor lv) ->
  count ns <= visitor_threshold lv.
Proof.
  intros p l t gc wk ql es s tr c t0 m lv t1 ns Hr log Hreg Hb Hnr Hfit Hlv Hnd Hns.
  destruct (inj_list (fun n n0 => exists n1 tk ch, presents tr n1 tk n /\ solves tr n0 ch n1)
    (fun n0 => exists ch, issued t tr c t1 (t1 + m_duration m * NS) n0 ch /\ cp_difficulty_factor ch < difficulty_factor lv)
    ns Hnd) as (ms & Hlen & Hnd' & Hf & _).
  - intros n Hn. destruct (Hns n Hn) as (n1 & tk & n0 & ch & H1 & H2 & H3 & H4). exists n0. split; [by exists n1, tk, ch|by exists ch].
  - intros n n' n0 (n1 & tk & ch & H1 & H2) (n1' & tk' & ch' & H1' & H2').
    destruct (solves_inj _ _ _ _ _ _ _ _ _ _ _ _ _ _ Hr H2 H2') as [_ <-].
    by destruct (presents_inj _ _ _ _ _ _ _ _ _ _ _ _ _ _ Hr H1 H1') as [_ ?].
  - unfold count. rewrite <- Hlen. eapply (c96_bulk p l t gc wk ql es s tr c t0 m lv t1 ms); try done.
    intros n0 Hn. rewrite Forall_forall in Hf. by apply Hf.
Qed.

Lemma issued_at t tr c t1 t2 n m i j id os r :
  tr !! i = Some (SoMaster (Some n) (MeReq (RqAddVisitor id)) os) ->
  tr !! j = Some (SoCache (Some n) (HeMsg (HmCachePoW m)) r) -> (i < j)%nat ->
  bound (hist (mouts (take i tr))) id = Some c -> t1 <= clock t (take i tr) -> clock t (take j tr) < t2 ->
  issued t tr c t1 t2 n m.
Proof.
  intros Hi Hj Hij Hb H1 H2.
  assert (take j tr = take i tr ++ SoMaster (Some n) (MeReq (RqAddVisitor id)) os :: drop (S i) (take j tr)) as E.
  { assert (take j tr !! i = Some (SoMaster (Some n) (MeReq (RqAddVisitor id)) os)) as Hi' by (by rewrite lookup_take).
    rewrite <- (take_drop_middle _ _ _ Hi') at 1. by rewrite take_take, Nat.min_l by lia. }
  exists (take i tr), id, os, (drop (S i) (take j tr)), r, (drop (S j) tr). rewrite <- E. split; [|done].
  rewrite app_comm_cons, app_assoc, <- E. by rewrite take_drop_middle.
Qed.
