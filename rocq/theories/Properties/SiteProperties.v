(** C86-C89: the sites of a Master, each with its own visitors, window and
    ladder, under every schedule; the challenges that follow from them. *)
From Coq Require Import ZifyBool ZifyN ZifyNat Lia.
From Verif Require Import Model.Base Model.Defense Model.MCaptcha Model.Counter Model.HashCache Model.Queue Model.Pow
  Model.System Model.Master
  Spec.DefenseSpec Spec.MCaptchaSpec Spec.CounterSpec Spec.MasterSpec Spec.SystemSpec Spec.SiteSpec
  Proofs.DefenseProofs Proofs.MCaptchaProofs Proofs.MasterProofs Proofs.SystemProofs Proofs.SystemHistory
  Proofs.SystemVisits Proofs.SiteCounter Proofs.SiteProofs
  Properties.DefenseProperties Properties.MCaptchaProperties Properties.CounterProperties
  Properties.MasterProperties Properties.SystemProperties.
Import Master.
From Verif Require Export Proofs.SiteTheorems.

(** ** C21, for the sites of a Master: a site that came with saved visitors
    keeps at least these, so garbage collection never removes a name because of
    it. *)
Theorem C21_saved_site_count : forall p t gc es s tr c t0 m n,
  m_run p (m_start t gc) es = Some (s, tr) ->
  let l := site_log p t gc es in let times := (visits t c l).*1 in
  registered t c l = Some (t0, m) -> reachable_mcaptcha p m -> ~ restored c l ->
  m_visitors m + count times <= u32_max -> count_at s c n ->
  m_visitors m + window (m_duration m) (my_now s) times <= n <= m_visitors m + count times /\
  ((forall id, m_step p s (MeFire c id) = None) -> n = m_visitors m + window (m_duration m) (my_now s) times).
Proof. exact site_count_saved. Qed.
Print Assumptions C21_saved_site_count.

Theorem C21_never_collected : forall p t gc es s tr w s' o id,
  m_run p (m_start t gc) es = Some (s, tr) -> let l := site_log p t gc es in
  m_step p s (MeTask w) = Some (s', o) -> MoHandle (RqRemove id) ∈ o ->
  exists es0 e0 es1 s0 tr0 s0' o0 c t0 m,
    es = es0 ++ e0 :: es1 /\
    (** what the name stood for when the pass began *)
    m_run p (m_start t gc) es0 = Some (s0, tr0) /\ m_step p s0 e0 = Some (s0', o0) /\ MoHandle RqCleanUp ∈ o0 /\
    w = my_next s0 /\ bound (hist tr0) id = Some c /\ registered t c l = Some (t0, m) /\
    (reachable_mcaptcha p m -> ~ restored c l -> m_visitors m + count (visits t c l).*1 <= u32_max ->
     m_visitors m = 0).
Proof. exact c21_never_collected. Qed.
Print Assumptions C21_never_collected.

(** "a" came with two saved visitors, "b" with none; both are read, then a pass
    goes over them. *)
Definition ex_saved2 : mcaptcha := MCaptcha 2 (Defense (d_levels example3) 1) 30.

Example C21_sites_witness : forall p, exists s tr s' tr',
  m_run p (m_start 0 60) [MeReq (RqAddSite "a" ex_saved2); MeReq (RqAddSite "b" ex_m3);
    MeReq (RqGetSite "a"); MeReq (RqGetSite "b"); MeTick (1000000 * sec); MeReq RqCleanUp] = Some (s, tr) /\
  reachable_mcaptcha p ex_saved2 /\ count_at s 0 2 /\ count_at s 1 0 /\
  m_run p s (replicate 4 (MeTask 1)) = Some (s', tr') /\
  handled tr' = [RqRemove "b"] /\ bound (hist (tr ++ tr')) "a" = Some 0%nat /\ count_at s' 0 2.
Proof.
  intros p. eexists _, _, _, _.
  split; [destruct p; vm_compute; reflexivity|].
  split. { exists ex_m3, [MAdd; MAdd]. split; [apply fresh_built, ex_m3_fresh|by destruct p]. }
  split; [eexists; by split|]. split; [eexists; by split|].
  split; [destruct p; vm_compute; reflexivity|]. split; [done|]. split; [done|]. eexists; by split.
Qed.

(** ** C86 *)
Theorem C86_site_count : forall p t gc es s tr c t0 m n,
  m_run p (m_start t gc) es = Some (s, tr) ->
  let l := site_log p t gc es in let times := (visits t c l).*1 in
  registered t c l = Some (t0, m) -> built_mcaptcha p m -> ~ restored c l -> count times <= u32_max ->
  count_at s c n ->
  window (m_duration m) (my_now s) times <= n <= count times /\
  ((forall id, m_step p s (MeFire c id) = None) -> n = window (m_duration m) (my_now s) times).
Proof. exact site_count. Qed.
Print Assumptions C86_site_count.

(** Whoever is told something is a visitor of exactly the registration its name
    stood for when the request was made. *)
Theorem C86_visits : forall p t gc es1 id es2 s1 tr1 s tr v,
  m_run p (m_start t gc) es1 = Some (s1, tr1) ->
  m_run p (m_start t gc) (es1 ++ MeReq (RqAddVisitor id) :: es2) = Some (s, tr) ->
  MrVisit (Ok (Some v)) ∈ answers (my_reqs s1) tr ->
  exists c t0 m, bound (hist tr1) id = Some c /\
    registered t c (site_log p t gc (es1 ++ MeReq (RqAddVisitor id) :: es2)) = Some (t0, m) /\
    v ∈ (visits t c (site_log p t gc (es1 ++ MeReq (RqAddVisitor id) :: es2))).*2.
Proof. exact c86_visits. Qed.
Print Assumptions C86_visits.

(** ** C87 *)
Theorem C87_site_told : forall p t gc es s tr c t0 m,
  m_run p (m_start t gc) es = Some (s, tr) ->
  let l := site_log p t gc es in
  let vs := visits t c l in let times := vs.*1 in let ls := d_levels (m_defense m) in
  registered t c l = Some (t0, m) -> fresh_mcaptcha m -> ~ restored c l -> count times <= u32_max ->
  Forall (fun v => avr_duration v = m_duration m) vs.*2 /\
  exists ns, Some <$> (avr_difficulty_factor <$> vs.*2) = climb ls 0 ns /\
    (forall k n, ns !! k = Some n -> exists tm, times !! k = Some tm /\
       1 + window (m_duration m) tm (take k times) <= n <= N.of_nat k + 1) /\
    (forall k a b, ns !! k = Some a -> ns !! S k = Some b -> b <= a + 1) /\
    (prompt p (m_start t gc) es c -> ns = numbers (m_duration m) times).
Proof. exact c87_site_told. Qed.
Print Assumptions C87_site_told.

(** ** C88 *)
Theorem C88_challenge_from_ladder : forall p l t gc wk ql es s tr n cfg,
  s_run p l (sys_start t gc wk ql) es = Some (s, tr) ->
  returned tr n (RGetPow (Ok (Some cfg))) ->
  let log := site_log p t gc (mtrace tr) in
  exists id tr1 os tr2 c t0 m,
    tr = tr1 ++ SoMaster (Some n) (MeReq (RqAddVisitor id)) os :: tr2 /\
    SoCall n (CGetPow id) ∈ tr1 /\ bound (hist (mouts tr1)) id = Some c /\ registered t c log = Some (t0, m) /\
    (built_mcaptcha p m -> ~ restored c log ->
     (exists lv, lv ∈ d_levels (m_defense m) /\ pc_difficulty_factor cfg = difficulty_factor lv) /\
     SoCache (Some n) (HeMsg (HmCachePoW (CachePoW (pc_string cfg) (pc_difficulty_factor cfg) (m_duration m) id)))
       (Some (HrUnit (Ok tt))) ∈ tr2).
Proof. exact c88_challenge_from_ladder. Qed.
Print Assumptions C88_challenge_from_ladder.

(** ** C89 *)
(** While no more visitors are in the window than the first threshold allows,
    everybody gets the easiest difficulty. *)
Theorem C89_quiet_site : forall p t gc es s tr c t0 m lv,
  m_run p (m_start t gc) es = Some (s, tr) ->
  let l := site_log p t gc es in
  let vs := visits t c l in let times := vs.*1 in
  registered t c l = Some (t0, m) -> fresh_mcaptcha m -> ~ restored c l -> count times <= u32_max ->
  prompt p (m_start t gc) es c ->
  d_levels (m_defense m) !! 0%nat = Some lv ->
  (forall k tm, times !! k = Some tm -> 1 + window (m_duration m) tm (take k times) <= visitor_threshold lv) ->
  Forall (fun v => avr_difficulty_factor v = difficulty_factor lv) vs.*2.
Proof. exact c89_quiet_site. Qed.
Print Assumptions C89_quiet_site.

(** Once the last visitors, one fewer than there are levels, each found no more in
    the window than the first threshold allows, the last one got the easiest
    difficulty, however busy the site was before. *)
Theorem C89_calm_site : forall p t gc es s tr c t0 m lv v,
  m_run p (m_start t gc) es = Some (s, tr) ->
  let l := site_log p t gc es in
  let vs := visits t c l in let times := vs.*1 in let ls := d_levels (m_defense m) in
  registered t c l = Some (t0, m) -> built_mcaptcha p m -> ~ restored c l -> count times <= u32_max ->
  prompt p (m_start t gc) es c ->
  ls !! 0%nat = Some lv -> last vs.*2 = Some v -> (length ls - 1 <= length vs)%nat ->
  (forall k tm, times !! k = Some tm -> (length vs < k + length ls)%nat ->
     1 + window (m_duration m) tm (take k times) <= visitor_threshold lv) ->
  avr_difficulty_factor v = difficulty_factor lv.
Proof. exact c89_calm_site. Qed.
Print Assumptions C89_calm_site.

(** A visitor who, together with those in the window, is above the threshold of a
    level gets at least the difficulty of that level: at once, whatever level the
    site was at. *)
Theorem C89_busy_site : forall p t gc es s tr c t0 m k tm v lv,
  m_run p (m_start t gc) es = Some (s, tr) ->
  let l := site_log p t gc es in
  let vs := visits t c l in let times := vs.*1 in
  registered t c l = Some (t0, m) -> built_mcaptcha p m -> ~ restored c l -> count times <= u32_max ->
  vs !! k = Some (tm, v) -> lv ∈ d_levels (m_defense m) ->
  visitor_threshold lv < 1 + window (m_duration m) tm (take k times) ->
  difficulty_factor lv <= avr_difficulty_factor v.
Proof. exact c89_busy_site. Qed.
Print Assumptions C89_busy_site.

(** Of two visitors in a row who are both above the threshold of a level, at least
    one gets the difficulty of the next level. *)
Theorem C89_alternates : forall p t gc es s tr c t0 m k tm v tm' v' q lv lv',
  m_run p (m_start t gc) es = Some (s, tr) ->
  let l := site_log p t gc es in
  let vs := visits t c l in let times := vs.*1 in let ls := d_levels (m_defense m) in
  registered t c l = Some (t0, m) -> built_mcaptcha p m -> ~ restored c l -> count times <= u32_max ->
  vs !! k = Some (tm, v) -> vs !! S k = Some (tm', v') -> ls !! q = Some lv -> ls !! S q = Some lv' ->
  visitor_threshold lv < 1 + window (m_duration m) tm (take k times) ->
  visitor_threshold lv < 1 + window (m_duration m) tm' (take (S k) times) ->
  difficulty_factor lv' <= avr_difficulty_factor v \/ difficulty_factor lv' <= avr_difficulty_factor v'.
Proof. exact c89_alternates. Qed.
Print Assumptions C89_alternates.

(** ** Witnesses *)
(** Two sites; "a" has four visitors within ten seconds, is renamed in between,
    and one visitor when the first two have left. *)
Definition ex_day : list mevent :=
  [MeReq (RqAddSite "a" ex_m3); MeReq (RqAddSite "b" ex_m3); MeReq (RqAddVisitor "a"); MeTask 1;
   MeReq (RqAddVisitor "a"); MeTask 2; MeTick (10 * sec); MeReq (RqRename "a" "c"); MeReq (RqAddVisitor "c"); MeTask 3;
   MeReq (RqAddVisitor "b"); MeTask 4; MeDirect 0 CmAddVisitor; MeTick (25 * sec); MeFire 0 0; MeFire 0 1;
   MeReq (RqAddVisitor "c"); MeTask 5].

Fixpoint prompt_check (p : profile) (s : msys) (es : list mevent) (acc : mlog) (c : nat) : bool :=
  match es with
  | [] => true
  | e :: r =>
      match m_step p s e with
      | None => true
      | Some (s', o) =>
          (match omap (said acc c) o with
           | [] => true
           | _ => match my_ctrs s !! c with
                  | Some x => forallb (fun y => my_now s <? fst (snd y)) (ct_timers x)
                  | None => true
                  end
           end) && prompt_check p s' r ((e, o) :: acc) c
      end
  end.

Lemma prompt_check_ok p s0 c es pre s tr :
  m_run p s0 pre = Some (s, tr) -> prompt_check p s es (m_log p s0 pre []) c = true ->
  forall es1 e es2 s1 tr1 s2 o x v id, es = es1 ++ e :: es2 ->
    m_run p s0 (pre ++ es1) = Some (s1, tr1) -> m_step p s1 e = Some (s2, o) ->
    x ∈ o -> said (m_log p s0 (pre ++ es1) []) c x = Some v -> m_step p s1 (MeFire c id) = None.
Proof.
  revert pre s tr. induction es as [|y es IH]; intros pre s tr Hr Hc es1 e es2 s1 tr1 s2 o x v id Hes; [by destruct es1|].
  cbn in Hc. intros Hr1 Hs Hx Hsaid. destruct es1 as [|z es1]; cbn in Hes; injection Hes as -> ->.
  - rewrite app_nil_r in *. rewrite Hr in Hr1. injection Hr1 as <- <-. rewrite Hs in Hc.
    apply andb_true_iff in Hc as [Hc _]. destruct (omap _ o) as [|w r] eqn:E.
    { exfalso. assert (v ∈ omap (said (m_log p s0 pre []) c) o) as Hin by (apply elem_of_list_omap; eauto).
      rewrite E in Hin. by apply elem_of_nil in Hin. }
    cbn. destruct (my_ctrs s !! c); [|done]. by rewrite no_due.
  - change (pre ++ z :: es1) with (pre ++ [z] ++ es1) in *. rewrite app_assoc in *.
    apply m_run_app in Hr1 as (s3 & tr3 & tr4 & H3 & H4 & ->). pose proof H3 as H3'.
    apply m_run_snoc in H3 as (s4 & tr5 & o4 & H5 & H6 & ->). rewrite Hr in H5. injection H5 as <- <-.
    rewrite H6 in Hc. apply andb_true_iff in Hc as [_ Hc]. rewrite <- (m_log_snoc _ _ _ _ _ _ _ _ Hr H6) in Hc.
    eapply (IH _ _ _ H3' Hc es1 e es2); try done. apply m_run_app. eauto 10.
Qed.

Lemma prompt_check_sound p s0 es c : prompt_check p s0 es [] c = true -> prompt p s0 es c.
Proof. intros H. exact (prompt_check_ok p s0 c es [] s0 [] eq_refl H). Qed.

Lemma ex_day_run : forall p, exists s tr, m_run p (m_start 0 60) ex_day = Some (s, tr).
Proof. intros p. eexists _, _. by destruct p; vm_compute. Qed.

Lemma ex_day_site : forall p, let l := site_log p 0 60 ex_day in
  registered 0 0 l = Some (0, ex_m3) /\
  visits 0 0 l = [(0, AddVisitorResult 30 10); (0, AddVisitorResult 30 20); (10 * sec, AddVisitorResult 30 30);
                  (10 * sec, AddVisitorResult 30 30); (35 * sec, AddVisitorResult 30 20)] /\
  visits 0 1 l = [(10 * sec, AddVisitorResult 30 10)].
Proof. intros p. by destruct p; vm_compute. Qed.

Fixpoint restores (l : mlog) : bool :=
  match l with
  | [] => false
  | (e, o) :: r =>
      match e with MeDirect _ (CmSetInternalData _) => true | _ => false end ||
      existsb (fun q => match q with RqSetData _ => true | _ => false end) (handled o) || restores r
  end.

Lemma not_restored c l : restores l = false -> ~ restored c l.
Proof.
  induction l as [|[e o] l IH]; [by intros _ ?|]. cbn. rewrite !orb_false_iff. intros [[H1 H2] H3] [[d ->]|[(d & id & Hd & _)|H]].
  - done.
  - apply not_true_iff_false in H2. apply H2, existsb_exists. exists (RqSetData d). split; [by apply elem_of_list_In|done].
  - by apply (IH H3).
Qed.

Example C86_witness : forall p, exists s tr,
  m_run p (m_start 0 60) ex_day = Some (s, tr) /\
  let l := site_log p 0 60 ex_day in
  registered 0 0 l = Some (0, ex_m3) /\ built_mcaptcha p ex_m3 /\ ~ restored 0 l /\ count (visits 0 0 l).*1 <= u32_max /\
  count_at s 0 3 /\ (forall id, m_step p s (MeFire 0 id) = None) /\
  window 30 (my_now s) (visits 0 0 l).*1 = 3 /\ count (visits 0 0 l).*1 = 5.
Proof.
  intros p. destruct (ex_day_run p) as (s & tr & Hr). exists s, tr. split; [done|]. cbn zeta.
  destruct (ex_day_site p) as (H1 & H2 & _). rewrite H2. split; [done|]. split; [apply fresh_built, ex_m3_fresh|].
  split; [apply not_restored; by destruct p; vm_compute|]. split; [by vm_compute|].
  assert (my_now s = 35 * sec /\ exists x, my_ctrs s !! 0%nat = Some x /\ ct_alive x = true /\ m_get_visitors (ct_data x) = 3 /\
    forallb (fun y => 35 * sec <? fst (snd y)) (ct_timers x) = true) as (Hn & x & Hx & Ha & Hv & Hd).
  { enough (option_map (fun a => (my_now (fst a), my_ctrs (fst a) !! 0%nat)) (m_run p (m_start 0 60) ex_day) =
      Some (35 * sec, Some (Counter (MCaptcha 3 (Defense [Level 1 10; Level 2 20; Level 3 30] 1) 30) true 5
        [(2%nat, (40 * sec, DeleteVisitor)); (3%nat, (40 * sec, DeleteVisitor)); (4%nat, (65 * sec, DeleteVisitor))]))) as E.
    { rewrite Hr in E. cbn in E. injection E as E1 E2. split; [done|]. eexists. split; [exact E2|]. clear. by vm_compute. }
    by destruct p; vm_compute. }
  clear Hr H1 H2. split; [by exists x|]. split; [|rewrite Hn; by vm_compute].
  intros id. cbn [m_step]. rewrite Hx, Hn, no_due; [reflexivity|exact Hd].
Qed.

Example C87_witness : forall p, exists s tr,
  m_run p (m_start 0 60) ex_day = Some (s, tr) /\
  let l := site_log p 0 60 ex_day in
  registered 0 0 l = Some (0, ex_m3) /\ fresh_mcaptcha ex_m3 /\ ~ restored 0 l /\ count (visits 0 0 l).*1 <= u32_max /\
  prompt p (m_start 0 60) ex_day 0 /\ numbers 30 (visits 0 0 l).*1 = [1; 2; 3; 4; 3] /\
  climb (d_levels example3) 0 [1; 2; 3; 4; 3] = [Some 10; Some 20; Some 30; Some 30; Some 20].
Proof.
  intros p. destruct (ex_day_run p) as (s & tr & Hr). exists s, tr. split; [done|]. cbn zeta.
  destruct (ex_day_site p) as (H1 & H2 & _). rewrite H2. split; [done|]. split; [apply ex_m3_fresh|]. clear Hr H1 H2.
  split; [apply not_restored; by destruct p; vm_compute|]. split; [by vm_compute|].
  split; [apply prompt_check_sound; by destruct p; vm_compute|]. by vm_compute.
Qed.

Example C88_witness : forall p, exists s tr,
  s_run p ex_lib ex_start ex_issue = Some (s, tr) /\
  returned tr 0 (RGetPow (Ok (Some (PoWConfig "x" 50 "salt")))) /\
  let log := site_log p 0 60 (mtrace tr) in
  registered 0 0 log = Some (0, ex_site) /\ built_mcaptcha p ex_site /\ ~ restored 0 log /\
  Level 2 50 ∈ d_levels (m_defense ex_site).
Proof.
  intros p. eexists _, _. split; [by destruct p; vm_compute|]. split; [unfold returned; set_solver|]. cbn zeta.
  split; [by destruct p; vm_compute|]. split; [apply ex_site_built|]. split; [apply not_restored; by destruct p; vm_compute|].
  by left.
Qed.

Definition ex_rush : list mevent :=
  [MeReq (RqAddSite "a" ex_m3); MeReq (RqAddSite "b" ex_m3); MeDirect 1 CmAddVisitor; MeDirect 0 CmAddVisitor;
   MeDirect 0 CmAddVisitor; MeDirect 0 CmAddVisitor; MeDirect 0 CmAddVisitor; MeReq (RqAddVisitor "a"); MeTask 1].

Example C89_witness : forall p, exists s tr,
  m_run p (m_start 0 60) ex_rush = Some (s, tr) /\
  let l := site_log p 0 60 ex_rush in
  fresh_mcaptcha ex_m3 /\ ~ restored 0 l /\ ~ restored 1 l /\
  registered 0 0 l = Some (0, ex_m3) /\ registered 0 1 l = Some (0, ex_m3) /\
  (* quiet *)
  prompt p (m_start 0 60) ex_rush 1 /\ d_levels example3 !! 0%nat = Some (Level 1 10) /\
  visits 0 1 l = [(0, AddVisitorResult 30 10)] /\
  (forall k tm, (visits 0 1 l).*1 !! k = Some tm -> 1 + window 30 tm (take k (visits 0 1 l).*1) <= 1) /\
  (* busy *)
  visits 0 0 l !! 1%nat = Some (0, AddVisitorResult 30 20) /\ Level 1 10 ∈ d_levels example3 /\
  1 < 1 + window 30 0 (take 1 (visits 0 0 l).*1) /\
  visits 0 0 l !! 2%nat = Some (0, AddVisitorResult 30 30) /\ d_levels example3 !! 1%nat = Some (Level 2 20) /\
  1 < 1 + window 30 0 (take 2 (visits 0 0 l).*1) /\
  visits 0 0 l !! 3%nat = Some (0, AddVisitorResult 30 30) /\ Level 3 30 ∈ d_levels example3 /\
  3 < 1 + window 30 0 (take 3 (visits 0 0 l).*1).
Proof.
  intros p. assert (exists s tr, m_run p (m_start 0 60) ex_rush = Some (s, tr)) as (s & tr & Hr)
    by (eexists _, _; by destruct p; vm_compute).
  exists s, tr. split; [done|]. clear Hr. cbn zeta.
  assert (visits 0 1 (site_log p 0 60 ex_rush) = [(0, AddVisitorResult 30 10)]) as -> by by destruct p; vm_compute.
  assert (visits 0 0 (site_log p 0 60 ex_rush) = [(0, AddVisitorResult 30 10); (0, AddVisitorResult 30 20);
    (0, AddVisitorResult 30 30); (0, AddVisitorResult 30 30); (0, AddVisitorResult 30 30)]) as -> by by destruct p; vm_compute.
  split; [apply ex_m3_fresh|].
  split; [apply not_restored; by destruct p; vm_compute|]. split; [apply not_restored; by destruct p; vm_compute|].
  split; [by destruct p; vm_compute|]. split; [by destruct p; vm_compute|].
  split; [apply prompt_check_sound; by destruct p; vm_compute|]. split; [done|]. split; [done|]. split.
  { intros [|[|k]] tm; intros [= <-]; by vm_compute. }
  split; [done|]. split; [vm_compute; by left|]. split; [by vm_compute|]. split; [done|]. split; [done|]. split; [by vm_compute|].
  split; [done|]. split; [vm_compute; by right; right; left|]. by vm_compute.
Qed.

(** Three visitors in a burst, two after they have left. *)
Definition ex_lull : list mevent :=
  [MeReq (RqAddSite "a" ex_m3); MeDirect 0 CmAddVisitor; MeDirect 0 CmAddVisitor; MeDirect 0 CmAddVisitor;
   MeTick (30 * sec); MeFire 0 0; MeFire 0 1; MeFire 0 2; MeDirect 0 CmAddVisitor;
   MeTick (30 * sec); MeFire 0 3; MeReq (RqAddVisitor "a"); MeTask 1].

Example C89_calm_witness : forall p, exists s tr,
  m_run p (m_start 0 60) ex_lull = Some (s, tr) /\
  let l := site_log p 0 60 ex_lull in
  built_mcaptcha p ex_m3 /\ ~ restored 0 l /\ registered 0 0 l = Some (0, ex_m3) /\
  prompt p (m_start 0 60) ex_lull 0 /\ d_levels example3 !! 0%nat = Some (Level 1 10) /\ length (d_levels example3) = 3%nat /\
  visits 0 0 l = [(0, AddVisitorResult 30 10); (0, AddVisitorResult 30 20); (0, AddVisitorResult 30 30);
    (30 * sec, AddVisitorResult 30 20); (60 * sec, AddVisitorResult 30 10)] /\
  (forall k tm, (visits 0 0 l).*1 !! k = Some tm -> (5 < k + 3)%nat -> 1 + window 30 tm (take k (visits 0 0 l).*1) <= 1).
Proof.
  intros p. assert (exists s tr, m_run p (m_start 0 60) ex_lull = Some (s, tr)) as (s & tr & Hr)
    by (eexists _, _; by destruct p; vm_compute).
  exists s, tr. split; [done|]. clear Hr. cbn zeta.
  assert (visits 0 0 (site_log p 0 60 ex_lull) = [(0, AddVisitorResult 30 10); (0, AddVisitorResult 30 20);
    (0, AddVisitorResult 30 30); (30 * sec, AddVisitorResult 30 20); (60 * sec, AddVisitorResult 30 10)]) as -> by by destruct p; vm_compute.
  split; [apply fresh_built, ex_m3_fresh|]. split; [apply not_restored; by destruct p; vm_compute|].
  split; [by destruct p; vm_compute|]. split; [apply prompt_check_sound; by destruct p; vm_compute|].
  split; [done|]. split; [done|]. split; [done|].
  intros k tm Hk Hle. destruct k as [|[|[|[|[|k]]]]]; [..|done]; injection Hk as <-; try lia; by vm_compute.
Qed.
