(** C96-C97: what challenges, tokens and passes cost when they are obtained in
    bulk. *)
From Coq Require Import ZifyBool ZifyN ZifyNat Lia.
From Verif Require Import Model.Base Model.Defense Model.MCaptcha Model.Counter Model.HashCache Model.Queue Model.Pow
  Model.System Model.Master
  Spec.DefenseSpec Spec.MCaptchaSpec Spec.CounterSpec Spec.CacheSpec Spec.MasterSpec Spec.SystemSpec Spec.SiteSpec Spec.BulkSpec
  Proofs.DefenseProofs Proofs.MCaptchaProofs Proofs.MasterProofs Proofs.SystemProofs Proofs.SystemHistory
  Proofs.SystemVisits Proofs.SiteCounter Proofs.SiteProofs Proofs.BulkProofs
  Properties.DefenseProperties Properties.MCaptchaProperties Properties.CounterProperties
  Properties.MasterProperties Properties.SystemProperties Properties.SiteProperties.
Import Master.
From Verif Require Export Proofs.BulkTheorems.

(** ** C96 *)

(** However the calls are scheduled: of the challenges issued for one
    registration between [t1] and one duration later, at most as many are easier
    than a level of the site as the visitor threshold of that level. *)
Theorem C96_bulk : forall p l t gc wk ql es s tr c t0 m lv t1 ns,
  s_run p l (sys_start t gc wk ql) es = Some (s, tr) ->
  let log := site_log p t gc (mtrace tr) in
  registered t c log = Some (t0, m) -> built_mcaptcha p m -> ~ restored c log ->
  count (visits t c log) <= u32_max -> lv ∈ d_levels (m_defense m) ->
  NoDup ns ->
  (forall n, n ∈ ns -> exists ch, issued t tr c t1 (t1 + m_duration m * NS) n ch /\
     cp_difficulty_factor ch < difficulty_factor lv) ->
  count ns <= visitor_threshold lv.
Proof. exact c96_bulk. Qed.
Print Assumptions C96_bulk.

(** Sharper: between the thresholds of two neighbouring levels the difficulty goes
    up and down, so of those visitors at most every second one gets less. *)
Theorem C96_halves : forall p l t gc wk ql es s tr c t0 m q below lv t1 ns,
  s_run p l (sys_start t gc wk ql) es = Some (s, tr) ->
  let log := site_log p t gc (mtrace tr) in
  registered t c log = Some (t0, m) -> built_mcaptcha p m -> ~ restored c log ->
  count (visits t c log) <= u32_max ->
  d_levels (m_defense m) !! q = Some below -> d_levels (m_defense m) !! S q = Some lv ->
  NoDup ns ->
  (forall n, n ∈ ns -> exists ch, issued t tr c t1 (t1 + m_duration m * NS) n ch /\
     cp_difficulty_factor ch < difficulty_factor lv) ->
  count ns <= visitor_threshold below + (visitor_threshold lv - visitor_threshold below + 1) / 2.
Proof. exact c96_halves. Qed.
Print Assumptions C96_halves.

(** A challenge returned within the period was issued within it. *)
Theorem C96_returned : forall p l t gc wk ql es s tr tr1 n id os tr2 cfg tr3 c t1 t2,
  s_run p l (sys_start t gc wk ql) es = Some (s, tr) ->
  tr = tr1 ++ SoMaster (Some n) (MeReq (RqAddVisitor id)) os :: tr2 ++ SoRet n (RGetPow (Ok (Some cfg))) :: tr3 ->
  bound (hist (mouts tr1)) id = Some c ->
  t1 <= clock t tr1 -> clock t (tr1 ++ SoMaster (Some n) (MeReq (RqAddVisitor id)) os :: tr2) < t2 ->
  exists ch, issued t tr c t1 t2 n ch /\ cp_string ch = pc_string cfg /\ cp_key ch = id /\
    cp_difficulty_factor ch = pc_difficulty_factor cfg.
Proof. exact c96_returned. Qed.
Print Assumptions C96_returned.

(** ** C97 *)
(** Every token was earned with a challenge of its own, solved at its difficulty. *)
Theorem C97_token_origin : forall p l t gc wk ql es s tr n tok d,
  s_run p l (sys_start t gc wk ql) es = Some (s, tr) ->
  returned tr n (RVerifyPow (Ok (tok, d))) ->
  exists n0 ch w ip, solves tr n0 ch n /\ called tr n0 (CGetPow (cp_key ch)) /\ called tr n (CVerifyPow w ip) /\
    w_string w = cp_string ch /\ w_key w = cp_key ch /\ cp_difficulty_factor ch = d /\
    sufficient l w d true /\ valid l w true /\
    (forall n' ch', solves tr n0 ch' n' -> ch' = ch /\ n' = n).
Proof. exact c97_token_origin. Qed.
Print Assumptions C97_token_origin.

(** Of the tokens earned with challenges issued for one registration between [t1]
    and one duration later, no more are cheaper than the level. *)
Theorem C97_cheap_tokens : forall p l t gc wk ql es s tr c t0 m lv t1 ns,
  s_run p l (sys_start t gc wk ql) es = Some (s, tr) ->
  let log := site_log p t gc (mtrace tr) in
  registered t c log = Some (t0, m) -> built_mcaptcha p m -> ~ restored c log ->
  count (visits t c log) <= u32_max -> lv ∈ d_levels (m_defense m) ->
  NoDup ns ->
  (forall n, n ∈ ns -> exists tok d n0 ch, returned tr n (RVerifyPow (Ok (tok, d))) /\ d < difficulty_factor lv /\
     solves tr n0 ch n /\ issued t tr c t1 (t1 + m_duration m * NS) n0 ch) ->
  count ns <= visitor_threshold lv.
Proof. exact c97_cheap_tokens. Qed.
Print Assumptions C97_cheap_tokens.

(** Every pass was given for a token of its own, earned with a challenge of its own. *)
Theorem C97_pass_origin : forall p l t gc wk ql es s tr n tok key,
  s_run p l (sys_start t gc wk ql) es = Some (s, tr) ->
  validated tr n tok key ->
  exists n1 tk n0 ch w ip, presents tr n1 tk n /\ cr_token tk = tok /\ cr_key tk = key /\ solves tr n0 ch n1 /\
    called tr n0 (CGetPow key) /\ called tr n1 (CVerifyPow w ip) /\ w_string w = cp_string ch /\ w_key w = key /\
    cp_key ch = key /\ sufficient l w (cp_difficulty_factor ch) true /\ valid l w true /\
    (forall n' tk', presents tr n1 tk' n' -> n' = n) /\ (forall n' ch', solves tr n0 ch' n' -> n' = n1).
Proof. exact c97_pass_origin. Qed.
Print Assumptions C97_pass_origin.

Theorem C97_cheap_passes : forall p l t gc wk ql es s tr c t0 m lv t1 ns,
  s_run p l (sys_start t gc wk ql) es = Some (s, tr) ->
  let log := site_log p t gc (mtrace tr) in
  registered t c log = Some (t0, m) -> built_mcaptcha p m -> ~ restored c log ->
  count (visits t c log) <= u32_max -> lv ∈ d_levels (m_defense m) ->
  NoDup ns ->
  (forall n, n ∈ ns -> exists n1 tk n0 ch, presents tr n1 tk n /\ solves tr n0 ch n1 /\
     issued t tr c t1 (t1 + m_duration m * NS) n0 ch /\ cp_difficulty_factor ch < difficulty_factor lv) ->
  count ns <= visitor_threshold lv.
Proof. exact c97_cheap_passes. Qed.
Print Assumptions C97_cheap_passes.

(** ** Witnesses *)

(** Seven visitors at once on a site with thresholds 2 and 5. *)
Definition ex_bulk : list sevent :=
  SeMaster (MeReq (RqAddSite "site" ex_site)) ::
  (zip [0; 1; 2; 3; 4; 5; 6]%nat ["a"; "b"; "c"; "d"; "e"; "f"; "g"] ≫= fun '(n, x) =>
   [SeCall (CGetPow "site"); SeAct n ""; SeMaster (MeTask (S n)); SeAct n x; SeAct n ""; SeAct n ""]).

Example C96_witness : forall p, exists s tr,
  s_run p ex_lib ex_start ex_bulk = Some (s, tr) /\
  let log := site_log p 0 60 (mtrace tr) in
  registered 0 0 log = Some (0, ex_site) /\ built_mcaptcha p ex_site /\ ~ restored 0 log /\ count (visits 0 0 log) = 7 /\
  Level 5 70 ∈ d_levels (m_defense ex_site) /\
  omap (fun o => match o with SoRet _ (RGetPow (Ok (Some cfg))) => Some (pc_difficulty_factor cfg) | _ => None end) tr =
    [50; 50; 70; 50; 70; 70; 70] /\
  (forall n, n ∈ [0; 1; 3]%nat -> exists ch, issued 0 tr 0 0 (30 * NS) n ch /\ cp_difficulty_factor ch < 70) /\
  d_levels (m_defense ex_site) !! 0%nat = Some (Level 2 50) /\ d_levels (m_defense ex_site) !! 1%nat = Some (Level 5 70).
Proof.
  intros p. eexists _, _. split; [by destruct p; vm_compute|]. cbn zeta.
  split; [by destruct p; vm_compute|]. split; [apply ex_site_built|]. split; [apply not_restored; by destruct p; vm_compute|].
  split; [by destruct p; vm_compute|]. split; [vm_compute; by right; left|]. split; [by vm_compute|]. split; [|done].
  intros n Hn. repeat (apply elem_of_cons in Hn as [->|Hn]); [| | |by apply elem_of_nil in Hn].
  - eexists. split; [eapply (issued_at _ _ _ _ _ _ _ 2 4); [by vm_compute|by vm_compute|lia|by vm_compute..]|by vm_compute].
  - eexists. split; [eapply (issued_at _ _ _ _ _ _ _ 7 9); [by vm_compute|by vm_compute|lia|by vm_compute..]|by vm_compute].
  - eexists. split; [eapply (issued_at _ _ _ _ _ _ _ 17 19); [by vm_compute|by vm_compute|lia|by vm_compute..]|by vm_compute].
Qed.

Example C97_witness : forall p, exists s tr ch tk,
  s_run p ex_lib ex_start (ex_issue ++ ex_solve ++ ex_check) = Some (s, tr) /\
  let log := site_log p 0 60 (mtrace tr) in
  registered 0 0 log = Some (0, ex_site) /\ built_mcaptcha p ex_site /\ ~ restored 0 log /\
  count (visits 0 0 log) <= u32_max /\ Level 5 70 ∈ d_levels (m_defense ex_site) /\
  returned tr 1 (RVerifyPow (Ok ("tok", 50))) /\ validated tr 2 "tok" "site" /\
  issued 0 tr 0 0 (30 * NS) 0 ch /\ cp_difficulty_factor ch = 50 /\ solves tr 0 ch 1 /\ presents tr 1 tk 2.
Proof.
  intros p. eexists _, _, (CachePoW "x" 50 30 "site"), (CacheResult "tok" "site" 30).
  split; [by destruct p; vm_compute|]. cbn zeta.
  split; [by destruct p; vm_compute|]. split; [apply ex_site_built|]. split; [apply not_restored; by destruct p; vm_compute|].
  split; [by destruct p; vm_compute|]. split; [vm_compute; by right; left|]. split; [unfold returned; set_solver|].
  split; [split; unfold called, returned; set_solver|]. split; [eapply (issued_at _ _ _ _ _ _ _ 2 4); [by vm_compute|by vm_compute|lia|by vm_compute..]|].
  split; [done|]. split.
  - match goal with |- solves ?tr _ _ _ => eexists _, (take 4 tr), (drop 5 (take 7 tr)), _, _, (drop 8 tr) end.
    split; [by vm_compute|]. split; [done|by repeat constructor].
  - match goal with |- presents ?tr _ _ _ => eexists _, (take 12 tr), (drop 13 (take 15 tr)), _, (drop 16 tr) end.
    split; [by vm_compute|]. split; [done|by repeat constructor].
Qed.
