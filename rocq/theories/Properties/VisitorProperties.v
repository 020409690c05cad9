(** C117: in memory, an honest visitor gets in, and on a quiet site pays the
    lowest price. *)
From Coq Require Import ZifyBool ZifyN ZifyNat Lia.
From Verif Require Import Model.Base Model.Defense Model.MCaptcha Model.Counter Model.HashCache Model.Queue Model.Pow
  Model.System Model.Master
  Spec.DefenseSpec Spec.MCaptchaSpec Spec.CounterSpec Spec.CacheSpec Spec.MasterSpec Spec.SystemSpec Spec.SiteSpec Spec.BulkSpec
  Proofs.CacheProofs Proofs.MasterProofs Proofs.SystemProofs Proofs.SystemHistory Proofs.SystemVisits Proofs.SiteProofs Proofs.BulkProofs
  Properties.CacheProperties Properties.SystemProperties Properties.SystemLiveProperties Properties.SiteProperties
  Properties.BulkProperties.
Import Master.
From Verif Require Export Proofs.VisitorTheorems.

(** Work of the difficulty asked for, on the challenge get_pow returned: if the
    challenge was drawn only once and nobody else submitted anything for it, and
    verify_pow reaches the cache within the duration the challenge was stored for,
    verify_pow returns a token - or QueueFull, when the queue had no room. *)
Theorem C117_accepted : forall p l t gc wk ql es s tr ng id cfg tr0 m x tr1 nv q o tr2 w ip r,
  s_run p l (sys_start t gc wk ql) es = Some (s, tr) -> ~ check_panicked tr ->
  called tr ng (CGetPow id) -> returned tr ng (RGetPow (Ok (Some cfg))) ->
  called tr nv (CVerifyPow w ip) -> returned tr nv r ->
  w_key w = id -> w_string w = pc_string cfg ->
  sufficient l w (pc_difficulty_factor cfg) true -> valid l w true ->
  issuers (pc_string cfg) tr = [ng] ->
  (forall n' w' ip', called tr n' (CVerifyPow w' ip') -> w_string w' = pc_string cfg -> n' = nv) ->
  tr = tr0 ++ SoCache (Some ng) (HeMsg (HmCachePoW m)) x :: tr1 ++
       SoCache (Some nv) (HeMsg (HmRetrivePoW q)) o :: tr2 ->
  cache_clock t (ctrace (tr0 ++ SoCache (Some ng) (HeMsg (HmCachePoW m)) x :: tr1)).*1
    < cache_clock t (ctrace tr0).*1 + cp_duration m * NS ->
  (exists tok, r = RVerifyPow (Ok (tok, pc_difficulty_factor cfg))) \/ r = RVerifyPow (Err QueueFull).
Proof. exact c117_accepted. Qed.
Print Assumptions C117_accepted.

(** A get_pow for a fresh registration that nobody restored and whose visits,
    each with the earlier ones of its window, never exceeded the first threshold
    returns a challenge of the first level's difficulty - whatever goes on at
    other sites. *)
Theorem C117_quiet : forall p l t gc wk ql es s tr tr1 n id os tr2 cfg tr3 c t0 m lv,
  s_run p l (sys_start t gc wk ql) es = Some (s, tr) ->
  tr = tr1 ++ SoMaster (Some n) (MeReq (RqAddVisitor id)) os :: tr2 ++ SoRet n (RGetPow (Ok (Some cfg))) :: tr3 ->
  bound (hist (mouts tr1)) id = Some c ->
  let log := site_log p t gc (mtrace tr) in
  let times := (visits t c log).*1 in
  registered t c log = Some (t0, m) -> fresh_mcaptcha m -> ~ restored c log -> count times <= u32_max ->
  prompt p (m_start t gc) (mtrace tr) c ->
  d_levels (m_defense m) !! 0%nat = Some lv ->
  (forall k tm, times !! k = Some tm -> 1 + window (m_duration m) tm (take k times) <= visitor_threshold lv) ->
  pc_difficulty_factor cfg = difficulty_factor lv.
Proof. exact c117_quiet. Qed.
Print Assumptions C117_quiet.

(** The quiet site of SystemProperties.v: challenge "x" of difficulty 50 is
    issued, solved a nanosecond before it would expire, and answered with "tok". *)
Definition ex_late : list sevent := ex_issue ++ SeTick (30 * NS - 1) :: ex_solve.

Example C117_witness : forall p, exists s tr x q o,
  s_run p ex_lib ex_start ex_late = Some (s, tr) /\ ~ check_panicked tr /\
  called tr 0 (CGetPow "site") /\ returned tr 0 (RGetPow (Ok (Some (PoWConfig "x" 50 "salt")))) /\
  called tr 1 (CVerifyPow (ex_work "x" "site" 60) "ip") /\ returned tr 1 (RVerifyPow (Ok ("tok", 50))) /\
  sufficient ex_lib (ex_work "x" "site" 60) 50 true /\ valid ex_lib (ex_work "x" "site" 60) true /\
  issuers "x" tr = [0%nat] /\
  (forall n' w' ip', called tr n' (CVerifyPow w' ip') -> w_string w' = "x" -> n' = 1%nat) /\
  tr !! 4%nat = Some (SoCache (Some 0%nat) (HeMsg (HmCachePoW (CachePoW "x" 50 30 "site"))) x) /\
  tr !! 9%nat = Some (SoCache (Some 1%nat) (HeMsg (HmRetrivePoW q)) o) /\
  cache_clock 0 (ctrace (take 9 tr)).*1 < cache_clock 0 (ctrace (take 4 tr)).*1 + 30 * NS /\
  (* quiet *)
  tr !! 2%nat = Some (SoMaster (Some 0%nat) (MeReq (RqAddVisitor "site")) [MoHandle (RqAddVisitor "site")]) /\
  bound (hist (mouts (take 2 tr))) "site" = Some 0%nat /\
  let log := site_log p 0 60 (mtrace tr) in
  registered 0 0 log = Some (0, ex_site) /\ fresh_mcaptcha ex_site /\ ~ restored 0 log /\
  prompt p (m_start 0 60) (mtrace tr) 0 /\ visits 0 0 log = [(0, AddVisitorResult 30 50)].
Proof.
  intros p. eexists _, _, _, _, _. split; [by destruct p; vm_compute|].
  split. { intros [r H]. vm_compute in H. repeat (apply elem_of_cons in H as [H|H]; [done|]). by apply elem_of_nil in H. }
  split; [unfold called; set_solver|]. split; [unfold returned; set_solver|].
  split; [unfold called; set_solver|]. split; [unfold returned; set_solver|].
  split; [done|]. split; [done|]. split; [done|]. split.
  { intros n' w' ip' H _. unfold called in H. repeat (apply elem_of_cons in H as [H|H]; [by simplify_eq|]).
    by apply elem_of_nil in H. }
  split; [done|]. split; [done|]. split; [by vm_compute|]. split; [done|]. split; [by vm_compute|]. cbn zeta.
  split; [by destruct p; vm_compute|]. split; [apply ex_site_fresh|].
  split; [apply not_restored; by destruct p; vm_compute|].
  split; [apply prompt_check_sound; by destruct p; vm_compute|]. by destruct p; vm_compute.
Qed.
