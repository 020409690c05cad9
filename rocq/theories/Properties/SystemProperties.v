(** Properties C47, C49-C53, C55 and C57: proof checking and the System. *)
From Coq Require Import ZifyBool ZifyN ZifyNat Lia.
From Verif Require Import Model.Base Model.Defense Model.MCaptcha Model.Counter Model.Master
  Model.HashCache Model.Queue Model.Pow Model.System
  Spec.CacheSpec Spec.QueueSpec Spec.MasterSpec Spec.SystemSpec
  Proofs.CacheProofs Proofs.QueueProofs Proofs.MasterProofs Proofs.MasterTasks Proofs.SystemProofs
  Proofs.SystemHistory Proofs.SystemVisits Properties.CacheProperties Properties.MasterProperties.
From Verif Require Export Proofs.SystemTheorems.

(** ** Example library and run used by the witnesses *)

(** ** C47 *)
Theorem C47_verdict l w x d s v :
  is_sufficient_difficulty l w d = Val s -> is_valid_proof l w x = Val v ->
  exists rest, validate l (QueuedWork w x d) = (s && v :: rest, true) /\ (length rest <= 2)%nat.
Proof. exact (@c47_verdict l w x d s v). Qed.
Print Assumptions C47_verdict.

(** A check that panics never delivers a positive verdict. *)
Theorem C47_panic l w x d :
  is_sufficient_difficulty l w d = Panic \/ is_valid_proof l w x = Panic ->
  (validate l (QueuedWork w x d)).2 = false /\ true ∉ (validate l (QueuedWork w x d)).1.
Proof. exact (@c47_panic l w x d). Qed.
Print Assumptions C47_panic.

Example C47_witness :
  is_sufficient_difficulty ex_lib (PoW "okx" 60) 50 = Val true /\ is_valid_proof ex_lib (PoW "okx" 60) "x" = Val true /\
  validate ex_lib (QueuedWork (PoW "okx" 60) "x" 50) = ([true], true) /\
  validate ex_lib (QueuedWork (PoW "no" 60) "x" 50) = ([false; true], true) /\
  validate ex_lib (QueuedWork (PoW "okx" 40) "x" 50) = ([false; true], true) /\
  validate ex_lib (QueuedWork (PoW "no" 40) "x" 50) = ([false; false; true], true) /\
  validate (PowLib "" (fun _ _ => Val false) (fun _ _ => Panic)) (QueuedWork (PoW "no" 40) "x" 50) = ([false], false).
Proof. by vm_compute. Qed.

(** ** C49 *)
Theorem C49_issued p l t gc wk ql es s tr n cfg :
  s_run p l (sys_start t gc wk ql) es = Some (s, tr) ->
  returned tr n (RGetPow (Ok (Some cfg))) ->
  exists id v os,
    of_client n tr =
      [SoCall n (CGetPow id); SoMaster (Some n) (MeReq (RqAddVisitor id)) os;
       SoCache (Some n) (HeMsg (HmCachePoW (CachePoW (pc_string cfg) (pc_difficulty_factor cfg) (avr_duration v) id)))
         (Some (HrUnit (Ok tt)));
       SoRet n (RGetPow (Ok (Some cfg)))] /\
    pc_salt cfg = pl_salt l /\ pc_difficulty_factor cfg = avr_difficulty_factor v /\
    visit_counted p l t gc wk ql es n id v.
Proof. exact (@c49_issued p l t gc wk ql es s tr n cfg). Qed.
Print Assumptions C49_issued.

(** Anything else than a challenge is returned without touching the cache. *)
Theorem C49_nothing p l t gc wk ql es s tr n r :
  s_run p l (sys_start t gc wk ql) es = Some (s, tr) ->
  returned tr n (RGetPow r) -> (forall cfg, r <> Ok (Some cfg)) ->
  forall e x, SoCache (Some n) e x ∉ tr.
Proof. exact (@c49_nothing p l t gc wk ql es s tr n r). Qed.
Print Assumptions C49_nothing.

Example C49_witness : forall p, exists s tr s' tr',
  s_run p ex_lib ex_start ex_issue = Some (s, tr) /\
  returned tr 0 (RGetPow (Ok (Some (PoWConfig "x" 50 "salt")))) /\
  s_run p ex_lib ex_start [SeCall (CGetPow "nobody"); SeAct 0 ""; SeAct 0 ""] = Some (s', tr') /\
  returned tr' 0 (RGetPow (Ok None)).
Proof.
  intros p. eexists _, _, _, _. split; [by destruct p; vm_compute|]. split; [unfold returned; set_solver|].
  split; [by destruct p; vm_compute|]. unfold returned; set_solver.
Qed.

(** ** Provenance of challenges and tokens *)

(** ** C50 *)
Theorem C50_sound p l t gc wk ql es s tr n tok d :
  s_run p l (sys_start t gc wk ql) es = Some (s, tr) ->
  returned tr n (RVerifyPow (Ok (tok, d))) ->
  exists w ip dur n0 r0 tr1 tr2 tr3,
    called tr n (CVerifyPow w ip) /\ sufficient l w d true /\ valid l w true /\
    called tr n0 (CGetPow (w_key w)) /\
    tr = tr1 ++
         SoCache (Some n0) (HeMsg (HmCachePoW (CachePoW (w_string w) d dur (w_key w)))) r0 ::
         tr2 ++
         SoCache (Some n) (HeMsg (HmRetrivePoW (VerifyCaptchaResult (w_string w) (w_key w))))
           (Some (HrPoW (Ok (Some (CachedPoWConfig (w_key w) d dur))))) ::
         tr3 /\
    (** neither consumed, replaced nor expired in between *)
    Forall (fun e => about_challenge (w_string w) e = None) (ctrace tr2).*1 /\
    (** and the token was then minted for that site *)
    of_client n tr3 =
      [SoQueue (Some n) (QeAdd ip) [];
       SoCache (Some n) (HeMsg (HmCacheResult (CacheResult tok (w_key w) dur))) (Some (HrUnit (Ok tt)));
       SoRet n (RVerifyPow (Ok (tok, d)))].
Proof. exact (@c50_sound p l t gc wk ql es s tr n tok d). Qed.
Print Assumptions C50_sound.

(** If every due expiry was delivered when the work was looked at, the
    challenge was younger than its duration. *)
Theorem C50_in_time p l t gc wk ql es s tr tr1 n w c tr2 h os :
  s_run p l (sys_start t gc wk ql) es = Some (s, tr) ->
  tr = tr1 ++ SoCache (Some n) (HeMsg (HmRetrivePoW (VerifyCaptchaResult (w_string w) (w_key w))))
                (Some (HrPoW (Ok (Some c)))) :: tr2 ->
  cache_run (cache_start t) (ctrace tr1).*1 = Some (h, os) -> nothing_overdue h ->
  exists ta n0 r tb,
    tr1 = ta ++ SoCache (Some n0) (HeMsg (HmCachePoW
      (CachePoW (w_string w) (cc_difficulty_factor c) (cc_duration c) (cc_key c)))) r :: tb /\
    cache_clock t (ctrace tr1).*1 < cache_clock t (ctrace ta).*1 + cc_duration c * NS.
Proof. exact (@c50_in_time p l t gc wk ql es s tr tr1 n w c tr2 h os). Qed.
Print Assumptions C50_in_time.

Example C50_witness : forall p, exists s tr,
  s_run p ex_lib ex_start (ex_issue ++ ex_solve) = Some (s, tr) /\ returned tr 1 (RVerifyPow (Ok ("tok", 50))).
Proof. intros p. eexists _, _. split; [by destruct p; vm_compute|]. unfold returned; set_solver. Qed.

(** ** C51 *)
Theorem C51_at_most_once p l t gc wk ql es s tr x ns :
  s_run p l (sys_start t gc wk ql) es = Some (s, tr) ->
  NoDup ns -> Forall (fun n => verified tr n x) ns ->
  (length ns <= length (issuers x tr))%nat /\
  NoDup (issuers x tr) /\ Forall (fun n => exists id, called tr n (CGetPow id)) (issuers x tr).
Proof. exact (@c51_at_most_once p l t gc wk ql es s tr x ns). Qed.
Print Assumptions C51_at_most_once.

(** With distinct challenge strings, no challenge is accepted twice. *)
Theorem C51_unique p l t gc wk ql es s tr x n n' :
  s_run p l (sys_start t gc wk ql) es = Some (s, tr) ->
  (length (issuers x tr) <= 1)%nat -> verified tr n x -> verified tr n' x -> n = n'.
Proof. exact (@c51_unique p l t gc wk ql es s tr x n n'). Qed.
Print Assumptions C51_unique.

Example C51_witness : forall p, exists s tr s' tr',
  s_run p ex_lib ex_start (ex_issue ++ ex_solve) = Some (s, tr) /\ verified tr 1 "x" /\ issuers "x" tr = [0%nat] /\
  s_run p ex_lib s [SeCall (CVerifyPow (ex_work "x" "site" 60) "ip"); SeAct 2 ""] = Some (s', tr') /\
  returned tr' 2 (RVerifyPow (Err StringNotFound)).
Proof.
  intros p. eexists _, _, _, _. split; [by destruct p; vm_compute|].
  split; [exists (ex_work "x" "site" 60), "ip", "tok", 50; unfold called, returned; split; [set_solver|]; split; [done|set_solver]|].
  split; [by vm_compute|]. split; [by destruct p; vm_compute|]. unfold returned; set_solver.
Qed.

(** ** C52 *)
Theorem C52_token_once p l t gc wk ql es s tr tok ns :
  s_run p l (sys_start t gc wk ql) es = Some (s, tr) ->
  NoDup ns -> Forall (fun n => exists key, validated tr n tok key) ns ->
  (length ns <= length (minters tok tr))%nat /\
  NoDup (minters tok tr) /\
  Forall (fun n => exists w ip, called tr n (CVerifyPow w ip)) (minters tok tr).
Proof. exact (@c52_token_once p l t gc wk ql es s tr tok ns). Qed.
Print Assumptions C52_token_once.

(** An accepted token was minted for that very site by a verify_pow of good
    work for it, and was not touched in between. *)
Theorem C52_right_site p l t gc wk ql es s tr n tok key :
  s_run p l (sys_start t gc wk ql) es = Some (s, tr) -> validated tr n tok key ->
  exists n0 w ip c r tr1 tr2 tr3,
    tr = tr1 ++ SoCache (Some n0) (HeMsg (HmCacheResult (CacheResult tok key (cc_duration c)))) r :: tr2 ++
         SoCache (Some n) (HeMsg (HmVerifyCaptchaResult (VerifyCaptchaResult tok key))) (Some (HrBool (Ok true))) :: tr3 /\
    Forall (fun e => about_token tok e = None) (ctrace tr2).*1 /\
    called tr n0 (CVerifyPow w ip) /\ w_key w = key /\ cc_key c = key /\
    sufficient l w (cc_difficulty_factor c) true /\ valid l w true /\
    (forall x, returned tr n0 x -> x = RVerifyPow (Ok (tok, cc_difficulty_factor c))).
Proof. exact (@c52_right_site p l t gc wk ql es s tr n tok key). Qed.
Print Assumptions C52_right_site.

Example C52_witness : forall p, exists s tr s' tr',
  s_run p ex_lib ex_start (ex_issue ++ ex_solve ++ ex_check) = Some (s, tr) /\ validated tr 2 "tok" "site" /\
  s_run p ex_lib s [SeCall (CValidate (VerifyCaptchaResult "tok" "site")); SeAct 3 ""; SeAct 3 ""] = Some (s', tr') /\
  returned tr' 3 (RValidate (Ok false)).
Proof.
  intros p. eexists _, _, _, _. split; [by destruct p; vm_compute|].
  split; [split; unfold called, returned; set_solver|].
  split; [by destruct p; vm_compute|]. unfold returned; set_solver.
Qed.

(** ** C53 *)
Theorem C53_mints_nothing p l t gc wk ql es s tr n r :
  s_run p l (sys_start t gc wk ql) es = Some (s, tr) ->
  returned tr n r -> r = RPanic \/ (exists e, r = RVerifyPow (Err e)) ->
  (forall m x, SoCache (Some n) (HeMsg (HmCacheResult m)) x ∉ tr) /\
  (r = RVerifyPow (Err StringNotFound) \/
   exists w ip c, called tr n (CVerifyPow w ip) /\
     SoCache (Some n) (HeMsg (HmRetrivePoW (VerifyCaptchaResult (w_string w) (w_key w))))
       (Some (HrPoW (Ok (Some c)))) ∈ tr).
Proof. exact (@c53_mints_nothing p l t gc wk ql es s tr n r). Qed.
Print Assumptions C53_mints_nothing.

(** A cancelled call returns nothing; if it had stored a token before, nobody
    was told. *)
Theorem C53_cancelled p l t gc wk ql es s tr n :
  s_run p l (sys_start t gc wk ql) es = Some (s, tr) -> SoCancel n ∈ tr ->
  (forall r, ~ returned tr n r) /\
  (forall m x, SoCache (Some n) (HeMsg (HmCacheResult m)) x ∈ tr ->
     exists lg, of_client n tr = lg ++ [SoCache (Some n) (HeMsg (HmCacheResult m)) x; SoCancel n]).
Proof. exact (@c53_cancelled p l t gc wk ql es s tr n). Qed.
Print Assumptions C53_cancelled.

(** A challenge that was taken out by [n] can only be accepted for others as
    often as it is issued again. *)
Theorem C53_consumed p l t gc wk ql es s tr tr1 n x key c tr2 ns :
  s_run p l (sys_start t gc wk ql) es = Some (s, tr) ->
  tr = tr1 ++ SoCache (Some n) (HeMsg (HmRetrivePoW (VerifyCaptchaResult x key))) (Some (HrPoW (Ok (Some c)))) :: tr2 ->
  NoDup ns -> Forall (fun n' => verified tr n' x /\ n' ∉ n :: consumers x tr1) ns ->
  (length ns <= length (issuers x tr2))%nat.
Proof. exact (@c53_consumed p l t gc wk ql es s tr tr1 n x key c tr2 ns). Qed.
Print Assumptions C53_consumed.

(** Wrong key, insufficient work, cancellation: the challenge is gone. *)
Definition ex_fail1 : list sevent := [SeCall (CVerifyPow (ex_work "x" "other" 60) "ip"); SeAct 1 ""].

Definition ex_fail2 : list sevent :=
  [SeCall (CVerifyPow (ex_work "x" "site" 40) "ip"); SeAct 1 ""; SeAct 1 ""; SeManager; SeRecv 0; SeAct 1 "";
   SeSend 0; SeAct 1 ""].

Definition ex_fail3 : list sevent := [SeCall (CVerifyPow (ex_work "x" "site" 60) "ip"); SeAct 1 ""; SeCancel 1].

Definition ex_retry : list sevent := [SeCall (CVerifyPow (ex_work "x" "site" 60) "ip"); SeAct 2 ""].

Example C53_witness : forall p f, f = ex_fail1 \/ f = ex_fail2 \/ f = ex_fail3 -> exists s tr,
  s_run p ex_lib ex_start (ex_issue ++ f ++ ex_retry) = Some (s, tr) /\
  (f = ex_fail1 -> returned tr 1 (RVerifyPow (Err MCaptchaKeyValidationFail))) /\
  (f = ex_fail2 -> returned tr 1 (RVerifyPow (Err InsuffiencientDifficulty))) /\
  (f = ex_fail3 -> SoCancel 1 ∈ tr) /\
  consumers "x" tr = [1%nat] /\ returned tr 2 (RVerifyPow (Err StringNotFound)).
Proof.
  intros p f [->|[->| ->]]; eexists _, _; (split; [by destruct p; vm_compute|]); unfold returned;
    (split; [try (intros; set_solver)|]); (split; [try (intros; set_solver)|]); (split; [try (intros; set_solver)|]);
    (split; [by vm_compute|set_solver]).
Qed.

(** ** C55 *)
Theorem C55_invalid_pow_refuted p l t gc wk ql es s tr n :
  s_run p l (sys_start t gc wk ql) es = Some (s, tr) ->
  ~ returned tr n (RVerifyPow (Err InvalidPoW)).
Proof. exact (@c55_invalid_pow_refuted p l t gc wk ql es s tr n). Qed.
Print Assumptions C55_invalid_pow_refuted.

(** Sufficient but invalid work is never accepted; unless the queue is full or
    a check panicked it is answered as having too little difficulty. *)
Theorem C55_answered_refuted p l t gc wk ql es s tr n w ip c r :
  s_run p l (sys_start t gc wk ql) es = Some (s, tr) ->
  called tr n (CVerifyPow w ip) ->
  SoCache (Some n) (HeMsg (HmRetrivePoW (VerifyCaptchaResult (w_string w) (w_key w)))) (Some (HrPoW (Ok (Some c)))) ∈ tr ->
  cc_key c = w_key w -> sufficient l w (cc_difficulty_factor c) true -> valid l w false -> ~ check_panicked tr ->
  returned tr n r ->
  r = RVerifyPow (Err InsuffiencientDifficulty) \/ r = RVerifyPow (Err QueueFull).
Proof. exact (@c55_answered_refuted p l t gc wk ql es s tr n w ip c r). Qed.
Print Assumptions C55_answered_refuted.

Definition ex_invalid : list sevent :=
  [SeCall (CVerifyPow (Work "x" "bad" 60 "site") "ip"); SeAct 1 ""; SeAct 1 ""; SeManager; SeRecv 0; SeAct 1 "";
   SeSend 0; SeAct 1 ""].

Example C55_witness : forall p, exists s tr,
  s_run p ex_lib ex_start (ex_issue ++ ex_invalid) = Some (s, tr) /\
  sufficient ex_lib (Work "x" "bad" 60 "site") 50 true /\ valid ex_lib (Work "x" "bad" 60 "site") false /\
  ~ check_panicked tr /\ returned tr 1 (RVerifyPow (Err InsuffiencientDifficulty)).
Proof.
  intros p. eexists _, _. split; [by destruct p; vm_compute|]. split; [by vm_compute|]. split; [by vm_compute|].
  split; [|unfold returned; set_solver]. intros [r Hr]. vm_compute in Hr. set_solver.
Qed.

(** ** C57 *)

Theorem C57_build xs :
  match last_of set_master xs, last_of set_cache xs, last_of set_pow xs, last_of set_runners xs,
        last_of set_queue_length xs with
  | Some m, Some c, Some l, Some r, Some q =>
      sb_build (foldl sb_apply system_builder_default xs) = Val (System m c l (q_start r q))
  | _, _, _, _, _ => sb_build (foldl sb_apply system_builder_default xs) = Panic
  end.
Proof. exact (@c57_build xs). Qed.
Print Assumptions C57_build.

Example C57_witness :
  sb_build (foldl sb_apply system_builder_default
    [SbRunners 1; SbMaster 7; SbCache 8; SbPow ex_lib; SbQueueLength 9; SbRunners 4]) =
    Val (System 7 8 ex_lib (q_start 4 9)) /\
  sb_build (foldl sb_apply system_builder_default [SbRunners 1; SbMaster 7; SbPow ex_lib; SbQueueLength 9]) = Panic.
Proof. done. Qed.
