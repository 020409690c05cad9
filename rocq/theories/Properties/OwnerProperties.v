(** Property C110: what the owner of a site does - removing it, renaming it,
    registering it anew - and the challenges and tokens it has outstanding. *)
From Coq Require Import ZifyBool ZifyN ZifyNat Lia.
From Verif Require Import Model.Base Model.Defense Model.MCaptcha Model.Counter Model.Master
  Model.HashCache Model.Queue Model.Pow Model.System
  Spec.CacheSpec Spec.QueueSpec Spec.MasterSpec Spec.SystemSpec Spec.OwnerSpec
  Proofs.CacheProofs Proofs.QueueProofs Proofs.MasterProofs Proofs.SystemProofs Proofs.SystemHistory Proofs.OwnerProofs
  Properties.CacheProperties Properties.QueueProperties Properties.SystemProperties Properties.SystemLiveProperties.
From Verif Require Export Proofs.OwnerTheorems.

(** ** C110 *)
(** Take the messages of the owners, and everything the Master does, out of any
    stretch of an execution in which no get_pow takes part: every call, answer,
    cache message and queue step of the stretch stays as it was. *)
Theorem C110_untouched p l t gc wk ql es0 s tr0 es s1 tr1 :
  s_run p l (sys_start t gc wk ql) es0 = Some (s, tr0) -> s_run p l s es = Some (s1, tr1) ->
  no_get_pow (tr0 ++ tr1) es ->
  exists s2 tr2, s_run p l s (without_owner es) = Some (s2, tr2) /\ besides_master tr2 = besides_master tr1.
Proof. exact (@c110_untouched p l t gc wk ql es0 s tr0 es s1 tr1). Qed.
Print Assumptions C110_untouched.

(** Conversely, whatever could have happened, no get_pow taking part, can still
    happen after any messages of the owners. *)
Theorem C110_ineffective_refuted p l t gc wk ql es0 s tr0 es s1 tr1 ms s' tr' :
  s_run p l (sys_start t gc wk ql) es0 = Some (s, tr0) -> s_run p l s es = Some (s1, tr1) ->
  (forall e, SeMaster e ∉ es) -> no_get_pow (tr0 ++ tr1) es ->
  s_run p l s (SeMaster <$> ms) = Some (s', tr') ->
  exists s2 tr2, s_run p l s' es = Some (s2, tr2) /\ besides_master tr2 = besides_master tr1.
Proof. exact (@c110_ineffective_refuted p l t gc wk ql es0 s tr0 es s1 tr1 ms s' tr'). Qed.
Print Assumptions C110_ineffective_refuted.

(** In particular: work for a challenge of a removed (or renamed) site is accepted,
    and the token is good. *)
Theorem C110_removed_refuted p l t gc wk ql es s tr ms s' tr' w ip c key tok :
  s_run p l (sys_start t gc wk ql) es = Some (s, tr) -> ~ check_panicked tr -> quiescent (sy_q s) ->
  (length (remove_dups (ip :: (accepted (qouts tr)).*1)) <= wk)%nat ->
  N.of_nat (distinct_ips (qouts tr)) <> ql ->
  retrieves (CacheSys (s_now s) (sy_c s)) (w_string w) key (Some c) -> cc_key c = w_key w ->
  sufficient l w (cc_difficulty_factor c) true -> valid l w true ->
  s_run p l s (SeMaster <$> ms) = Some (s', tr') ->
  exists es2 s2 tr2, s_run p l s' (SeCall (CVerifyPow w ip) :: es2) = Some (s2, tr2) /\
    returned tr2 (sy_next s) (RVerifyPow (Ok (tok, cc_difficulty_factor c))).
Proof. exact (@c110_removed_refuted p l t gc wk ql es s tr ms s' tr' w ip c key tok). Qed.
Print Assumptions C110_removed_refuted.

(** And a token that would be told good is told good after them. *)
Theorem C110_token_refuted p l s ms s' tr' tok key :
  qs_mgr (sy_q s) <> MAborted -> validates (CacheSys (s_now s) (sy_c s)) tok key true ->
  s_run p l s (SeMaster <$> ms) = Some (s', tr') ->
  exists s2 tr2, s_run p l s' [SeCall (CValidate (VerifyCaptchaResult tok key)); SeAct (sy_next s) ""; SeAct (sy_next s) ""] =
      Some (s2, tr2) /\ returned tr2 (sy_next s) (RValidate (Ok true)).
Proof. exact (@c110_token_refuted p l s ms s' tr' tok key). Qed.
Print Assumptions C110_token_refuted.

(** A client that follows the renaming - submits work for an outstanding challenge
    under any other key than it was issued for - is turned away, and the
    challenge is gone. *)
Theorem C110_renamed_refuted p l t gc wk ql es s tr w ip c key :
  s_run p l (sys_start t gc wk ql) es = Some (s, tr) -> qs_mgr (sy_q s) <> MAborted ->
  retrieves (CacheSys (s_now s) (sy_c s)) (w_string w) key (Some c) -> cc_key c <> w_key w ->
  exists s1 tr1, s_run p l s [SeCall (CVerifyPow w ip); SeAct (sy_next s) ""] = Some (s1, tr1) /\
    returned tr1 (sy_next s) (RVerifyPow (Err MCaptchaKeyValidationFail)) /\
    forall es2 s2 tr2 n, s_run p l s1 es2 = Some (s2, tr2) -> issuers (w_string w) tr2 = [] ->
      verified (tr ++ tr1 ++ tr2) n (w_string w) -> n ∈ consumers (w_string w) tr.
Proof. exact (@c110_renamed_refuted p l t gc wk ql es s tr w ip c key). Qed.
Print Assumptions C110_renamed_refuted.

(** The site is registered and has issued challenge "x"; then it is removed. The
    work is accepted, the token is told good - while a further get_pow is told
    the site does not exist. *)
Definition ex_remove : list mevent := [MeReq (RqRemove "site")].

Definition ex_rename : list mevent := [MeReq (RqRename "site" "new")].

Example C110_witness : forall p ms, ms = ex_remove \/ ms = ex_rename -> exists s tr s' tr' s2 tr2,
  s_run p ex_lib ex_start ex_issue = Some (s, tr) /\ ~ check_panicked tr /\ quiescent (sy_q s) /\
  s_run p ex_lib s (SeMaster <$> ms) = Some (s', tr') /\
  s_run p ex_lib s' (ex_solve ++ ex_check ++ [SeCall (CGetPow "site"); SeAct 3 ""; SeAct 3 ""]) = Some (s2, tr2) /\
  returned tr2 1 (RVerifyPow (Ok ("tok"%string, 50))) /\ returned tr2 2 (RValidate (Ok true)) /\
  returned tr2 3 (RGetPow (Ok None)).
Proof.
  intros p ms [->| ->]; eexists _, _, _, _, _, _; (split; [by destruct p; vm_compute|]);
    (split; [by intros [r Hr]; vm_compute in Hr; inversion Hr|]); (split; [by destruct p; (split; [|repeat constructor])|]);
    (split; [by destruct p; vm_compute|]); (split; [by destruct p; vm_compute|]); unfold returned; set_solver.
Qed.

(** The renamed site's client names the new key and loses its challenge. *)
Example C110_renamed_witness : forall p, exists s tr s2 tr2,
  s_run p ex_lib ex_start (ex_issue ++ (SeMaster <$> ex_rename)) = Some (s, tr) /\ qs_mgr (sy_q s) = MAlive /\
  retrieves (CacheSys (s_now s) (sy_c s)) "x" "new" (Some (CachedPoWConfig "site" 50 30)) /\
  s_run p ex_lib s [SeCall (CVerifyPow (ex_work "x" "new" 60) "ip"); SeAct 1 "";
                    SeCall (CVerifyPow (ex_work "x" "site" 60) "ip"); SeAct 2 ""] = Some (s2, tr2) /\
  returned tr2 1 (RVerifyPow (Err MCaptchaKeyValidationFail)) /\ returned tr2 2 (RVerifyPow (Err StringNotFound)).
Proof.
  intros p; eexists _, _, _, _; (split; [by destruct p; vm_compute|]); (split; [by destruct p; vm_compute|]);
    (split; [eexists; by destruct p; vm_compute|]); (split; [by destruct p; vm_compute|]); unfold returned; set_solver.
Qed.
