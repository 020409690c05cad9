(** Property C111: what is left in a System's memory. *)
From Coq Require Import ZifyBool ZifyN ZifyNat Lia.
From Verif Require Import Model.Base Model.Defense Model.MCaptcha Model.Counter Model.Master
  Model.HashCache Model.Queue Model.Pow Model.System
  Spec.CacheSpec Spec.QueueSpec Spec.MasterSpec Spec.SystemSpec Spec.MemorySpec
  Proofs.CacheProofs Proofs.QueueProofs Proofs.MasterProofs Proofs.SystemProofs Proofs.SystemLiveness Proofs.MemoryProofs
  Properties.QueueProperties Properties.SystemProperties.
From Verif Require Export Proofs.MemoryTheorems.

(** ** C111 *)
(** The cache keeps one pending expiry for every challenge and token stored whose
    deadline still lies ahead - used or not - and no other; and the challenges and
    the tokens it holds are among those. *)
Theorem C111_cache p l t gc wk ql es s tr :
  s_run p l (sys_start t gc wk ql) es = Some (s, tr) -> nothing_overdue (CacheSys (s_now s) (sy_c s)) ->
  hc_timers (sy_c s) ≡ₚ ahead (s_now s) (deadlines t (ctrace tr).*1) /\
  (map_to_list (hc_difficulty_map (sy_c s))).*1 ⊆+ of_challenges (ahead (s_now s) (deadlines t (ctrace tr).*1)) /\
  (map_to_list (hc_result_map (sy_c s))).*1 ⊆+ of_tokens (ahead (s_now s) (deadlines t (ctrace tr).*1)).
Proof. exact (@c111_cache p l t gc wk ql es s tr). Qed.
Print Assumptions C111_cache.

(** Once every deadline has passed, nothing of it is left. *)
Theorem C111_drained p l t gc wk ql es s tr :
  s_run p l (sys_start t gc wk ql) es = Some (s, tr) -> nothing_overdue (CacheSys (s_now s) (sy_c s)) ->
  Forall (fun x => x.1 <= s_now s) (deadlines t (ctrace tr).*1) ->
  sy_c s = hc_default.
Proof. exact (@c111_drained p l t gc wk ql es s tr). Qed.
Print Assumptions C111_drained.

(** The queue, though, never forgets: it holds an entry for every address of
    which it has ever accepted a job, once, whether or not any job is left. *)
Theorem C111_queue_refuted p l t gc wk ql es s tr :
  s_run p l (sys_start t gc wk ql) es = Some (s, tr) -> ~ check_panicked tr ->
  im_ips (qs_im (sy_q s)) ≡ₚ remove_dups (accepted (qouts tr)).*1 /\
  (map_to_list (im_queues (qs_im (sy_q s)))).*1 ≡ₚ remove_dups (accepted (qouts tr)).*1.
Proof. exact (@c111_queue_refuted p l t gc wk ql es s tr). Qed.
Print Assumptions C111_queue_refuted.

(** So it only grows: the addresses kept at any time are kept ever after. *)
Theorem C111_kept_refuted p l t gc wk ql es s tr es2 s2 tr2 ip :
  s_run p l (sys_start t gc wk ql) es = Some (s, tr) -> s_run p l s es2 = Some (s2, tr2) ->
  ~ check_panicked (tr ++ tr2) ->
  is_Some (im_queues (qs_im (sy_q s)) !! ip) -> is_Some (im_queues (qs_im (sy_q s2)) !! ip).
Proof. exact (@c111_kept_refuted p l t gc wk ql es s tr es2 s2 tr2 ip). Qed.
Print Assumptions C111_kept_refuted.

(** Two addresses have a challenge verified each; half a minute later every
    deadline has passed and been delivered: the cache is empty, no job is left, no
    call is open - and the queue holds the two addresses. Before, with the token
    of the second still good, its deadline is the only one pending. *)
Definition ex_two : list sevent :=
  ex_issue ++ ex_solve ++
  [SeTick (10 * NS); SeCall (CGetPow "site"); SeAct 2 ""; SeMaster (MeTask 2); SeAct 2 "y"; SeAct 2 ""; SeAct 2 "";
   SeCall (CVerifyPow (ex_work "y" "site" 60) "ip2"); SeAct 3 ""; SeAct 3 ""; SeManager; SeManager; SeRecv 0; SeAct 3 "";
   SeSend 0; SeEnd 0; SeAct 3 "tok2"; SeAct 3 ""; SeAct 3 ""; SeManager; SeTick (20 * NS);
   SeExpire (30 * NS) (DeletePoW "x"); SeExpire (30 * NS) (DeleteCaptchaResult "tok")].

Definition ex_rest : list sevent :=
  [SeTick (10 * NS); SeExpire (40 * NS) (DeletePoW "y"); SeExpire (40 * NS) (DeleteCaptchaResult "tok2")].

Example C111_witness : forall p, exists s tr s2 tr2,
  s_run p ex_lib ex_start ex_two = Some (s, tr) /\
  deadlines 0 (ctrace tr).*1 = [(30 * NS, DeletePoW "x"); (30 * NS, DeleteCaptchaResult "tok");
                                (40 * NS, DeletePoW "y"); (40 * NS, DeleteCaptchaResult "tok2")] /\
  hc_timers (sy_c s) = [(40 * NS, DeletePoW "y"); (40 * NS, DeleteCaptchaResult "tok2")] /\
  (map_to_list (hc_result_map (sy_c s))).*1 = ["tok2"%string] /\ s_now s = 30 * NS /\
  s_run p ex_lib s ex_rest = Some (s2, tr2) /\ hc_timers (sy_c s2) = [] /\ s_now s2 = 40 * NS /\
  ~ check_panicked (tr ++ tr2) /\ map_to_list (sy_clients s2) = [] /\ quiescent (sy_q s2) /\
  im_ips (qs_im (sy_q s2)) = ["ip"; "ip2"]%string /\ map_to_list (im_queues (qs_im (sy_q s2))) ≡ₚ [("ip", []); ("ip2", [])]%string.
Proof.
  intros p; eexists _, _, _, _; (split; [by destruct p; vm_compute|]).
  do 4 (split; [by destruct p; vm_compute|]). (split; [by destruct p; vm_compute|]).
  do 2 (split; [by destruct p; vm_compute|]). split; [intros [r Hr]; vm_compute in Hr; by repeat (inversion Hr as [|? ? ? Hr']; subst; clear Hr; rename Hr' into Hr)|].
  split; [by destruct p; vm_compute|]. split; [by destruct p; (split; [|repeat constructor])|].
  split; [by destruct p; vm_compute|]. destruct p; vm_compute; auto using Permutation_swap.
Qed.
