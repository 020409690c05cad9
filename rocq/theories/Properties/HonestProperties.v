(** Honest visitors of [System]s on one Redis (C116). *)
From Coq Require Import ZifyBool ZifyN ZifyNat Lia.
From Verif Require Import Model.Base Model.Defense Model.MCaptcha Model.HashCache Model.Pow Model.System Model.Json Model.Serde
  Model.Redis Model.RedisActor Model.RedisTokens Model.SystemProgram Model.SystemShared
  Spec.SerdeSpec Spec.RedisSpec Spec.ProgramSpec Spec.SharedSpec Spec.ModuleSpec Spec.MergedSpec Spec.HonestSpec
  Proofs.SystemHistory Proofs.RedisProofs Proofs.SerdeProofs Proofs.ModuleProofs Proofs.ProgramProofs Proofs.SharedProofs Proofs.MergedProofs
  Properties.SharedProperties Properties.ModuleProperties Properties.MergedProperties.
From Verif Require Export Proofs.HonestTheorems.

(** ** C116 *)
(** Work that solves a challenge as it was issued, on whatever System, is accepted at
    the difficulty that was issued, whatever happened to the site since; or it failed
    for a reason that has nothing to do with the work. *)
Theorem C116_accepted : forall ls now es s tr l ng ig key cfg nv i w ip r,
  sh_run ls (sh_init now) es = Some (s, tr) ->
  merged tr l -> Forall (fun x => ok_ask (ex_ask x)) l -> honest_module l -> draws_distinct tr ->
  XoCall ng ig (CGetPow key) ∈ tr -> XoRet ng (RGetPow (Ok (Some cfg))) ∈ tr ->
  XoCall nv i (CVerifyPow w ip) ∈ tr -> w_key w = key -> w_string w = pc_string cfg ->
  passes (ls i) (QueuedWork (PoW (w_result w) (w_nonce w)) (pc_string cfg) (pc_difficulty_factor cfg)) ->
  XoRet nv r ∈ tr ->
  (exists tok u t1 a f1 t2 f2,
     r = RVerifyPow (Ok (tok, pc_difficulty_factor cfg)) /\
     XoDid ng t1 (PeCachePoW (CachePoW (pc_string cfg) (pc_difficulty_factor cfg) u key) a) f1 ∈ tr /\
     XoDid nv t2 (PeCacheResult (CacheResult tok key u) (An (Ok tt))) f2 ∈ tr) \/
  setback nv tr r.
Proof. exact c116_accepted. Qed.
Print Assumptions C116_accepted.

(** And the token that verify_pow returned is good on every System, within its
    lifetime, until somebody has checked or removed it. *)
Theorem C116_good : forall ls now es s tr nv i w ip tok d tr1 tr2 n t a tr3,
  sh_run ls (sh_init now) es = Some (s, tr) -> plain_sites tr -> draws_distinct tr ->
  XoCall nv i (CVerifyPow w ip) ∈ tr ->
  tr = tr1 ++ XoRet nv (RVerifyPow (Ok (tok, d))) :: tr2 ++ XoDid n t (PeVerify (VerifyCaptchaResult tok (w_key w)) a) Answered :: tr3 ->
  (forall t' u f', XoDid nv t' (PeCacheResult (CacheResult tok (w_key w) u) (An (Ok tt))) f' ∈ tr1 -> t <= t' + u * 1000) ->
  (forall te, te ∈ tokens (tr1 ++ tr2) -> ~ takes (token_key (w_key w) tok) te) ->
  a = An (Ok true) \/ unanswered a.
Proof. exact c116_good. Qed.
Print Assumptions C116_good.

(** The session of C92_witness: the site is replaced by a harder one after the
    challenge was issued on System 0, the work goes to System 1, the token to 0. *)
Example C116_witness :
  merged (ex_shared ex_session) ex_log /\ Forall (fun x => ok_ask (ex_ask x)) ex_log /\ honest_module ex_log /\
  draws_distinct (ex_shared ex_session) /\ plain_sites (ex_shared ex_session) /\
  passes ex_pow_lib (QueuedWork (PoW (w_result ex_work) (w_nonce ex_work)) "ch" 50) /\
  exists tr1 tr2 tr3 cfg,
    ex_shared ex_session = tr1 ++ XoRet 1 (RVerifyPow (Ok ("tok"%string, 50))) :: tr2 ++
      XoDid 2 31000 (PeVerify (VerifyCaptchaResult "tok" "site") (An (Ok true))) Answered :: tr3 /\
    XoCall 0 0 (CGetPow "site") ∈ tr1 /\ XoRet 0 (RGetPow (Ok (Some cfg))) ∈ tr1 /\
    XoCall 1 1 (CVerifyPow ex_work "1.2.3.4") ∈ tr1 /\ w_string ex_work = pc_string cfg /\ pc_difficulty_factor cfg = 50 /\
    XoDid 1 1000 (PeCacheResult (CacheResult "tok" "site" 30) (An (Ok tt))) Answered ∈ tr1 /\
    Forall (fun te => ~ takes (token_key "site" "tok") te) (tokens (tr1 ++ tr2)).
Proof.
  split; [apply C92_witness|]. split; [apply C92_witness|]. split; [apply C92_witness|]. split; [apply C83_witness|].
  split; [apply C82_witness|]. split; [by vm_compute|]. rewrite ex_session_eq.
  exists (take 11 ex_session_trace), (take 1 (drop 12 ex_session_trace)), (drop 14 ex_session_trace), (PoWConfig "ch" 50 "salt").
  split; [by vm_compute|].
  do 3 (split; [vm_compute; repeat (first [by left|right])|]). split; [done|]. split; [done|].
  split; [vm_compute; repeat (first [by left|right])|].
  assert (E : tokens (take 11 ex_session_trace ++ take 1 (drop 12 ex_session_trace)) =
    [TokenEvent 1000 (TkAdd (CacheResult "tok" "site" 30)) Answered]) by by vm_compute.
  rewrite E. apply Forall_singleton. intros (_ & _ & H). by eapply H.
Qed.
