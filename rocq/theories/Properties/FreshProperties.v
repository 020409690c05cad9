(** Property C108: how old a pass can be. *)
From Coq Require Import ZifyBool ZifyN ZifyNat Lia.
From Verif Require Import Model.Base Model.Defense Model.MCaptcha Model.Counter Model.Master
  Model.HashCache Model.Queue Model.Pow Model.System
  Spec.CacheSpec Spec.QueueSpec Spec.MasterSpec Spec.SystemSpec Spec.FreshSpec
  Proofs.CacheProofs Proofs.QueueProofs Proofs.MasterProofs Proofs.MasterTasks Proofs.SystemProofs
  Proofs.SystemHistory Proofs.SystemVisits Properties.CacheProperties Properties.MasterProperties
  Properties.SystemProperties.
From Verif Require Export Proofs.FreshTheorems.

(** A token told to be good was stored less than its duration before, by a
    verify_pow that had taken out, earlier still, a challenge of that site
    issued less than its duration before; the two durations are the same. *)
Theorem C108_stages p l t gc wk ql es s tr n tok key :
  s_run p l (sys_start t gc wk ql) es = Some (s, tr) -> on_time t tr -> validated tr n tok key ->
  exists n0 n1 w ip c r0 r1 t1 t2 t3 t4 t5,
    called tr n0 (CGetPow key) /\ called tr n1 (CVerifyPow w ip) /\ w_key w = key /\ cc_key c = key /\
    tr = t1 ++ SoCache (Some n0) (HeMsg (HmCachePoW
                 (CachePoW (w_string w) (cc_difficulty_factor c) (cc_duration c) key))) r0 ::
         t2 ++ SoCache (Some n1) (HeMsg (HmRetrivePoW (VerifyCaptchaResult (w_string w) key)))
                 (Some (HrPoW (Ok (Some c)))) ::
         t3 ++ SoCache (Some n1) (HeMsg (HmCacheResult (CacheResult tok key (cc_duration c)))) r1 ::
         t4 ++ SoCache (Some n) (HeMsg (HmVerifyCaptchaResult (VerifyCaptchaResult tok key)))
                 (Some (HrBool (Ok true))) :: t5 /\
    let issued := clock_after t t1 in
    let taken := clock_after issued t2 in
    let stored := clock_after taken t3 in
    let told := clock_after stored t4 in
    taken < issued + cc_duration c * NS /\ told < stored + cc_duration c * NS.
Proof. exact (@c108_stages p l t gc wk ql es s tr n tok key). Qed.
Print Assumptions C108_stages.

Theorem C108_recent_refuted p D : exists s tr t1 t2 t3,
  s_run p ex_lib ex_start (ex_wait ++ SeTick D :: ex_done) = Some (s, tr) /\
  on_time 0 tr /\ validated tr 2 "tok" "site" /\
  tr = t1 ++ SoCache (Some 0%nat) (HeMsg (HmCachePoW (CachePoW "x" 50 30 "site"))) (Some (HrUnit (Ok tt))) ::
       t2 ++ SoCache (Some 2%nat) (HeMsg (HmVerifyCaptchaResult (VerifyCaptchaResult "tok" "site")))
               (Some (HrBool (Ok true))) :: t3 /\
  (forall w m r, SoCache w (HeMsg (HmCachePoW m)) r ∈ tr -> m = CachePoW "x" 50 30 "site") /\
  clock_after 0 t1 + D < clock_after (clock_after 0 t1) t2.
Proof. exact (@c108_recent_refuted p D). Qed.
Print Assumptions C108_recent_refuted.

(** The hypotheses of [C108_stages] are met by that run. *)
Example C108_witness p : exists s tr,
  s_run p ex_lib ex_start (ex_wait ++ SeTick 5 :: ex_done) = Some (s, tr) /\ on_time 0 tr /\
  validated tr 2 "tok" "site".
Proof. destruct (C108_recent_refuted p 5) as (s & tr & _ & _ & _ & Hr & Ho & Hv & _). exists s, tr. split; [exact Hr|]. split; [exact Ho|exact Hv]. Qed.
