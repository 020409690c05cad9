(** Work the PoW library panics on. *)
From Verif Require Import Model.Base Model.HashCache Model.Pow Model.System Spec.SystemSpec.

Definition panics (l : pow_lib) (w : work) (d : N) : Prop :=
  is_sufficient_difficulty l (work_pow w) d = Panic \/ is_valid_proof l (work_pow w) (w_string w) = Panic.
(** Some call of verify_pow with such work got as far as the queue's door: its
    challenge was in the cache, and cached for the site it named. *)
Definition from_client (l : pow_lib) (tr : list sout) : Prop :=
  exists n w ip c, called tr n (CVerifyPow w ip) /\
    SoCache (Some n) (HeMsg (HmRetrivePoW (VerifyCaptchaResult (w_string w) (w_key w)))) (Some (HrPoW (Ok (Some c)))) ∈ tr /\
    w_key w = cc_key c /\ panics l w (cc_difficulty_factor c).
