(** C115: with tokens in Redis, who was not told a token can only guess it. *)
From Coq Require Import Ascii.
From Coq Require Import ZifyBool ZifyN ZifyNat Lia.
From Verif Require Import Model.Base Model.MCaptcha Model.HashCache Model.Pow Model.System Model.Json Model.Serde Model.Redis
  Model.RedisActor Model.RedisTokens Model.SystemProgram Model.SystemShared Model.Utils
  Spec.UtilsSpec Spec.RedisSpec Spec.ProgramSpec Spec.SharedSpec Spec.GuessSpec Spec.RedisGuessSpec
  Proofs.RedisProofs Proofs.SystemProofs Proofs.SystemHistory Proofs.ProgramProofs Proofs.SharedProofs Proofs.RedisGuessProofs
  Properties.UtilsProperties Properties.SharedProperties.
From Verif Require Export Proofs.RedisGuessTheorems.

(** ** C115 *)
(** Whatever is done, by calls on any System and by direct use of the client, is done and answered in the same
    way whichever string was drawn, as long as that string is not named. *)
Theorem C115_blind : forall ls now adversary k,
  exists log, length log = k /\
    forall secret, no_colon secret -> secret ∉ rguesses log -> (rgame ls now adversary secret k).2 = log.
Proof. exact common_rgame. Qed.
Print Assumptions C115_blind.

(** So of all the strings that might have been drawn, no more are ever named than there are guesses. *)
Theorem C115_odds : forall ls now adversary k q secrets,
  (forall secret, no_colon secret ->
    (length (remove_dups (rguesses (rgame ls now adversary secret k).2)) <= q)%nat) ->
  NoDup secrets -> Forall no_colon secrets ->
  (forall secret, secret ∈ secrets -> secret ∈ rguesses (rgame ls now adversary secret k).2) ->
  (length secrets <= q)%nat.
Proof. exact c115_odds. Qed.
Print Assumptions C115_odds.

(** A string that is drawn has no colon. *)
Theorem C115_plain : forall len draws s rest, get_random len draws = Some (s, rest) -> no_colon s.
Proof. exact c115_plain. Qed.
Print Assumptions C115_plain.

(** Naming it is the only way: the challenge or token that a call is given is the one it drew itself, and a token
    that is found good was, from its last colon on, drawn by a call with accepted work. *)
Theorem C115_drawn : forall ls now es s tr, sh_run ls (sh_init now) es = Some (s, tr) ->
  (forall n cfg, XoRet n (RGetPow (Ok (Some cfg))) ∈ tr -> PeDraw (pc_string cfg) ∈ requests_of n tr) /\
  (forall n tok f, XoRet n (RVerifyPow (Ok (tok, f))) ∈ tr -> PeDraw tok ∈ requests_of n tr) /\
  (forall tr1 n t m f tr2, tr = tr1 ++ XoDid n t (PeVerify m (An (Ok true))) f :: tr2 ->
    exists n' i w ip cfg x, XoCall n' i (CVerifyPow w ip) ∈ tr1 /\ passes (ls i) (checked_work w cfg) /\
      PeDraw x ∈ requests_of n' tr1 /\ last_part x = last_part (vr_token m)).
Proof. exact c115_drawn. Qed.
Print Assumptions C115_drawn.

(** Call 1 solves challenge "ch" and is given the secret as its token; somebody has "tok" validated, another
    tries it as the token of "a" for which "site" is only half the name; the one who was told the token has it
    validated on another System, and once more. *)
Definition ex_robber : rrecord -> rmove := fun log =>
  nth (length log)
    (map RmEvent (ex_issue ++ XeCall 1 (CVerifyPow (Work "ch" "okch" 50 "a:site") "1.2.3.4") :: take 3 (ex_verify 1 "")) ++
     [RmDraw 1; RmEvent (XeStep 1 (XToken Answered)); RmEvent (XeReturn 1)] ++
     map RmEvent [XeCall 0 (CValidate (VerifyCaptchaResult "tok" "a:site")); XeStep 2 (XToken Answered); XeReturn 2;
                  XeCall 0 (CValidate (VerifyCaptchaResult "site:key" "a")); XeStep 3 (XToken Answered); XeReturn 3] ++
     [RmCheck 1 "a:site"; RmEvent (XeStep 4 (XToken Answered)); RmEvent (XeReturn 4);
      RmCheck 0 "a:site"; RmEvent (XeStep 5 (XToken Answered)); RmEvent (XeReturn 5)])
    (RmEvent (XeTick 0)).

Example C115_witness :
  let log secret := (rgame (fun _ => ex_pow_lib) 1000 ex_robber secret 24).2 in
  let answers secret := omap (fun x => match x.2 with Some [XoRet n r] => Some (n, r) | _ => None end) (log secret) in
  let verdicts secret := omap (fun x : nat * ret => match x.2 with RValidate (Ok b) => Some b | _ => None end) (answers secret) in
  (1%nat, RVerifyPow (Ok (""%string, 50))) ∈ answers "secret"%string /\
  verdicts "secret"%string = [false; false; true; false] /\
  log "other"%string = log "secret"%string /\
  verdicts "tok"%string = [true; false; false; false] /\
  verdicts "key"%string = [false; true; false; false] /\
  remove_dups (rguesses (log "secret"%string)) = ["ch"; "tok"; "key"]%string.
Proof.
  cbv zeta. split; [apply elem_of_list_In; vm_compute; tauto|]. by vm_compute.
Qed.
