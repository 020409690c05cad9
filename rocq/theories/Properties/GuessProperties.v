(** C114: who was not told a challenge or token can only guess it. *)
From Coq Require Import Ascii.
From Coq Require Import ZifyBool ZifyN ZifyNat Lia.
From Verif Require Import Model.Base Model.Defense Model.MCaptcha Model.Counter Model.Master
  Model.HashCache Model.Queue Model.Pow Model.System Model.Utils
  Spec.UtilsSpec Spec.SystemSpec Spec.GuessSpec Proofs.UtilsProofs Proofs.SystemHistory Proofs.GuessProofs Properties.SystemProperties.
From Verif Require Export Proofs.GuessTheorems.

(** ** C114 *)
(** Whatever is done, it is done and answered in the same way whichever string was drawn, as long as that
    string is not named. *)
Theorem C114_blind : forall p l now gc wk ql adversary k,
  exists log, length log = k /\
    forall secret, secret ∉ guesses log -> (game p l (sys_start now gc wk ql) adversary secret k).2 = log.
Proof. exact c114_blind. Qed.
Print Assumptions C114_blind.

(** So of all the strings that might have been drawn, no more are ever named than there are guesses. *)
Theorem C114_odds : forall p l now gc wk ql adversary k q secrets,
  (forall secret, (length (remove_dups (guesses (game p l (sys_start now gc wk ql) adversary secret k).2)) <= q)%nat) ->
  NoDup secrets ->
  (forall secret, secret ∈ secrets -> secret ∈ guesses (game p l (sys_start now gc wk ql) adversary secret k).2) ->
  (length secrets <= q)%nat.
Proof. exact c114_odds. Qed.
Print Assumptions C114_odds.

(** And the strings that might have been drawn are 62 to the power of the length. *)
Theorem C114_space : forall len, exists secrets,
  NoDup secrets /\ N.of_nat (length secrets) = 62 ^ N.of_nat len /\
  forall s, s ∈ secrets <-> exists draws rest, get_random len draws = Some (s, rest).
Proof. exact random_space. Qed.
Print Assumptions C114_space.

(** Naming it is the only way: the challenge or token that a call is given is the one it drew itself, accepted work is for
    a challenge that was drawn, and a token that is found good is one that was drawn. *)
Theorem C114_drawn : forall p l now gc wk ql es s tr, s_run p l (sys_start now gc wk ql) es = Some (s, tr) ->
  let drew := drew p l (sys_start now gc wk ql) es in
  (forall n cfg, returned tr n (RGetPow (Ok (Some cfg))) -> drew false n (pc_string cfg)) /\
  (forall n tok f, returned tr n (RVerifyPow (Ok (tok, f))) -> drew true n tok) /\
  (forall n x, verified tr n x -> exists n0, drew false n0 x) /\
  (forall n tok key, validated tr n tok key -> exists n0, drew true n0 tok).
Proof. exact c114_drawn. Qed.
Print Assumptions C114_drawn.

(** Call 1 solves challenge "x" and is given the secret as its token; somebody has "tok" validated; the one who
    was told the token has it validated, and once more. *)
Definition ex_thief : record -> move := fun log =>
  nth (length log)
    (map MvEvent ex_issue ++ map MvEvent (take 8 ex_solve) ++ [MvDraw 1; MvEvent (SeAct 1 ""); MvEvent (SeAct 1 "")] ++
     map MvEvent ex_check ++ [MvCheck "site"; MvEvent (SeAct 3 ""); MvEvent (SeAct 3 "");
                              MvCheck "site"; MvEvent (SeAct 4 ""); MvEvent (SeAct 4 "")])
    (MvEvent (SeTick 0)).

Example C114_witness : forall p,
  let log secret := (game p ex_lib ex_start ex_thief secret 27).2 in
  let answers secret := omap (fun x => match x.2 with Some [SoRet n r] => Some (n, r) | _ => None end) (log secret) in
  answers "secret"%string = [(0%nat, RGetPow (Ok (Some (PoWConfig "x" 50 "salt")))); (1%nat, RVerifyPow (Ok (""%string, 50)));
    (2%nat, RValidate (Ok false)); (3%nat, RValidate (Ok true)); (4%nat, RValidate (Ok false))] /\
  log "other"%string = log "secret"%string /\
  "tok"%string ∈ guesses (log "tok"%string) /\
  answers "tok"%string = [(0%nat, RGetPow (Ok (Some (PoWConfig "x" 50 "salt")))); (1%nat, RVerifyPow (Ok (""%string, 50)));
    (2%nat, RValidate (Ok true)); (3%nat, RValidate (Ok false)); (4%nat, RValidate (Ok false))] /\
  remove_dups (guesses (log "secret"%string)) = ["x"; "tok"; ""]%string /\
  (exists s tr, s_run p ex_lib ex_start (ex_issue ++ ex_solve ++ ex_check) = Some (s, tr) /\ verified tr 1 "x" /\
     validated tr 2 "tok" "site" /\ drew p ex_lib ex_start (ex_issue ++ ex_solve ++ ex_check) true 1 "tok").
Proof.
  intros p. cbv zeta.
  split; [by destruct p; vm_compute|]. split; [by destruct p; vm_compute|].
  split; [|split; [by destruct p; vm_compute|split; [by destruct p; vm_compute|]]].
  2: { assert (H : match s_run p ex_lib ex_start (ex_issue ++ ex_solve ++ ex_check) with
                   | Some (_, tr) => returned tr 1 (RVerifyPow (Ok ("tok"%string, 50))) /\ returned tr 2 (RValidate (Ok true)) /\
                       called tr 1 (CVerifyPow (ex_work "x" "site" 60) "ip") /\ called tr 2 (CValidate (VerifyCaptchaResult "tok" "site"))
                   | None => False end).
       { destruct p; vm_compute s_run; cbv beta iota; unfold returned, called; rewrite !elem_of_list_In; vm_compute; tauto. }
       destruct (s_run p ex_lib ex_start (ex_issue ++ ex_solve ++ ex_check)) as [[s tr]|] eqn:E; [|destruct H].
       destruct H as (H1 & H2 & H3 & H4). exists s, tr. split; [reflexivity|]. split; [|split].
       - exists (ex_work "x" "site" 60), "ip"%string, "tok"%string, 50. split; [exact H3|]. split; [reflexivity|exact H1].
       - split; [exact H4|exact H2].
       - destruct (C114_drawn _ _ _ _ _ _ _ _ _ E) as (_ & Hd & _). exact (Hd _ _ _ H1). }
  apply elem_of_list_In. destruct p; vm_compute; tauto.
Qed.
