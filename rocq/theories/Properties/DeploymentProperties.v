(** Properties of deployments: Systems with their actors on one Redis, commands
    and replies under way. *)
From Coq Require Import ZifyBool ZifyN ZifyNat Lia.
From Verif Require Import Model.Base Model.MCaptcha Model.HashCache Model.Pow Model.System Model.Json Model.Serde Model.Redis
  Model.RedisActor Model.RedisTokens Model.SystemProgram Model.SystemShared Model.RedisSystem Model.Deployment
  Spec.RedisSpec Spec.ProgramSpec Spec.SharedSpec Spec.DeploymentSpec
  Proofs.RedisProofs Proofs.SystemHistory Proofs.ProgramProofs Proofs.SharedProofs Proofs.DeploymentProofs Properties.SharedProperties.
From Verif Require Export Proofs.DeploymentTheorems.

(** ** C100: a deployment behaves like the shared model *)
Theorem C100_deployment : forall k ls now es d tr,
  dp_run k ls (dp_init now) es = Some (d, tr) ->
  exists es' s' tr' name, sh_run ls (sh_init now) es' = Some (s', tr') /\
    (** calls correspond one to one, on the same Systems, *)
    (forall g g', (g < sh_next s')%nat -> (g' < sh_next s')%nat -> name g = name g' -> g = g') /\
    (forall g i c, XoCall g i c ∈ tr' -> (g < sh_next s')%nat /\ (name g).1 = i) /\
    (** and what can be observed is the same, in the same order. *)
    d_obs tr = rename name <$> x_obs tr'.
Proof. exact c100_deployment. Qed.
Print Assumptions C100_deployment.

(** ** C101: tokens in a deployment *)

(** Over the whole deployment, a token passes at most once. *)
Theorem C101_once : forall k ls now es d tr a b m,
  dp_run k ls (dp_init now) es = Some (d, tr) ->
  plain_works (d_obs tr) -> fresh_draws (d_obs tr) -> no_colon (vr_key m) ->
  checked (d_obs tr) a m true -> checked (d_obs tr) b m true -> a = b.
Proof. exact c101_once. Qed.
Print Assumptions C101_once.

(** And a pass was earned: before it, a call of verify_pow on some System was given
    work for the site that passes its checks, drew the token and had Redis store
    it; Redis took it out in time, and not before. *)
Theorem C101_earned : forall k ls now es d tr a m os1 os2,
  dp_run k ls (dp_init now) es = Some (d, tr) ->
  plain_works (d_obs tr) -> no_colon (vr_key m) ->
  d_obs tr = os1 ++ BRet a (RValidate (Ok true)) :: os2 -> BCall a (CValidate m) ∈ d_obs tr ->
  let key := token_key (vr_key m) (vr_token m) in
  exists h1 t' secs h2 t h3 j n w ip cfg,
    os1 = h1 ++ BExec t' ["SET"; key; vr_key m; "EX"; secs]%string :: h2 ++ BExec t ["DEL"; key]%string :: h3 /\
    secs = print_num (cc_duration cfg) /\ t <= t' + cc_duration cfg * 1000 /\
    (forall t0, BExec t0 ["DEL"; key]%string ∉ h2) /\
    BCall (j, n) (CVerifyPow w ip) ∈ h1 /\ BDraw (j, n) (vr_token m) ∈ h1 /\ BCall a (CValidate m) ∈ h1 ++ h2 /\
    w_key w = vr_key m /\ cc_key cfg = vr_key m /\ passes (ls j) (checked_work w cfg).
Proof. exact c101_earned. Qed.
Print Assumptions C101_earned.

(** A token that verify_pow hands out has been stored: the command came after the
    call, and its lifetime is one Redis accepts. *)
Theorem C101_stored : forall k ls now es d tr a w ip tok level os1 os2,
  dp_run k ls (dp_init now) es = Some (d, tr) ->
  d_obs tr = os1 ++ BRet a (RVerifyPow (Ok (tok, level))) :: os2 -> BCall a (CVerifyPow w ip) ∈ d_obs tr ->
  exists h1 t secs h2 cfg,
    os1 = h1 ++ BExec t ["SET"; token_key (w_key w) tok; w_key w; "EX"; print_num secs]%string :: h2 /\
    storable t secs /\ BCall a (CVerifyPow w ip) ∈ h1 /\ BDraw a tok ∈ h1 /\
    secs = cc_duration cfg /\ level = cc_difficulty_factor cfg /\ cc_key cfg = w_key w /\ passes (ls a.1) (checked_work w cfg).
Proof. exact c101_stored. Qed.
Print Assumptions C101_stored.

(** And a token that is stored is good on every System: the first to take it, within
    its lifetime, is told so. *)
Theorem C101_good : forall k ls now es d tr m a b t' secs t os1 os2 os3 os4,
  dp_run k ls (dp_init now) es = Some (d, tr) ->
  let key := token_key (vr_key m) (vr_token m) in
  d_obs tr = os1 ++ BExec t' ["SET"; key; vr_key m; "EX"; print_num secs]%string ::
    os2 ++ BExec t ["DEL"; key]%string :: os3 ++ BRet a (RValidate (Ok b)) :: os4 ->
  BCall a (CValidate m) ∈ d_obs tr ->
  storable t' secs -> t <= t' + secs * 1000 ->
  (** nothing else is done about it in between, *)
  (forall t0 cmd, BExec t0 cmd ∈ os2 -> cmd !! 1%nat <> Some key) ->
  (** and it is this command that the call waited for. *)
  (forall t0, BExec t0 ["DEL"; key]%string ∉ os1 ++ os3) ->
  b = true.
Proof. exact c101_good. Qed.
Print Assumptions C101_good.

Definition ex_token : verify_captcha_result := VerifyCaptchaResult "tok" "site".

Definition ex_deployment : list devent :=
  on 0 [SvCall (CGetPow "site"); SvAsk 0; SvActor AtMaster ReTake; SvActor AtMaster (ReReply (RrVal (RvBulk "[30,50]")));
        SvDo 0 (XDraw "ch"); SvAsk 0; SvActor AtCache ReTake] ++ [DeReply 0 (DvModule (RrVal RvOkay))] ++ on 0 [SvReturn 0] ++
  on 1 [SvCall (CVerifyPow ex_work "1.2.3.4"); SvAsk 0; SvActor AtCache ReTake] ++ [DeReply 1 (DvModule ex_json)] ++
  on 1 [SvDo 0 (XSubmit (SuDone (Ok tt))); SvDo 0 (XVerdict (Some true)); SvDo 0 (XDraw "tok"); SvAsk 0; SvActor AtCache ReTake] ++
  [DeTick 5; DeExec 1; DeTick 5; DeReply 1 DvReply] ++ on 1 [SvReturn 0] ++
  on 2 [SvCall (CValidate (VerifyCaptchaResult "other" "site")); SvAsk 0; SvActor AtCache ReTake; SvCancel 0] ++
  on 0 [SvCall (CValidate ex_token); SvAsk 1; SvActor AtCache ReTake] ++ [DeTick 29000; DeExec 0; DeExec 2; DeReply 2 DvReply; DeReply 0 DvReply] ++
  on 0 [SvReturn 1] ++ on 1 [SvCall (CValidate ex_token); SvAsk 1; SvActor AtCache ReTake] ++
  [DeTick 7; DeExec 1; DeReply 1 DvReply] ++ on 1 [SvReturn 1].

Definition ex_observed : list (obs (nat * nat)) :=
  [BCall (0, 0)%nat (CGetPow "site"); BDraw (0, 0)%nat "ch"; BRet (0, 0)%nat (RGetPow (Ok (Some (PoWConfig "ch" 50 (pl_salt ex_pow_lib)))));
   BCall (1, 0)%nat (CVerifyPow ex_work "1.2.3.4"); BDraw (1, 0)%nat "tok";
   BExec 1005 ["SET"; "mcaptcha:token:site:tok"; "site"; "EX"; "30"]; BRet (1, 0)%nat (RVerifyPow (Ok ("tok", 50)));
   BCall (2, 0)%nat (CValidate (VerifyCaptchaResult "other" "site")); BCall (0, 1)%nat (CValidate ex_token);
   BExec 30010 ["DEL"; "mcaptcha:token:site:tok"]; BExec 30010 ["DEL"; "mcaptcha:token:site:other"];
   BRet (0, 1)%nat (RValidate (Ok true)); BCall (1, 1)%nat (CValidate ex_token);
   BExec 30017 ["DEL"; "mcaptcha:token:site:tok"]; BRet (1, 1)%nat (RValidate (Ok false))]%string.

Example C101_witness :
  (exists d tr, dp_run Cluster (fun _ => ex_pow_lib) (dp_init 1000) ex_deployment = Some (d, tr) /\ d_obs tr = ex_observed) /\
  plain_works ex_observed /\ fresh_draws ex_observed /\
  checked ex_observed (0, 1)%nat ex_token true /\ checked ex_observed (1, 1)%nat ex_token false /\ storable 1005 30.
Proof.
  split; [|split; [|split; [|split; [|split; [|done]]]]].
  - assert (H : match dp_run Cluster (fun _ => ex_pow_lib) (dp_init 1000) ex_deployment with
      Some (_, tr) => d_obs tr | None => [] end = ex_observed) by by vm_compute.
    destruct (dp_run _ _ _ _) as [[d tr]|]; [by exists d, tr|done].
  - intros a w ip Hin. unfold ex_observed in Hin. elem_cases; try discriminate. injection Hin as -> -> ->. intros H. cbn in H. elem_cases; discriminate.
  - intros os1 a s os2 b os3 E.
    assert (H : omap (fun o => match o with BDraw _ s => Some s | _ => None end) ex_observed = ["ch"; "tok"]%string) by done.
    rewrite E, omap_app in H. cbn [omap list_omap] in H. rewrite omap_app in H. cbn [omap list_omap] in H.
    set (f := omap _) in H. assert (Hn : NoDup (f os1 ++ s :: f os2 ++ s :: f os3)) by (rewrite H; apply NoDup_cons; split; [by intros ?%elem_of_list_singleton|apply NoDup_singleton]).
    apply NoDup_app in Hn as (_ & _ & Hn). apply NoDup_cons in Hn as [Hn _]. apply Hn, elem_of_app. right. by left.
  - split; unfold ex_observed; repeat (first [by left|right]).
  - split; unfold ex_observed; repeat (first [by left|right]).
Qed.

(** C100 applies to that run, which is not empty. *)
Example C100_witness :
  exists d tr, dp_run Cluster (fun _ => ex_pow_lib) (dp_init 1000) ex_deployment = Some (d, tr) /\ d_obs tr = ex_observed /\
    length ex_observed = 15%nat.
Proof. destruct C101_witness as [(d & tr & H1 & H2) _]. exists d, tr. split; [exact H1|]. split; [exact H2|reflexivity]. Qed.

(** A connection that breaks with the command still on it: the call is told of a
    failure, the token is stored afterwards, and it passes. *)
Definition ex_broken : list devent :=
  on 1 [SvCall (CVerifyPow ex_work "1.2.3.4"); SvAsk 0; SvActor AtCache ReTake] ++ [DeReply 1 (DvModule ex_json)] ++
  on 1 [SvDo 0 (XSubmit (SuDone (Ok tt))); SvDo 0 (XVerdict (Some true)); SvDo 0 (XDraw "tok"); SvAsk 0; SvActor AtCache ReTake] ++
  [DeReply 1 DvBroken] ++ on 1 [SvReturn 0] ++ [DeTick 5; DeLate 0] ++
  on 0 [SvCall (CValidate ex_token); SvAsk 0; SvActor AtCache ReTake] ++ [DeTick 5; DeExec 0; DeReply 0 DvReply] ++ on 0 [SvReturn 0].

Definition ex_broken_observed : list (obs (nat * nat)) :=
  [BCall (1, 0)%nat (CVerifyPow ex_work "1.2.3.4"); BDraw (1, 0)%nat "tok"; BRet (1, 0)%nat (RVerifyPow (Err RecvError));
   BExec 1005 ["SET"; "mcaptcha:token:site:tok"; "site"; "EX"; "30"];
   BCall (0, 0)%nat (CValidate ex_token); BExec 1010 ["DEL"; "mcaptcha:token:site:tok"]; BRet (0, 0)%nat (RValidate (Ok true))]%string.

Example C101_late_witness :
  exists d tr, dp_run Cluster (fun _ => ex_pow_lib) (dp_init 1000) ex_broken = Some (d, tr) /\ d_obs tr = ex_broken_observed.
Proof.
  assert (H : match dp_run Cluster (fun _ => ex_pow_lib) (dp_init 1000) ex_broken with
    Some (_, tr) => d_obs tr | None => [] end = ex_broken_observed) by by vm_compute.
  destruct (dp_run _ _ _ _) as [[d tr]|]; [by exists d, tr|done].
Qed.
