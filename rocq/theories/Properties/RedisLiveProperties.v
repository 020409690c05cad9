(** A [System] on Redis: how much service a call needs until it returns (C105). *)
From Coq Require Import ZifyBool ZifyN ZifyNat Lia.
From Verif Require Import Model.Base Model.MCaptcha Model.HashCache Model.Pow Model.System Model.Master Model.Json Model.Serde Model.Redis
  Model.RedisActor Model.RedisTokens Model.SystemProgram Model.SystemShared Model.RedisSystem
  Spec.RedisActorSpec Spec.ProgramSpec Spec.SharedSpec Spec.RedisSystemSpec Spec.ServiceSpec
  Proofs.RedisActorProofs Proofs.ProgramProofs Proofs.SharedProofs Proofs.RedisSystemProofs Proofs.RedisSystemLive
  Properties.RedisActorProperties Properties.SharedProperties Properties.RedisSystemProperties.
From Verif Require Export Proofs.RedisLiveTheorems.

(** ** C105 *)
(** Whatever else happens, later messages do not get ahead of a call's: if the actors
    have at most [b] messages when it sends its own, it takes no more than [enough]
    steps for the call until it has returned. *)
Theorem C105_bounded : forall k l es s tr n c b es2 s2 tr2,
  rs_run k l rs_init es = Some (s, tr) -> SvoCall n c ∈ tr ->
  (forall p w m, rs_calls s !! n = Some (p, Some (w, m)) -> (load (actor w s) <= b)%nat) ->
  rs_run k l s es2 = Some (s2, tr2) -> at_most k l b n s es2 ->
  (served k l n s es2 <= enough c b)%nat /\
  (served k l n s es2 = enough c b -> SvoCancel n ∈ tr ++ tr2 \/ exists r, SvoRet n r ∈ tr ++ tr2).
Proof. exact c105_bounded. Qed.
Print Assumptions C105_bounded.

(** There is always such a step, whatever Redis, queue and runners say (a single
    connection, or one that nobody else is using at the moment). *)
Theorem C105_step : forall k l es s tr n c W,
  rs_run k l rs_init es = Some (s, tr) -> SvoCall n c ∈ tr -> SvoCancel n ∉ tr -> (forall r, SvoRet n r ∉ tr) ->
  (k = Single \/ forall w, ra_users (actor w s) = ∅) -> (forall s q, verdict_ok l q (wo_verdict W s q) = true) ->
  serves n s (next_for W n s) = true /\ is_Some (rs_step k l s (next_for W n s)).
Proof. exact c105_step. Qed.
Print Assumptions C105_step.

(** So a call that is attended to returns, whatever the state and the answers. *)
Theorem C105_attended : forall k l es s tr n c W b,
  rs_run k l rs_init es = Some (s, tr) -> SvoCall n c ∈ tr -> SvoCancel n ∉ tr -> (forall r, SvoRet n r ∉ tr) ->
  (k = Single \/ forall w, ra_users (actor w s) = ∅) -> (forall s q, verdict_ok l q (wo_verdict W s q) = true) ->
  (forall w, load (actor w s) <= b)%nat ->
  exists r, SvoRet n r ∈ attend k l W n (enough c b) s.
Proof. exact c105_attended. Qed.
Print Assumptions C105_attended.

(** The bound is reached: a validation behind two others, and one alone. *)
Definition ex_tok (t : string) : call := CValidate (VerifyCaptchaResult t "site").

Definition ex_queue : list rsevent :=
  [SvCall (ex_tok "a"); SvCall (ex_tok "b"); SvCall (ex_tok "c"); SvAsk 0; SvAsk 1].

Definition ex_served : list rsevent :=
  [SvAsk 2; SvActor AtCache ReTake; SvActor AtCache (ReReply (RrVal (RvInt 1))); SvReturn 0; SvActor AtCache ReTake;
   SvActor AtCache (ReReply (RrVal (RvInt 0))); SvActor AtCache ReTake; SvActor AtCache (ReReply (RrVal (RvInt 1))); SvReturn 2].

Definition ex_world : world := World (fun _ => RrVal (RvInt 1)) (fun _ => "x"%string) (fun _ => SuPanic) (fun _ _ => None).

Example C105_witness :
  exists s tr s2 tr2,
    rs_run Single ex_pow_lib rs_init ex_queue = Some (s, tr) /\ SvoCall 2 (ex_tok "c") ∈ tr /\
    (forall w, load (actor w s) <= 2)%nat /\
    rs_run Single ex_pow_lib s ex_served = Some (s2, tr2) /\ at_most Single ex_pow_lib 2 2 s ex_served /\
    served Single ex_pow_lib 2 s ex_served = enough (ex_tok "c") 2 /\
    returns tr2 = [(0%nat, RValidate (Ok true)); (2%nat, RValidate (Ok true))] /\
    (** attended to alone, it takes these steps and no fewer *)
    returns (attend Single ex_pow_lib ex_world 2 (enough (ex_tok "c") 2) s) = [(2%nat, RValidate (Ok true))] /\
    returns (attend Single ex_pow_lib ex_world 2 (enough (ex_tok "c") 2 - 1) s) = [].
Proof.
  set (run := rs_run Single ex_pow_lib rs_init ex_queue).
  assert (H : match run with
    | Some (s, tr) =>
        match rs_run Single ex_pow_lib s ex_served with
        | Some (_, tr2) =>
            omap (fun o => match o with SvoCall n c => Some (n, c) | _ => None end) tr = [(0%nat, ex_tok "a"); (1%nat, ex_tok "b"); (2%nat, ex_tok "c")] /\
            load (rs_master s) = 0%nat /\ load (rs_cache s) = 2%nat /\ served Single ex_pow_lib 2 s ex_served = enough (ex_tok "c") 2 /\
            returns tr2 = [(0%nat, RValidate (Ok true)); (2%nat, RValidate (Ok true))] /\
            returns (attend Single ex_pow_lib ex_world 2 (enough (ex_tok "c") 2) s) = [(2%nat, RValidate (Ok true))] /\
            returns (attend Single ex_pow_lib ex_world 2 (enough (ex_tok "c") 2 - 1) s) = []
        | None => False
        end
    | None => False
    end) by (vm_compute; repeat split).
  destruct run as [[s tr]|] eqn:Er; [|done]. destruct (rs_run _ _ s ex_served) as [[s2 tr2]|] eqn:E2; [|done].
  destruct H as (H1 & H2 & H3 & H4 & H5 & H6 & H7). exists s, tr, s2, tr2.
  assert (Hl : forall w, (load (actor w s) <= 2)%nat) by (intros []; cbn [actor]; lia).
  split; [done|]. split.
  { assert (Hx : (2%nat, ex_tok "c") ∈ omap (fun o => match o with SvoCall n c => Some (n, c) | _ => None end) tr) by (rewrite H1; by right; right; left).
    apply elem_of_list_omap in Hx as (o & Ho & Hx). destruct o; try done. by injection Hx as -> ->. }
  split; [done|]. split; [done|]. split; [|split; [exact H4|]; split; [exact H5|]; split; [exact H6|exact H7]].
  assert (Hr : forall r, Forall (fun x => x <> SvAsk 2) r -> at_most Single ex_pow_lib 2 2 s (SvAsk 2 :: r)).
  { intros r Hr. cbn [at_most]. split; [by intros|]. destruct (rs_step Single ex_pow_lib s (SvAsk 2)) as [[s3 o3]|]; [|done]. by apply at_most_others. }
  apply (Hr (tail ex_served)). repeat (apply Forall_cons; split; [done|]). done.
Qed.
