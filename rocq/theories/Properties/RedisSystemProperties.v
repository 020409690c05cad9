(** A [System] whose Master and cache are actors in front of Redis: one client
    that goes away (C98), and what the others can rely on while nobody does (C99). *)
From Coq Require Import ZifyBool ZifyN ZifyNat Lia.
From Verif Require Import Model.Base Model.MCaptcha Model.HashCache Model.Pow Model.System Model.Master Model.Json Model.Serde Model.Redis
  Model.RedisActor Model.RedisTokens Model.SystemProgram Model.SystemShared Model.RedisSystem
  Spec.RedisActorSpec Spec.ProgramSpec Spec.SharedSpec Spec.RedisSystemSpec
  Proofs.RedisActorProofs Proofs.ProgramProofs Proofs.SharedProofs Proofs.RedisSystemProofs
  Properties.RedisActorProperties Properties.SharedProperties.
From Verif Require Export Proofs.RedisSystemTheorems.

(** ** C98: one client that goes away ends the service for all *)

Theorem C98_gone_client_refuted : forall k l before s tr0 m r,
  rs_run k l rs_init before = Some (s, tr0) -> idle (rs_cache s) ->
  exists s' o, rs_run k l s (gives_up (rs_next s) m r) = Some (s', o) /\ ra_alive (rs_cache s') = false /\
    (** whoever comes later gets nothing done *)
    forall es s'' tr n c x, rs_run k l s' es = Some (s'', tr) -> SvoCall n c ∈ tr -> SvoRet n x ∈ tr -> useless x.
Proof. exact c98_gone_client_refuted. Qed.
Print Assumptions C98_gone_client_refuted.

(** ** C99: what a [System] on Redis does while nobody goes away *)
(** Every answer a call gets is the meaning of Redis's reply to the very command
    that was sent for it; a request goes unanswered only because the actor died. *)
Theorem C99_own_answers : forall k l es s tr tr1 n e tr2 w op x,
  rs_run k l rs_init es = Some (s, tr) -> tr = tr1 ++ SvoTold n e :: tr2 -> exchange_of e = Some (w, op, x) ->
  exists tr0 ev os mid, tr1 = tr0 ++ SvoActor w ev os :: mid /\ actor_events w mid = [] /\
    match x with
    | Some y => exists r, ev = ReReply r /\ rc_answer op r = Val y /\ last_command (actor_obs w tr0) = Some (rc_cmd op)
    | None => died (actor_obs w tr0 ++ os)
    end.
Proof. exact c99_own_answers. Qed.
Print Assumptions C99_own_answers.

(** A call returns what its program makes of these answers (so C80 tells what). *)
Theorem C99_calls : forall k l es s tr n r,
  rs_run k l rs_init es = Some (s, tr) -> SvoRet n r ∈ tr ->
  exists c, SvoCall n c ∈ tr /\ p_run (program (pl_salt l) c) (told_to n tr) = Some (PRet r).
Proof. exact c99_calls. Qed.
Print Assumptions C99_calls.

(** The cache stays alive and answers every request, if no client goes away and
    Redis replies sensibly. *)
Theorem C99_cache_serves : forall k l es s tr,
  rs_run k l rs_init es = Some (s, tr) ->
  Forall stays es -> Forall (guests AtCache true) es -> answers sane_reply AtCache tr -> answers token_reply AtCache tr ->
  (k = Cluster \/ Forall (own_connection AtCache) es) ->
  ra_alive (rs_cache s) = true /\ forall n e op x, SvoTold n e ∈ tr -> exchange_of e = Some (AtCache, op, x) -> x <> None.
Proof. exact c99_cache_serves. Qed.
Print Assumptions C99_cache_serves.

(** The Master even if clients do go away. *)
Theorem C99_master_serves : forall k l es s tr,
  rs_run k l rs_init es = Some (s, tr) ->
  Forall (guests AtMaster false) es -> answers sane_reply AtMaster tr ->
  (k = Cluster \/ Forall (own_connection AtMaster) es) ->
  ra_alive (rs_master s) = true /\ forall n e op x, SvoTold n e ∈ tr -> exchange_of e = Some (AtMaster, op, x) -> x <> None.
Proof. exact c99_master_serves. Qed.
Print Assumptions C99_master_serves.

(** No call gets stuck, whatever others do. *)
Theorem C99_not_stuck : forall k l es s tr n c,
  rs_run k l rs_init es = Some (s, tr) -> SvoCall n c ∈ tr -> SvoCancel n ∉ tr -> (forall r, SvoRet n r ∉ tr) ->
  exists x, drives n x /\ is_Some (rs_step k l s x).
Proof. exact c99_not_stuck. Qed.
Print Assumptions C99_not_stuck.

(** *** Sessions *)
Fixpoint check (okb : list string -> rreply -> bool) (w : which) (obs : list robs) (tr : list rsout) : bool :=
  match tr with
  | [] => true
  | x :: r =>
      match x with
      | SvoActor w' (ReReply rep) _ =>
          if decide (w = w') then match last_command obs with Some c => okb c rep | None => true end else true
      | _ => true
      end && check okb w (obs ++ actor_obs w [x]) r
  end.

Lemma check_answers (ok : list string -> rreply -> Prop) okb w : (forall c r, okb c r = true -> ok c r) -> forall tr, check okb w [] tr = true -> answers ok w tr.
Proof.
  intros Hok.
  assert (H : forall tr obs, check okb w obs tr = true -> forall tr1 r os tr2 cmd,
    tr = tr1 ++ SvoActor w (ReReply r) os :: tr2 -> last_command (obs ++ actor_obs w tr1) = Some cmd -> ok cmd r).
  { induction tr as [|x tr IH]; intros obs Hc tr1 r os tr2 cmd Htr Hl; [by destruct tr1|]. cbn [check] in Hc.
    apply andb_true_iff in Hc as [H1 H2]. destruct tr1 as [|y tr1]; injection Htr as -> Htr.
    - rewrite decide_True in H1 by done. rewrite app_nil_r in Hl. rewrite Hl in H1. by apply Hok.
    - apply (IH _ H2 _ _ _ _ _ Htr). rewrite <- app_assoc, <- actor_obs_app. done. }
  intros tr Hc tr1 r os tr2 cmd Htr Hl. by apply (H tr [] Hc tr1 r os tr2).
Qed.

Definition sane_b (cmd : list string) (r : rreply) : bool :=
  match cmd, r with
  | c :: _, RrVal v =>
      if decide (c = "MCAPTCHA_CACHE.ADD_VISITOR" \/ c = "MCAPTCHA_CACHE.GET_CHALLENGE")%string
      then match to_str v with Some t => bool_decide (is_Some (from_str decode_visit t)) | None => true end else true
  | _, _ => true
  end.

Lemma sane_b_ok c r : sane_b c r = true -> sane_reply c r.
Proof.
  destruct c as [|c rest]; [done|]. destruct r as [v|e]; [|done]. cbn. case_decide; [|done].
  intros H1 _ t Ht. rewrite Ht in H1. apply bool_decide_eq_true in H1. by destruct H1 as [? ->].
Qed.

Definition token_b (cmd : list string) (r : rreply) : bool :=
  match cmd, r with c :: _, RrErr _ => bool_decide (c <> "SET"%string) | _, _ => true end.

Lemma token_b_ok c r : token_b c r = true -> token_reply c r.
Proof.
  destruct c as [|c rest]; [done|]. destruct r as [v|e]; [done|]. cbn. intros H -> e' _. by apply bool_decide_eq_true in H.
Qed.

Definition returns (tr : list rsout) : list (nat * ret) := omap (fun o => match o with SvoRet n r => Some (n, r) | _ => None end) tr.

(** Two clients at a time: one is given a challenge, one asks about a token. *)
Definition ex_two : list rsevent :=
  [SvCall (CGetPow "site"); SvCall (CValidate (VerifyCaptchaResult "tok" "site")); SvAsk 0; SvAsk 1;
   SvActor AtMaster ReTake; SvActor AtCache ReTake; SvActor AtMaster (ReReply (RrVal (RvBulk "[30,50]"))); SvDo 0 (XDraw "ch"); SvAsk 0;
   SvActor AtCache (ReReply (RrVal (RvInt 1))); SvReturn 1; SvActor AtCache ReTake; SvActor AtCache (ReReply (RrVal RvOkay)); SvReturn 0].

Definition ex_two_run := rs_run Single ex_pow_lib rs_init ex_two.

Example C99_witness :
  Forall stays ex_two /\ Forall (guests AtCache true) ex_two /\ Forall (guests AtMaster false) ex_two /\
  Forall (own_connection AtCache) ex_two /\ Forall (own_connection AtMaster) ex_two /\
  exists s tr, rs_run Single ex_pow_lib rs_init ex_two = Some (s, tr) /\
    answers sane_reply AtCache tr /\ answers token_reply AtCache tr /\ answers sane_reply AtMaster tr /\
    returns tr = [(1%nat, RValidate (Ok true)); (0%nat, RGetPow (Ok (Some (PoWConfig "ch" 50 (pl_salt ex_pow_lib)))))].
Proof.
  split_and!; try (repeat (apply Forall_cons; split; [done|]); done).
  assert (H : match ex_two_run with
    | Some (_, tr) => check sane_b AtCache [] tr && check token_b AtCache [] tr && check sane_b AtMaster [] tr
    | None => false end = true) by by vm_compute.
  assert (Hr : match ex_two_run with Some (_, tr) => returns tr | None => [] end =
    [(1%nat, RValidate (Ok true)); (0%nat, RGetPow (Ok (Some (PoWConfig "ch" 50 (pl_salt ex_pow_lib)))))]) by by vm_compute.
  fold ex_two_run. destruct ex_two_run as [[s tr]|]; [|done]. apply andb_true_iff in H as [H H3]. apply andb_true_iff in H as [H1 H2].
  exists s, tr. split; [done|]. split; [by apply (check_answers _ _ _ sane_b_ok)|]. split; [by apply (check_answers _ _ _ token_b_ok)|].
  split; [by apply (check_answers _ _ _ sane_b_ok)|done].
Qed.

(** After this session the cache is idle, a third client gives up, and a fourth
    cannot use its token. *)
Definition ex_after : list rsevent :=
  gives_up 2 (VerifyCaptchaResult "tok" "site") (RrVal (RvInt 0)) ++
  [SvCall (CValidate (VerifyCaptchaResult "good" "site")); SvAsk 3; SvReturn 3].

Example C98_witness :
  (exists s tr, ex_two_run = Some (s, tr) /\ idle (rs_cache s) /\ rs_next s = 2%nat) /\
  match rs_run Single ex_pow_lib rs_init (ex_two ++ ex_after) with Some (_, tr) => returns tr | None => [] end =
    [(1%nat, RValidate (Ok true)); (0%nat, RGetPow (Ok (Some (PoWConfig "ch" 50 (pl_salt ex_pow_lib)))));
     (3%nat, RValidate (Err MailboxError))].
Proof.
  split; [|by vm_compute].
  assert (H : match ex_two_run with Some (s, _) => ra_alive (rs_cache s) && match ra_cur (rs_cache s) with None => true | _ => false end &&
    match ra_box (rs_cache s) with [] => true | _ => false end && bool_decide (size (ra_users (rs_cache s)) = 0%nat) && (rs_next s =? 2)%nat
    | None => false end = true) by by vm_compute.
  destruct ex_two_run as [[s tr]|]; [|done]. exists s, tr. split; [done|].
  repeat (apply andb_true_iff in H as [H ?]). unfold idle. destruct (ra_cur (rs_cache s)); [done|]. destruct (ra_box (rs_cache s)); [|done].
  rewrite bool_decide_eq_true in *. split; [|by apply Nat.eqb_eq]. split_and!; try done. by apply map_size_empty_inv.
Qed.
