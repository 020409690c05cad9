(** Properties of calls on a System over any backends, and of Systems that share
    one Redis. *)
From Coq Require Import ZifyBool ZifyN ZifyNat Lia.
From Verif Require Import Model.Base Model.MCaptcha Model.HashCache Model.Master Model.Queue Model.Pow Model.System
  Model.Json Model.Serde Model.Redis Model.RedisActor Model.RedisTokens Model.SystemProgram Model.SystemShared
  Spec.MasterSpec Spec.SystemSpec Spec.RedisSpec Spec.ProgramSpec Spec.SharedSpec
  Proofs.RedisProofs Proofs.SystemProofs Proofs.SystemHistory Proofs.ProgramProofs Proofs.ProgramMemory
  Proofs.SharedProofs.
From Verif Require Export Proofs.SharedTheorems.

(** ** C80: what the answers of the backends make of a call *)
Theorem C80_get_pow : forall salt id es r,
  p_run (program salt (CGetPow id)) es = Some (PRet r) <->
  exists x, r = RGetPow x /\ get_pow_contract salt id es x.
Proof. exact c80_get_pow. Qed.
Print Assumptions C80_get_pow.

Theorem C80_verify_pow : forall salt w ip es r,
  p_run (program salt (CVerifyPow w ip)) es = Some (PRet r) <->
  exists x, r = match x with Some y => RVerifyPow y | None => RPanic end /\ verify_pow_contract w ip es x.
Proof. exact c80_verify_pow. Qed.
Print Assumptions C80_verify_pow.

Theorem C80_validate : forall salt m es r,
  p_run (program salt (CValidate m)) es = Some (PRet r) <->
  exists x, r = RValidate x /\ validate_contract m es x.
Proof. exact c80_validate. Qed.
Print Assumptions C80_validate.

(** Over the embedded Master and the in-memory cache: the answers are theirs. *)
Theorem C80_memory : forall p l t gc wk ql es s tr n r,
  s_run p l (sys_start t gc wk ql) es = Some (s, tr) -> SoRet n r ∈ tr ->
  exists c evs, SoCall n c ∈ tr /\ p_run (program (pl_salt l) c) evs = Some (PRet r) /\
    omap cache_talk evs = omap (memory_talk n) tr /\
    (forall id a, PeVisit id a ∈ evs -> exists k x, asked tr n id k /\ replied tr k x /\ a = visit_told x) /\
    (forall q, PeVerdict q (Some true) ∈ evs -> passes l q).
Proof. exact c80_memory. Qed.
Print Assumptions C80_memory.

Definition ex_chal : cached_pow := CachedPoWConfig "site" 50 30.

Definition ex_q : queued_work := QueuedWork (PoW "okch" 50) "ch" 50.

Example C80_witness :
  p_run (program "salt" (CGetPow "site"))
    [PeVisit "site" (An (Ok (Some (AddVisitorResult 30 50)))); PeDraw "ch";
     PeCachePoW (CachePoW "ch" 50 30 "site") (An (Ok tt))] =
    Some (PRet (RGetPow (Ok (Some (PoWConfig "ch" 50 "salt"))))) /\
  p_run (program "salt" (CVerifyPow ex_work "1.2.3.4"))
    [PeRetrieve (VerifyCaptchaResult "ch" "site") (An (Ok (Some ex_chal))); PeSubmit "1.2.3.4" ex_q (SuDone (Ok tt));
     PeVerdict ex_q (Some true); PeDraw "tok"; PeCacheResult (CacheResult "tok" "site" 30) (An (Ok tt))] =
    Some (PRet (RVerifyPow (Ok ("tok"%string, 50)))) /\
  p_run (program "salt" (CVerifyPow ex_work "1.2.3.4"))
    [PeRetrieve (VerifyCaptchaResult "ch" "site") (An (Ok (Some ex_chal))); PeSubmit "1.2.3.4" ex_q (SuDone (Ok tt));
     PeVerdict ex_q (Some true); PeDraw "tok"; PeCacheResult (CacheResult "tok" "site" 30) AnDropped] =
    Some (PRet (RVerifyPow (Err RecvError))) /\
  p_run (program "salt" (CValidate (VerifyCaptchaResult "tok" "site")))
    [PeVerify (VerifyCaptchaResult "tok" "site") (An (Ok false))] = Some (PRet (RValidate (Ok false))).
Proof. split_and!; by vm_compute. Qed.

(** ** C81: a failing Master looks like an unknown site *)
Theorem C81_failure_hidden_refuted : forall salt id e,
  p_run (program salt (CGetPow id)) [PeVisit id (An (Err e))] = Some (PRet (RGetPow (Ok None))) /\
  p_run (program salt (CGetPow id)) [PeVisit id (An (Ok None))] = Some (PRet (RGetPow (Ok None))) /\
  (** a Redis that is down makes the Redis master answer in this way, *)
  (exists op strict, master_action (RqAddVisitor id) = Some (AcCommand op strict) /\
     (forall text, rc_answer op (RrErr text) = Val (RoVisit (Err (RedisError text)))) /\
     (** and it never answers that there is no such site *)
     forall r, rc_answer op r <> Val (RoVisit (Ok None))).
Proof. exact c81_failure_hidden_refuted. Qed.
Print Assumptions C81_failure_hidden_refuted.

Example C81_witness :
  p_run (program "salt" (CGetPow "site")) [PeVisit "site" (An (Err (RedisError "connection refused")))] =
    Some (PRet (RGetPow (Ok None))).
Proof. by vm_compute. Qed.

(** ** C82: a pass on any System is earned on some System *)
Theorem C82_check_behind_pass : forall ls now es s tr n b,
  sh_run ls (sh_init now) es = Some (s, tr) -> XoRet n (RValidate (Ok b)) ∈ tr ->
  exists i m t f, XoCall n i (CValidate m) ∈ tr /\ XoDid n t (PeVerify m (An (Ok b))) f ∈ tr.
Proof. exact c82_check_behind_pass. Qed.
Print Assumptions C82_check_behind_pass.

Theorem C82_earned : forall ls now es s tr tr1 n t m f tr2,
  sh_run ls (sh_init now) es = Some (s, tr) ->
  tr = tr1 ++ XoDid n t (PeVerify m (An (Ok true))) f :: tr2 ->
  plain_sites tr -> no_colon (vr_key m) ->
  exists tra o n' t' cfg trb i w ip,
    (** a call of verify_pow stored this token for this site, perhaps after it was over *)
    tr1 = tra ++ o :: trb /\ stores o = Some (n', t', CacheResult (vr_token m) (vr_key m) (cc_duration cfg)) /\
    XoCall n' i (CVerifyPow w ip) ∈ tra /\
    (** for a challenge of the site that its work solves *)
    w_key w = vr_key m /\ cc_key cfg = vr_key m /\
    PeRetrieve (VerifyCaptchaResult (w_string w) (w_key w)) (An (Ok (Some cfg))) ∈ requests_of n' tra /\
    passes (ls i) (checked_work w cfg) /\
    (** Redis got this command, too *)
    f = Answered /\
    (** not too long ago, and the token was not taken since *)
    t <= t' + cc_duration cfg * 1000 /\
    (forall te, te ∈ tokens trb -> te_fate te <> NotSent ->
       match te_call te with
       | TkGet m' | TkDel m' => token_key (vr_key m') (vr_token m') <> token_key (vr_key m) (vr_token m)
       | TkAdd _ => True
       end).
Proof. exact c82_earned. Qed.
Print Assumptions C82_earned.

(** And a token handed out is good: on every System, until its lifetime is over or
    somebody takes it. *)
Theorem C82_good_everywhere : forall ls now es s tr tr1 n t m f tr2 n' t' m' a' tr3,
  sh_run ls (sh_init now) es = Some (s, tr) ->
  tr = tr1 ++ XoDid n t (PeCacheResult m (An (Ok tt))) f :: tr2 ++ XoDid n' t' (PeVerify m' a') Answered :: tr3 ->
  m' = VerifyCaptchaResult (cr_token m) (cr_key m) ->
  t' <= t + cr_duration m * 1000 ->
  (forall te, te ∈ tokens tr2 -> effective te -> token_key (about (te_call te)).1 (about (te_call te)).2 <> token_key (cr_key m) (cr_token m)) ->
  unanswered a' \/ a' = An (Ok true).
Proof. exact c82_good_everywhere. Qed.
Print Assumptions C82_good_everywhere.

Definition ex_session : list shevent :=
  ex_issue ++ XeCall 1 (CVerifyPow ex_work "1.2.3.4") :: ex_verify 1 "tok" ++
  [XeTick 30000; XeCall 0 (CValidate (VerifyCaptchaResult "tok" "site")); XeStep 2 (XToken Answered); XeReturn 2;
   XeCall 1 (CValidate (VerifyCaptchaResult "tok" "site")); XeStep 3 (XToken Answered); XeReturn 3].

Definition ex_session_trace : list shout := Eval vm_compute in ex_shared ex_session.

Lemma ex_session_eq : ex_shared ex_session = ex_session_trace.
Proof. by vm_compute. Qed.

Theorem C82_time : forall ls now es s tr e s' o,
  sh_run ls (sh_init now) es = Some (s, tr) -> sh_step ls s e = Some (s', o) ->
  (forall n t x f, XoDid n t x f ∈ o -> t = now + elapsed es) /\
  (forall t c f, XoOther t c f ∈ o -> t = now + elapsed es) /\
  (forall n t m, XoLate n t m ∈ o -> t = now + elapsed es).
Proof. exact c82_time. Qed.
Print Assumptions C82_time.

Example C82_witness :
  (exists s, sh_run (fun _ => ex_pow_lib) (sh_init 1000) ex_session = Some (s, ex_shared ex_session)) /\
  plain_sites (ex_shared ex_session) /\
  XoDid 2 31000 (PeVerify (VerifyCaptchaResult "tok" "site") (An (Ok true))) Answered ∈ ex_shared ex_session /\
  elapsed ex_session = 30000 /\ XoRet 2 (RValidate (Ok true)) ∈ ex_shared ex_session /\ XoRet 3 (RValidate (Ok false)) ∈ ex_shared ex_session.
Proof.
  split; [|split; [|split_and!]].
  - unfold ex_shared. destruct (sh_run _ _ _) as [[s tr]|] eqn:E; [by exists s|]. exfalso.
    assert (H : match sh_run (fun _ => ex_pow_lib) (sh_init 1000) ex_session with Some _ => True | None => False end)
      by (vm_compute; exact I). by rewrite E in H.
  - intros n i w ip H. assert (w = ex_work) as ->.
    { rewrite ex_session_eq in H. unfold ex_session_trace in H. elem_cases; try discriminate; by injection H. }
    intros H'. cbn in H'. elem_cases; discriminate.
  - vm_compute. repeat (first [by left|right]).
  - by vm_compute.
  - vm_compute. repeat (first [by left|right]).
  - vm_compute. repeat (first [by left|right]).
Qed.

(** The store of a token fails, and is executed after the call was told so: the
    token is good, though nobody was given it. *)
Definition ex_late : list shevent :=
  ex_issue ++ XeCall 1 (CVerifyPow ex_work "1.2.3.4") ::
  [XeStep 1 (XReply ex_json); XeStep 1 (XSubmit (SuDone (Ok tt))); XeStep 1 (XVerdict (Some true));
   XeStep 1 (XDraw "tok"); XeStep 1 (XToken NotSent); XeReturn 1; XeTick 5; XeLate 0;
   XeCall 0 (CValidate (VerifyCaptchaResult "tok" "site")); XeStep 2 (XToken Answered); XeReturn 2].

Example C82_late_witness :
  (exists s, sh_run (fun _ => ex_pow_lib) (sh_init 1000) ex_late = Some (s, ex_shared ex_late)) /\
  XoRet 1 (RVerifyPow (Err RecvError)) ∈ ex_shared ex_late /\
  XoLate 1 1005 (CacheResult "tok" "site" 30) ∈ ex_shared ex_late /\
  XoRet 2 (RValidate (Ok true)) ∈ ex_shared ex_late.
Proof.
  split; [|split_and!].
  - unfold ex_shared. destruct (sh_run _ _ _) as [[s tr]|] eqn:E; [by exists s|]. exfalso.
    assert (H : match sh_run (fun _ => ex_pow_lib) (sh_init 1000) ex_late with Some _ => True | None => False end)
      by (vm_compute; exact I). by rewrite E in H.
  - vm_compute. repeat (first [by left|right]).
  - vm_compute. repeat (first [by left|right]).
  - vm_compute. repeat (first [by left|right]).
Qed.

(** ** C83: a token passes at most once over all Systems *)
Theorem C83_passes_counted : forall ls now es s tr k,
  sh_run ls (sh_init now) es = Some (s, tr) ->
  (length (accepted k tr) <= length (minted k tr))%nat /\ NoDup (accepted k tr) /\ NoDup (minted k tr) /\
  forall n, n ∈ minted k tr -> exists i w ip cfg tok t f, XoCall n i (CVerifyPow w ip) ∈ tr /\ cc_key cfg = w_key w /\
    passes (ls i) (checked_work w cfg) /\ XoDid n t (PeDraw tok) f ∈ tr /\ k = token_key (w_key w) tok.
Proof. exact c83_passes_counted. Qed.
Print Assumptions C83_passes_counted.

Theorem C83_once : forall ls now es s tr key token,
  sh_run ls (sh_init now) es = Some (s, tr) -> plain_sites tr -> draws_distinct tr -> no_colon key ->
  (length (accepted (token_key key token) tr) <= 1)%nat.
Proof. exact c83_once. Qed.
Print Assumptions C83_once.

Example C83_witness :
  draws_distinct (ex_shared ex_session) /\
  accepted (token_key "site" "tok") (ex_shared ex_session) = [2%nat] /\
  minted (token_key "site" "tok") (ex_shared ex_session) = [1%nat].
Proof.
  split; [|by vm_compute]. apply distinct_draws_check. vm_compute.
  repeat (apply NoDup_cons; split; [intros H; elem_cases; discriminate|]). apply NoDup_nil_2.
Qed.

(** ** C84: whether work can be used twice is up to the Redis module *)
(** The Redis cache never tells the module that a challenge is used up. *)
Theorem C84_never_deletes : forall m,
  (** told to forget something, it says it did *)
  (exists d, m = HmDelete d /\ cache_action m = AcNow (RoUnit (Ok tt))) \/
  exists op strict, cache_action m = AcCommand op strict /\ head (rc_cmd op) <> Some "MCAPTCHA_CACHE.DELETE_CHALLENGE"%string.
Proof. exact c84_never_deletes. Qed.
Print Assumptions C84_never_deletes.

Theorem C84_replay_refuted : exists ls es s tr w ip n1 n2 m1 m2 t1 t2 d,
  sh_run ls (sh_init 1000) es = Some (s, tr) /\
  (** stored once, and given out with what was stored *)
  length (issued (w_key w) (w_string w) tr) = 1%nat /\
  fetched (w_key w) (w_string w) tr = [n1; n2] /\ n1 <> n2 /\
  (exists i1 i2, XoCall n1 i1 (CVerifyPow w ip) ∈ tr /\ XoCall n2 i2 (CVerifyPow w ip) ∈ tr) /\
  XoRet n1 (RVerifyPow (Ok (t1, d))) ∈ tr /\ XoRet n2 (RVerifyPow (Ok (t2, d))) ∈ tr /\ t1 <> t2 /\
  accepted (token_key (w_key w) t1) tr = [m1] /\ accepted (token_key (w_key w) t2) tr = [m2].
Proof. exact c84_replay_refuted. Qed.
Print Assumptions C84_replay_refuted.

(** ** C85: with a module that uses challenges up, work counts once *)
Theorem C85_one_token_per_challenge : forall ls now es s tr key str ns,
  sh_run ls (sh_init now) es = Some (s, tr) -> consuming tr -> NoDup ns ->
  (forall n, n ∈ ns -> exists i w ip tok d, XoCall n i (CVerifyPow w ip) ∈ tr /\ w_key w = key /\ w_string w = str /\
     XoRet n (RVerifyPow (Ok (tok, d))) ∈ tr) ->
  (length ns <= length (issued key str tr))%nat /\
  (forall n, n ∈ issued key str tr -> exists t f i, XoDid n t (PeDraw str) f ∈ tr /\ XoCall n i (CGetPow key) ∈ tr) /\
  (draws_distinct tr -> (length ns <= 1)%nat).
Proof. exact c85_one_token_per_challenge. Qed.
Print Assumptions C85_one_token_per_challenge.

Definition consuming_check (tr : list shout) (key str : string) : bool :=
  forallb (fun n => (length (fetched key str (take n tr)) <=? length (issued key str (take n tr)))%nat)
    (seq 0 (S (length tr))).

Lemma consuming_single tr key str :
  (forall n t m x f, XoDid n t (PeRetrieve m x) f ∈ tr -> (vr_key m, vr_token m) = (key, str)) ->
  consuming_check tr key str = true -> consuming tr.
Proof.
  intros Hall Hchk tr1 tr2 key' str' E. destruct (decide ((key', str') = (key, str))) as [[= -> ->]|Hne].
  - unfold consuming_check in Hchk. rewrite forallb_forall in Hchk.
    specialize (Hchk (length tr1)). rewrite E, take_app in Hchk. apply Nat.leb_le, Hchk, in_seq. rewrite app_length. lia.
  - assert (fetched key' str' tr1 = []) as ->; [|cbn; lia].
    assert (Hsub : forall o, o ∈ tr1 -> o ∈ tr) by (intros o Ho; rewrite E; apply elem_of_app; by left).
    clear E Hchk. induction tr1 as [|o tr1 IH]; [done|].
    assert (IH' : fetched key' str' tr1 = []) by (apply IH; intros o' Ho'; apply Hsub; by right).
    unfold fetched in *. cbn [omap list_omap]. rewrite IH'.
    destruct o as [|n t [| | |m x| | | |] f| | | |]; try done. destruct x as [| |[[c|]|e]]; try done. rewrite decide_False; [done|].
    intros Hx. apply Hne. rewrite <- Hx. eapply Hall. apply Hsub. by left.
Qed.

Example C85_witness :
  consuming (ex_shared ex_session) /\
  XoCall 1 1 (CVerifyPow ex_work "1.2.3.4") ∈ ex_shared ex_session /\
  XoRet 1 (RVerifyPow (Ok ("tok"%string, 50))) ∈ ex_shared ex_session /\
  issued "site" "ch" (ex_shared ex_session) = [0%nat].
Proof.
  split; [|split_and!].
  - apply (consuming_single _ "site" "ch"); [|by vm_compute].
    intros n t m x f. rewrite ex_session_eq. unfold ex_session_trace. intros H. elem_cases; try discriminate.
    by injection H as -> -> -> -> ->.
  - vm_compute. repeat (first [by left|right]).
  - vm_compute. repeat (first [by left|right]).
  - by vm_compute.
Qed.
