(** Proofs of the theorems of Properties/FreshProperties.v. *)
From Coq Require Import ZifyBool ZifyN ZifyNat Lia.
From Verif Require Import Model.Base Model.Defense Model.MCaptcha Model.Counter Model.Master
  Model.HashCache Model.Queue Model.Pow Model.System
  Spec.CacheSpec Spec.QueueSpec Spec.MasterSpec Spec.SystemSpec Spec.FreshSpec
  Proofs.CacheProofs Proofs.QueueProofs Proofs.MasterProofs Proofs.MasterTasks Proofs.SystemProofs
  Proofs.SystemHistory Proofs.SystemVisits Proofs.CacheTheorems Proofs.MasterTheorems
  Proofs.SystemTheorems.

Lemma clock_app t a b : clock_after t (a ++ b) = clock_after (clock_after t a) b.
Proof. unfold clock_after. by rewrite ctrace_app, fmap_app, cache_clock_app. Qed.

Lemma clock_msg t w m r tr : clock_after t (SoCache w (HeMsg m) r :: tr) = clock_after t tr.
Proof. done. Qed.

Lemma c108_stages p l t gc wk ql es s tr n tok key :
  s_run p l (sys_start t gc wk ql) es = Some (s, tr) -> on_time t tr -> validated tr n tok key ->
  exists n0 n1 w ip c r0 r1 t1 t2 t3 t4 t5,
    called tr n0 (CGetPow key) /\ called tr n1 (CVerifyPow w ip) /\ w_key w = key /\ cc_key c = key /\
    tr = t1 ++ SoCache (Some n0) (HeMsg (HmCachePoW
                 (CachePoW (w_string w) (cc_difficulty_factor c) (cc_duration c) key))) r0 ::
         t2 ++ SoCache (Some n1) (HeMsg (HmRetrivePoW (VerifyCaptchaResult (w_string w) key)))
                 (Some (HrPoW (Ok (Some c)))) ::
         t3 ++ SoCache (Some n1) (HeMsg (HmCacheResult (CacheResult tok key (cc_duration c)))) r1 ::
         t4 ++ SoCache (Some n) (HeMsg (HmVerifyCaptchaResult (VerifyCaptchaResult tok key)))
                 (Some (HrBool (Ok true))) :: t5 /\
    let issued := clock_after t t1 in
    let taken := clock_after issued t2 in
    let stored := clock_after taken t3 in
    let told := clock_after stored t4 in
    taken < issued + cc_duration c * NS /\ told < stored + cc_duration c * NS.
Proof.
  intros Hr Ho Hv. pose proof (validated_acceptor _ _ _ _ _ _ _ _ _ Hr _ _ _ Hv) as Hin.
  apply elem_of_list_split in Hin as (tra & t5 & Etr).
  destruct (cache_at _ _ _ _ _ _ _ _ _ _ _ _ _ _ Hr Etr) as (h & h' & H1 & H2 & _).
  destruct (c34_token_not_after _ _ _ _ tok key H1 (Ho _ _ _ _ _ _ _ Etr H1)) as (pre & m & post & Es & <- & <- & _ & Hc).
  { eexists. exact H2. }
  apply ctrace_split in Es as (trb & w0 & r1 & t4 & -> & <- & <-).
  assert (SoCache w0 (HeMsg (HmCacheResult m)) r1 ∈ tr) as Hm by (subst tr; set_solver).
  destruct (mint_by _ _ _ _ _ _ _ _ _ Hr _ _ _ Hm) as (n1 & w & ip & c & -> & Hcall & Em & Hk & _ & _ & Hlog).
  assert (SoCache (Some n1) (HeMsg (HmCacheResult m)) r1 ∈ of_client n1 tr) as Hm' by (by apply elem_of_of_client).
  assert (exists b, of_client n1 tr = queued_log n1 w ip c ++ SoCache (Some n1) (HeMsg (HmCacheResult m)) r1 :: b /\
     SoCache (Some n1) (HeMsg (HmCacheResult m)) r1 ∉ b) as (b & El & Hb).
  { destruct m as [tk ky du]. cbn in *. injection Em as -> ->.
    unfold queued_log, taken_log, retrieve_out, mint_out in *.
    destruct Hlog as [E|[E|E]]; rewrite E in Hm'; rewrite E; cbn in Hm' |- *; elem_cases; simplify_eq;
      (eexists; split; [reflexivity|set_solver]). }
  rewrite <- app_assoc in Etr. cbn [app] in Etr.
  destruct (after_in_log n1 _ _ _ _ _ _ Etr eq_refl El) as [Eb _].
  { unfold queued_log, taken_log, retrieve_out. set_solver. }
  { done. }
  assert (retrieve_out n1 w (Some c) ∈ trb) as Hret.
  { apply (of_client_sub _ n1). rewrite Eb. unfold queued_log, taken_log. set_solver. }
  apply elem_of_list_split in Hret as (trc & t3 & ->).
  rewrite <- app_assoc in Etr. cbn [app] in Etr.
  destruct (cache_at _ _ _ _ _ _ _ _ _ _ _ _ _ _ Hr Etr) as (h3 & h3' & H3 & H4 & _).
  destruct (c50_in_time _ _ _ _ _ _ _ _ _ _ _ _ _ _ _ _ Hr Etr H3 (Ho _ _ _ _ _ _ _ Etr H3)) as (t1 & n0 & r0 & t2 & -> & Hc3).
  rewrite <- app_assoc in Etr. cbn [app] in Etr.
  destruct m as [tk ky du]. cbn in *. injection Em as -> ->.
  exists n0, n1, w, ip, c, r0, r1, t1, t2, t3, t4, t5. split_and!; try done.
  - assert (SoCache (Some n0) (HeMsg (HmCachePoW
       (CachePoW (w_string w) (cc_difficulty_factor c) (cc_duration c) (cc_key c)))) r0 ∈ tr) as Hi by (subst tr; set_solver).
    destruct (cachepow_by _ _ _ _ _ _ _ _ _ Hr _ _ _ Hi) as (n0' & v & [= <-] & Hcall0 & _). exact Hcall0.
  - rewrite Etr. unfold retrieve_out. by rewrite Hk.
  - clear -Hc3. change (clock_after t (t1 ++ SoCache (Some n0) (HeMsg (HmCachePoW (CachePoW (w_string w)
       (cc_difficulty_factor c) (cc_duration c) (cc_key c)))) r0 :: t2) < clock_after t t1 + cc_duration c * NS) in Hc3.
    by rewrite clock_app, clock_msg in Hc3.
  - clear -Hc. match type of Hc with _ _ (ctrace ?a).*1 < _ _ (ctrace ?b).*1 + _ =>
      change (clock_after t a < clock_after t b + cc_duration c * NS) in Hc end.
    revert Hc. unfold retrieve_out. by rewrite !clock_app, !clock_msg.
Qed.

(** Nothing bounds the time between taking the challenge out and storing the
    token. The example: client 0 is issued challenge "x", client 1 submits work
    for it at once, the work waits in the queue until [D] after the challenge
    has expired, and client 2 has the token told good. *)
Definition ex_wait : list sevent :=
  ex_issue ++ [SeCall (CVerifyPow (ex_work "x" "site" 60) "ip"); SeAct 1 ""; SeAct 1 "";
               SeTick (30 * NS); SeExpire (30 * NS) (DeletePoW "x")].

Definition ex_done : list sevent :=
  [SeManager; SeRecv 0; SeAct 1 ""; SeSend 0; SeEnd 0; SeAct 1 "tok"; SeAct 1 ""; SeAct 1 ""] ++ ex_check.

Definition ex_run (p : profile) (es : list sevent) : ssys * list sout :=
  default (ex_start, []) (s_run p ex_lib ex_start es).

Definition at_time (now : N) (s : ssys) : ssys :=
  let m := sy_m s in
  SSys (MSys now (my_alive m) (my_gc m) (my_sites m) (my_ctrs m) (my_tasks m) (my_next m) (my_reqs m))
    (sy_c s) (sy_q s) (sy_replies s) (sy_answers s) (sy_jobs s) (sy_clients s) (sy_next s).

Lemma ex_wait_runs p : s_run p ex_lib ex_start ex_wait = Some (ex_run p ex_wait).
Proof. by destruct p; vm_compute. Qed.

Lemma ex_wait_trace p : (ex_run p ex_wait).2 =
  [SoMaster None (MeReq (RqAddSite "site" ex_site)) [MoHandle (RqAddSite "site" ex_site); MoReply 0 (MrUnit (Ok ()))];
   SoCall 0 (CGetPow "site");
   SoMaster (Some 0%nat) (MeReq (RqAddVisitor "site")) [MoHandle (RqAddVisitor "site")];
   SoMaster None (MeTask 1) [MoReply 1 (MrVisit (Ok (Some (AddVisitorResult 30 50))))];
   SoCache (Some 0%nat) (HeMsg (HmCachePoW (CachePoW "x" 50 30 "site"))) (Some (HrUnit (Ok ())));
   SoRet 0 (RGetPow (Ok (Some (PoWConfig "x" 50 "salt"))));
   SoCall 1 (CVerifyPow (ex_work "x" "site" 60) "ip");
   SoCache (Some 1%nat) (HeMsg (HmRetrivePoW (VerifyCaptchaResult "x" "site")))
     (Some (HrPoW (Ok (Some (CachedPoWConfig "site" 50 30)))));
   SoQueue (Some 1%nat) (QeAdd "ip") [];
   SoMaster None (MeTick (30 * NS)) []; SoCache None (HeTick (30 * NS)) None;
   SoCache None (HeExpire (30 * NS) (DeletePoW "x")) None].
Proof. by destruct p; vm_compute. Qed.

Lemma ex_tick p D :
  s_step p ex_lib (ex_run p ex_wait).1 (SeTick D) =
  Some (at_time (30 * NS + D) (ex_run p ex_wait).1, [SoMaster None (MeTick D) []; SoCache None (HeTick D) None]).
Proof. 
  assert (my_now (sy_m (ex_run p ex_wait).1) = 30 * NS) as <- by (by destruct p; vm_compute).
  assert (qs_mgr (sy_q (ex_run p ex_wait).1) = MAlive) as Hq by (by destruct p; vm_compute).
  unfold s_step. rewrite Hq. by destruct (ex_run p ex_wait) as [[] ?].
Qed.

Definition ex_done_trace : list sout :=
       [SoQueue None QeManager [QTry 0 "ip"; QHand 0 "ip" 0; QAnswer 0 "ip" (Ok ())];
        SoQueue None (QeRecv 0) [QStart 0 0];
        SoQueue None (QeFinish 0) [QFinish 0 0];
        SoCache (Some 1%nat) (HeMsg (HmCacheResult (CacheResult "tok" "site" 30))) (Some (HrUnit (Ok ())));
        SoRet 1 (RVerifyPow (Ok ("tok", 50)));
        SoCall 2 (CValidate (VerifyCaptchaResult "tok" "site"));
        SoCache (Some 2%nat) (HeMsg (HmVerifyCaptchaResult (VerifyCaptchaResult "tok" "site"))) (Some (HrBool (Ok true)));
        SoRet 2 (RValidate (Ok true))].

Lemma ex_done_runs p now : exists s,
  s_run p ex_lib (at_time now (ex_run p ex_wait).1) ex_done = Some (s, ex_done_trace).
Proof. eexists. by destruct p; vm_compute. Qed.

(** The cache's pending timers along a trace. *)
Fixpoint punctual (now : N) (ts : list (N * deletion)) (tr : list sout) : Prop :=
  match tr with
  | [] => True
  | SoCache _ (HeTick d) _ :: tr => punctual (now + d) ts tr
  | SoCache _ (HeExpire due d) _ :: tr => punctual now (remove_first (due, d) ts) tr
  | SoCache _ (HeMsg m) _ :: tr =>
      Forall (fun x => now < x.1) ts /\
      punctual now
        match m with
        | HmCachePoW c => ts ++ [(now + cp_duration c * NS, DeletePoW (cp_string c))]
        | HmCacheResult c => ts ++ [(now + cr_duration c * NS, DeleteCaptchaResult (cr_token c))]
        | _ => ts
        end tr
  | _ :: tr => punctual now ts tr
  end.

Lemma punctual_on_time tr h tr1 w m r tr2 h' os :
  punctual (hs_now h) (hc_timers (hs_cache h)) tr ->
  tr = tr1 ++ SoCache w (HeMsg m) r :: tr2 ->
  cache_run h (ctrace tr1).*1 = Some (h', os) -> nothing_overdue h'.
Proof.
  intros Hp ->. revert h os Hp. induction tr1 as [|o tr1 IH]; intros h os Hp Hr.
  - cbn in Hp, Hr. injection Hr as <- <-. destruct Hp as [Hf _]. intros due d. cbn.
    unfold hc_expire. destruct (decide _) as [Hin|]; [|done]. rewrite Forall_forall in Hf.
    specialize (Hf _ Hin). cbn in Hf. destruct (N.leb_spec due (hs_now h)); [lia|done].
  - destruct o as [| | | |w' e r'|]; try exact (IH _ _ Hp Hr).
    change ((ctrace (SoCache w' e r' :: tr1)).*1) with (e :: (ctrace tr1).*1) in Hr. cbn [cache_run] in Hr.
    destruct (cache_step h e) as [[h1 o1]|] eqn:E; [|done].
    destruct (cache_run h1 _) as [[h2 os2]|] eqn:E2; [|done]. injection Hr as -> <-.
    eapply IH, E2. clear IH E2. destruct e as [m'|d|due d]; cbn [app punctual] in Hp; cbn in E.
    + destruct Hp as [_ Hp]. destruct h as [now [dm rm ts]]. cbn in *.
      destruct m' as [[]|[]|[]|[]|[]]; cbn in *; repeat case_match; simplify_eq; cbn in *; done.
    + by injection E as <- <-.
    + unfold hc_expire in E. repeat case_match; simplify_eq. destruct h as [now [dm rm ts]].
      destruct d; cbn in *; repeat case_match; simplify_eq; done.
Qed.

Lemma ex_all_runs p D : exists s, s_run p ex_lib ex_start (ex_wait ++ SeTick D :: ex_done) = Some (s,
  (ex_run p ex_wait).2 ++ [SoMaster None (MeTick D) []; SoCache None (HeTick D) None] ++ ex_done_trace).
Proof.
  destruct (ex_done_runs p (30 * NS + D)) as [s Hd]. exists s.
  apply s_run_app. exists (ex_run p ex_wait).1, (ex_run p ex_wait).2. eexists.
  split; [rewrite ex_wait_runs; apply f_equal, surjective_pairing|]. split; [|reflexivity].
  pose proof (ex_tick p D) as Ht. revert Ht Hd. generalize (ex_run p ex_wait).1. intros s1 Ht Hd.
  cbn [s_run]. rewrite Ht, Hd. reflexivity.
Qed.

Lemma c108_recent_refuted p D : exists s tr t1 t2 t3,
  s_run p ex_lib ex_start (ex_wait ++ SeTick D :: ex_done) = Some (s, tr) /\
  on_time 0 tr /\ validated tr 2 "tok" "site" /\
  tr = t1 ++ SoCache (Some 0%nat) (HeMsg (HmCachePoW (CachePoW "x" 50 30 "site"))) (Some (HrUnit (Ok tt))) ::
       t2 ++ SoCache (Some 2%nat) (HeMsg (HmVerifyCaptchaResult (VerifyCaptchaResult "tok" "site")))
               (Some (HrBool (Ok true))) :: t3 /\
  (forall w m r, SoCache w (HeMsg (HmCachePoW m)) r ∈ tr -> m = CachePoW "x" 50 30 "site") /\
  clock_after 0 t1 + D < clock_after (clock_after 0 t1) t2.
Proof.
  destruct (ex_all_runs p D) as [s Hr].
  rewrite ex_wait_trace in Hr. unfold ex_done_trace in Hr. cbn [app] in Hr.
  eexists s, _, [_; _; _; _], _, _. split; [exact Hr|]. split_and!.
  - intros t1 w m r t2 h os. apply punctual_on_time. cbn -[N.add N.mul N.lt remove_first].
    replace (remove_first _ _) with ([] : list (N * deletion)) by (by vm_compute). cbn [app].
    repeat match goal with
      | |- _ /\ _ => split
      | |- True => exact I
      | |- Forall _ [] => apply Forall_nil_2
      | |- Forall _ (_ :: _) => apply Forall_cons_2
      end; cbn [fst]; unfold NS; lia.
  - split; unfold called, returned; repeat (apply elem_of_list_here || apply elem_of_list_further).
  - cbn [app]. do 5 f_equal. 
    instantiate (2 := [_; _; _; _; _; _; _; _; _; _; _; _; _; _; _]). cbn [app]. reflexivity.
  - clear Hr. intros w m r Hin. repeat (apply elem_of_cons in Hin as [Hin|Hin]; [try discriminate Hin; congruence|]).
    by apply elem_of_nil in Hin.
  - unfold clock_after. cbn -[N.add N.mul N.lt]. unfold NS. lia.
Qed.
