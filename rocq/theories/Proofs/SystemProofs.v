(** Proofs about the System. *)
From Coq Require Import ZifyBool ZifyN ZifyNat Lia.
From Verif Require Import Model.Base Model.Defense Model.MCaptcha Model.Counter Model.Master
  Model.HashCache Model.Queue Model.Pow Model.System
  Spec.CacheSpec Spec.QueueSpec Spec.MasterSpec Spec.SystemSpec
  Proofs.CacheProofs Proofs.QueueProofs Proofs.MasterProofs Proofs.MasterTasks.

(** * Runs *)
Lemma s_run_app p l s es1 es2 s2 tr :
  s_run p l s (es1 ++ es2) = Some (s2, tr) <->
  exists s1 tr1 tr2, s_run p l s es1 = Some (s1, tr1) /\ s_run p l s1 es2 = Some (s2, tr2) /\ tr = tr1 ++ tr2.
Proof.
  revert s tr. induction es1 as [|x es IH]; intros s tr; cbn [app s_run].
  - split.
    + intros H. exists s, [], tr. done.
    + intros (s1 & tr1 & tr2 & H1 & H2 & ->). by injection H1 as <- <-.
  - destruct (s_step p l s x) as [[s0 o]|]; [|split; [done|by intros (? & ? & ? & ? & _)]].
    split.
    + destruct (s_run p l s0 (es ++ es2)) as [[s3 os]|] eqn:E; [|done]. intros [= <- <-].
      apply IH in E as (s1 & tr1 & tr2 & H1 & H2 & ->).
      exists s1, (o ++ tr1), tr2. rewrite H1, (assoc_L (++)). done.
    + intros (s1 & tr1 & tr2 & H1 & H2 & ->).
      destruct (s_run p l s0 es) as [[s3 os]|] eqn:E; [|done]. injection H1 as <- <-.
      rewrite (proj2 (IH s0 (os ++ tr2))) by eauto 10. by rewrite (assoc_L (++)).
Qed.
Lemma s_run_snoc p l s es e s2 tr :
  s_run p l s (es ++ [e]) = Some (s2, tr) <->
  exists s1 tr1 o, s_run p l s es = Some (s1, tr1) /\ s_step p l s1 e = Some (s2, o) /\ tr = tr1 ++ o.
Proof.
  rewrite s_run_app. cbn [s_run]. split.
  - intros (s1 & tr1 & tr2 & H1 & H2 & ->). exists s1, tr1.
    destruct (s_step p l s1 e) as [[s3 o]|]; [|done]. injection H2 as <- <-. exists o.
    by rewrite app_nil_r.
  - intros (s1 & tr1 & o & H1 & H2 & ->). exists s1, tr1, o. rewrite H2, app_nil_r. done.
Qed.

(** * Parts of traces *)
Lemma ctrace_app a b : ctrace (a ++ b) = ctrace a ++ ctrace b.
Proof. apply omap_app. Qed.
Lemma mtrace_app a b : mtrace (a ++ b) = mtrace a ++ mtrace b.
Proof. apply omap_app. Qed.
Lemma qtrace_app a b : qtrace (a ++ b) = qtrace a ++ qtrace b.
Proof. apply omap_app. Qed.
Lemma mouts_app a b : mouts (a ++ b) = mouts a ++ mouts b.
Proof. unfold mouts. by rewrite omap_app, concat_app. Qed.
Lemma qouts_app a b : qouts (a ++ b) = qouts a ++ qouts b.
Proof. unfold qouts. by rewrite omap_app, concat_app. Qed.
Lemma of_client_app n a b : of_client n (a ++ b) = of_client n a ++ of_client n b.
Proof. apply filter_app. Qed.
Lemma elem_of_of_client n o tr : o ∈ of_client n tr <-> who o = Some n /\ o ∈ tr.
Proof. unfold of_client. by rewrite elem_of_list_filter. Qed.

(** * Steps *)
Lemma s_step_aborted p l s e : qs_mgr (sy_q s) = MAborted -> s_step p l s e = None.
Proof. intros H. unfold s_step. by rewrite H. Qed.

Definition s_step' (p : profile) (l : pow_lib) (s : ssys) (e : sevent) : option (ssys * list sout) :=
  match e with
  | SeCall c =>
      let n := sy_next s in
      Some (SSys (sy_m s) (sy_c s) (sy_q s) (sy_replies s) (sy_answers s) (sy_jobs s)
              (<[n := client_start c]> (sy_clients s)) (S n), [SoCall n c])
  | SeAct n rnd =>
      match sy_clients s !! n with
      | Some c => client_act p l s n c rnd
      | None => None
      end
  | SeCancel n =>
      match sy_clients s !! n with
      | Some c => Some (leave s n c, [SoCancel n])
      | None => None
      end
  | SeMaster e =>
      match e with
      | MeTick _ => None
      | _ =>
          match m_step p (sy_m s) e with
          | Some (m, os) => Some (with_m s m os, [SoMaster None e os])
          | None => None
          end
      end
  | SeManager => s_queue p s QeManager
  | SeRecv r => s_queue p s (QeRecv r)
  | SeSend r =>
      match running_job (sy_q s) r with
      | Some j =>
          match sy_jobs s !! j with
          | Some v =>
              match vj_todo v with
              | b :: rest =>
                  if negb (vj_open v) then Some (with_job s j (VJob (vj_buf v) rest (vj_returns v) false), [])
                  else if (length (vj_buf v) <? verdict_capacity)%nat
                  then Some (with_job s j (VJob (vj_buf v ++ [b]) rest (vj_returns v) true), [])
                  else None
              | [] => None
              end
          | None => None
          end
      | None => None
      end
  | SeEnd r =>
      match running_job (sy_q s) r with
      | Some j =>
          match sy_jobs s !! j with
          | Some v =>
              match vj_todo v with
              | [] => s_queue p s (if vj_returns v then QeFinish r else QePanic r)
              | _ => None
              end
          | None => None
          end
      | None => None
      end
  | SeExpire due d =>
      match hc_expire (s_now s) (sy_c s) due d with
      | Some h => Some (with_c s h, [SoCache None (HeExpire due d) None])
      | None => None
      end
  | SeTick d =>
      match m_step p (sy_m s) (MeTick d) with
      | Some (m, os) => Some (with_m s m os, [SoMaster None (MeTick d) os; SoCache None (HeTick d) None])
      | None => None
      end
  end.
Lemma s_step_eq p l s e s' o :
  s_step p l s e = Some (s', o) <-> qs_mgr (sy_q s) <> MAborted /\ s_step' p l s e = Some (s', o).
Proof. unfold s_step. destruct (qs_mgr (sy_q s)); cbn; (split; [intros H|intros [H1 H]]); try done; try (by split). Qed.

(** What a step can be. *)
Inductive scase (p : profile) (l : pow_lib) (s : ssys) : sevent -> ssys -> list sout -> Prop :=
| sc_call c :
    scase p l s (SeCall c)
      (SSys (sy_m s) (sy_c s) (sy_q s) (sy_replies s) (sy_answers s) (sy_jobs s)
              (<[sy_next s := client_start c]> (sy_clients s)) (S (sy_next s))) [SoCall (sy_next s) c]
| sc_cancel n c : sy_clients s !! n = Some c -> scase p l s (SeCancel n) (leave s n c) [SoCancel n]
| sc_master e m os : (forall d, e <> MeTick d) -> m_step p (sy_m s) e = Some (m, os) ->
    scase p l s (SeMaster e) (with_m s m os) [SoMaster None e os]
| sc_manager q os : q_step p (sy_q s) QeManager = Some (q, os) ->
    scase p l s SeManager (with_q s q os) [SoQueue None QeManager os]
| sc_recv r q os : q_step p (sy_q s) (QeRecv r) = Some (q, os) ->
    scase p l s (SeRecv r) (with_q s q os) [SoQueue None (QeRecv r) os]
| sc_send_closed r j v b rest : running_job (sy_q s) r = Some j -> sy_jobs s !! j = Some v ->
    vj_todo v = b :: rest -> vj_open v = false ->
    scase p l s (SeSend r) (with_job s j (VJob (vj_buf v) rest (vj_returns v) false)) []
| sc_send r j v b rest : running_job (sy_q s) r = Some j -> sy_jobs s !! j = Some v ->
    vj_todo v = b :: rest -> vj_open v = true -> (length (vj_buf v) < verdict_capacity)%nat ->
    scase p l s (SeSend r) (with_job s j (VJob (vj_buf v ++ [b]) rest (vj_returns v) true)) []
| sc_finish r j v q os : running_job (sy_q s) r = Some j -> sy_jobs s !! j = Some v ->
    vj_todo v = [] -> vj_returns v = true -> q_step p (sy_q s) (QeFinish r) = Some (q, os) ->
    scase p l s (SeEnd r) (with_q s q os) [SoQueue None (QeFinish r) os]
| sc_panic r j v q os : running_job (sy_q s) r = Some j -> sy_jobs s !! j = Some v ->
    vj_todo v = [] -> vj_returns v = false -> q_step p (sy_q s) (QePanic r) = Some (q, os) ->
    scase p l s (SeEnd r) (with_q s q os) [SoQueue None (QePanic r) os]
| sc_expire due d h : hc_expire (s_now s) (sy_c s) due d = Some h ->
    scase p l s (SeExpire due d) (with_c s h) [SoCache None (HeExpire due d) None]
| sc_tick d m os : m_step p (sy_m s) (MeTick d) = Some (m, os) ->
    scase p l s (SeTick d) (with_m s m os) [SoMaster None (MeTick d) os; SoCache None (HeTick d) None]
(** get_pow *)
| sc_gp_visit n id rnd m os : sy_clients s !! n = Some (GpStart id) ->
    m_step p (sy_m s) (MeReq (RqAddVisitor id)) = Some (m, os) ->
    scase p l s (SeAct n rnd) (with_client (with_m s m os) n (GpWait id (my_reqs (sy_m s))))
      [SoMaster (Some n) (MeReq (RqAddVisitor id)) os]
| sc_gp_some n id k rnd v : sy_clients s !! n = Some (GpWait id k) ->
    sy_replies s !! k = Some (MrVisit (Ok (Some v))) ->
    scase p l s (SeAct n rnd)
      (with_client s n (GpCache id v (PoWConfig rnd (avr_difficulty_factor v) (pl_salt l)))) []
| sc_gp_fail n id k rnd x r : sy_clients s !! n = Some (GpWait id k) -> sy_replies s !! k = Some x ->
    r = match x with MrClosed => Err MailboxError | MrDropped => Err RecvError | _ => Ok None end ->
    (forall v, x <> MrVisit (Ok (Some v))) ->
    scase p l s (SeAct n rnd) (leave s n (GpWait id k)) [SoRet n (RGetPow r)]
| sc_gp_cache n id v cfg rnd h msg : sy_clients s !! n = Some (GpCache id v cfg) ->
    msg = HmCachePoW (CachePoW (pc_string cfg) (avr_difficulty_factor v) (avr_duration v) id) ->
    hc_handle (s_now s) (sy_c s) msg = (h, HrUnit (Ok tt)) ->
    scase p l s (SeAct n rnd) (with_client (with_c s h) n (GpDone cfg))
      [SoCache (Some n) (HeMsg msg) (Some (HrUnit (Ok tt)))]
| sc_gp_done n cfg rnd : sy_clients s !! n = Some (GpDone cfg) ->
    scase p l s (SeAct n rnd) (leave s n (GpDone cfg)) [SoRet n (RGetPow (Ok (Some cfg)))]
(** verify_pow *)
| sc_vp_none n w ip rnd h msg : sy_clients s !! n = Some (VpStart w ip) ->
    msg = HmRetrivePoW (VerifyCaptchaResult (w_string w) (w_key w)) ->
    hc_handle (s_now s) (sy_c s) msg = (h, HrPoW (Ok None)) ->
    scase p l s (SeAct n rnd) (leave (with_c s h) n (VpStart w ip))
      [SoCache (Some n) (HeMsg msg) (Some (HrPoW (Ok None))); SoRet n (RVerifyPow (Err StringNotFound))]
| sc_vp_key n w ip rnd h msg c : sy_clients s !! n = Some (VpStart w ip) ->
    msg = HmRetrivePoW (VerifyCaptchaResult (w_string w) (w_key w)) ->
    hc_handle (s_now s) (sy_c s) msg = (h, HrPoW (Ok (Some c))) -> w_key w <> cc_key c ->
    scase p l s (SeAct n rnd) (leave (with_c s h) n (VpStart w ip))
      [SoCache (Some n) (HeMsg msg) (Some (HrPoW (Ok (Some c))));
       SoRet n (RVerifyPow (Err MCaptchaKeyValidationFail))]
| sc_vp_some n w ip rnd h msg c : sy_clients s !! n = Some (VpStart w ip) ->
    msg = HmRetrivePoW (VerifyCaptchaResult (w_string w) (w_key w)) ->
    hc_handle (s_now s) (sy_c s) msg = (h, HrPoW (Ok (Some c))) -> w_key w = cc_key c ->
    scase p l s (SeAct n rnd) (with_client (with_c s h) n (VpAdd w ip c))
      [SoCache (Some n) (HeMsg msg) (Some (HrPoW (Ok (Some c))))]
| sc_vp_add n w ip c rnd q os sends returns : sy_clients s !! n = Some (VpAdd w ip c) ->
    (qs_mgr (sy_q s) = MAlive \/ qs_mgr (sy_q s) = MDraining) ->
    validate l (QueuedWork (pow_of_work w) (w_string w) (cc_difficulty_factor c)) = (sends, returns) ->
    q_step p (sy_q s) (QeAdd ip) = Some (q, os) ->
    scase p l s (SeAct n rnd)
      (with_client (with_job (with_q s q os) (qs_next (sy_q s)) (VJob [] sends returns true)) n
         (VpAnswer w c (qs_next (sy_q s))))
      [SoQueue (Some n) (QeAdd ip) os]
| sc_vp_panic n w ip c rnd : sy_clients s !! n = Some (VpAdd w ip c) ->
    (qs_mgr (sy_q s) <> MAlive /\ qs_mgr (sy_q s) <> MDraining) ->
    scase p l s (SeAct n rnd) (leave s n (VpAdd w ip c)) [SoRet n RPanic]
| sc_vp_accepted n w c j rnd : sy_clients s !! n = Some (VpAnswer w c j) ->
    sy_answers s !! j = Some (Ok tt) ->
    scase p l s (SeAct n rnd) (with_client s n (VpPoll w c j)) []
| sc_vp_rejected n w c j rnd e : sy_clients s !! n = Some (VpAnswer w c j) ->
    sy_answers s !! j = Some (Err e) ->
    scase p l s (SeAct n rnd) (leave s n (VpAnswer w c j)) [SoRet n (RVerifyPow (Err e))]
| sc_vp_lost n w c j rnd : sy_clients s !! n = Some (VpAnswer w c j) -> sy_answers s !! j = None ->
    (qs_mgr (sy_q s) <> MAlive /\ qs_mgr (sy_q s) <> MDraining) ->
    scase p l s (SeAct n rnd) (leave s n (VpAnswer w c j)) [SoRet n (RVerifyPow (Err RecvError))]
| sc_vp_true n w c j rnd v rest : sy_clients s !! n = Some (VpPoll w c j) -> sy_jobs s !! j = Some v ->
    vj_buf v = true :: rest ->
    scase p l s (SeAct n rnd)
      (with_client (with_job s j (VJob rest (vj_todo v) (vj_returns v) (vj_open v))) n (VpStore w c j rnd)) []
| sc_vp_false n w c j rnd v : sy_clients s !! n = Some (VpPoll w c j) -> sy_jobs s !! j = Some v ->
    ((exists rest, vj_buf v = false :: rest) \/ (vj_buf v = [] /\ job_live (sy_q s) j = false)) ->
    scase p l s (SeAct n rnd) (leave s n (VpPoll w c j)) [SoRet n (RVerifyPow (Err InsuffiencientDifficulty))]
| sc_vp_store n w c j tok rnd h msg : sy_clients s !! n = Some (VpStore w c j tok) ->
    msg = HmCacheResult (cached_into_result c tok) ->
    hc_handle (s_now s) (sy_c s) msg = (h, HrUnit (Ok tt)) ->
    scase p l s (SeAct n rnd) (with_client (with_c s h) n (VpDone w c j tok))
      [SoCache (Some n) (HeMsg msg) (Some (HrUnit (Ok tt)))]
| sc_vp_done n w c j tok rnd : sy_clients s !! n = Some (VpDone w c j tok) ->
    scase p l s (SeAct n rnd) (leave s n (VpDone w c j tok))
      [SoRet n (RVerifyPow (Ok (tok, cc_difficulty_factor c)))]
(** validate_verification_tokens *)
| sc_vt n m rnd h b : sy_clients s !! n = Some (VtStart m) ->
    hc_handle (s_now s) (sy_c s) (HmVerifyCaptchaResult m) = (h, HrBool (Ok b)) ->
    scase p l s (SeAct n rnd) (with_client (with_c s h) n (VtDone (Ok b)))
      [SoCache (Some n) (HeMsg (HmVerifyCaptchaResult m)) (Some (HrBool (Ok b)))]
| sc_vt_done n b rnd : sy_clients s !! n = Some (VtDone b) ->
    scase p l s (SeAct n rnd) (leave s n (VtDone b)) [SoRet n (RValidate b)].

Lemma s_step_case p l s e s' o : s_step p l s e = Some (s', o) -> scase p l s e s' o.
Proof.
  rewrite s_step_eq. intros [Hna H]. destruct e as [c|n rnd|n|e| |r|r|r|due d|d]; cbn [s_step'] in H.
  - injection H as <- <-. constructor.
  - destruct (sy_clients s !! n) as [c|] eqn:Ec; [|done].
    destruct c as [id|id k|id v cfg|cfg|w ip|w ip c|w c j|w c j|w c j tok|w c j tok|m|b]; cbn [client_act] in H.
    + destruct (m_step _ _ _) as [[m os]|] eqn:E; [|done]. injection H as <- <-. by constructor.
    + destruct (sy_replies s !! k) as [x|] eqn:Ex; [|done]. unfold s_return in H.
      destruct x as [[[v|]|e]|r|a|d| |]; injection H as <- <-; try (by econstructor).
    + unfold s_cache_msg in H. destruct (hc_handle _ _ _) as [h r] eqn:E.
      assert (r = HrUnit (Ok tt)) as ->.
      { cbn [hc_handle save_pow_config] in E. by injection E as _ <-. }
      injection H as <- <-. by econstructor.
    + injection H as <- <-. by econstructor.
    + unfold s_cache_msg in H. destruct (hc_handle _ _ _) as [h r] eqn:E.
      assert (exists x, r = HrPoW (Ok x)) as [x ->].
      { cbn in E. destruct (hc_difficulty_map _ !! _); injection E as _ <-; eauto. }
      destruct x as [c|].
      * destruct (decide (w_key w = cc_key c)) as [Hk|Hk]; injection H as <- <-.
        -- by econstructor.
        -- by eapply sc_vp_key.
      * injection H as <- <-. by econstructor.
    + assert ((qs_mgr (sy_q s) = MAlive \/ qs_mgr (sy_q s) = MDraining) \/
              (qs_mgr (sy_q s) <> MAlive /\ qs_mgr (sy_q s) <> MDraining)) as [Hm|Hm]
        by (destruct (qs_mgr (sy_q s)); auto).
      * assert ((let '(sends, returns) :=
            validate l (QueuedWork (pow_of_work w) (w_string w) (cc_difficulty_factor c)) in
          match q_step p (sy_q s) (QeAdd ip) with
          | Some (q, os) =>
              Some (with_client (with_job (with_q s q os) (qs_next (sy_q s)) (VJob [] sends returns true)) n
                   (VpAnswer w c (qs_next (sy_q s))),
                    [SoQueue (Some n) (QeAdd ip) os])
          | None => None
          end) = Some (s', o)) as H'.
        { destruct Hm as [Hm|Hm]; rewrite Hm in H; exact H. }
        clear H. destruct (validate _ _) as [sends returns] eqn:Ev.
        destruct (q_step _ _ _) as [[q os]|] eqn:Eq; [|done]. injection H' as <- <-. by constructor.
      * assert (s_return s n (VpAdd w ip c) RPanic = Some (s', o)) as H' by (destruct (qs_mgr (sy_q s)); tauto).
        injection H' as <- <-. by constructor.
    + destruct (sy_answers s !! j) as [[[]|e]|] eqn:Ea.
      * injection H as <- <-. by constructor.
      * injection H as <- <-. by constructor.
      * destruct (qs_mgr (sy_q s)) eqn:Em; try done; injection H as <- <-; constructor; rewrite ?Em; done.
    + destruct (sy_jobs s !! j) as [v|] eqn:Ej; [|done]. destruct (vj_buf v) as [|[] rest] eqn:Eb.
      * destruct (job_live _ _) eqn:El; [done|]. injection H as <- <-. eapply sc_vp_false; eauto.
      * injection H as <- <-. by econstructor.
      * injection H as <- <-. eapply sc_vp_false; eauto.
    + unfold s_cache_msg in H. destruct (hc_handle _ _ _) as [h r] eqn:E.
      assert (r = HrUnit (Ok tt)) as ->.
      { cbn [hc_handle save_captcha_result] in E. by injection E as _ <-. }
      injection H as <- <-. by econstructor.
    + injection H as <- <-. by econstructor.
    + unfold s_cache_msg in H. destruct (hc_handle _ _ _) as [h r] eqn:E.
      assert (exists b, r = HrBool (Ok b)) as [b ->].
      { cbn in E. destruct (hc_result_map _ !! _); [destruct (decide _)|]; injection E as _ <-; eauto. }
      injection H as <- <-. by constructor.
    + injection H as <- <-. by constructor.
  - destruct (sy_clients s !! n) as [c|] eqn:Ec; [|done]. injection H as <- <-. by constructor.
  - assert (forall d, e <> MeTick d) as Ht by (by destruct e).
    assert (match m_step p (sy_m s) e with
          | Some (m, os) => Some (with_m s m os, [SoMaster None e os]) | None => None end = Some (s', o)) as H'
      by (by destruct e). clear H.
    destruct (m_step _ _ _) as [[m os]|] eqn:E; [|done]. injection H' as <- <-. by constructor.
  - unfold s_queue in H. destruct (q_step _ _ _) as [[q os]|] eqn:E; [|done]. injection H as <- <-. by constructor.
  - unfold s_queue in H. destruct (q_step _ _ _) as [[q os]|] eqn:E; [|done]. injection H as <- <-. by constructor.
  - destruct (running_job _ _) as [j|] eqn:Er; [|done]. destruct (sy_jobs s !! j) as [v|] eqn:Ej; [|done].
    destruct (vj_todo v) as [|b rest] eqn:Et; [done|]. destruct (vj_open v) eqn:Eo; cbn [negb] in H.
    + destruct (length (vj_buf v) <? verdict_capacity)%nat eqn:El; [|done]. injection H as <- <-.
      econstructor; eauto. by apply Nat.ltb_lt.
    + injection H as <- <-. by eapply sc_send_closed.
  - destruct (running_job _ _) as [j|] eqn:Er; [|done]. destruct (sy_jobs s !! j) as [v|] eqn:Ej; [|done].
    destruct (vj_todo v) as [|b rest] eqn:Et; [|done]. unfold s_queue in H.
    destruct (q_step _ _ _) as [[q os]|] eqn:E; [|done]. injection H as <- <-.
    destruct (vj_returns v) eqn:Ev; by econstructor.
  - destruct (hc_expire _ _ _ _) as [h|] eqn:E; [|done]. injection H as <- <-. by constructor.
  - destruct (m_step _ _ _) as [[m os]|] eqn:E; [|done]. injection H as <- <-. by constructor.
Qed.

(** * The parts run as the components do *)
Lemma cache_run_join s es1 s1 os1 es2 s2 os2 :
  cache_run s es1 = Some (s1, os1) -> cache_run s1 es2 = Some (s2, os2) ->
  cache_run s (es1 ++ es2) = Some (s2, os1 ++ os2).
Proof.
  revert s os1. induction es1 as [|e es IH]; intros s os1; cbn [app cache_run].
  - by intros [= <- <-] ->.
  - destruct (cache_step s e) as [[s0 o]|]; [|done].
    destruct (cache_run s0 es) as [[s3 os3]|] eqn:E; [|done]. intros [= <- <-] H2.
    by rewrite (IH _ _ E H2).
Qed.
Lemma m_step_frame p s e s' o :
  m_step p s e = Some (s', o) ->
  my_now s' = my_now s + match e with MeTick d => d | _ => 0 end /\
  my_reqs s' = (my_reqs s + if is_request e then 1 else 0)%nat.
Proof.
  intros Hs. rewrite Nat.add_comm.
  destruct e as [r|t|c id|c msg|d]; cbn [m_step is_request] in *; rewrite ?N.add_0_r.
  - destruct (my_alive s).
    + destruct (m_handle _ _ r) as [s1 o1] eqn:E. injection Hs as <- <-.
      destruct (m_handle_frame _ _ _ _ _ E) as (_ & -> & -> & _). done.
    + by injection Hs as <- <-.
  - destruct (my_alive s); [|done]. unfold task_step in Hs.
    destruct (my_tasks s !! t) as [[due|todo ph|k c|k c|k todo acc|c m|id m]|]; [..|done].
    + destruct (due <=? my_now s); [|done].
      destruct (m_handle _ _ RqCleanUp) as [s1 o1] eqn:E. injection Hs as <- <-.
      destruct (m_handle_frame _ _ _ _ _ E) as (_ & -> & -> & _). done.
    + destruct todo as [|[id [rd c]] rest]; [by injection Hs as <- <-|].
      destruct ph.
      * destruct (send_counter p s c _) as [[s1 r]|] eqn:E; [|done].
        apply send_counter_eq in E as (x & x' & Hx & Hh & ->). by destruct r; injection Hs as <- <-.
      * destruct (send_counter p s c _) as [[s1 r]|] eqn:E; [|done].
        apply send_counter_eq in E as (x & x' & Hx & Hh & ->). by destruct r; injection Hs as <- <-.
      * destruct (m_handle _ _ _) as [s1 o1] eqn:E. injection Hs as <- <-.
        destruct (m_handle_frame _ _ _ _ _ E) as (_ & -> & -> & _). done.
    + destruct (send_counter p s c _) as [[s1 r]|] eqn:E; [|done].
      apply send_counter_eq in E as (x & x' & Hx & Hh & ->). by destruct r; injection Hs as <- <-.
    + destruct (send_counter p s c _) as [[s1 r]|] eqn:E; [|done].
      apply send_counter_eq in E as (x & x' & Hx & Hh & ->). by destruct r; injection Hs as <- <-.
    + destruct todo as [|[id [rd c]] rest]; [by injection Hs as <- <-|].
      destruct (send_counter p s c _) as [[s1 r]|] eqn:E; [|done].
      apply send_counter_eq in E as (x & x' & Hx & Hh & ->). by destruct r; injection Hs as <- <-.
    + destruct (send_counter p s c _) as [[s1 r]|] eqn:E; [|done].
      apply send_counter_eq in E as (x & x' & Hx & Hh & ->). by injection Hs as <- <-.
    + destruct (m_handle _ _ _) as [s1 o1] eqn:E. injection Hs as <- <-.
      destruct (m_handle_frame _ _ _ _ _ E) as (_ & -> & -> & _). done.
  - destruct (my_ctrs s !! c); [|done]. destruct (counter_fire _ _ _); [|done]. by injection Hs as <- <-.
  - destruct (send_counter p s c _) as [[s1 r]|] eqn:E; [|done].
    apply send_counter_eq in E as (x & x' & Hx & Hh & ->). by injection Hs as <- <-.
  - by injection Hs as <- <-.
Qed.

Lemma scase_m p l s e s' o :
  scase p l s e s' o -> m_run p (sy_m s) (mtrace o) = Some (sy_m s', mouts o).
Proof.
  intros Hc; destruct Hc; try reflexivity; unfold mouts;
    cbn [mtrace omap list_omap m_run concat sy_m with_m with_client];
    match goal with H : m_step _ _ _ = _ |- _ => rewrite H end; by rewrite app_nil_r.
Qed.
Lemma scase_q p l s e s' o :
  scase p l s e s' o -> q_run p (sy_q s) (qtrace o) = Some (sy_q s', qouts o).
Proof.
  intros Hc; destruct Hc; try reflexivity; unfold qouts;
    cbn [qtrace omap list_omap q_run concat sy_q with_q with_client with_job];
    match goal with H : q_step _ _ _ = _ |- _ => rewrite H end; by rewrite app_nil_r.
Qed.
Lemma scase_c p l s e s' o :
  scase p l s e s' o ->
  cache_run (CacheSys (s_now s) (sy_c s)) (ctrace o).*1 = Some (CacheSys (s_now s') (sy_c s'), (ctrace o).*2).
Proof.
  intros Hc; destruct Hc; unfold s_now;
    cbn [ctrace omap list_omap fmap list_fmap fst snd cache_run cache_step hs_now hs_cache
         sy_c sy_m with_m with_c with_q with_job with_client leave];
    try reflexivity; unfold s_now in *;
    try match goal with H : hc_expire _ _ _ _ = _ |- _ => rewrite H end;
    try match goal with H : hc_handle _ _ _ = _ |- _ => rewrite ?H end; try reflexivity; subst;
    try match goal with H : hc_handle _ _ _ = _ |- _ => rewrite ?H end; try reflexivity.
  - destruct (m_step_frame _ _ _ _ _ H0) as [Hn _]. rewrite Hn.
    destruct e; rewrite ?N.add_0_r; try reflexivity. by destruct (H d).
  - destruct (m_step_frame _ _ _ _ _ H) as [-> _]. reflexivity.
  - destruct (m_step_frame _ _ _ _ _ H0) as [-> _]. by rewrite N.add_0_r.
Qed.

Record parts (p : profile) (t gc : N) (wk : nat) (ql : N) (tr : list sout) (s : ssys) : Prop := {
  pt_m : m_run p (m_start t gc) (mtrace tr) = Some (sy_m s, mouts tr);
  pt_q : q_run p (q_start wk ql) (qtrace tr) = Some (sy_q s, qouts tr);
  pt_c : cache_run (cache_start t) (ctrace tr).*1 = Some (CacheSys (s_now s) (sy_c s), (ctrace tr).*2) }.
Lemma parts_step p l t gc wk ql tr s e s' o :
  parts p t gc wk ql tr s -> scase p l s e s' o -> parts p t gc wk ql (tr ++ o) s'.
Proof.
  intros [Hm Hq Hc] H. split.
  - rewrite mtrace_app, mouts_app. apply m_run_app. do 3 eexists. split; [done|]. split; [|done]. by eapply scase_m.
  - rewrite qtrace_app, qouts_app. apply q_run_app. do 3 eexists. split; [done|]. split; [|done]. by eapply scase_q.
  - rewrite ctrace_app, !fmap_app. eapply cache_run_join; [done|]. by eapply scase_c.
Qed.
Lemma run_parts p l t gc wk ql es s tr :
  s_run p l (sys_start t gc wk ql) es = Some (s, tr) -> parts p t gc wk ql tr s.
Proof.
  revert s tr. induction es as [|e es IH] using rev_ind; intros s tr Hr.
  - injection Hr as <- <-. by split.
  - apply s_run_snoc in Hr as (s1 & tr1 & o & H1 & H2 & ->). eapply parts_step; [by eapply IH|].
    by apply s_step_case.
Qed.

(** * What a proof check sends *)
Definition script (l : pow_lib) (w : work) (d : N) : list bool * bool :=
  validate l (QueuedWork (pow_of_work w) (w_string w) d).
Lemma script_true l w d rest r :
  script l w d = (true :: rest, r) -> sufficient l w d true /\ valid l w true /\ rest = [] /\ r = true.
Proof.
  unfold script, validate, sufficient, valid, work_pow, pow_of_work. cbn [qw_work qw_string qw_difficulty_factor].
  destruct (is_sufficient_difficulty _ _ _) as [[]|]; destruct (is_valid_proof _ _ _) as [[]|]; cbn; intros [=]; by subst.
Qed.
Lemma script_false l w d rest r :
  script l w d = (false :: rest, r) -> sufficient l w d false \/ (sufficient l w d true /\ valid l w false).
Proof.
  unfold script, validate, sufficient, valid, work_pow, pow_of_work. cbn [qw_work qw_string qw_difficulty_factor].
  destruct (is_sufficient_difficulty _ _ _) as [[]|]; destruct (is_valid_proof _ _ _) as [[]|]; cbn; intros [=]; auto.
Qed.
Lemma script_good l w d :
  sufficient l w d true -> valid l w true -> script l w d = ([true], true).
Proof.
  unfold script, validate, sufficient, valid, work_pow, pow_of_work. cbn [qw_work qw_string qw_difficulty_factor].
  by intros -> ->.
Qed.
Lemma script_bad l w d :
  sufficient l w d false \/ (sufficient l w d true /\ valid l w false) ->
  exists rest r, script l w d = (false :: rest, r).
Proof.
  unfold script, validate, sufficient, valid, work_pow, pow_of_work. cbn [qw_work qw_string qw_difficulty_factor].
  intros [->|[-> ->]]; [|by eexists _, _]. destruct (is_valid_proof _ _ _) as [[]|]; by eexists _, _.
Qed.
Lemma script_empty l w d r : script l w d = ([], r) -> r = false.
Proof.
  unfold script, validate.
  destruct (is_sufficient_difficulty _ _ _) as [[]|]; [| |by intros [= <-]];
    destruct (is_valid_proof _ _ _) as [[]|]; cbn; by intros [= <-].
Qed.

(** * Logs of clients *)
Definition visit_log (n : nat) (id : string) (os : list mout) : list sout :=
  [SoCall n (CGetPow id); SoMaster (Some n) (MeReq (RqAddVisitor id)) os].
Definition issue_log (n : nat) (id : string) (os : list mout) (cfg : pow_config) (v : add_visitor_result) : list sout :=
  visit_log n id os ++
  [SoCache (Some n) (HeMsg (HmCachePoW (CachePoW (pc_string cfg) (pc_difficulty_factor cfg) (avr_duration v) id)))
     (Some (HrUnit (Ok tt)))].
Definition retrieve_out (n : nat) (w : work) (r : option cached_pow) : sout :=
  SoCache (Some n) (HeMsg (HmRetrivePoW (VerifyCaptchaResult (w_string w) (w_key w)))) (Some (HrPoW (Ok r))).
Definition taken_log (n : nat) (w : work) (ip : string) (c : cached_pow) : list sout :=
  [SoCall n (CVerifyPow w ip); retrieve_out n w (Some c)].
Definition queued_log (n : nat) (w : work) (ip : string) (c : cached_pow) : list sout :=
  taken_log n w ip c ++ [SoQueue (Some n) (QeAdd ip) []].
Definition mint_out (n : nat) (c : cached_pow) (tok : string) : sout :=
  SoCache (Some n) (HeMsg (HmCacheResult (CacheResult tok (cc_key c) (cc_duration c)))) (Some (HrUnit (Ok tt))).
Definition visited (tr : list sout) (n : nat) (id : string) (v : add_visitor_result) : Prop :=
  exists k, asked tr n id k /\ replied tr k (MrVisit (Ok (Some v))).
Definition good (l : pow_lib) (w : work) (d : N) : Prop := sufficient l w d true /\ valid l w true.

Definition log_of (l : pow_lib) (tr : list sout) (n : nat) (c : client) (lg : list sout) : Prop :=
  match c with
  | GpStart id => lg = [SoCall n (CGetPow id)]
  | GpWait id k => (exists os, lg = visit_log n id os) /\ asked tr n id k
  | GpCache id v cfg => (exists os, lg = visit_log n id os) /\ visited tr n id v /\
      pc_difficulty_factor cfg = avr_difficulty_factor v /\ pc_salt cfg = pl_salt l
  | GpDone cfg => exists id v os, lg = issue_log n id os cfg v /\ visited tr n id v /\
      pc_difficulty_factor cfg = avr_difficulty_factor v /\ pc_salt cfg = pl_salt l
  | VpStart w ip => lg = [SoCall n (CVerifyPow w ip)]
  | VpAdd w ip c => lg = taken_log n w ip c /\ w_key w = cc_key c
  | VpAnswer w c j | VpPoll w c j => (exists ip, lg = queued_log n w ip c) /\ w_key w = cc_key c
  | VpStore w c j tok =>
      (exists ip, lg = queued_log n w ip c) /\ w_key w = cc_key c /\ good l w (cc_difficulty_factor c)
  | VpDone w c j tok =>
      (exists ip, lg = queued_log n w ip c ++ [mint_out n c tok]) /\ w_key w = cc_key c /\
      good l w (cc_difficulty_factor c)
  | VtStart m => lg = [SoCall n (CValidate m)]
  | VtDone b => exists m b', b = Ok b' /\
      lg = [SoCall n (CValidate m); SoCache (Some n) (HeMsg (HmVerifyCaptchaResult m)) (Some (HrBool (Ok b')))]
  end.
(** How a client ends. *)
Definition final (l : pow_lib) (tr : list sout) (n : nat) (c : client) (f : list sout) : Prop :=
  f = [SoCancel n] \/
  match c with
  | GpWait id k => exists x, replied tr k x /\ (forall v, x <> MrVisit (Ok (Some v))) /\
      f = [SoRet n (RGetPow match x with MrClosed => Err MailboxError | MrDropped => Err RecvError | _ => Ok None end)]
  | GpDone cfg => f = [SoRet n (RGetPow (Ok (Some cfg)))]
  | VpStart w ip =>
      f = [retrieve_out n w None; SoRet n (RVerifyPow (Err StringNotFound))] \/
      exists c, w_key w <> cc_key c /\
        f = [retrieve_out n w (Some c); SoRet n (RVerifyPow (Err MCaptchaKeyValidationFail))]
  | VpAdd w ip c => f = [SoRet n RPanic] /\ check_panicked tr
  | VpAnswer w c j =>
      f = [SoRet n (RVerifyPow (Err QueueFull))] \/
      (f = [SoRet n (RVerifyPow (Err RecvError))] /\ check_panicked tr)
  | VpPoll w c j => f = [SoRet n (RVerifyPow (Err InsuffiencientDifficulty))] /\
      (check_panicked tr \/ sufficient l w (cc_difficulty_factor c) false \/
       (sufficient l w (cc_difficulty_factor c) true /\ valid l w false))
  | VpDone w c j tok => f = [SoRet n (RVerifyPow (Ok (tok, cc_difficulty_factor c)))]
  | VtDone b => f = [SoRet n (RValidate b)]
  | _ => False
  end.

Lemma asked_mono tr o n id k : asked tr n id k -> asked (tr ++ o) n id k.
Proof. intros (tr1 & os & tr2 & -> & ->). exists tr1, os, (tr2 ++ o). by rewrite <- app_assoc. Qed.
Lemma replied_mono tr o k x : replied tr k x -> replied (tr ++ o) k x.
Proof. unfold replied. rewrite mouts_app, elem_of_app. auto. Qed.
Lemma panicked_mono tr o : check_panicked tr -> check_panicked (tr ++ o).
Proof. intros [r H]. exists r. rewrite qtrace_app, elem_of_app. auto. Qed.
Lemma visited_mono tr o n id v : visited tr n id v -> visited (tr ++ o) n id v.
Proof. intros (k & H1 & H2). exists k. split; [by apply asked_mono|by apply replied_mono]. Qed.
Lemma log_of_mono l tr o n c lg : log_of l tr n c lg -> log_of l (tr ++ o) n c lg.
Proof.
  destruct c; cbn [log_of]; try done.
  - intros [? ?]. split; [done|by apply asked_mono].
  - intros (? & ? & ?). split; [done|]. split; [by apply visited_mono|done].
  - intros (id & v & os & ? & ? & ?). exists id, v, os. split; [done|]. split; [by apply visited_mono|done].
Qed.
Lemma final_mono l tr o n c f : final l tr n c f -> final l (tr ++ o) n c f.
Proof.
  intros [->|H]; [by left|]. right. destruct c; try done.
  - destruct H as (x & H1 & H2). exists x. split; [by apply replied_mono|done].
  - destruct H as [H1 H2]. split; [done|by apply panicked_mono].
  - destruct H as [H|[H1 H2]]; [by left|right]. split; [done|by apply panicked_mono].
  - destruct H as [H1 [H2|H2]]; (split; [done|]); [left; by apply panicked_mono|by right].
Qed.

(** * Queue facts *)
Lemma dispatch_to_out p im name im' o : dispatch_to p im name = Val (im', o) ->
  Forall (fun x => match x with QTry _ _ | QHand _ _ _ => True | _ => False end) o.
Proof.
  unfold dispatch_to, obind. intros H. repeat case_match; try done; injection H as <- <-; by repeat constructor.
Qed.
Lemma dispatch_names_out p names im im' o : dispatch_names p im names = Val (im', o) ->
  Forall (fun x => match x with QTry _ _ | QHand _ _ _ => True | _ => False end) o.
Proof.
  revert im im' o. induction names as [|n ns IH]; intros im im' o; cbn [dispatch_names].
  - by intros [= <- <-].
  - destruct (_ !! n); [|done]. unfold obind. destruct (dispatch_to p im n) as [[im1 o1]|] eqn:E1; [|done].
    destruct (dispatch_names p im1 ns) as [[im2 o2]|] eqn:E2; [|done]. intros [= <- <-].
    apply Forall_app. split; [by eapply dispatch_to_out|by eapply IH].
Qed.
Lemma q_step_out p q e q' os :
  q_step p q e = Some (q', os) ->
  (forall j ip x, QAnswer j ip x ∈ os -> x = Ok tt \/ x = Err QueueFull) /\
  (forall r j, QFinish r j ∈ os -> e = QeFinish r /\ running_job q r = Some j) /\
  (e <> QeDrop -> qs_dropped q' = qs_dropped q) /\
  qs_next q' = (match e with QeAdd _ => S (qs_next q) | _ => qs_next q end) /\
  (match e with QeAdd _ => os = [] | _ => True end) /\
  (forall r, e = QeFinish r -> exists j, running_job q r = Some j).
Proof.
  intros H. unfold q_step in H.
  assert (qs_mgr q <> MAborted) as Hna by (by destruct (qs_mgr q)).
  assert (match e with
    | QeAdd ip =>
        if qs_dropped q then None
        else Some (QSys (qs_im q) (qs_inbox q ++ [ImSchedule (qs_next q) ip]) (qs_mgr q)
                     false (S (qs_next q)), [])
    | QeManager => mgr_step p q
    | QeRecv r => runner_recv q r
    | QeFinish r => runner_finish q r
    | QePanic r => runner_panic q r
    | QeDrop =>
        if qs_dropped q then None
        else Some (QSys (qs_im q) (qs_inbox q ++ [ImStop]) (qs_mgr q) true (qs_next q), [])
    | QeJoin =>
        match qs_mgr q with
        | MDraining =>
            if forallb is_exited (im_runners (qs_im q))
            then Some (QSys (qs_im q) (qs_inbox q) MDone (qs_dropped q) (qs_next q), [])
            else None
        | _ => None
        end
    end = Some (q', os)) as H' by (by destruct (qs_mgr q)). clear H.
  assert (forall o : list qout, Forall (fun x => match x with QTry _ _ | QHand _ _ _ => True | _ => False end) o ->
     (forall j ip x, QAnswer j ip x ∉ o) /\ (forall r j, QFinish r j ∉ o)) as Hs.
  { intros o Ho. rewrite Forall_forall in Ho. split; intros; intros Hin; by destruct (Ho _ Hin). }
  destruct e as [ip| |r|r|r| |].
  - destruct (qs_dropped q) eqn:Ed; [done|]. injection H' as <- <-.
    split_and!; try done; intros; by match goal with H : _ ∈ [] |- _ => apply elem_of_nil in H end.
  - unfold mgr_step in H'. destruct (qs_mgr q); try done. destruct (qs_inbox q) as [|[|name|j ip] rest]; [done|..].
    + destruct (forallb _ _); injection H' as <- <-;
        (split_and!; try done; intros; by match goal with H : _ ∈ [] |- _ => apply elem_of_nil in H end).
    + destruct (dispatch_to _ _ _) as [[im o]|] eqn:E; injection H' as <- <-.
      * apply dispatch_to_out in E. destruct (Hs _ E) as [H1 H2].
        split_and!; try done; intros; exfalso; first [by eapply H1|by eapply H2].
      * split_and!; try done; intros; by match goal with H : _ ∈ [] |- _ => apply elem_of_nil in H end.
    + destruct (schedule _ _ _ _) as [[[im o] x]|] eqn:E; injection H' as <- <-.
      * assert (Forall (fun x => match x with QTry _ _ | QHand _ _ _ => True | _ => False end) o /\
                (x = Ok tt \/ x = Err QueueFull)) as [Ho Hx].
        { unfold schedule, obind, dispatch in E. destruct (_ =? _); [injection E as <- <- <-; auto|].
          destruct (im_queues _ !! ip);
            match type of E with match ?d with _ => _ end = _ => destruct d as [[im2 o2]|] eqn:E2 end; try done;
            injection E as <- <- <-; apply dispatch_names_out in E2; auto. }
        destruct (Hs _ Ho) as [H1 H2]. split_and!; try done.
        -- intros j' ip' x' Hin. apply elem_of_app in Hin as [Hin|Hin]; [by destruct (H1 j' ip' x')|].
           apply elem_of_list_singleton in Hin. injection Hin as -> -> ->. done.
        -- intros r' j' Hin. apply elem_of_app in Hin as [Hin|Hin]; [by destruct (H2 r' j')|].
           by apply elem_of_list_singleton in Hin.
      * split_and!; try done; intros; by match goal with H : _ ∈ [] |- _ => apply elem_of_nil in H end.
  - unfold runner_recv in H'. destruct (im_runners _ !! r) as [[[|[|j] c] []]|]; try done; injection H' as <- <-;
      (split_and!; try done; intros; by match goal with H : _ ∈ [_] |- _ => apply elem_of_list_singleton in H end).
  - unfold runner_finish in H'. destruct (im_runners _ !! r) as [[c [|j| |]]|] eqn:Er; try done.
    assert (running_job q r = Some j) as Hrj by (unfold running_job; by rewrite Er).
    destruct (qs_mgr q); try done; injection H' as <- <-; split_and!; try done;
      try (intros r' [= <-]; eauto);
      intros; repeat match goal with H : _ ∈ _ :: _ |- _ => apply elem_of_cons in H as [H|H] end; try done;
      try (by match goal with H : _ ∈ [] |- _ => apply elem_of_nil in H end);
      by match goal with H : QFinish _ _ = QFinish _ _ |- _ => injection H as -> -> end.
  - unfold runner_panic in H'. destruct (im_runners _ !! r) as [[c [|j| |]]|] eqn:Er; try done. injection H' as <- <-.
    split_and!; try done; intros; by match goal with H : _ ∈ [] |- _ => apply elem_of_nil in H end.
  - destruct (qs_dropped q) eqn:Ed; [done|]. injection H' as <- <-.
    split_and!; try done; intros; by match goal with H : _ ∈ [] |- _ => apply elem_of_nil in H end.
  - destruct (qs_mgr q); try done. destruct (forallb _ _); [|done]. injection H' as <- <-.
    split_and!; try done; intros; by match goal with H : _ ∈ [] |- _ => apply elem_of_nil in H end.
Qed.

Lemma no_panics_of tr : ~ check_panicked tr -> no_job_panics (qtrace tr).
Proof. intros H. apply Forall_forall. intros e He r ->. apply H. by exists r. Qed.
Lemma panicked_dec tr : check_panicked tr \/ ~ check_panicked tr.
Proof.
  unfold check_panicked. induction (qtrace tr) as [|e es [[r IH]|IH]].
  - right. by intros [r H%elem_of_nil].
  - left. exists r. by right.
  - destruct e as [| | | |r| |]; try (right; intros [r' [H|H]%elem_of_cons]; [done|apply IH; by exists r']).
    left. exists r. by left.
Qed.
Lemma mgr_alive p wk ql tr q :
  q_run p (q_start wk ql) (qtrace tr) = Some (q, qouts tr) -> ~ check_panicked tr -> qs_dropped q = false ->
  qs_mgr q = MAlive.
Proof.
  intros Hq Hn Hd. destruct (run_tinv _ _ _ _ _ _ (no_panics_of _ Hn) Hq) as [Hi _].
  pose proof (qi_inbox _ _ _ Hi) as Hb. rewrite Hd in Hb. destruct (qi_mgr _ _ _ Hi).
  destruct (qs_mgr q); try done; by destruct Hb.
Qed.
Lemma concat_elem {A} (x : A) (ls : list (list A)) : x ∈ concat ls <-> exists l, l ∈ ls /\ x ∈ l.
Proof.
  induction ls as [|l ls IH]; cbn [concat].
  - split; [by intros ?%elem_of_nil|by intros (? & ?%elem_of_nil & _)].
  - rewrite elem_of_app, IH. split.
    + intros [H|(l' & H1 & H2)]; [exists l; split; [by left|done]|exists l'; split; [by right|done]].
    + intros (l' & [->|H1]%elem_of_cons & H2); [by left|right; eauto].
Qed.
Lemma existsb_intro {A} (f : A -> bool) (ls : list A) x : x ∈ ls -> f x = true -> existsb f ls = true.
Proof. intros H1 H2. apply existsb_exists. exists x. split; [by apply elem_of_list_In|done]. Qed.
Lemma existsb_elim {A} (f : A -> bool) (ls : list A) : existsb f ls = true -> exists x, x ∈ ls /\ f x = true.
Proof. intros (x & H1 & H2)%existsb_exists. exists x. split; [by apply elem_of_list_In|done]. Qed.
Lemma accepted_live p wk ql tr q j ip :
  q_run p (q_start wk ql) (qtrace tr) = Some (q, qouts tr) -> ~ check_panicked tr -> qs_dropped q = false ->
  QAnswer j ip (Ok tt) ∈ qouts tr -> job_live q j = false -> j ∈ (finished (qouts tr)).*2.
Proof.
  intros Hq Hn Hd Ha Hl. pose proof (mgr_alive _ _ _ _ _ Hq Hn Hd) as Hm.
  destruct (conservation _ _ _ _ _ _ (no_panics_of _ Hn) Hq) as (_ & Hp & _).
  destruct (run_tinv _ _ _ _ _ _ (no_panics_of _ Hn) Hq) as [Hi _].
  assert (j ∈ (accepted (qouts tr)).*2) as Hj.
  { apply elem_of_list_fmap. exists (ip, j). split; [done|]. apply elem_of_list_omap. by exists (QAnswer j ip (Ok tt)). }
  rewrite Hp in Hj. unfold job_live in Hl. rewrite Hm in Hl. cbn [andb] in Hl.
  apply orb_false_iff in Hl as [[_ H2]%orb_false_iff H3].
  pose proof (runners_open_of _ _ _ Hi Hm) as Ho.
  apply elem_of_app in Hj as [Hj|Hj].
  { exfalso. apply concat_elem in Hj as (k & Hk & Hj). apply elem_of_list_fmap in Hk as (x & -> & Hx).
    assert (existsb (fun x => existsb (Nat.eqb j) x.2) (map_to_list (im_queues (qs_im q))) = true); [|congruence].
    eapply existsb_intro; [exact Hx|]. eapply existsb_intro; [exact Hj|apply Nat.eqb_refl]. }
  apply elem_of_app in Hj as [Hj|Hj].
  { exfalso. apply concat_elem in Hj as (k & Hk & Hj). apply elem_of_list_fmap in Hk as (x & -> & Hx).
    match type of H3 with ?b = false => assert (b = true); [|congruence] end.
    eapply existsb_intro; [exact Hx|]. rewrite (proj1 (Forall_forall _ _) Ho _ Hx). cbn [andb].
    apply orb_true_iff. left. unfold proves in Hj. apply elem_of_list_omap in Hj as (m & Hm1 & Hm2).
    eapply existsb_intro; [exact Hm1|]. destruct m; [done|]. injection Hm2 as ->. apply Nat.eqb_refl. }
  apply elem_of_app in Hj as [Hj|Hj]; [|done].
  exfalso. apply concat_elem in Hj as (k & Hk & Hj). apply elem_of_list_fmap in Hk as (x & -> & Hx).
  match type of H3 with ?b = false => assert (b = true); [|congruence] end.
  eapply existsb_intro; [exact Hx|]. rewrite (proj1 (Forall_forall _ _) Ho _ Hx). cbn [andb].
  apply orb_true_iff. right. destruct (rn_state x); try by apply elem_of_nil in Hj.
  apply elem_of_list_singleton in Hj as ->. apply Nat.eqb_refl.
Qed.

(** * The invariant *)
Definition job_ok (l : pow_lib) (c : client) (v : vjob) : Prop :=
  match c with
  | VpAnswer w cfg _ | VpPoll w cfg _ =>
      script l w (cc_difficulty_factor cfg) = (vj_buf v ++ vj_todo v, vj_returns v)
  | _ => True
  end.
Record sinv (p : profile) (l : pow_lib) (wk : nat) (ql : N) (tr : list sout) (s : ssys) : Prop := {
  si_q : q_run p (q_start wk ql) (qtrace tr) = Some (sy_q s, qouts tr);
  si_reqs : my_reqs (sy_m s) = requests (mtrace tr);
  si_rep : forall k x, sy_replies s !! k = Some x -> replied tr k x;
  si_ans : forall j x, sy_answers s !! j = Some x -> exists ip, QAnswer j ip x ∈ qouts tr;
  si_anse : forall j ip x, QAnswer j ip x ∈ qouts tr -> x = Ok tt \/ x = Err QueueFull;
  si_drop : qs_dropped (sy_q s) = false;
  si_dom : forall j, is_Some (sy_jobs s !! j) <-> (j < qs_next (sy_q s))%nat;
  si_fin : forall j, j ∈ (finished (qouts tr)).*2 -> exists v, sy_jobs s !! j = Some v /\ vj_todo v = [] /\ vj_returns v = true;
  si_own : forall n c j, sy_clients s !! n = Some c -> client_job c = Some j ->
     exists v, sy_jobs s !! j = Some v /\ vj_open v = true /\ job_ok l c v;
  si_inj : forall n n' c c' j, sy_clients s !! n = Some c -> sy_clients s !! n' = Some c' ->
     client_job c = Some j -> client_job c' = Some j -> n = n';
  si_poll : forall n w c j, sy_clients s !! n = Some (VpPoll w c j) -> exists ip, QAnswer j ip (Ok tt) ∈ qouts tr;
  si_log : forall n c, sy_clients s !! n = Some c -> log_of l tr n c (of_client n tr);
  si_gone : forall n, (n < sy_next s)%nat -> sy_clients s !! n = None ->
     exists c lg f, log_of l tr n c lg /\ final l tr n c f /\ of_client n tr = lg ++ f;
  si_fresh : forall n, (sy_next s <= n)%nat -> sy_clients s !! n = None /\ of_client n tr = [] }.

(** How clients change in a step. *)
Inductive cstep (l : pow_lib) (tr : list sout) (s s' : ssys) (o : list sout) : Prop :=
| cs_env : sy_clients s' = sy_clients s -> sy_next s' = sy_next s -> (forall m, of_client m o = []) ->
    cstep l tr s s' o
| cs_call c : sy_clients s' = <[sy_next s := client_start c]> (sy_clients s) -> sy_next s' = S (sy_next s) ->
    o = [SoCall (sy_next s) c] -> cstep l tr s s' o
| cs_go n c c' : sy_clients s !! n = Some c -> sy_clients s' = <[n := c']> (sy_clients s) ->
    sy_next s' = sy_next s -> (forall m, m <> n -> of_client m o = []) ->
    (forall lg, log_of l tr n c lg -> log_of l (tr ++ o) n c' (lg ++ of_client n o)) ->
    cstep l tr s s' o
| cs_end n c : sy_clients s !! n = Some c -> sy_clients s' = delete n (sy_clients s) ->
    sy_next s' = sy_next s -> (forall m, m <> n -> of_client m o = []) ->
    final l (tr ++ o) n c (of_client n o) ->
    cstep l tr s s' o.

Lemma cstep_log p l wk ql tr s s' o :
  sinv p l wk ql tr s -> cstep l tr s s' o ->
  (forall n c, sy_clients s' !! n = Some c -> log_of l (tr ++ o) n c (of_client n (tr ++ o))) /\
  (forall n, (n < sy_next s')%nat -> sy_clients s' !! n = None ->
     exists c lg f, log_of l (tr ++ o) n c lg /\ final l (tr ++ o) n c f /\ of_client n (tr ++ o) = lg ++ f) /\
  (forall n, (sy_next s' <= n)%nat -> sy_clients s' !! n = None /\ of_client n (tr ++ o) = []).
Proof.
  intros Hi Hc.
  assert (forall n, (n < sy_next s)%nat -> sy_clients s !! n = None -> of_client n o = [] ->
     exists c lg f, log_of l (tr ++ o) n c lg /\ final l (tr ++ o) n c f /\ of_client n (tr ++ o) = lg ++ f) as Hg.
  { intros n Hn He Ho. destruct (si_gone _ _ _ _ _ _ Hi n Hn He) as (c & lg & f & H1 & H2 & H3).
    exists c, lg, f. split; [by apply log_of_mono|]. split; [by apply final_mono|].
    by rewrite of_client_app, H3, Ho, app_nil_r. }
  assert (forall n c, sy_clients s !! n = Some c -> of_client n o = [] ->
            log_of l (tr ++ o) n c (of_client n (tr ++ o))) as Hl.
  { intros n c He Ho. rewrite of_client_app, Ho, app_nil_r. apply log_of_mono. by eapply si_log. }
  assert (forall n, (sy_next s <= n)%nat -> of_client n o = [] ->
            sy_clients s !! n = None /\ of_client n (tr ++ o) = []) as Hf.
  { intros n Hn Ho. rewrite of_client_app, Ho, app_nil_r. by eapply si_fresh. }
  assert (forall n c, sy_clients s !! n = Some c -> (n < sy_next s)%nat) as Hlt.
  { intros n c He. destruct (decide (n < sy_next s)%nat); [done|].
    destruct (si_fresh _ _ _ _ _ _ Hi n) as [H _]; [lia|congruence]. }
  destruct Hc as [Hc Hn Ho|c Hc Hn ->|n c c' He Hc Hn Ho Hlg|n c He Hc Hn Ho Hfin]; rewrite Hc, Hn.
  - split_and!; intros; eauto.
  - assert (forall m, m <> sy_next s -> of_client m [SoCall (sy_next s) c] = []) as Ho.
    { intros m Hm. unfold of_client. rewrite filter_cons_False; [done|]. cbn. congruence. }
    split_and!.
    + intros m c'. destruct (decide (m = sy_next s)) as [->|Hm].
      * rewrite lookup_insert. intros [= <-]. rewrite of_client_app.
        destruct (si_fresh _ _ _ _ _ _ Hi (sy_next s)) as [_ ->]; [done|].
        unfold of_client. rewrite filter_cons_True by done. by destruct c.
      * rewrite lookup_insert_ne by done. eauto.
    + intros m Hm. destruct (decide (m = sy_next s)) as [->|Hm']; [by rewrite lookup_insert|].
      rewrite lookup_insert_ne by done. intros. apply Hg; [lia|done|eauto].
    + intros m Hm. rewrite lookup_insert_ne by lia. apply Hf; [lia|]. apply Ho. lia.
  - split_and!.
    + intros m c1. destruct (decide (m = n)) as [->|Hm].
      * rewrite lookup_insert. intros [= <-]. rewrite of_client_app. apply Hlg. by eapply si_log.
      * rewrite lookup_insert_ne by done. eauto.
    + intros m Hm. destruct (decide (m = n)) as [->|Hm']; [by rewrite lookup_insert|].
      rewrite lookup_insert_ne by done. eauto.
    + intros m Hm. pose proof (Hlt _ _ He). rewrite lookup_insert_ne by lia. apply Hf; [done|]. apply Ho. lia.
  - split_and!.
    + intros m c1. destruct (decide (m = n)) as [->|Hm]; [by rewrite lookup_delete|].
      rewrite lookup_delete_ne by done. eauto.
    + intros m Hm. destruct (decide (m = n)) as [->|Hm']; [|rewrite lookup_delete_ne by done; eauto].
      intros _. exists c, (of_client n tr), (of_client n o). split; [apply log_of_mono; by eapply si_log|].
      split; [done|]. by rewrite of_client_app.
    + intros m Hm. pose proof (Hlt _ _ He). rewrite lookup_delete_ne by lia. apply Hf; [done|]. apply Ho. lia.
Qed.

Lemma of_client_one n m o : who o = Some n -> m <> n -> of_client m [o] = [].
Proof. intros Hw Hm. unfold of_client. rewrite filter_cons_False; [done|]. rewrite Hw. congruence. Qed.
Lemma of_client_two n m o o' : who o = Some n -> who o' = Some n -> m <> n -> of_client m [o; o'] = [].
Proof.
  intros Hw Hw' Hm. unfold of_client. rewrite !filter_cons_False; [done|rewrite Hw'; congruence|rewrite Hw; congruence].
Qed.
Lemma of_client_none m o : who o = None -> of_client m [o] = [].
Proof. intros Hw. unfold of_client. rewrite filter_cons_False; [done|]. by rewrite Hw. Qed.
Lemma of_client_self n o : who o = Some n -> of_client n [o] = [o].
Proof. intros Hw. unfold of_client. by rewrite filter_cons_True. Qed.
Lemma of_client_self2 n o o' : who o = Some n -> who o' = Some n -> of_client n [o; o'] = [o; o'].
Proof. intros Hw Hw'. unfold of_client. by rewrite !filter_cons_True. Qed.

Lemma scase_cstep p l wk ql tr s e s' o :
  sinv p l wk ql tr s -> scase p l s e s' o -> cstep l tr s s' o.
Proof.
  intros Hi Hc. pose proof Hc as Hc0. destruct Hc.
  - by eapply cs_call.
  - eapply cs_end; try done; [intros; by eapply of_client_one|]. rewrite of_client_self by done. by left.
  - apply cs_env; try done; intros; by apply of_client_none.
  - apply cs_env; try done; intros; by apply of_client_none.
  - apply cs_env; try done; intros; by apply of_client_none.
  - by apply cs_env.
  - by apply cs_env.
  - apply cs_env; try done; intros; by apply of_client_none.
  - apply cs_env; try done; intros; by apply of_client_none.
  - apply cs_env; try done; intros; by apply of_client_none.
  - by apply cs_env.
  - eapply cs_go; try done; [intros; by eapply of_client_one|]. intros lg ->. rewrite of_client_self by done.
    cbn [log_of]. split; [by eexists|]. exists tr, os, []. split; [done|]. by eapply si_reqs.
  - eapply cs_go; try done. intros lg [Hlg Ha]. cbn [log_of]. rewrite !app_nil_r. split; [done|]. split; [|done].
    exists k. split; [done|]. by eapply si_rep.
  - eapply cs_end; try done; [intros; by eapply of_client_one|]. rewrite of_client_self by done. right.
    exists x. split; [|split; [done|by subst r]]. apply replied_mono. by eapply si_rep.
  - eapply cs_go; try done; [intros; by eapply of_client_one|]. intros lg ((os & ->) & Hv & Hd & Hsalt).
    rewrite of_client_self by done. cbn [log_of]. exists id, v, os. split.
    + unfold issue_log. subst msg. by rewrite Hd.
    + split; [by apply visited_mono|done].
  - eapply cs_end; try done; [intros; by eapply of_client_one|]. rewrite of_client_self by done. by right.
  - eapply cs_end; try done; [intros; by eapply of_client_two|]. rewrite of_client_self2 by done. right. left.
    by subst msg.
  - eapply cs_end; try done; [intros; by eapply of_client_two|]. rewrite of_client_self2 by done. right. right.
    exists c. by subst msg.
  - eapply cs_go; try done; [intros; by eapply of_client_one|]. intros lg ->. rewrite of_client_self by done.
    cbn [log_of]. by subst msg.
  - eapply cs_go; try done; [intros; by eapply of_client_one|]. intros lg [-> Hk]. rewrite of_client_self by done.
    cbn [log_of]. split; [|done]. exists ip. unfold queued_log.
    destruct (q_step_out _ _ _ _ _ H2) as (_ & _ & _ & _ & -> & _). done.
  - eapply cs_end; try done; [intros; by eapply of_client_one|]. rewrite of_client_self by done. right.
    split; [done|]. apply panicked_mono. destruct (panicked_dec tr) as [|Hn]; [done|].
    destruct H0. by destruct (mgr_alive _ _ _ _ _ (si_q _ _ _ _ _ _ Hi) Hn (si_drop _ _ _ _ _ _ Hi)).
  - eapply cs_go; try done. intros lg [Hlg Ha]. cbn [log_of]. by rewrite !app_nil_r.
  - eapply cs_end; try done; [intros; by eapply of_client_one|]. rewrite of_client_self by done. right.
    left. destruct (si_ans _ _ _ _ _ _ Hi _ _ H0) as [ip Hin].
    destruct (si_anse _ _ _ _ _ _ Hi _ _ _ Hin) as [|[= ->]]; done.
  - eapply cs_end; try done; [intros; by eapply of_client_one|]. rewrite of_client_self by done. right.
    right. split; [done|]. apply panicked_mono. destruct (panicked_dec tr) as [|Hn]; [done|].
    destruct H1. by destruct (mgr_alive _ _ _ _ _ (si_q _ _ _ _ _ _ Hi) Hn (si_drop _ _ _ _ _ _ Hi)).
  - eapply cs_go; try done. intros lg [Hlg Ha]. cbn [log_of]. rewrite !app_nil_r. split; [done|]. split; [done|].
    destruct (si_own _ _ _ _ _ _ Hi _ _ j H eq_refl) as (v' & Hv & _ & Hok). rewrite H0 in Hv. injection Hv as <-.
    cbn [job_ok] in Hok. rewrite H1 in Hok. apply script_true in Hok as (? & ? & _). by split.
  - eapply cs_end; try done; [intros; by eapply of_client_one|]. rewrite of_client_self by done. right.
    split; [done|]. destruct (panicked_dec tr) as [|Hn]; [left; by apply panicked_mono|]. right.
    destruct (si_own _ _ _ _ _ _ Hi _ _ j H eq_refl) as (v' & Hv & _ & Hok). rewrite H0 in Hv. injection Hv as <-.
    cbn [job_ok] in Hok. destruct H1 as [[rest Hb]|[Hb Hl]].
    + rewrite Hb in Hok. by apply script_false in Hok.
    + exfalso. destruct (si_poll _ _ _ _ _ _ Hi _ _ _ _ H) as [ip Ha].
      pose proof (accepted_live _ _ _ _ _ _ _ (si_q _ _ _ _ _ _ Hi) Hn (si_drop _ _ _ _ _ _ Hi) Ha Hl) as Hfin.
      destruct (si_fin _ _ _ _ _ _ Hi _ Hfin) as (v' & Hv & Ht & Hrt). rewrite H0 in Hv. injection Hv as <-.
      rewrite Hb, Ht in Hok. pose proof (script_empty _ _ _ _ Hok) as Hr. congruence.
  - eapply cs_go; try done; [intros; by eapply of_client_one|]. intros lg ([ip ->] & Hk & Hg).
    rewrite of_client_self by done. cbn [log_of]. split; [|done]. exists ip. by subst msg.
  - eapply cs_end; try done; [intros; by eapply of_client_one|]. rewrite of_client_self by done. by right.
  - eapply cs_go; try done; [intros; by eapply of_client_one|]. intros lg ->. rewrite of_client_self by done.
    cbn [log_of]. by exists m, b.
  - eapply cs_end; try done; [intros; by eapply of_client_one|]. rewrite of_client_self by done. by right.
Qed.

(** Who owns which verdict channel. *)
Definition owns (l : pow_lib) (jobs : gmap nat vjob) (cl : gmap nat client) : Prop :=
  (forall n c j, cl !! n = Some c -> client_job c = Some j ->
     exists v, jobs !! j = Some v /\ vj_open v = true /\ job_ok l c v) /\
  (forall n n' c c' j, cl !! n = Some c -> cl !! n' = Some c' ->
     client_job c = Some j -> client_job c' = Some j -> n = n').
Lemma owns_send l jobs cl j v v' :
  owns l jobs cl -> jobs !! j = Some v -> vj_open v' = vj_open v ->
  vj_buf v' ++ vj_todo v' = vj_buf v ++ vj_todo v -> vj_returns v' = vj_returns v ->
  owns l (<[j := v']> jobs) cl.
Proof.
  intros [H1 H2] Hj Ho Hb Hr. split; [|done]. intros n c j' Hn Hc. destruct (H1 _ _ _ Hn Hc) as (x & Hx & Hxo & Hok).
  destruct (decide (j' = j)) as [->|Hne].
  - rewrite Hx in Hj. injection Hj as ->. exists v'. rewrite lookup_insert. split; [done|]. split; [congruence|].
    destruct c; cbn [job_ok] in *; by rewrite ?Hb, ?Hr.
  - exists x. by rewrite lookup_insert_ne.
Qed.
Lemma owns_closed l jobs cl j v v' :
  owns l jobs cl -> jobs !! j = Some v -> vj_open v = false -> owns l (<[j := v']> jobs) cl.
Proof.
  intros [H1 H2] Hj Ho. split; [|done]. intros n c j' Hn Hc. destruct (H1 _ _ _ Hn Hc) as (x & Hx & Hxo & Hok).
  destruct (decide (j' = j)) as [->|Hne]; [congruence|]. exists x. by rewrite lookup_insert_ne.
Qed.
Lemma owns_none l jobs cl n c' :
  owns l jobs cl -> client_job c' = None -> owns l jobs (<[n := c']> cl).
Proof.
  intros [H1 H2] Hc'. split.
  - intros m c j. destruct (decide (m = n)) as [->|Hm]; [rewrite lookup_insert; congruence|].
    rewrite lookup_insert_ne by done. apply H1.
  - intros m m' c c1 j. destruct (decide (m = n)) as [->|Hm]; [rewrite lookup_insert; congruence|].
    rewrite lookup_insert_ne by done.
    destruct (decide (m' = n)) as [->|Hm']; [rewrite lookup_insert; congruence|].
    rewrite lookup_insert_ne by done. apply H2.
Qed.
Lemma owns_same l jobs cl n c c' :
  owns l jobs cl -> cl !! n = Some c -> client_job c' = client_job c ->
  (forall v, job_ok l c v -> job_ok l c' v) -> owns l jobs (<[n := c']> cl).
Proof.
  intros [H1 H2] Hn Hc' Hok. split.
  - intros m d j. destruct (decide (m = n)) as [->|Hm].
    + rewrite lookup_insert. intros [= <-]. rewrite Hc'. intros Hj. destruct (H1 _ _ _ Hn Hj) as (v & ? & ? & ?).
      exists v. eauto.
    + rewrite lookup_insert_ne by done. apply H1.
  - assert (forall m d j, <[n := c']> cl !! m = Some d -> client_job d = Some j ->
              exists d', cl !! m = Some d' /\ client_job d' = Some j) as Hx.
    { intros m d j. destruct (decide (m = n)) as [->|Hm].
      - rewrite lookup_insert. intros [= <-]. rewrite Hc'. eauto.
      - rewrite lookup_insert_ne by done. eauto. }
    intros m m' d d' j A B C D. destruct (Hx _ _ _ A C) as (? & ? & ?), (Hx _ _ _ B D) as (? & ? & ?). eauto.
Qed.
Lemma owns_pop l jobs cl n c c' j v v' :
  owns l jobs cl -> cl !! n = Some c -> client_job c = Some j -> client_job c' = Some j ->
  jobs !! j = Some v -> vj_open v' = vj_open v -> (forall v, job_ok l c' v) ->
  owns l (<[j := v']> jobs) (<[n := c']> cl).
Proof.
  intros Ho Hn Hc Hc' Hj Hop Hok.
  pose proof (owns_same l jobs cl n c c' Ho Hn ltac:(congruence) (fun v _ => Hok v)) as [H1 H2].
  split; [|done]. intros m d j' Hm Hd. destruct (H1 _ _ _ Hm Hd) as (x & Hx & Hxo & Hxok).
  destruct (decide (j' = j)) as [->|Hne].
  - exists v'. rewrite lookup_insert. split; [done|]. split; [congruence|].
    assert (m = n) as -> by (eapply H2; [exact Hm|apply lookup_insert|done|done]).
    rewrite lookup_insert in Hm. injection Hm as <-. apply Hok.
  - exists x. by rewrite lookup_insert_ne.
Qed.
Lemma owns_add l jobs cl n c' j v :
  owns l jobs cl -> jobs !! j = None -> client_job c' = Some j -> vj_open v = true -> job_ok l c' v ->
  owns l (<[j := v]> jobs) (<[n := c']> cl).
Proof.
  intros [H1 H2] Hj Hc' Ho Hok. split.
  - intros m d j'. destruct (decide (m = n)) as [->|Hm].
    + rewrite lookup_insert. intros [= <-]. rewrite Hc'. intros [= <-]. exists v. by rewrite lookup_insert.
    + rewrite lookup_insert_ne by done. intros A B. destruct (H1 _ _ _ A B) as (x & Hx & ?).
      exists x. rewrite lookup_insert_ne by congruence. done.
  - intros m m' d d' j' A B C D.
    assert (forall m d, m <> n -> <[n := c']> cl !! m = Some d -> client_job d = Some j -> False) as Hx.
    { intros m1 d1 Hne E F. rewrite lookup_insert_ne in E by done. destruct (H1 _ _ _ E F) as (? & ? & _). congruence. }
    destruct (decide (m = n)) as [->|Hm]; destruct (decide (m' = n)) as [->|Hm'].
    + done.
    + rewrite lookup_insert in A. injection A as <-. assert (j' = j) as -> by congruence. by destruct (Hx _ _ Hm' B).
    + rewrite lookup_insert in B. injection B as <-. assert (j' = j) as -> by congruence. by destruct (Hx _ _ Hm A).
    + rewrite lookup_insert_ne in A, B by done. eauto.
Qed.
Lemma owns_leave l s n c :
  owns l (sy_jobs s) (sy_clients s) -> sy_clients s !! n = Some c ->
  owns l (sy_jobs (leave s n c)) (sy_clients (leave s n c)).
Proof.
  intros [H1 H2] Hn. cbn [leave sy_jobs sy_clients]. split.
  - intros m d j. destruct (decide (m = n)) as [->|Hm]; [by rewrite lookup_delete|].
    rewrite lookup_delete_ne by done. intros A B. destruct (H1 _ _ _ A B) as (v & Hv & ?).
    exists v. split; [|done]. destruct (client_job c) as [j'|] eqn:Ec; [|done].
    rewrite lookup_alter_ne; [done|]. intros ->. apply Hm. by eapply H2.
  - intros m m' d d' j A B. apply lookup_delete_Some in A as [_ A], B as [_ B]. eauto.
Qed.

Lemma foldl_replies os m k x :
  foldl (fun (r : gmap nat mreply) o => match o with MoReply k x => <[k := x]> r | _ => r end) m os !! k = Some x ->
  m !! k = Some x \/ MoReply k x ∈ os.
Proof.
  revert m. induction os as [|o os IH]; intros m; cbn [foldl]; [by left|]. intros H. apply IH in H as [H|H].
  - destruct o as [r|k' y|c r]; try by left. destruct (decide (k' = k)) as [->|Hne].
    + rewrite lookup_insert in H. injection H as ->. right. by left.
    + rewrite lookup_insert_ne in H by done. by left.
  - right. by right.
Qed.
Lemma foldl_answers os m k x :
  foldl (fun (r : gmap nat (result unit)) o => match o with QAnswer j _ x => <[j := x]> r | _ => r end) m os !! k = Some x ->
  m !! k = Some x \/ exists ip, QAnswer k ip x ∈ os.
Proof.
  revert m. induction os as [|o os IH]; intros m; cbn [foldl]; [by left|]. intros H. apply IH in H as [H|[ip H]].
  - destruct o as [j ip r| | | | |]; try by left. destruct (decide (j = k)) as [->|Hne].
    + rewrite lookup_insert in H. injection H as ->. right. exists ip. by left.
    + rewrite lookup_insert_ne in H by done. by left.
  - right. exists ip. by right.
Qed.
Lemma requests_app a b : requests (a ++ b) = (requests a + requests b)%nat.
Proof. unfold requests. by rewrite List.filter_app, app_length. Qed.
Lemma finished_app a b : finished (a ++ b) = finished a ++ finished b.
Proof. apply omap_app. Qed.

(** Jobs after a step. *)
Lemma scase_jobs p l wk ql tr s e s' o :
  sinv p l wk ql tr s -> scase p l s e s' o ->
  owns l (sy_jobs s') (sy_clients s') /\
  (forall j, is_Some (sy_jobs s' !! j) <-> (j < qs_next (sy_q s'))%nat) /\
  (forall j v, sy_jobs s !! j = Some v -> vj_todo v = [] -> vj_returns v = true ->
     exists v', sy_jobs s' !! j = Some v' /\ vj_todo v' = [] /\ vj_returns v' = true).
Proof.
  intros Hi Hc. pose proof (conj (si_own _ _ _ _ _ _ Hi) (si_inj _ _ _ _ _ _ Hi)) as Ho.
  change (owns l (sy_jobs s) (sy_clients s)) in Ho. pose proof (si_dom _ _ _ _ _ _ Hi) as Hd.
  assert (forall q, qs_next q = qs_next (sy_q s) -> forall j, is_Some (sy_jobs s !! j) <-> (j < qs_next q)%nat) as Hdq.
  { by intros q ->. }
  assert (forall j v, sy_jobs s !! j = Some v -> vj_todo v = [] -> vj_returns v = true ->
     exists v', sy_jobs s !! j = Some v' /\ vj_todo v' = [] /\ vj_returns v' = true) as Hf by eauto.
  assert (forall n c, sy_clients s !! n = Some c ->
     (forall j, is_Some (sy_jobs (leave s n c) !! j) <-> (j < qs_next (sy_q s))%nat) /\
     (forall j v, sy_jobs s !! j = Some v -> vj_todo v = [] -> vj_returns v = true ->
     exists v', sy_jobs (leave s n c) !! j = Some v' /\ vj_todo v' = [] /\ vj_returns v' = true)) as Hlv.
  { intros n c Hn. cbn [leave sy_jobs]. destruct (client_job c) as [j0|]; [|done]. split.
    - intros j. rewrite lookup_alter_is_Some. apply Hd.
    - intros j v Hj Ht Hr. destruct (decide (j0 = j)) as [->|Hne].
      + rewrite lookup_alter, Hj. by eexists.
      + rewrite lookup_alter_ne by done. eauto. }
  assert (forall j v v', sy_jobs s !! j = Some v -> forall j', is_Some (<[j := v']> (sy_jobs s) !! j') <->
            (j' < qs_next (sy_q s))%nat) as Hins.
  { intros j v v' Hj j'. rewrite lookup_insert_is_Some'. rewrite <- Hd. split; [|by right].
    intros [->|]; [by rewrite Hj|done]. }
  destruct Hc.
  - split_and!; try done. apply owns_none; [done|]. by destruct c.
  - split; [by apply owns_leave|]. by apply Hlv.
  - done.
  - split; [done|]. split; [|done]. apply Hdq. cbn [with_q sy_q]. by destruct (q_step_out _ _ _ _ _ H) as (_ & _ & _ & -> & _).
  - split; [done|]. split; [|done]. apply Hdq. cbn [with_q sy_q]. by destruct (q_step_out _ _ _ _ _ H) as (_ & _ & _ & -> & _).
  - split; [by eapply owns_closed|]. split; [by eapply Hins|].
    intros j' v' Hj Ht Hr. cbn [with_job sy_jobs]. destruct (decide (j = j')) as [->|Hne]; [congruence|].
    rewrite lookup_insert_ne by done. eauto.
  - split. { eapply owns_send; try done. cbn. by rewrite H1, <- app_assoc. }
    split; [by eapply Hins|].
    intros j' v' Hj Ht Hr. cbn [with_job sy_jobs]. destruct (decide (j = j')) as [->|Hne]; [congruence|].
    rewrite lookup_insert_ne by done. eauto.
  - split; [done|]. split; [|done]. apply Hdq. cbn [with_q sy_q]. by destruct (q_step_out _ _ _ _ _ H3) as (_ & _ & _ & -> & _).
  - split; [done|]. split; [|done]. apply Hdq. cbn [with_q sy_q]. by destruct (q_step_out _ _ _ _ _ H3) as (_ & _ & _ & -> & _).
  - done.
  - done.
  - split; [|done]. by apply owns_none.
  - split; [|done]. by apply owns_none.
  - split; [by apply owns_leave|]. by apply Hlv.
  - split; [|done]. by apply owns_none.
  - split; [by apply owns_leave|]. by apply Hlv.
  - split; [by apply (owns_leave l (with_c s h))|]. exact (Hlv _ _ H).
  - split; [by apply (owns_leave l (with_c s h))|]. exact (Hlv _ _ H).
  - split; [|done]. by apply owns_none.
  - destruct (q_step_out _ _ _ _ _ H2) as (_ & _ & _ & Hnx & _).
    assert (sy_jobs s !! qs_next (sy_q s) = None) as Hnone.
    { apply eq_None_not_Some. rewrite Hd. lia. }
    split; [|split].
    + by apply owns_add.
    + intros j. cbn [with_client with_job with_q sy_jobs sy_q]. rewrite lookup_insert_is_Some', Hd, Hnx. lia.
    + intros j v Hj Ht Hr. cbn [with_client with_job with_q sy_jobs].
      rewrite lookup_insert_ne by congruence. eauto.
  - split; [by apply owns_leave|]. by apply Hlv.
  - split; [|done]. by eapply owns_same.
  - split; [by apply owns_leave|]. by apply Hlv.
  - split; [by apply owns_leave|]. by apply Hlv.
  - split; [|split].
    + by eapply owns_pop.
    + by eapply Hins.
    + intros j' v' Hj Ht Hr. cbn [with_client with_job sy_jobs]. destruct (decide (j = j')) as [->|Hne].
      * rewrite lookup_insert. rewrite H0 in Hj. injection Hj as <-. by eexists.
      * rewrite lookup_insert_ne by done. eauto.
  - split; [by apply owns_leave|]. by apply Hlv.
  - split; [|done]. by eapply owns_same.
  - split; [by apply owns_leave|]. by apply Hlv.
  - split; [|done]. by apply owns_none.
  - split; [by apply owns_leave|]. by apply Hlv.
Qed.

Lemma sinv_step p l wk ql tr s e s' o :
  sinv p l wk ql tr s -> scase p l s e s' o -> sinv p l wk ql (tr ++ o) s'.
Proof.
  intros Hi Hc. pose proof (scase_cstep _ _ _ _ _ _ _ _ _ Hi Hc) as Hcs.
  destruct (cstep_log _ _ _ _ _ _ _ _ Hi Hcs) as (Hl1 & Hl2 & Hl3).
  destruct (scase_jobs _ _ _ _ _ _ _ _ _ Hi Hc) as ([Hj1 Hj2] & Hj3 & Hj4).
  split; try done.
  - rewrite qtrace_app, qouts_app. apply q_run_app. do 3 eexists. split; [by eapply si_q|]. split; [|done]. by eapply scase_q.
  - rewrite mtrace_app, requests_app, <- (si_reqs _ _ _ _ _ _ Hi).
    destruct Hc; try (cbn; lia).
    + destruct (m_step_frame _ _ _ _ _ H0) as [_ Hr]. cbn [with_m sy_m mtrace omap list_omap]. rewrite Hr.
      by destruct e.
    + destruct (m_step_frame _ _ _ _ _ H) as [_ Hr]. exact Hr.
    + destruct (m_step_frame _ _ _ _ _ H0) as [_ Hr]. exact Hr.
  - assert (forall k x, sy_replies s !! k = Some x -> replied (tr ++ o) k x) as H0.
    { intros k x Hk. apply replied_mono. by eapply si_rep. }
    assert (forall m os, mouts o = os -> forall k x, sy_replies (with_m s m os) !! k = Some x -> replied (tr ++ o) k x) as H1.
    { intros m os <- k x Hk. cbn [with_m sy_replies] in Hk. apply foldl_replies in Hk as [Hk|Hk]; [by apply H0|].
      unfold replied. rewrite mouts_app. apply elem_of_app. by right. }
    destruct Hc; try (exact H0); apply (H1 m); unfold mouts; cbn; by rewrite app_nil_r.
  - assert (forall j x, sy_answers s !! j = Some x -> exists ip, QAnswer j ip x ∈ qouts (tr ++ o)) as H0.
    { intros k x Hk. destruct (si_ans _ _ _ _ _ _ Hi _ _ Hk) as [ip Hin]. exists ip. rewrite qouts_app. apply elem_of_app. by left. }
    assert (forall q os, qouts o = os -> forall k x, sy_answers (with_q s q os) !! k = Some x ->
              exists ip, QAnswer k ip x ∈ qouts (tr ++ o)) as H1.
    { intros q os <- k x Hk. cbn [with_q sy_answers] in Hk. apply foldl_answers in Hk as [Hk|[ip Hk]]; [by apply H0|].
      exists ip. rewrite qouts_app. apply elem_of_app. by right. }
    destruct Hc; try (exact H0); apply (H1 q); unfold qouts; cbn; by rewrite app_nil_r.
  - intros j ip x. rewrite qouts_app, elem_of_app. intros [Hin|Hin]; [by eapply si_anse|].
    revert Hin. destruct Hc; try (by intros ?%elem_of_nil); unfold qouts; cbn [omap list_omap concat];
      rewrite app_nil_r; match goal with H : q_step _ _ _ = _ |- _ => destruct (q_step_out _ _ _ _ _ H) as (Hx & _) end; apply Hx.
  - pose proof (si_drop _ _ _ _ _ _ Hi) as Hd.
    destruct Hc; try (exact Hd); cbn [with_q with_job with_client sy_q];
      match goal with H : q_step _ _ _ = _ |- _ => destruct (q_step_out _ _ _ _ _ H) as (_ & _ & Hx & _) end;
      by rewrite Hx.
  - intros j. rewrite qouts_app, finished_app, fmap_app, elem_of_app. intros [Hin|Hin].
    + destruct (si_fin _ _ _ _ _ _ Hi _ Hin) as (v & ? & ? & ?). eauto.
    + assert (exists r, QFinish r j ∈ qouts o) as [r Hr].
      { apply elem_of_list_fmap in Hin as ([r j'] & -> & Hin). apply elem_of_list_omap in Hin as (x & Hx & E).
        destruct x; try done. injection E as -> ->. by eexists. }
      clear Hin. revert Hr. destruct Hc; try (by intros ?%elem_of_nil); unfold qouts; cbn [omap list_omap concat];
      rewrite app_nil_r; match goal with H : q_step _ _ _ = _ |- _ => destruct (q_step_out _ _ _ _ _ H) as (_ & Hx & _) end;
      intros Hr; apply Hx in Hr as [Hr1 Hr2]; try done.
      injection Hr1 as <-. rewrite H in Hr2. injection Hr2 as <-. eauto.
  - intros n w c j Hn.
    assert (sy_clients s !! n = Some (VpPoll w c j) \/ sy_answers s !! j = Some (Ok tt)) as [Hold|Ha].
    { revert Hn.
      assert (forall m d, d <> VpPoll w c j -> <[m := d]> (sy_clients s) !! n = Some (VpPoll w c j) ->
                sy_clients s !! n = Some (VpPoll w c j)) as Hx.
      { intros m d Hne. destruct (decide (m = n)) as [->|]; [rewrite lookup_insert; congruence|by rewrite lookup_insert_ne]. }
      assert (forall m, delete m (sy_clients s) !! n = Some (VpPoll w c j) ->
                sy_clients s !! n = Some (VpPoll w c j)) as Hy.
      { intros m. by rewrite lookup_delete_Some; intros []. }
      destruct Hc; cbn [with_m with_c with_q with_job with_client leave sy_clients]; try (by left);
        try (intros Hh; left; eapply Hx; [|exact Hh]; done); try (intros Hh; left; by eapply Hy).
      + intros Hh. left. eapply Hx; [|done]. by destruct c0.
      + destruct (decide (n0 = n)) as [->|Hne].
        * rewrite lookup_insert. intros [= -> -> ->]. by right.
        * rewrite lookup_insert_ne by done. by left. }
    + destruct (si_poll _ _ _ _ _ _ Hi _ _ _ _ Hold) as [ip Hin]. exists ip. rewrite qouts_app. apply elem_of_app. by left.
    + destruct (si_ans _ _ _ _ _ _ Hi _ _ Ha) as [ip Hin]. exists ip. rewrite qouts_app. apply elem_of_app. by left.
Qed.
Lemma sinv_start p l t gc wk ql : sinv p l wk ql [] (sys_start t gc wk ql).
Proof.
  split; try done; try (intros; by rewrite lookup_empty in * ); try (intros; by apply elem_of_nil in H).
  - intros j. cbn. rewrite lookup_empty. split; [by intros []|lia].
  - intros n Hn. cbn in Hn. lia.
Qed.
Lemma run_sinv p l t gc wk ql es s tr :
  s_run p l (sys_start t gc wk ql) es = Some (s, tr) -> sinv p l wk ql tr s.
Proof.
  revert s tr. induction es as [|e es IH] using rev_ind; intros s tr Hr.
  - injection Hr as <- <-. apply sinv_start.
  - apply s_run_snoc in Hr as (s1 & tr1 & o & H1 & H2 & ->). eapply sinv_step; [by eapply IH|].
    by apply s_step_case.
Qed.
