(** Consequences of the System's invariant: histories of clients, provenance of
    challenges and tokens. *)
From Coq Require Import ZifyBool ZifyN ZifyNat Lia.
From Verif Require Import Model.Base Model.Defense Model.MCaptcha Model.Counter Model.Master
  Model.HashCache Model.Queue Model.Pow Model.System
  Spec.CacheSpec Spec.QueueSpec Spec.MasterSpec Spec.SystemSpec
  Proofs.CacheProofs Proofs.QueueProofs Proofs.MasterProofs Proofs.MasterTasks Proofs.SystemProofs.

(** * Splitting traces *)
Lemma omap_split {A B} (f : A -> option B) (xs : list A) pre y post :
  omap f xs = pre ++ y :: post ->
  exists xs1 x xs2, xs = xs1 ++ x :: xs2 /\ f x = Some y /\ omap f xs1 = pre /\ omap f xs2 = post.
Proof.
  revert pre. induction xs as [|x xs IH]; intros pre H; [by destruct pre|].
  cbn [omap list_omap] in H. destruct (f x) as [z|] eqn:E.
  - destruct pre as [|a pre]; injection H as -> H.
    + exists [], x, xs. done.
    + destruct (IH _ H) as (xs1 & x' & xs2 & -> & Hx & H1 & H2). exists (x :: xs1), x', xs2.
      split; [done|]. split; [done|]. split; [|done]. cbn [omap list_omap]. by rewrite E, <- H1.
  - destruct (IH _ H) as (xs1 & x' & xs2 & -> & Hx & H1 & H2). exists (x :: xs1), x', xs2.
    split; [done|]. split; [done|]. split; [|done]. cbn [omap list_omap]. by rewrite E.
Qed.
Lemma fmap_split {A B} (f : A -> B) (xs : list A) pre y post :
  f <$> xs = pre ++ y :: post ->
  exists xs1 x xs2, xs = xs1 ++ x :: xs2 /\ f x = y /\ f <$> xs1 = pre /\ f <$> xs2 = post.
Proof.
  revert pre. induction xs as [|x xs IH]; intros pre H; [by destruct pre|].
  destruct pre as [|a pre]; injection H as <- H.
  - exists [], x, xs. done.
  - destruct (IH _ H) as (xs1 & x' & xs2 & -> & Hx & H1 & H2). exists (x :: xs1), x', xs2.
    split; [done|]. split; [done|]. split; [|done]. rewrite fmap_cons. by rewrite H1.
Qed.
Lemma cache_run_length s es s' os : cache_run s es = Some (s', os) -> length es = length os.
Proof.
  revert s os. induction es as [|e es IH]; intros s os; cbn [cache_run]; [by intros [= _ <-]|].
  destruct (cache_step s e) as [[s1 o]|]; [|done]. destruct (cache_run s1 es) as [[s2 os2]|] eqn:E; [|done].
  intros [= -> <-]. cbn. f_equal. by eapply IH.
Qed.
Lemma cache_run_split s pre e r post s' :
  cache_run s (pre ++ (e, r) :: post).*1 = Some (s', (pre ++ (e, r) :: post).*2) ->
  exists s1 s2, cache_run s pre.*1 = Some (s1, pre.*2) /\ cache_step s1 e = Some (s2, r) /\
    cache_run s2 post.*1 = Some (s', post.*2).
Proof.
  revert s. induction pre as [|[e0 r0] pre IH]; intros s; cbn [app]; rewrite !fmap_cons; cbn [fst snd cache_run].
  - destruct (cache_step s e) as [[s1 o]|] eqn:E0; [|done].
    destruct (cache_run s1 _) as [[s2 os]|] eqn:E; [|done]. intros [= -> -> ->]. exists s, s1. done.
  - destruct (cache_step s e0) as [[s1 o]|] eqn:E0; [|done].
    destruct (cache_run s1 _) as [[s2 os]|] eqn:E; [|done]. intros [= -> -> ->].
    destruct (IH _ E) as (s3 & s4 & H1 & H2 & H3). exists s3, s4. rewrite H1. done.
Qed.

(** The cache just before a cache event of the trace. *)
Lemma cache_at p l t gc wk ql es s tr tr1 w e r tr2 :
  s_run p l (sys_start t gc wk ql) es = Some (s, tr) -> tr = tr1 ++ SoCache w e r :: tr2 ->
  exists h h', cache_run (cache_start t) (ctrace tr1).*1 = Some (h, (ctrace tr1).*2) /\
    cache_step h e = Some (h', r) /\
    cache_run h' (ctrace tr2).*1 = Some (CacheSys (s_now s) (sy_c s), (ctrace tr2).*2).
Proof.
  intros Hr ->. pose proof (pt_c _ _ _ _ _ _ _ (run_parts _ _ _ _ _ _ _ _ _ Hr)) as Hc.
  rewrite ctrace_app in Hc. change (ctrace (SoCache w e r :: tr2)) with ((e, r) :: ctrace tr2) in Hc.
  by apply cache_run_split in Hc.
Qed.

(** * Client histories *)
Lemma client_history p l wk ql tr s n :
  sinv p l wk ql tr s ->
  of_client n tr = [] \/
  exists c lg f, log_of l tr n c lg /\ (f = [] \/ final l tr n c f) /\ of_client n tr = lg ++ f.
Proof.
  intros Hi. destruct (decide (n < sy_next s)%nat) as [Hlt|Hge].
  - destruct (sy_clients s !! n) as [c|] eqn:E.
    + right. exists c, (of_client n tr), []. split; [by eapply si_log|]. split; [by left|]. by rewrite app_nil_r.
    + right. destruct (si_gone _ _ _ _ _ _ Hi n Hlt E) as (c & lg & f & ? & ? & ?). exists c, lg, f. auto.
  - left. eapply si_fresh; [done|lia].
Qed.
Lemma client_in p l wk ql tr s n o :
  sinv p l wk ql tr s -> o ∈ tr -> who o = Some n ->
  exists c lg f, log_of l tr n c lg /\ (f = [] \/ final l tr n c f) /\ of_client n tr = lg ++ f /\ o ∈ lg ++ f.
Proof.
  intros Hi Ho Hw. assert (o ∈ of_client n tr) as Hin by (by apply elem_of_of_client).
  destruct (client_history _ _ _ _ _ _ n Hi) as [E|(c & lg & f & H1 & H2 & E)]; rewrite E in Hin.
  - by apply elem_of_nil in Hin.
  - by exists c, lg, f.
Qed.
Ltac elem_cases :=
  repeat match goal with
  | H : _ ∈ _ ++ _ |- _ => apply elem_of_app in H as [H|H]
  | H : _ ∈ _ :: _ |- _ => apply elem_of_cons in H as [H|H]
  | H : _ ∈ [] |- _ => by apply elem_of_nil in H
  end.
(** All finished or running calls of one client, as one list of cases. *)
Inductive story (l : pow_lib) (tr : list sout) (n : nat) : list sout -> Prop :=
| st_nothing : story l tr n []
| st_get0 id f : f = [] \/ f = [SoCancel n] -> story l tr n ([SoCall n (CGetPow id)] ++ f)
| st_get1 id os f : f = [] \/ f = [SoCancel n] \/
    (exists k x, asked tr n id k /\ replied tr k x /\ (forall v, x <> MrVisit (Ok (Some v))) /\
       f = [SoRet n (RGetPow match x with MrClosed => Err MailboxError | MrDropped => Err RecvError | _ => Ok None end)]) ->
    story l tr n (visit_log n id os ++ f)
| st_get2 id os cfg v f : visited tr n id v ->
    pc_difficulty_factor cfg = avr_difficulty_factor v -> pc_salt cfg = pl_salt l ->
    f = [] \/ f = [SoCancel n] \/ f = [SoRet n (RGetPow (Ok (Some cfg)))] ->
    story l tr n (issue_log n id os cfg v ++ f)
| st_ver0 w ip f : f = [] \/ f = [SoCancel n] \/
    f = [retrieve_out n w None; SoRet n (RVerifyPow (Err StringNotFound))] \/
    (exists c, w_key w <> cc_key c /\
      f = [retrieve_out n w (Some c); SoRet n (RVerifyPow (Err MCaptchaKeyValidationFail))]) ->
    story l tr n ([SoCall n (CVerifyPow w ip)] ++ f)
| st_ver1 w ip c f : w_key w = cc_key c ->
    f = [] \/ f = [SoCancel n] \/ (f = [SoRet n RPanic] /\ check_panicked tr) ->
    story l tr n (taken_log n w ip c ++ f)
| st_ver2 w ip c f : w_key w = cc_key c ->
    f = [] \/ f = [SoCancel n] \/
    f = [SoRet n (RVerifyPow (Err QueueFull))] \/
    (f = [SoRet n (RVerifyPow (Err RecvError))] /\ check_panicked tr) \/
    (f = [SoRet n (RVerifyPow (Err InsuffiencientDifficulty))] /\
      (check_panicked tr \/ sufficient l w (cc_difficulty_factor c) false \/
       (sufficient l w (cc_difficulty_factor c) true /\ valid l w false))) ->
    story l tr n (queued_log n w ip c ++ f)
| st_ver3 w ip c tok f : w_key w = cc_key c -> good l w (cc_difficulty_factor c) ->
    f = [] \/ f = [SoCancel n] \/ f = [SoRet n (RVerifyPow (Ok (tok, cc_difficulty_factor c)))] ->
    story l tr n ((queued_log n w ip c ++ [mint_out n c tok]) ++ f)
| st_val0 m f : f = [] \/ f = [SoCancel n] -> story l tr n ([SoCall n (CValidate m)] ++ f)
| st_val1 m b f : f = [] \/ f = [SoCancel n] \/ f = [SoRet n (RValidate (Ok b))] ->
    story l tr n ([SoCall n (CValidate m);
      SoCache (Some n) (HeMsg (HmVerifyCaptchaResult m)) (Some (HrBool (Ok b)))] ++ f).

Lemma client_story p l wk ql tr s n : sinv p l wk ql tr s -> story l tr n (of_client n tr).
Proof.
  intros Hi. destruct (client_history _ _ _ _ _ _ n Hi) as [->|(c & lg & f & Hlg & Hf & ->)]; [constructor|].
  destruct c as [id|id k|id v cfg|cfg|w ip|w ip c|w c j|w c j|w c j tok|w c j tok|m|b]; cbn [log_of] in Hlg.
  - subst lg. apply st_get0. by destruct Hf as [|[|]]; auto.
  - destruct Hlg as [[os ->] Ha]. apply st_get1.
    destruct Hf as [|[|(x & ? & ? & ->)]]; auto. right. right. by exists k, x.
  - destruct Hlg as ([os ->] & Hv & _). apply st_get1. by destruct Hf as [|[|]]; auto.
  - destruct Hlg as (id & v & os & -> & Hv & ? & ?). by apply st_get2.
  - subst lg. apply st_ver0. destruct Hf as [|[|[|]]]; auto.
  - destruct Hlg as [-> Hk]. apply st_ver1; [done|]. destruct Hf as [|[|[]]]; auto.
  - destruct Hlg as [[ip ->] Hk]. apply st_ver2; [done|]. destruct Hf as [|[|[|[]]]]; auto 10.
  - destruct Hlg as [[ip ->] Hk]. apply st_ver2; [done|]. destruct Hf as [|[|[]]]; auto 10.
  - destruct Hlg as ([ip ->] & Hk & Hg). apply st_ver2; [done|]. by destruct Hf as [|[|]]; auto.
  - destruct Hlg as ([ip ->] & Hk & Hg). apply st_ver3; [done|done|]. by destruct Hf as [|[|]]; auto.
  - subst lg. apply st_val0. by destruct Hf as [|[|]]; auto.
  - destruct Hlg as (m & b' & -> & ->). apply st_val1. by destruct Hf as [|[|]]; auto.
Qed.

(** Events without a client are expiries and the passing of time. *)
Lemma nobody p l t gc wk ql es s tr e r :
  s_run p l (sys_start t gc wk ql) es = Some (s, tr) -> SoCache None e r ∈ tr ->
  (exists d, e = HeTick d) \/ exists due d, e = HeExpire due d.
Proof.
  revert s tr. induction es as [|ev es IH] using rev_ind; intros s tr Hr Hin.
  - injection Hr as <- <-. by apply elem_of_nil in Hin.
  - apply s_run_snoc in Hr as (s1 & tr1 & o & H1 & H2 & ->). apply elem_of_app in Hin as [Hin|Hin]; [by eapply IH|].
    apply s_step_case in H2. destruct H2; elem_cases; try done; simplify_eq; eauto.
Qed.

Lemma who_of p l t gc wk ql es s tr w m r :
  s_run p l (sys_start t gc wk ql) es = Some (s, tr) -> SoCache w (HeMsg m) r ∈ tr -> exists n, w = Some n.
Proof.
  intros Hr Hin. destruct w as [n|]; [by exists n|].
  destruct (nobody _ _ _ _ _ _ _ _ _ _ _ Hr Hin) as [[? ?]|(? & ? & ?)]; done.
Qed.

(** Decide membership in a story. *)
Ltac story_cases Hst Hin :=
  inversion Hst as [Hx|id0 f0 Hf0 Hx|id0 os0 f0 Hf0 Hx|id0 os0 cfg0 v0 f0 Hv0 Hd0 Hs0 Hf0 Hx|w0 ip0 f0 Hf0 Hx
    |w0 ip0 c0 f0 Hk0 Hf0 Hx|w0 ip0 c0 f0 Hk0 Hf0 Hx|w0 ip0 c0 tok0 f0 Hk0 Hg0 Hf0 Hx|m0 f0 Hf0 Hx|m0 b0 f0 Hf0 Hx];
  rewrite <- Hx in Hin; unfold issue_log, visit_log, queued_log, taken_log, retrieve_out, mint_out in Hin;
  elem_cases; simplify_eq;
  repeat match goal with
  | H : _ \/ _ |- _ => destruct H
  | H : _ /\ _ |- _ => destruct H
  | H : exists _, _ |- _ => destruct H
  end; subst; elem_cases; simplify_eq.

Section run.
  Context (p : profile) (l : pow_lib) (t gc : N) (wk : nat) (ql : N) (es : list sevent) (s : ssys) (tr : list sout).
  Context (Hr : s_run p l (sys_start t gc wk ql) es = Some (s, tr)).

  Lemma run_story n : story l tr n (of_client n tr).
  Proof. eapply client_story. by eapply run_sinv. Qed.

  Lemma cachepow_by w m r :
    SoCache w (HeMsg (HmCachePoW m)) r ∈ tr ->
    exists n v, w = Some n /\ called tr n (CGetPow (cp_key m)) /\ visited tr n (cp_key m) v /\
      cp_difficulty_factor m = avr_difficulty_factor v /\ cp_duration m = avr_duration v.
  Proof.
    intros Hin. destruct (who_of _ _ _ _ _ _ _ _ _ _ _ _ Hr Hin) as [n ->]. exists n.
    assert (SoCache (Some n) (HeMsg (HmCachePoW m)) r ∈ of_client n tr) as Hc by (by apply elem_of_of_client).
    pose proof (run_story n) as Hst.
    assert (forall o, o ∈ of_client n tr -> o ∈ tr) as Hsub by (by intros o [_ ?]%elem_of_of_client).
    story_cases Hst Hc; exists v0; (split; [done|]); (split; [|split; [done|split; done]]);
      apply Hsub; rewrite <- Hx; unfold issue_log, visit_log; set_solver.
  Qed.
  Lemma mint_by w m r :
    SoCache w (HeMsg (HmCacheResult m)) r ∈ tr ->
    exists n wk' ip c, w = Some n /\ called tr n (CVerifyPow wk' ip) /\
      m = CacheResult (cr_token m) (cc_key c) (cc_duration c) /\ w_key wk' = cc_key c /\
      good l wk' (cc_difficulty_factor c) /\ retrieve_out n wk' (Some c) ∈ tr /\
      (of_client n tr = queued_log n wk' ip c ++ [mint_out n c (cr_token m)] \/
       of_client n tr = queued_log n wk' ip c ++ [mint_out n c (cr_token m); SoCancel n] \/
       of_client n tr = queued_log n wk' ip c ++ [mint_out n c (cr_token m);
          SoRet n (RVerifyPow (Ok (cr_token m, cc_difficulty_factor c)))]).
  Proof.
    intros Hin. destruct (who_of _ _ _ _ _ _ _ _ _ _ _ _ Hr Hin) as [n ->]. exists n.
    assert (SoCache (Some n) (HeMsg (HmCacheResult m)) r ∈ of_client n tr) as Hc by (by apply elem_of_of_client).
    pose proof (run_story n) as Hst.
    assert (forall o, o ∈ of_client n tr -> o ∈ tr) as Hsub by (by intros o [_ ?]%elem_of_of_client).
    story_cases Hst Hc; exists w0, ip0, c0; (split; [done|]);
      (split; [apply Hsub; rewrite <- Hx; unfold queued_log, taken_log; set_solver|]);
      (split; [done|]); (split; [done|]); (split; [done|]);
      (split; [apply Hsub; rewrite <- Hx; unfold queued_log, taken_log; set_solver|]);
      auto.
  Qed.
  Lemma verify_ok n tok d :
    returned tr n (RVerifyPow (Ok (tok, d))) ->
    exists w ip c, of_client n tr =
        [SoCall n (CVerifyPow w ip); retrieve_out n w (Some c); SoQueue (Some n) (QeAdd ip) [];
         mint_out n c tok; SoRet n (RVerifyPow (Ok (tok, d)))] /\
      cc_key c = w_key w /\ cc_difficulty_factor c = d /\ good l w d.
  Proof.
    intros Hin. assert (SoRet n (RVerifyPow (Ok (tok, d))) ∈ of_client n tr) as Hc by (by apply elem_of_of_client).
    pose proof (run_story n) as Hst. story_cases Hst Hc. exists w0, ip0, c0. done.
  Qed.
End run.

(** * Counting *)
Definition unnamed (tr : list sout) : Prop := forall m r, SoCache None (HeMsg m) r ∉ tr.
Lemma run_unnamed p l t gc wk ql es s tr :
  s_run p l (sys_start t gc wk ql) es = Some (s, tr) -> unnamed tr.
Proof. intros Hr m r Hin. destruct (who_of _ _ _ _ _ _ _ _ _ _ _ _ Hr Hin). done. Qed.
Definition held {V} (x : option V) : nat := match x with Some _ => 1%nat | None => 0%nat end.

Lemma issuers_app x tr1 tr2 : issuers x (tr1 ++ tr2) = issuers x tr1 ++ issuers x tr2.
Proof. apply omap_app. Qed.
Lemma issuers_cons x o tr : issuers x (o :: tr) = issuers x [o] ++ issuers x tr.
Proof. apply (issuers_app x [o]). Qed.
Lemma consumers_app x tr1 tr2 : consumers x (tr1 ++ tr2) = consumers x tr1 ++ consumers x tr2.
Proof. apply omap_app. Qed.
Lemma consumers_cons x o tr : consumers x (o :: tr) = consumers x [o] ++ consumers x tr.
Proof. apply (consumers_app x [o]). Qed.
Lemma minters_app x tr1 tr2 : minters x (tr1 ++ tr2) = minters x tr1 ++ minters x tr2.
Proof. apply omap_app. Qed.
Lemma minters_cons x o tr : minters x (o :: tr) = minters x [o] ++ minters x tr.
Proof. apply (minters_app x [o]). Qed.
Lemma acceptors_app x tr1 tr2 : acceptors x (tr1 ++ tr2) = acceptors x tr1 ++ acceptors x tr2.
Proof. apply omap_app. Qed.
Lemma acceptors_cons x o tr : acceptors x (o :: tr) = acceptors x [o] ++ acceptors x tr.
Proof. apply (acceptors_app x [o]). Qed.

Lemma consumers_count x tr h0 h :
  unnamed tr -> cache_run h0 (ctrace tr).*1 = Some (h, (ctrace tr).*2) ->
  (length (consumers x tr) + held (hc_difficulty_map (hs_cache h) !! x) <=
   length (issuers x tr) + held (hc_difficulty_map (hs_cache h0) !! x))%nat.
Proof.
  revert h0. induction tr as [|o tr IH]; intros h0 Hu Hr.
  { cbn in Hr. injection Hr as <-. cbn. lia. }
  assert (unnamed tr) as Hu' by (intros m r Hin; apply (Hu m r); by right).
  destruct o as [| | | |w e r|]; try (by apply (IH _ Hu')).
  change (ctrace (SoCache w e r :: tr)) with ((e, r) :: ctrace tr) in Hr.
  apply (cache_run_split _ []) in Hr as (h1 & h2 & [= <-] & Hs & Hr). specialize (IH _ Hu' Hr).
  assert (forall m, e = HeMsg m -> exists n, w = Some n) as Hw.
  { intros m ->. destruct w as [n|]; [by exists n|]. exfalso. apply (Hu m r). by left. }
  pose proof (step_challenge _ _ _ _ x Hs) as Hx.
  rewrite (consumers_cons x (SoCache w e r) tr).
  rewrite (issuers_cons x (SoCache w e r) tr).
  rewrite !app_length. rewrite Hx in IH. clear Hx.
  destruct e as [m|d|due d]; [|destruct w; cbn in IH |- *; lia|].
  - destruct (Hw _ eq_refl) as [n ->]. destruct m as [m|m|m|m|d]; cbn [about_challenge] in IH; cbn [consumers issuers omap list_omap].
    + destruct (decide _) as [E|E]; cbn in IH |- *; destruct (hc_difficulty_map (hs_cache h0) !! x); cbn in IH |- *; lia.
    + cbn in Hs. unfold retrive_pow_config, remove_pow_config in Hs.
      destruct (hc_difficulty_map (hs_cache h0) !! vr_token m) eqn:El; injection Hs as <- <-.
      * destruct (decide _) as [<-|E]; cbn in IH |- *; [rewrite El|]; cbn; lia.
      * destruct (decide _) as [<-|E]; cbn in IH |- *; [rewrite El|]; cbn; lia.
    + lia.
    + destruct r as [[| |[[]|]]|]; try (destruct (decide _)); cbn in IH |- *; lia.
    + destruct d; [destruct (decide _)|]; cbn in IH |- *; lia.
  - destruct w; destruct d; cbn [about_challenge] in IH; try destruct (decide _); cbn in IH |- *; lia.
Qed.
Lemma acceptors_count x tr h0 h :
  unnamed tr -> cache_run h0 (ctrace tr).*1 = Some (h, (ctrace tr).*2) ->
  (length (acceptors x tr) + held (hc_result_map (hs_cache h) !! x) <=
   length (minters x tr) + held (hc_result_map (hs_cache h0) !! x))%nat.
Proof.
  revert h0. induction tr as [|o tr IH]; intros h0 Hu Hr.
  { cbn in Hr. injection Hr as <-. cbn. lia. }
  assert (unnamed tr) as Hu' by (intros m r Hin; apply (Hu m r); by right).
  destruct o as [| | | |w e r|]; try (by apply (IH _ Hu')).
  change (ctrace (SoCache w e r :: tr)) with ((e, r) :: ctrace tr) in Hr.
  apply (cache_run_split _ []) in Hr as (h1 & h2 & [= <-] & Hs & Hr). specialize (IH _ Hu' Hr).
  assert (forall m, e = HeMsg m -> exists n, w = Some n) as Hw.
  { intros m ->. destruct w as [n|]; [by exists n|]. exfalso. apply (Hu m r). by left. }
  pose proof (step_token _ _ _ _ x Hs) as Hx.
  rewrite (acceptors_cons x (SoCache w e r) tr).
  rewrite (minters_cons x (SoCache w e r) tr).
  rewrite !app_length. rewrite Hx in IH. clear Hx.
  destruct e as [m|d|due d]; [|destruct w; cbn in IH |- *; lia|].
  - destruct (Hw _ eq_refl) as [n ->]. destruct m as [m|m|m|m|d]; cbn [about_token] in IH; cbn [acceptors minters omap list_omap].
    + lia.
    + destruct r as [[|[[]|]|]|]; try (destruct (decide _)); cbn in IH |- *; lia.
    + destruct (decide _) as [E|E]; cbn in IH |- *; destruct (hc_result_map (hs_cache h0) !! x); cbn in IH |- *; lia.
    + cbn in Hs. unfold verify_result, remove_cache_result in Hs.
      destruct (hc_result_map (hs_cache h0) !! vr_token m) eqn:El.
      * destruct (decide (s = vr_key m)); injection Hs as <- <-;
          destruct (decide _) as [<-|E]; cbn in IH |- *; try rewrite El; cbn; lia.
      * injection Hs as <- <-. destruct (decide _) as [<-|E]; cbn in IH |- *; [rewrite El|]; cbn; lia.
    + destruct d; [|destruct (decide _)]; cbn in IH |- *; lia.
  - destruct w; destruct d; cbn [about_token] in IH; try destruct (decide _); cbn in IH |- *; lia.
Qed.

(** Nodup and membership of the four lists. *)
Lemma elem_of_issuers x tr n :
  n ∈ issuers x tr <-> exists m r, SoCache (Some n) (HeMsg (HmCachePoW m)) r ∈ tr /\ cp_string m = x.
Proof.
  unfold issuers. rewrite elem_of_list_omap. split.
  - intros (o & Hin & Ho). destruct o as [| | | |[n'|] [[m|m|m|m|d]|d|due d] r|]; try done.
    destruct (decide _) as [E|]; [|done]. injection Ho as ->. by exists m, r.
  - intros (m & r & Hin & Hm). eexists. split; [exact Hin|]. cbn. by rewrite decide_True.
Qed.
Lemma elem_of_consumers x tr n :
  n ∈ consumers x tr <-> exists key c, SoCache (Some n)
    (HeMsg (HmRetrivePoW (VerifyCaptchaResult x key))) (Some (HrPoW (Ok (Some c)))) ∈ tr.
Proof.
  unfold consumers. rewrite elem_of_list_omap. split.
  - intros (o & Hin & Ho). destruct o as [| | | |[n'|] [[m|m|m|m|d]|d|due d] [[|[[c|]|]|]|]|]; try done.
    destruct (decide _) as [<-|]; [|done]. injection Ho as ->. exists (vr_key m), c. by destruct m.
  - intros (key & c & Hin). eexists. split; [exact Hin|]. cbn. by rewrite decide_True.
Qed.
Lemma elem_of_minters x tr n :
  n ∈ minters x tr <-> exists m r, SoCache (Some n) (HeMsg (HmCacheResult m)) r ∈ tr /\ cr_token m = x.
Proof.
  unfold minters. rewrite elem_of_list_omap. split.
  - intros (o & Hin & Ho). destruct o as [| | | |[n'|] [[m|m|m|m|d]|d|due d] r|]; try done.
    destruct (decide _) as [E|]; [|done]. injection Ho as ->. by exists m, r.
  - intros (m & r & Hin & Hm). eexists. split; [exact Hin|]. cbn. by rewrite decide_True.
Qed.
Lemma elem_of_acceptors x tr n :
  n ∈ acceptors x tr <-> exists key, SoCache (Some n)
    (HeMsg (HmVerifyCaptchaResult (VerifyCaptchaResult x key))) (Some (HrBool (Ok true))) ∈ tr.
Proof.
  unfold acceptors. rewrite elem_of_list_omap. split.
  - intros (o & Hin & Ho). destruct o as [| | | |[n'|] [[m|m|m|m|d]|d|due d] [[| |[[]|]]|]|]; try done.
    destruct (decide _) as [<-|]; [|done]. injection Ho as ->. exists (vr_key m). by destruct m.
  - intros (key & Hin). eexists. split; [exact Hin|]. cbn. by rewrite decide_True.
Qed.

Lemma NoDup_counts (xs : list nat) : (forall n, (length (filter (eq n) xs) <= 1)%nat) -> NoDup xs.
Proof.
  induction xs as [|x xs IH]; intros H; [constructor|]. constructor.
  - intros Hin. specialize (H x). rewrite filter_cons_True in H by done. cbn in H.
    assert (x ∈ filter (eq x) xs) as Hf by (by apply elem_of_list_filter).
    destruct (filter (eq x) xs); [by apply elem_of_nil in Hf|cbn in H; lia].
  - apply IH. intros n. specialize (H n). rewrite filter_cons in H. destruct (decide _); cbn in H; lia.
Qed.
Lemma omap_of_client (g : sout -> option nat) n tr :
  (forall o k, g o = Some k -> who o = Some k) ->
  filter (eq n) (omap g tr) = omap g (of_client n tr).
Proof.
  intros Hg. induction tr as [|o tr IH]; [done|]. unfold of_client in *. cbn [omap list_omap]. rewrite (filter_cons _ o).
  destruct (g o) as [k|] eqn:E.
  - pose proof (Hg _ _ E) as Hk. rewrite filter_cons. destruct (decide (n = k)) as [<-|Hne].
    + rewrite decide_True by done. cbn [omap list_omap]. rewrite E. f_equal. apply IH.
    + rewrite decide_False by congruence. apply IH.
  - destruct (decide _); [cbn [omap list_omap]; rewrite E|]; apply IH.
Qed.
Ltac story_split :=
  repeat match goal with
  | H : _ \/ _ |- _ => destruct H
  | H : _ /\ _ |- _ => destruct H
  | H : exists _, _ |- _ => destruct H
  end; subst.

Section run2.
  Context (p : profile) (l : pow_lib) (t gc : N) (wk : nat) (ql : N) (es : list sevent) (s : ssys) (tr : list sout).
  Context (Hr : s_run p l (sys_start t gc wk ql) es = Some (s, tr)).

  (** No client issues, consumes, mints or has a token accepted twice. *)
  Lemma issuers_nodup x : NoDup (issuers x tr).
  Proof.
    apply NoDup_counts. intros n. unfold issuers. rewrite omap_of_client.
    - change (length (issuers x (of_client n tr)) <= 1)%nat.
      pose proof (run_story _ _ _ _ _ _ _ _ _ Hr n) as Hst. destruct Hst; story_split; cbn;
      repeat (destruct (decide _); cbn); lia.
    - intros o k. destruct o as [| | | |[n'|] [[m|m|m|m|d]|d|due d] r|]; try done. destruct (decide _); [|done].
      by intros [= ->].
  Qed.
  Lemma consumers_nodup x : NoDup (consumers x tr).
  Proof.
    apply NoDup_counts. intros n. unfold consumers. rewrite omap_of_client.
    - change (length (consumers x (of_client n tr)) <= 1)%nat.
      pose proof (run_story _ _ _ _ _ _ _ _ _ Hr n) as Hst. destruct Hst; story_split; cbn;
      repeat (destruct (decide _); cbn); lia.
    - intros o k. destruct o as [| | | |[n'|] [[m|m|m|m|d]|d|due d] [[|[[c|]|]|]|]|]; try done.
      destruct (decide _); [|done]. by intros [= ->].
  Qed.
  Lemma minters_nodup x : NoDup (minters x tr).
  Proof.
    apply NoDup_counts. intros n. unfold minters. rewrite omap_of_client.
    - change (length (minters x (of_client n tr)) <= 1)%nat.
      pose proof (run_story _ _ _ _ _ _ _ _ _ Hr n) as Hst. destruct Hst; story_split; cbn;
      repeat (destruct (decide _); cbn); lia.
    - intros o k. destruct o as [| | | |[n'|] [[m|m|m|m|d]|d|due d] r|]; try done. destruct (decide _); [|done].
      by intros [= ->].
  Qed.

  Lemma of_client_sub n o : o ∈ of_client n tr -> o ∈ tr.
  Proof. by intros [_ ?]%elem_of_of_client. Qed.
  Lemma called_unique n c c' : called tr n c -> called tr n c' -> c = c'.
  Proof.
    intros H H'. assert (SoCall n c ∈ of_client n tr) as Hc by (by apply elem_of_of_client).
    assert (SoCall n c' ∈ of_client n tr) as Hc' by (by apply elem_of_of_client).
    pose proof (run_story _ _ _ _ _ _ _ _ _ Hr n) as Hst. destruct Hst; story_split;
      unfold issue_log, visit_log, queued_log, taken_log, retrieve_out, mint_out in *; elem_cases; congruence.
  Qed.
  Lemma verified_consumer n x : verified tr n x -> n ∈ consumers x tr.
  Proof.
    intros (w & ip & tok & d & Hc & <- & Ht). destruct (verify_ok _ _ _ _ _ _ _ _ _ Hr _ _ _ Ht) as (w' & ip' & c & E & _).
    assert (called tr n (CVerifyPow w' ip')) as Hc' by (apply (of_client_sub n); rewrite E; by left).
    pose proof (called_unique _ _ _ Hc Hc') as [= <- <-].
    apply elem_of_consumers. exists (w_key w), c. apply (of_client_sub n). rewrite E. by right; left.
  Qed.
  Lemma validated_acceptor n x key : validated tr n x key ->
    SoCache (Some n) (HeMsg (HmVerifyCaptchaResult (VerifyCaptchaResult x key))) (Some (HrBool (Ok true))) ∈ tr.
  Proof.
    intros [Hc Ht]. apply (of_client_sub n). assert (SoCall n (CValidate (VerifyCaptchaResult x key)) ∈ of_client n tr) as Hc1 by (by apply elem_of_of_client).
    assert (SoRet n (RValidate (Ok true)) ∈ of_client n tr) as Ht1 by (by apply elem_of_of_client).
    pose proof (run_story _ _ _ _ _ _ _ _ _ Hr n) as Hst. destruct Hst; story_split;
      unfold issue_log, visit_log, queued_log, taken_log, retrieve_out, mint_out in *; elem_cases; simplify_eq.
    by right; left.
  Qed.
End run2.
