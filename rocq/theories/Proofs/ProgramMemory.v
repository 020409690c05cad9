(** The calls of Model/System.v follow the programs of Model/SystemProgram.v. *)
From Coq Require Import ZifyBool ZifyN ZifyNat Lia.
From Verif Require Import Model.Base Model.MCaptcha Model.Master Model.HashCache Model.Queue Model.Pow Model.System
  Model.SystemProgram Spec.MasterSpec Spec.SystemSpec Spec.ProgramSpec
  Proofs.SystemProofs Proofs.SystemHistory Proofs.ProgramProofs.

Lemma memory_talk_own n tr : omap (memory_talk n) tr = omap (memory_talk n) (of_client n tr).
Proof.
  induction tr as [|o tr IH]; [done|]. unfold of_client in *. rewrite filter_cons. cbn [omap list_omap].
  destruct (decide (who o = Some n)) as [Hw|Hw].
  - cbn [omap list_omap]. by rewrite IH.
  - rewrite <- IH. destruct o as [| | | |[n'|] [m| |] r|]; cbn; try done. rewrite decide_False; [done|].
    intros ->. by apply Hw.
Qed.

Definition links (l : pow_lib) (tr : list sout) (n : nat) (es : list pev) : Prop :=
  (forall id a, PeVisit id a ∈ es -> exists k x, asked tr n id k /\ replied tr k x /\ a = visit_told x) /\
  (forall q, PeVerdict q (Some true) ∈ es -> passes l q).

Lemma memory_follows p l t gc wk ql es s tr n r :
  s_run p l (sys_start t gc wk ql) es = Some (s, tr) -> SoRet n r ∈ tr ->
  exists c evs, SoCall n c ∈ tr /\ p_run (program (pl_salt l) c) evs = Some (PRet r) /\
    omap cache_talk evs = omap (memory_talk n) tr /\ links l tr n evs.
Proof.
  intros Hr Hret. pose proof (client_story _ _ _ _ _ _ n (run_sinv _ _ _ _ _ _ _ _ _ Hr)) as Hst.
  rewrite memory_talk_own.
  assert (Hin : SoRet n r ∈ of_client n tr) by (by apply elem_of_of_client).
  assert (Hown : forall o, o ∈ of_client n tr -> o ∈ tr) by (by intros o [_ ?]%elem_of_of_client).
  inversion Hst as [E|id f Hf E|id os f Hf E|id os cfg v f Hv Hd Hs Hf E|w ip f Hf E|w ip c f Hk Hf E|w ip c f Hk Hf E
    |w ip c tok f Hk Hg Hf E|m f Hf E|m b f Hf E]; rewrite <- E in Hin; rewrite <- E in Hown.
  - by apply elem_of_nil in Hin.
  - exfalso. destruct Hf as [->| ->]; elem_cases; done.
  - destruct Hf as [->|[->|(k & x & Ha & Hx & Hn & ->)]]; [exfalso; unfold visit_log in Hin; elem_cases; done..|].
    assert (r = RGetPow match x with MrClosed => Err MailboxError | MrDropped => Err RecvError | _ => Ok None end) as ->.
    { unfold visit_log in Hin. elem_cases; by simplify_eq. }
    exists (CGetPow id), [PeVisit id (visit_told x)]. clear Hin. split; [apply Hown; by left|]. split; [|split].
    + cbn. rewrite decide_True by done. destruct x as [[[v|]|e]| | | | |]; try done. by destruct (Hn v).
    + done.
    + split; [|intros q Hq; elem_cases; done]. intros id' a Hi. elem_cases. injection Hi as -> ->. by exists k, x.
  - destruct Hf as [->|[->| ->]]; [exfalso; unfold issue_log, visit_log in Hin; elem_cases; done..|].
    assert (r = RGetPow (Ok (Some cfg))) as ->.
    { unfold issue_log, visit_log in Hin. elem_cases; by simplify_eq. }
    exists (CGetPow id), [PeVisit id (An (Ok (Some v))); PeDraw (pc_string cfg);
      PeCachePoW (CachePoW (pc_string cfg) (pc_difficulty_factor cfg) (avr_duration v) id) (An (Ok tt))].
    clear Hin. split; [apply Hown; by left|]. split; [|split].
    + apply get_pow_by_answers. by exists v.
    + cbn. by rewrite decide_True by done.
    + split; [|intros q Hq; elem_cases; done]. intros id' a Hi. elem_cases; [|done|done]. injection Hi as -> ->.
      destruct Hv as (k & Ha & Hx). by exists k, (MrVisit (Ok (Some v))).
  - assert (Hc : SoCall n (CVerifyPow w ip) ∈ tr) by (apply Hown; by left).
    destruct Hf as [->|[->|[->|(c & Hk & ->)]]]; [exfalso; elem_cases; done..| |].
    + assert (r = RVerifyPow (Err StringNotFound)) as -> by (elem_cases; by simplify_eq).
      exists (CVerifyPow w ip), [PeRetrieve (VerifyCaptchaResult (w_string w) (w_key w)) (An (Ok None))].
      clear Hin. split; [done|]. split; [|split].
      * apply (verify_pow_by_answers _ w ip _ (Some (Err StringNotFound))). right. by left.
      * cbn. by rewrite decide_True by done.
      * split; intros; elem_cases; done.
    + assert (r = RVerifyPow (Err MCaptchaKeyValidationFail)) as -> by (elem_cases; by simplify_eq).
      exists (CVerifyPow w ip), [PeRetrieve (VerifyCaptchaResult (w_string w) (w_key w)) (An (Ok (Some c)))].
      clear Hin. split; [done|]. split; [|split].
      * apply (verify_pow_by_answers _ w ip _ (Some (Err MCaptchaKeyValidationFail))). right. right. left.
        exists c. split; [done|]. split; [|done]. intros Hx. by rewrite Hx in Hk.
      * cbn. by rewrite decide_True by done.
      * split; intros; elem_cases; done.
  - assert (Hc : SoCall n (CVerifyPow w ip) ∈ tr) by (apply Hown; by left).
    destruct Hf as [->|[->|[-> _]]]; [exfalso; unfold taken_log in Hin; elem_cases; done..|].
    assert (r = RPanic) as -> by (unfold taken_log in Hin; elem_cases; by simplify_eq).
    exists (CVerifyPow w ip), [PeRetrieve (VerifyCaptchaResult (w_string w) (w_key w)) (An (Ok (Some c)));
      PeSubmit ip (checked_work w c) SuPanic].
    clear Hin. split; [done|]. split; [|split].
    + apply (verify_pow_by_answers _ w ip _ None). by exists c.
    + cbn. by rewrite decide_True by done.
    + split; intros; elem_cases; done.
  - assert (Hc : SoCall n (CVerifyPow w ip) ∈ tr) by (apply Hown; by left).
    destruct Hf as [->|[->|Hf]]; [exfalso; unfold queued_log, taken_log in Hin; elem_cases; done..|].
    assert (Hcase : (exists e, r = RVerifyPow (Err e) /\ f = [SoRet n r] /\ (e = QueueFull \/ e = RecvError)) \/
      r = RVerifyPow (Err InsuffiencientDifficulty) /\ f = [SoRet n r]).
    { unfold queued_log, taken_log in Hin. destruct Hf as [->|[[-> _]|[-> _]]]; elem_cases; simplify_eq; eauto 10. }
    destruct Hcase as [(e & -> & -> & _)|[-> ->]].
    + exists (CVerifyPow w ip), [PeRetrieve (VerifyCaptchaResult (w_string w) (w_key w)) (An (Ok (Some c)));
        PeSubmit ip (checked_work w c) (SuDone (Err e))].
      clear Hin. split; [done|]. split; [|split].
      * apply (verify_pow_by_answers _ w ip _ (Some (Err e))). do 3 right. exists c. split; [done|]. by left.
      * cbn. by rewrite decide_True by done.
      * split; intros; elem_cases; done.
    + exists (CVerifyPow w ip), [PeRetrieve (VerifyCaptchaResult (w_string w) (w_key w)) (An (Ok (Some c)));
        PeSubmit ip (checked_work w c) (SuDone (Ok tt)); PeVerdict (checked_work w c) None].
      clear Hin. split; [done|]. split; [|split].
      * apply (verify_pow_by_answers _ w ip _ (Some (Err InsuffiencientDifficulty))). do 3 right. exists c.
        split; [done|]. right. left. by exists None.
      * cbn. by rewrite decide_True by done.
      * split; intros; elem_cases; done.
  - assert (Hc : SoCall n (CVerifyPow w ip) ∈ tr) by (apply Hown; by left).
    destruct Hf as [->|[->| ->]]; [exfalso; unfold queued_log, taken_log in Hin; elem_cases; done..|].
    assert (r = RVerifyPow (Ok (tok, cc_difficulty_factor c))) as ->.
    { unfold queued_log, taken_log in Hin. elem_cases; by simplify_eq. }
    exists (CVerifyPow w ip), [PeRetrieve (VerifyCaptchaResult (w_string w) (w_key w)) (An (Ok (Some c)));
      PeSubmit ip (checked_work w c) (SuDone (Ok tt)); PeVerdict (checked_work w c) (Some true); PeDraw tok;
      PeCacheResult (CacheResult tok (w_key w) (cc_duration c)) (An (Ok tt))].
    clear Hin. split; [done|]. split; [|split].
    + apply (verify_pow_by_answers _ w ip _ (Some (Ok (tok, cc_difficulty_factor c)))). by exists c.
    + cbn. rewrite !decide_True by done. cbn. by rewrite Hk.
    + split; [intros; elem_cases; done|]. intros q Hq. elem_cases; try done. injection Hq as ->. exact Hg.
  - exfalso. destruct Hf as [->| ->]; elem_cases; done.
  - assert (Hc : SoCall n (CValidate m) ∈ tr) by (apply Hown; by left).
    destruct Hf as [->|[->| ->]]; [exfalso; elem_cases; done..|].
    assert (r = RValidate (Ok b)) as -> by (elem_cases; by simplify_eq).
    exists (CValidate m), [PeVerify m (An (Ok b))]. clear Hin. split; [done|]. split; [|split].
    + apply validate_by_answers. by eexists.
    + cbn. by rewrite decide_True by done.
    + split; intros; elem_cases; done.
Qed.
