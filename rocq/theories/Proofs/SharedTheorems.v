(** Proofs of the theorems of Properties/SharedProperties.v. *)
From Coq Require Import ZifyBool ZifyN ZifyNat Lia.
From Verif Require Import Model.Base Model.MCaptcha Model.HashCache Model.Master Model.Queue Model.Pow Model.System
  Model.Json Model.Serde Model.Redis Model.RedisActor Model.RedisTokens Model.SystemProgram Model.SystemShared
  Spec.MasterSpec Spec.SystemSpec Spec.RedisSpec Spec.ProgramSpec Spec.SharedSpec
  Proofs.RedisProofs Proofs.SystemProofs Proofs.SystemHistory Proofs.ProgramProofs Proofs.ProgramMemory
  Proofs.SharedProofs.

Lemma c80_get_pow : forall salt id es r,
  p_run (program salt (CGetPow id)) es = Some (PRet r) <->
  exists x, r = RGetPow x /\ get_pow_contract salt id es x.
Proof.
  intros salt id es r. split; [apply get_pow_ends|]. intros (x & -> & H). by apply get_pow_by_answers.
Qed.

Lemma c80_verify_pow : forall salt w ip es r,
  p_run (program salt (CVerifyPow w ip)) es = Some (PRet r) <->
  exists x, r = match x with Some y => RVerifyPow y | None => RPanic end /\ verify_pow_contract w ip es x.
Proof.
  intros salt w ip es r. split; [apply verify_pow_ends|]. intros (x & -> & H). by apply verify_pow_by_answers.
Qed.

Lemma c80_validate : forall salt m es r,
  p_run (program salt (CValidate m)) es = Some (PRet r) <->
  exists x, r = RValidate x /\ validate_contract m es x.
Proof.
  intros salt m es r. split; [apply validate_ends|]. intros (x & -> & H). by apply validate_by_answers.
Qed.

Lemma c80_memory : forall p l t gc wk ql es s tr n r,
  s_run p l (sys_start t gc wk ql) es = Some (s, tr) -> SoRet n r ∈ tr ->
  exists c evs, SoCall n c ∈ tr /\ p_run (program (pl_salt l) c) evs = Some (PRet r) /\
    omap cache_talk evs = omap (memory_talk n) tr /\
    (forall id a, PeVisit id a ∈ evs -> exists k x, asked tr n id k /\ replied tr k x /\ a = visit_told x) /\
    (forall q, PeVerdict q (Some true) ∈ evs -> passes l q).
Proof. intros p l t gc wk ql es s tr n r Hr Hin. exact (memory_follows _ _ _ _ _ _ _ _ _ _ _ Hr Hin). Qed.

Definition ex_pow_lib : pow_lib :=
  PowLib "salt" (fun w d => Val (d <=? pw_nonce w)) (fun w x => Val (String.eqb (pw_result w) ("ok" ++ x))).

Definition ex_work : work := Work "ch" "okch" 50 "site".

Lemma c81_failure_hidden_refuted : forall salt id e,
  p_run (program salt (CGetPow id)) [PeVisit id (An (Err e))] = Some (PRet (RGetPow (Ok None))) /\
  p_run (program salt (CGetPow id)) [PeVisit id (An (Ok None))] = Some (PRet (RGetPow (Ok None))) /\
  (** a Redis that is down makes the Redis master answer in this way, *)
  (exists op strict, master_action (RqAddVisitor id) = Some (AcCommand op strict) /\
     (forall text, rc_answer op (RrErr text) = Val (RoVisit (Err (RedisError text)))) /\
     (** and it never answers that there is no such site *)
     forall r, rc_answer op r <> Val (RoVisit (Ok None))).
Proof.
  intros salt id e. split; [cbn; by rewrite decide_True|]. split; [cbn; by rewrite decide_True|].
  eexists _, _. split; [done|]. split; [done|]. intros r H. cbn in H. unfold exec in H.
  destruct (rerr r to_str) as [x|x]; [|done]. destruct (unwrap _) as [v|]; done.
Qed.

Lemma c82_check_behind_pass : forall ls now es s tr n b,
  sh_run ls (sh_init now) es = Some (s, tr) -> XoRet n (RValidate (Ok b)) ∈ tr ->
  exists i m t f, XoCall n i (CValidate m) ∈ tr /\ XoDid n t (PeVerify m (An (Ok b))) f ∈ tr.
Proof.
  intros ls now es s tr n b Hr Hin. destruct (ret_at _ _ _ _ _ _ _ Hr Hin) as (i & c & Hc & Hp).
  destruct c as [id|w ip|m].
  - apply get_pow_ends in Hp as (x & [=] & _).
  - apply verify_pow_ends in Hp as ([x|] & [=] & _).
  - apply validate_ends in Hp as (x & [= <-] & a & He & ->).
    assert (PeVerify m (An (Ok b)) ∈ requests_of n tr) as (t & f & Hd)%requests_elem; [rewrite He; by left|].
    by exists i, m, t, f.
Qed.

Lemma c82_earned : forall ls now es s tr tr1 n t m f tr2,
  sh_run ls (sh_init now) es = Some (s, tr) ->
  tr = tr1 ++ XoDid n t (PeVerify m (An (Ok true))) f :: tr2 ->
  plain_sites tr -> no_colon (vr_key m) ->
  exists tra o n' t' cfg trb i w ip,
    (** a call of verify_pow stored this token for this site, perhaps after it was over *)
    tr1 = tra ++ o :: trb /\ stores o = Some (n', t', CacheResult (vr_token m) (vr_key m) (cc_duration cfg)) /\
    XoCall n' i (CVerifyPow w ip) ∈ tra /\
    (** for a challenge of the site that its work solves *)
    w_key w = vr_key m /\ cc_key cfg = vr_key m /\
    PeRetrieve (VerifyCaptchaResult (w_string w) (w_key w)) (An (Ok (Some cfg))) ∈ requests_of n' tra /\
    passes (ls i) (checked_work w cfg) /\
    (** Redis got this command, too *)
    f = Answered /\
    (** not too long ago, and the token was not taken since *)
    t <= t' + cc_duration cfg * 1000 /\
    (forall te, te ∈ tokens trb -> te_fate te <> NotSent ->
       match te_call te with
       | TkGet m' | TkDel m' => token_key (vr_key m') (vr_token m') <> token_key (vr_key m) (vr_token m)
       | TkAdd _ => True
       end).
Proof.
  intros ls now es s tr tr1 n t m f tr2 Hr E Hplain Hcolon.
  destruct (did_at _ _ _ _ _ _ _ _ _ _ _ Hr E) as (i0 & p & p' & sv & _ & Ha).
  pose proof (an_true _ _ _ _ _ _ _ _ Ha m true eq_refl) as Ht. destruct (get_true_fate _ _ _ _ Ht) as [-> Hpres].
  apply present_live in Hpres as (h1 & e & ma & h2 & Hsplit & Hcall & Heff & Hsame & Hle & Hsince).
  destruct (omap_split _ _ _ _ _ Hsplit) as (tra & o & trb & E1 & Ho & Hh1 & Hh2).
  assert (exists n', stores o = Some (n', te_now e, ma)) as [n' Hst].
  { destruct o as [|n' t' ev f'| | |t' c f'|n' t' m']; cbn in Ho; try done.
    - destruct ev; try done; injection Ho as <-; cbn in Hcall; [|done]. injection Hcall as ->. exists n'. cbn.
      rewrite decide_False; [done|]. apply Heff.
    - exfalso. injection Ho as <-. cbn in Hcall. subst c. eapply (other_no_add _ _ _ _ _ t' ma f' Hr).
      rewrite E, E1. apply elem_of_app. left. apply elem_of_app. right. by left.
    - injection Ho as <-. cbn in Hcall. injection Hcall as ->. by exists n'. }
  assert (E2 : tr = tra ++ o :: (trb ++ XoDid n t (PeVerify m (An (Ok true))) Answered :: tr2)).
  { rewrite E, E1, <- app_assoc. done. }
  destruct (stored_by _ _ _ _ _ _ _ _ _ _ _ Hr E2 Hst) as (i & w & ip & cfg & tok & Hc & Hk & -> & Hpass & Hreq & _).
  unfold same_key in Hsame. cbn [fst snd cr_key cr_token] in Hsame.
  destruct (token_key_inj (w_key w) (vr_key m) tok (vr_token m)) as [Ek Et]; [|done|done|].
  { apply (Hplain n' i w ip). rewrite E2. apply elem_of_app. by left. }
  exists tra, o, n', (te_now e), cfg, trb, i, w, ip. rewrite <- Et, <- Ek.
  split; [done|]. split; [done|]. split; [done|]. split; [done|]. split; [done|]. split; [done|]. split; [done|].
  split; [done|]. split; [exact Hle|].
  intros te Hin Hns. destruct (te_call te) as [x|x|x] eqn:Ec; [done| |].
  all: intros Hx; rewrite Ek, Et in Hx; unfold tokens in Hin; rewrite Hh2 in Hin; rewrite Forall_forall in Hsince; apply (Hsince _ Hin);
    [split; [done|by rewrite Ec]|rewrite Ec; done].
Qed.

Lemma c82_good_everywhere : forall ls now es s tr tr1 n t m f tr2 n' t' m' a' tr3,
  sh_run ls (sh_init now) es = Some (s, tr) ->
  tr = tr1 ++ XoDid n t (PeCacheResult m (An (Ok tt))) f :: tr2 ++ XoDid n' t' (PeVerify m' a') Answered :: tr3 ->
  m' = VerifyCaptchaResult (cr_token m) (cr_key m) ->
  t' <= t + cr_duration m * 1000 ->
  (forall te, te ∈ tokens tr2 -> effective te -> token_key (about (te_call te)).1 (about (te_call te)).2 <> token_key (cr_key m) (cr_token m)) ->
  unanswered a' \/ a' = An (Ok true).
Proof.
  intros ls now es s tr tr1 n t m f tr2 n' t' m' a' tr3 Hr E -> Hle Hnone.
  destruct (did_at _ _ _ _ _ _ _ _ _ _ _ Hr E) as (i & p & p' & sv & _ & Ha).
  pose proof (an_store _ _ _ _ _ _ _ _ Ha m eq_refl) as Hst.
  assert (Heff : effective (TokenEvent t (TkAdd m) f)).
  { split; cbn; [by intros ->|]. destruct (decide (storable t (cr_duration m))) as [Hs|Hs]; [done|].
    exfalso. destruct (decide (f = NotSent)) as [->|Hf]; [done|]. by rewrite step_add_refused in Hst. }
  set (tra := tr1 ++ XoDid n t (PeCacheResult m (An (Ok tt))) f :: tr2).
  assert (E2 : tr = tra ++ XoDid n' t' (PeVerify (VerifyCaptchaResult (cr_token m) (cr_key m)) a') Answered :: tr3).
  { unfold tra. rewrite E, <- app_assoc. done. }
  destruct (did_at _ _ _ _ _ _ _ _ _ _ _ Hr E2) as (i' & q & q' & sv' & _ & Ha').
  destruct a' as [| |[b|e]]; [left; by left|left; by right| |].
  - right. do 2 f_equal. pose proof (an_true _ _ _ _ _ _ _ _ Ha' _ b eq_refl) as Hb.
    destruct (get_outcome (tokens tra) t' (VerifyCaptchaResult (cr_token m) (cr_key m))) as (b' & Ho & Hb').
    unfold outcome_of in Ho. rewrite Ho in Hb. injection Hb as <-. apply Hb'.
    exists (tokens tr1), (TokenEvent t (TkAdd m) f), m, (tokens tr2).
    split; [unfold tra; rewrite tokens_app; done|]. split; [done|]. split; [done|]. split; [done|]. split; [done|].
    apply Forall_forall. intros te Hin He. by apply Hnone.
  - exfalso. destruct (get_outcome (tokens tra) t' (VerifyCaptchaResult (cr_token m) (cr_key m))) as (b' & Ho & _).
    pose proof (an_told _ _ _ _ _ _ _ _ Ha' _ e eq_refl) as He. unfold outcome_of in Ho. congruence.
Qed.

(** A session over two Systems: challenge from the first, work to the second,
    token checked at the first, then again at the second. *)
Definition ex_visit : add_visitor_result := AddVisitorResult 30 50.

Definition ex_json : rreply := RrVal (RvBulk (to_string encode_visit ex_visit)).

Definition ex_verify (n : nat) (tok : string) : list shevent :=
  [XeStep n (XReply ex_json); XeStep n (XSubmit (SuDone (Ok tt))); XeStep n (XVerdict (Some true));
   XeStep n (XDraw tok); XeStep n (XToken Answered); XeReturn n].

Definition ex_issue : list shevent :=
  [XeCall 0 (CGetPow "site"); XeStep 0 (XVisit (An (Ok (Some ex_visit)))); XeStep 0 (XDraw "ch");
   XeStep 0 (XReply (RrVal RvOkay)); XeReturn 0].

Definition ex_shared (es : list shevent) : list shout :=
  match sh_run (fun _ => ex_pow_lib) (sh_init 1000) es with Some (_, tr) => tr | None => [] end.

Lemma c82_time : forall ls now es s tr e s' o,
  sh_run ls (sh_init now) es = Some (s, tr) -> sh_step ls s e = Some (s', o) ->
  (forall n t x f, XoDid n t x f ∈ o -> t = now + elapsed es) /\
  (forall t c f, XoOther t c f ∈ o -> t = now + elapsed es) /\
  (forall n t m, XoLate n t m ∈ o -> t = now + elapsed es).
Proof.
  intros ls now es s tr e s' o Hr Hs.
  assert (Hn : sh_now s = now + elapsed es).
  { clear Hs. revert s tr Hr. induction es as [|e1 es IH] using rev_ind; intros s tr Hr.
    { injection Hr as <- _. cbn. lia. }
    apply sh_run_snoc in Hr as (s1 & tr1 & o1 & Hr & Hs & _). specialize (IH _ _ Hr).
    unfold elapsed in *. rewrite foldr_app. cbn [foldr]. unfold sh_step in Hs.
    assert (Hf : forall d, foldr (fun e t => match e with XeTick d => d + t | _ => t end) d es =
      foldr (fun e t => match e with XeTick d => d + t | _ => t end) 0 es + d).
    { clear. intros d. induction es as [|[]]; cbn [foldr]; lia. }
    destruct e1 as [i c|n x|n|n|c f|j|d].
    - by injection Hs as <- _.
    - destruct (sh_calls s1 !! n) as [[i p]|]; [|done]. destruct (respond _ _ _ _ _) as [[[[? ?] ?] ?]|]; [|done].
      by injection Hs as <- _.
    - destruct (sh_calls s1 !! n) as [[i []]|]; try done. by injection Hs as <- _.
    - destruct (sh_calls s1 !! n); [|done]. by injection Hs as <- _.
    - destruct c; [done|..]; destruct (token_step _ _); by injection Hs as <- _.
    - destruct (sh_late s1 !! j) as [[n m]|]; [|done]. destruct (token_step _ _). by injection Hs as <- _.
    - injection Hs as <- _. cbn [sh_now]. rewrite Hf. lia. }
  unfold sh_step in Hs. destruct e as [i c|n x|n|n|c f|j|d].
  - injection Hs as <- <-. split_and!; intros; elem_cases; discriminate.
  - destruct (sh_calls s !! n) as [[i p]|]; [|done]. destruct (respond _ _ _ _ _) as [[[[? ?] ?] ?]|]; [|done].
    injection Hs as <- <-. split_and!; intros; elem_cases; try discriminate. congruence.
  - destruct (sh_calls s !! n) as [[i []]|]; try done. injection Hs as <- <-. split_and!; intros; elem_cases; discriminate.
  - destruct (sh_calls s !! n); [|done]. injection Hs as <- <-. split_and!; intros; elem_cases; discriminate.
  - destruct c; [done|..]; destruct (token_step _ _); injection Hs as <- <-; (split_and!; intros; elem_cases; try discriminate; congruence).
  - destruct (sh_late s !! j) as [[n m]|]; [|done]. destruct (token_step _ _). injection Hs as <- <-.
    split_and!; intros; elem_cases; try discriminate; congruence.
  - injection Hs as <- <-. split_and!; intros; elem_cases.
Qed.

Lemma c83_passes_counted : forall ls now es s tr k,
  sh_run ls (sh_init now) es = Some (s, tr) ->
  (length (accepted k tr) <= length (minted k tr))%nat /\ NoDup (accepted k tr) /\ NoDup (minted k tr) /\
  forall n, n ∈ minted k tr -> exists i w ip cfg tok t f, XoCall n i (CVerifyPow w ip) ∈ tr /\ cc_key cfg = w_key w /\
    passes (ls i) (checked_work w cfg) /\ XoDid n t (PeDraw tok) f ∈ tr /\ k = token_key (w_key w) tok.
Proof.
  intros ls now es s tr k Hr. split; [pose proof (count_inv _ _ _ _ _ k Hr); lia|].
  split; [by eapply accepted_once|]. split; [by eapply minted_once|]. intros n Hn. by eapply mint_drew.
Qed.

Lemma c83_once : forall ls now es s tr key token,
  sh_run ls (sh_init now) es = Some (s, tr) -> plain_sites tr -> draws_distinct tr -> no_colon key ->
  (length (accepted (token_key key token) tr) <= 1)%nat.
Proof.
  intros ls now es s tr key token Hr Hp Hd Hk.
  destruct (c83_passes_counted _ _ _ _ _ (token_key key token) Hr) as (Hle & _ & Hnd & Hm).
  assert (length (minted (token_key key token) tr) <= 1)%nat; [|lia]. apply NoDup_all_eq; [done|].
  intros x y Hx Hy. destruct (Hm _ Hx) as (i1 & w1 & ip1 & cf1 & tok1 & t1 & f1 & Hc1 & _ & _ & Hd1 & E1).
  destruct (Hm _ Hy) as (i2 & w2 & ip2 & cf2 & tok2 & t2 & f2 & Hc2 & _ & _ & Hd2 & E2).
  apply token_key_inj in E1 as [_ <-]; [|done|by eapply Hp]. apply token_key_inj in E2 as [_ <-]; [|done|by eapply Hp].
  by eapply two_draws.
Qed.

Lemma distinct_draws_check tr :
  NoDup (omap (fun o => match o with XoDid _ _ (PeDraw s) _ => Some s | _ => None end) tr) -> draws_distinct tr.
Proof.
  intros Hn tr1 n1 t1 s f1 tr2 n2 t2 f2 tr3 ->. rewrite !omap_app in Hn. cbn [omap list_omap] in Hn.
  apply NoDup_app in Hn as (_ & _ & Hn). apply NoDup_cons in Hn as [Hn _]. apply Hn.
  rewrite omap_app. apply elem_of_app. right. by left.
Qed.

Lemma c84_never_deletes : forall m,
  (** told to forget something, it says it did *)
  (exists d, m = HmDelete d /\ cache_action m = AcNow (RoUnit (Ok tt))) \/
  exists op strict, cache_action m = AcCommand op strict /\ head (rc_cmd op) <> Some "MCAPTCHA_CACHE.DELETE_CHALLENGE"%string.
Proof.
  intros [m|m|m|m|d]; [right|right|right|right|left]; cbn; [eexists _, _; split; [done|]; done..|by eexists].
Qed.

(** With a module that hands a stored challenge out until it expires, one challenge
    and one piece of work give two tokens, both good. *)
Definition ex_replay : list shevent :=
  ex_issue ++ XeCall 0 (CVerifyPow ex_work "1.2.3.4") :: ex_verify 1 "tok1" ++
  XeCall 1 (CVerifyPow ex_work "1.2.3.4") :: ex_verify 2 "tok2" ++
  [XeCall 0 (CValidate (VerifyCaptchaResult "tok1" "site")); XeStep 3 (XToken Answered); XeReturn 3;
   XeCall 0 (CValidate (VerifyCaptchaResult "tok2" "site")); XeStep 4 (XToken Answered); XeReturn 4].

Lemma c84_replay_refuted : exists ls es s tr w ip n1 n2 m1 m2 t1 t2 d,
  sh_run ls (sh_init 1000) es = Some (s, tr) /\
  (** stored once, and given out with what was stored *)
  length (issued (w_key w) (w_string w) tr) = 1%nat /\
  fetched (w_key w) (w_string w) tr = [n1; n2] /\ n1 <> n2 /\
  (exists i1 i2, XoCall n1 i1 (CVerifyPow w ip) ∈ tr /\ XoCall n2 i2 (CVerifyPow w ip) ∈ tr) /\
  XoRet n1 (RVerifyPow (Ok (t1, d))) ∈ tr /\ XoRet n2 (RVerifyPow (Ok (t2, d))) ∈ tr /\ t1 <> t2 /\
  accepted (token_key (w_key w) t1) tr = [m1] /\ accepted (token_key (w_key w) t2) tr = [m2].
Proof.
  destruct (sh_run (fun _ => ex_pow_lib) (sh_init 1000) ex_replay) as [[s tr]|] eqn:E.
  2: { exfalso. assert (H : match sh_run (fun _ => ex_pow_lib) (sh_init 1000) ex_replay with Some _ => True | None => False end)
         by (vm_compute; exact I). by rewrite E in H. }
  assert (Htr : tr = ex_shared ex_replay) by (unfold ex_shared; by rewrite E).
  exists (fun _ => ex_pow_lib), ex_replay, s, tr, ex_work, "1.2.3.4"%string, 1%nat, 2%nat, 3%nat, 4%nat, "tok1"%string, "tok2"%string, 50.
  split; [done|]. rewrite Htr. clear. split; [by vm_compute|]. split; [by vm_compute|]. split; [done|].
  split; [exists 0%nat, 1%nat; split; vm_compute; repeat (first [by left|right])|].
  split; [vm_compute; repeat (first [by left|right])|]. split; [vm_compute; repeat (first [by left|right])|].
  split; [done|]. by vm_compute.
Qed.

Lemma c85_one_token_per_challenge : forall ls now es s tr key str ns,
  sh_run ls (sh_init now) es = Some (s, tr) -> consuming tr -> NoDup ns ->
  (forall n, n ∈ ns -> exists i w ip tok d, XoCall n i (CVerifyPow w ip) ∈ tr /\ w_key w = key /\ w_string w = str /\
     XoRet n (RVerifyPow (Ok (tok, d))) ∈ tr) ->
  (length ns <= length (issued key str tr))%nat /\
  (forall n, n ∈ issued key str tr -> exists t f i, XoDid n t (PeDraw str) f ∈ tr /\ XoCall n i (CGetPow key) ∈ tr) /\
  (draws_distinct tr -> (length ns <= 1)%nat).
Proof.
  intros ls now es s tr key str ns Hr Hc Hnd Hns.
  assert (Hle : (length ns <= length (issued key str tr))%nat).
  { etrans; [|apply (Hc tr [] key str); by rewrite app_nil_r]. apply submseteq_length. apply NoDup_submseteq; [done|].
    intros n Hn. destruct (Hns n Hn) as (i & w & ip & tok & d & Hcall & <- & <- & Hret). by eapply token_fetched. }
  split; [done|]. split; [intros n Hn; by eapply issue_drew|]. intros Hd.
  assert (length (issued key str tr) <= 1)%nat; [|lia]. apply NoDup_all_eq; [by eapply issued_once|].
  intros x y Hx Hy. apply (issue_drew _ _ _ _ _ _ _ _ Hr) in Hx as (t1 & f1 & i1 & Hx & _).
  apply (issue_drew _ _ _ _ _ _ _ _ Hr) in Hy as (t2 & f2 & i2 & Hy & _). by eapply two_draws.
Qed.
