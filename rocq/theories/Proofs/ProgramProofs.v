(** Proofs about the programs of Model/SystemProgram.v. *)
From Coq Require Import ZifyBool ZifyN ZifyNat Lia.
From Verif Require Import Model.Base Model.MCaptcha Model.HashCache Model.Pow Model.System Model.Master
  Model.SystemProgram Spec.ProgramSpec.

Lemma p_run_app p es1 es2 :
  p_run p (es1 ++ es2) = match p_run p es1 with Some p' => p_run p' es2 | None => None end.
Proof. revert p. induction es1 as [|e es1 IH]; intros p; cbn; [done|]. by destruct (p_step p e). Qed.
Lemma p_run_snoc p es e p1 p2 : p_run p es = Some p1 -> p_step p1 e = Some p2 -> p_run p (es ++ [e]) = Some p2.
Proof. intros H1 H2. rewrite p_run_app, H1. cbn. by rewrite H2. Qed.
Lemma p_run_ret r es p : p_run (PRet r) es = Some p -> es = [] /\ p = PRet r.
Proof. destruct es as [|e es]; cbn; [by intros [= <-]|]. by destruct e. Qed.

Lemma get_pow_ends salt id es r : p_run (program salt (CGetPow id)) es = Some (PRet r) ->
  exists x, r = RGetPow x /\ get_pow_contract salt id es x.
Proof.
  cbn [program]. intros H. destruct es as [|[id' a|s|m a|m a|ip q a|q b|m a|m a] es]; try discriminate H.
  cbn in H. case_decide; [subst id'|discriminate]. destruct a as [| |[[v|]|e]].
  - apply p_run_ret in H as [-> [= ->]]. eexists. split; [done|]. left. eexists. split; [done|]. split; [by left|done].
  - apply p_run_ret in H as [-> [= ->]]. eexists. split; [done|]. left. eexists. split; [done|]. split; [by right|done].
  - destruct es as [|[id' a|s|m a|m a|ip q a|q b|m a|m a] es]; try discriminate H. cbn in H.
    destruct es as [|[id' a|s'|m a|m a|ip q a|q b|m a|m a] es]; try discriminate H. cbn in H.
    case_decide; [subst m|discriminate]. unfold await in H. destruct a as [| |[[]|e]].
    1,2,4: apply p_run_ret in H as [-> [= ->]]; eexists; split; [done|]; right; do 3 eexists; split; [done|done].
    apply p_run_ret in H as [-> [= ->]]. eexists. split; [done|]. exists v. cbn. done.
  - apply p_run_ret in H as [-> [= ->]]. eexists. split; [done|]. by exists (Ok None).
  - apply p_run_ret in H as [-> [= ->]]. eexists. split; [done|]. by exists (Err e).
Qed.

Lemma verify_pow_ends salt w ip es r : p_run (program salt (CVerifyPow w ip)) es = Some (PRet r) ->
  exists x, r = match x with Some y => RVerifyPow y | None => RPanic end /\ verify_pow_contract w ip es x.
Proof.
  cbn [program]. intros H. destruct es as [|[id' a|s|m a|m a|ip' q a|q b|m a|m a] es]; try discriminate H.
  cbn in H. case_decide; [subst m|discriminate]. unfold await in H. destruct a as [| |[[c|]|e]].
  1,2,5: apply p_run_ret in H as [-> [= ->]]; eexists (Some (Err _)); split; [done|]; left; eexists; split; [done|]; done.
  2: { apply p_run_ret in H as [-> [= ->]]. eexists (Some (Err _)). split; [done|]. right. left. done. }
  case_decide as Hk.
  2: { apply p_run_ret in H as [-> [= ->]]. eexists (Some (Err _)). split; [done|]. right. right. left. exists c.
       split; [done|]. split; [|done]. intros E. by rewrite E in Hk. }
  destruct es as [|[id' a|s|m a|m a|ip' q a|q b|m a|m a] es].
  1: discriminate H. all: try discriminate H. cbn in H. case_decide as Hq; [injection Hq as <- <-|discriminate].
  destruct a as [[[]|e]|].
  2: { apply p_run_ret in H as [-> [= ->]]. eexists (Some (Err _)). split; [done|]. do 3 right. exists c.
       split; [done|]. by left. }
  2: { apply p_run_ret in H as [-> [= ->]]. exists None. split; [done|]. exists c. done. }
  destruct es as [|[id' a|s|m a|m a|ip' q a|q b|m a|m a] es]; try discriminate H. cbn in H.
  case_decide as Hq; [subst q|discriminate]. destruct b as [[]|].
  2,3: apply p_run_ret in H as [-> [= ->]]; eexists (Some (Err _)); split; [done|]; do 3 right; exists c;
     (split; [done|]); right; left; eexists; split; [done|]; done.
  destruct es as [|[id' a|s|m a|m a|ip' q a|q b|m a|m a] es]; try discriminate H. cbn in H.
  destruct es as [|[id' a|s'|m a|m a|ip' q a|q b|m a|m a] es]; try discriminate H. cbn in H.
  case_decide; [subst m|discriminate]. unfold await in H. destruct a as [| |[[]|e]].
  1,2,4: apply p_run_ret in H as [-> [= ->]]; eexists (Some (Err _)); split; [done|]; do 3 right; exists c;
     (split; [done|]); do 2 right; do 2 eexists; unfold cached_into_result; rewrite <- Hk; split; done.
  apply p_run_ret in H as [-> [= ->]]. eexists (Some (Ok (_, _))). split; [done|]. exists c.
  unfold cached_into_result. rewrite <- Hk. done.
Qed.

Lemma validate_ends salt m es r : p_run (program salt (CValidate m)) es = Some (PRet r) ->
  exists x, r = RValidate x /\ validate_contract m es x.
Proof.
  cbn [program]. intros H. destruct es as [|[id' a|s|m' a|m' a|ip' q a|q b|m' a|m' a] es]; try discriminate H.
  cbn in H. case_decide; [subst m'|discriminate]. unfold await in H. destruct a as [| |[b|e]].
  all: apply p_run_ret in H as [-> [= ->]]; eexists; split; [done|]; eexists; split; done.
Qed.

(** The converses: nothing else decides. *)
Lemma get_pow_by_answers salt id es x : get_pow_contract salt id es x ->
  p_run (program salt (CGetPow id)) es = Some (PRet (RGetPow x)).
Proof.
  destruct x as [[c|]|e]; cbn [get_pow_contract].
  - intros (v & -> & Hd & <-). destruct c as [s d st]. cbn in *. subst d. rewrite decide_True by done.
    cbn. rewrite decide_True by done. done.
  - intros (a & -> & Ha). cbn. rewrite decide_True by done. destruct a as [[v|]|e]; [by destruct (Ha v)|done|done].
  - intros [(a & -> & Hu & Hf)|(v & s & a & -> & Hf)].
    + cbn. rewrite decide_True by done. destruct Hu as [->| ->]; cbn in Hf; by subst e.
    + cbn. rewrite decide_True by done. cbn. rewrite decide_True by done.
      destruct a as [| |[|]]; cbn in Hf |- *; by subst.
Qed.
Lemma verify_pow_by_answers salt w ip es x : verify_pow_contract w ip es x ->
  p_run (program salt (CVerifyPow w ip)) es =
    Some (PRet (match x with Some y => RVerifyPow y | None => RPanic end)).
Proof.
  cbn [program].
  assert (Hfound : forall c rest, cc_key c = w_key w ->
    p_run (verify_pow_prog w ip)
      (PeRetrieve (VerifyCaptchaResult (w_string w) (w_key w)) (An (Ok (Some c))) :: rest) =
    p_run (verify_submit w ip c) rest).
  { intros c rest Hk. cbn. rewrite decide_True by done. cbn. by rewrite decide_True by done. }
  assert (Hsub : forall c a rest,
    p_run (verify_submit w ip c) (PeSubmit ip (checked_work w c) (SuDone (Ok a)) :: rest) =
    p_run (verify_poll w c) rest).
  { intros c a rest. cbn. by rewrite decide_True by done. }
  assert (Hst : forall c t a, cc_key c = w_key w ->
    p_run (verify_poll w c) [PeVerdict (checked_work w c) (Some true); PeDraw t;
      PeCacheResult (CacheResult t (w_key w) (cc_duration c)) a] =
    Some (await a RVerifyPow (fun _ => PRet (RVerifyPow (Ok (t, cc_difficulty_factor c)))))).
  { intros c t a Hk. cbn. rewrite decide_True by done. cbn. unfold cached_into_result. rewrite Hk.
    by rewrite decide_True by done. }
  destruct x as [[[t d]|e]|]; cbn [verify_pow_contract].
  - intros (c & -> & Hk & ->). by rewrite Hfound, Hsub, Hst.
  - intros [(a & -> & Hf)|[(-> & ->)|[(c & -> & Hk & ->)|(c & Hk & [->|[(b & -> & Hb & ->)|(t & a & -> & Hf)]])]]].
    + cbn. rewrite decide_True by done. destruct a as [| |[|]]; cbn in Hf |- *; by subst.
    + cbn. by rewrite decide_True by done.
    + cbn. rewrite decide_True by done. cbn. rewrite decide_False; [done|]. intros E. by rewrite E in Hk.
    + rewrite Hfound by done. cbn. by rewrite decide_True by done.
    + rewrite Hfound, Hsub by done. cbn. rewrite decide_True by done. by destruct b as [[]|].
    + rewrite Hfound, Hsub, Hst by done. destruct a as [| |[|]]; cbn in Hf |- *; by subst.
  - intros (c & Hk & ->). rewrite Hfound by done. cbn. by rewrite decide_True by done.
Qed.
Lemma validate_by_answers salt m es x : validate_contract m es x ->
  p_run (program salt (CValidate m)) es = Some (PRet (RValidate x)).
Proof.
  intros (a & -> & Ha). cbn. rewrite decide_True by done. destruct x as [b|e].
  - by subst a.
  - destruct a as [| |[|]]; cbn in Ha |- *; by subst.
Qed.
