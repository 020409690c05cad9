(** Proofs of the theorems of Properties/HonestProperties.v. *)
From Coq Require Import ZifyBool ZifyN ZifyNat Lia.
From Verif Require Import Model.Base Model.Defense Model.MCaptcha Model.HashCache Model.Pow Model.System Model.Json Model.Serde
  Model.Redis Model.RedisActor Model.RedisTokens Model.SystemProgram Model.SystemShared
  Spec.SerdeSpec Spec.RedisSpec Spec.ProgramSpec Spec.SharedSpec Spec.ModuleSpec Spec.MergedSpec Spec.HonestSpec
  Proofs.SystemHistory Proofs.RedisProofs Proofs.SerdeProofs Proofs.ModuleProofs Proofs.ProgramProofs Proofs.SharedProofs Proofs.MergedProofs
  Proofs.SharedTheorems Proofs.ModuleTheorems Proofs.MergedTheorems.

(** A cache on Redis never says that there is no such challenge: it is an error. *)
Lemma never_none ls now es s tr n t m f :
  sh_run ls (sh_init now) es = Some (s, tr) -> XoDid n t (PeRetrieve m (An (Ok None))) f ∉ tr.
Proof.
  revert s tr. induction es as [|e es IH] using rev_ind; intros s tr Hr.
  { injection Hr as <- <-. apply not_elem_of_nil. }
  apply sh_run_snoc in Hr as (s1 & tr1 & o & H1 & H2 & ->). intros [Hx|Hx]%elem_of_app; [by eapply IH|].
  destruct e as [i c|n' x|n'|n'|c f'|j|d]; cbn [sh_step] in H2.
  - injection H2 as _ <-. by apply elem_of_list_singleton in Hx.
  - destruct (sh_calls s1 !! n') as [[i p]|]; [|done].
    destruct (respond _ _ _ p x) as [[[[sv p'] e] f']|] eqn:E; [|done]. injection H2 as _ <-.
    apply elem_of_list_singleton in Hx. injection Hx as <- _ <- <-.
    destruct p, x; try discriminate E; cbn [respond] in E;
      repeat match type of E with
      | context [match token_step ?s ?t with _ => _ end] => destruct (token_step s t) as [sx ox] eqn:Et
      | context [if ?b then _ else _] => destruct b eqn:Eb; [|discriminate E]
      end; try discriminate E.
    + injection E as _ _ Em Ha _. cbn in Ha. destruct (exec _ _ _) as [[v|e]|]; by cbn in Ha.
    + injection E as _ _ Em Ha _. by destruct closed.
  - destruct (sh_calls s1 !! n') as [[i []]|]; try done. injection H2 as _ <-. by apply elem_of_list_singleton in Hx.
  - destruct (sh_calls s1 !! n') as [[i p]|]; [|done]. injection H2 as _ <-. by apply elem_of_list_singleton in Hx.
  - destruct c; [done|..]; (destruct (token_step _ _) as [sx ox]; injection H2 as _ <-; by apply elem_of_list_singleton in Hx).
  - destruct (sh_late s1 !! j) as [[n' m']|]; [|done]. destruct (token_step _ _) as [sx ox]. injection H2 as _ <-.
    by apply elem_of_list_singleton in Hx.
  - injection H2 as _ <-. by apply elem_of_nil in Hx.
Qed.

Lemma passes_head l q : passes l q -> head (fst (validate l q)) = Some true.
Proof. intros [H1 H2]. unfold validate. by rewrite H1, H2. Qed.

Lemma minted_store k o n t m l : stores o = Some (n, t, m) -> token_key (cr_key m) (cr_token m) = k ->
  minted k (o :: l) = n :: minted k l.
Proof. intros H1 H2. unfold minted at 1. cbn [omap list_omap]. by rewrite H1, decide_True. Qed.

Lemma c116_accepted : forall ls now es s tr l ng ig key cfg nv i w ip r,
  sh_run ls (sh_init now) es = Some (s, tr) ->
  merged tr l -> Forall (fun x => ok_ask (ex_ask x)) l -> honest_module l -> draws_distinct tr ->
  XoCall ng ig (CGetPow key) ∈ tr -> XoRet ng (RGetPow (Ok (Some cfg))) ∈ tr ->
  XoCall nv i (CVerifyPow w ip) ∈ tr -> w_key w = key -> w_string w = pc_string cfg ->
  passes (ls i) (QueuedWork (PoW (w_result w) (w_nonce w)) (pc_string cfg) (pc_difficulty_factor cfg)) ->
  XoRet nv r ∈ tr ->
  (exists tok u t1 a f1 t2 f2,
     r = RVerifyPow (Ok (tok, pc_difficulty_factor cfg)) /\
     XoDid ng t1 (PeCachePoW (CachePoW (pc_string cfg) (pc_difficulty_factor cfg) u key) a) f1 ∈ tr /\
     XoDid nv t2 (PeCacheResult (CacheResult tok key u) (An (Ok tt))) f2 ∈ tr) \/
  setback nv tr r.
Proof.
  intros ls now es s tr l ng ig key cfg nv i w ip r Hr Hm Hok Hh Hd Hcg Hrg Hcv Hkey Hstr Hpass Hrv. subst key.
  destruct (ret_at _ _ _ _ _ _ _ Hr Hrg) as (ig' & cg & Hcg' & Hpg).
  destruct (call_once _ _ _ _ _ _ _ _ _ _ Hr Hcg Hcg') as [-> ->].
  apply get_pow_ends in Hpg as (x & [= <-] & v & Hreq & Hdf & _).
  destruct (ret_at _ _ _ _ _ _ _ Hr Hrv) as (i' & cv & Hcv' & Hpv).
  destruct (call_once _ _ _ _ _ _ _ _ _ _ Hr Hcv Hcv') as [-> ->].
  (* the challenge the call was given is the one that was issued *)
  assert (Hfound : forall c, PeRetrieve (VerifyCaptchaResult (w_string w) (w_key w)) (An (Ok (Some c))) ∈ requests_of nv tr ->
    c = CachedPoWConfig (w_key w) (pc_difficulty_factor cfg) (avr_duration v)).
  { intros c (t & f & Hin)%requests_elem. apply elem_of_list_split in Hin as (tr1 & tr2 & E).
    destruct (c92_challenge_of_site _ _ _ _ _ _ _ _ _ _ _ _ _ Hr Hm Hok Hh E) as
      (before & n' & i' & t' & v' & f' & between & t'' & a & f'' & after & earlier & later & site & k & lv &
       E1 & _ & _ & _ & _ & _ & _ & Ec). cbn [vr_key vr_token] in *.
    set (m := CachePoW (w_string w) (cc_difficulty_factor c) (cc_duration c) (w_key w)) in *.
    assert (Hi : XoDid n' t'' (PeCachePoW m a) f'' ∈ tr).
    { rewrite E, E1. apply elem_of_app. left. apply elem_of_app. right. right. apply elem_of_app. right. by left. }
    assert (Hn : n' ∈ issued (w_key w) (w_string w) tr).
    { apply elem_of_list_omap. exists (XoDid n' t'' (PeCachePoW m a) f''). split; [done|]. cbn. by rewrite decide_True. }
    destruct (issue_drew _ _ _ _ _ _ _ _ Hr Hn) as (td & fd & _ & Hdraw & _).
    assert (Hg : PeDraw (pc_string cfg) ∈ requests_of ng tr) by (rewrite Hreq; right; by left).
    apply requests_elem in Hg as (tg & fg & Hg). rewrite <- Hstr in Hg.
    pose proof (two_draws _ _ _ _ _ _ _ _ Hd Hdraw Hg) as ->.
    assert (Hs : PeCachePoW m a ∈ requests_of ng tr) by (apply requests_elem; eauto). rewrite Hreq in Hs.
    repeat (apply elem_of_cons in Hs as [Hs|Hs]); try discriminate Hs; [|by apply elem_of_nil in Hs].
    unfold m in Hs. injection Hs as _ H1 H2 _. rewrite Ec in H1, H2 |- *. cbn in H1, H2. by rewrite H1, H2. }
  assert (Hpart : forall e, e ∈ requests_of nv tr -> exists t f, XoDid nv t e f ∈ tr) by (intros e; apply requests_elem).
  apply verify_pow_ends in Hpv as (x & -> & Hc). destruct x as [[[tok d]|e]|]; cbn [verify_pow_contract] in Hc.
  - left. destruct Hc as (c & Hc & Hk & ->).
    assert (c = CachedPoWConfig (w_key w) (pc_difficulty_factor cfg) (avr_duration v)) as -> by (apply Hfound; rewrite Hc; by left).
    cbn [cc_difficulty_factor cc_duration] in *.
    destruct (Hpart (PeCacheResult (CacheResult tok (w_key w) (avr_duration v)) (An (Ok tt)))) as (t2 & f2 & H2).
    { rewrite Hc. do 4 right. by left. }
    assert (H1 : PeCachePoW (CachePoW (pc_string cfg) (pc_difficulty_factor cfg) (avr_duration v) (w_key w)) (An (Ok tt)) ∈ requests_of ng tr)
      by (rewrite Hreq; do 2 right; by left).
    apply requests_elem in H1 as (t1 & f1 & H1).
    exists tok, (avr_duration v), t1, (An (Ok tt)), f1, t2, f2. done.
  - right. destruct Hc as [(a & Hc & Hf)|[[Hc _]|[(c & Hc & Hk & _)|(c & Hk & [Hc|[(b & Hc & Hb & ->)|(tok & a & Hc & Hf)]])]]].
    + left. destruct (Hpart (PeRetrieve (VerifyCaptchaResult (w_string w) (w_key w)) a)) as (t & f & H); [rewrite Hc; by left|].
      by exists t, (VerifyCaptchaResult (w_string w) (w_key w)), a, f, e.
    + exfalso. destruct (Hpart (PeRetrieve (VerifyCaptchaResult (w_string w) (w_key w)) (An (Ok None)))) as (t & f & H); [rewrite Hc; by left|].
      by eapply never_none.
    + exfalso. apply Hk. rewrite (Hfound c); [done|]. rewrite Hc. by left.
    + right. left. destruct (Hpart (PeSubmit ip (checked_work w c) (SuDone (Err e)))) as (t & f & H); [rewrite Hc; right; by left|].
      eexists t, _, _, _, f. split; [exact H|]. right. by exists e.
    + right. right. left. destruct (Hpart (PeVerdict (checked_work w c) b)) as (t & f & H); [rewrite Hc; do 2 right; by left|].
      destruct b as [b|]; [exfalso|by exists t, (checked_work w c), f].
      assert (c = CachedPoWConfig (w_key w) (pc_difficulty_factor cfg) (avr_duration v)) as -> by (apply Hfound; rewrite Hc; by left).
      apply elem_of_list_split in H as (tr1 & tr2 & E). destruct (did_at _ _ _ _ _ _ _ _ _ _ _ Hr E) as (j & p & p' & sv & Hfo & Ha).
      destruct Hfo as (c0 & Hc0 & _ & _).
      assert (Hc1 : XoCall nv j c0 ∈ tr) by (rewrite E; apply elem_of_app; by left).
      destruct (call_once _ _ _ _ _ _ _ _ _ _ Hr Hcv Hc1) as [-> _].
      pose proof (an_verdict _ _ _ _ _ _ _ _ Ha _ _ eq_refl) as Hv. unfold checked_work in Hv.
      cbn [cc_difficulty_factor] in Hv. rewrite Hstr, (passes_head _ _ Hpass) in Hv. by injection Hv as <-.
    + right. right. right. destruct (Hpart (PeCacheResult (CacheResult tok (w_key w) (cc_duration c)) a)) as (t & f & H); [rewrite Hc; do 4 right; by left|].
      by eexists t, _, a, f, e.
  - right. right. left. destruct Hc as (c & Hk & Hc).
    destruct (Hpart (PeSubmit ip (checked_work w c) SuPanic)) as (t & f & H); [rewrite Hc; right; by left|].
    eexists t, _, _, _, f. split; [exact H|]. by left.
Qed.

Lemma c116_good : forall ls now es s tr nv i w ip tok d tr1 tr2 n t a tr3,
  sh_run ls (sh_init now) es = Some (s, tr) -> plain_sites tr -> draws_distinct tr ->
  XoCall nv i (CVerifyPow w ip) ∈ tr ->
  tr = tr1 ++ XoRet nv (RVerifyPow (Ok (tok, d))) :: tr2 ++ XoDid n t (PeVerify (VerifyCaptchaResult tok (w_key w)) a) Answered :: tr3 ->
  (forall t' u f', XoDid nv t' (PeCacheResult (CacheResult tok (w_key w) u) (An (Ok tt))) f' ∈ tr1 -> t <= t' + u * 1000) ->
  (forall te, te ∈ tokens (tr1 ++ tr2) -> ~ takes (token_key (w_key w) tok) te) ->
  a = An (Ok true) \/ unanswered a.
Proof.
  intros ls now es s tr nv i w ip tok d tr1 tr2 n t a tr3 Hr Hp Hd Hc E Hlife Hnone.
  set (k := token_key (w_key w) tok) in *.
  assert (Htr1 : exists es1 s1, sh_run ls (sh_init now) es1 = Some (s1, tr1 ++ [XoRet nv (RVerifyPow (Ok (tok, d)))])).
  { eapply run_prefix; [exact Hr|]. rewrite E, <- app_assoc. done. }
  destruct Htr1 as (es1 & s1 & Hr1).
  assert (Hin1 : XoRet nv (RVerifyPow (Ok (tok, d))) ∈ tr1 ++ [XoRet nv (RVerifyPow (Ok (tok, d)))]) by (apply elem_of_app; right; by left).
  destruct (ret_at _ _ _ _ _ _ _ Hr1 Hin1) as (i1 & c1 & Hc1 & Hp1).
  assert (Hc1' : XoCall nv i1 c1 ∈ tr).
  { rewrite E. apply elem_of_app in Hc1 as [?|Hx]; [apply elem_of_app; by left|by apply elem_of_list_singleton in Hx]. }
  destruct (call_once _ _ _ _ _ _ _ _ _ _ Hr Hc Hc1') as [-> ->].
  apply verify_pow_ends in Hp1 as ([[[tok' d']|]|] & Hx & Hcon); try discriminate Hx. injection Hx as <- <-.
  destruct Hcon as (c & Hreq & Hk & ->). rewrite requests_of_app in Hreq. cbn in Hreq. rewrite app_nil_r in Hreq.
  assert (Hst : PeCacheResult (CacheResult tok (w_key w) (cc_duration c)) (An (Ok tt)) ∈ requests_of nv tr1) by (rewrite Hreq; do 4 right; by left).
  apply requests_elem in Hst as (t' & f' & Hst). pose proof (Hlife _ _ _ Hst) as Hle.
  assert (Hdr : PeDraw tok ∈ requests_of nv tr1) by (rewrite Hreq; do 3 right; by left).
  apply requests_elem in Hdr as (tdr & fdr & Hdr).
  assert (Hmint : forall n', n' ∈ minted k tr -> n' = nv).
  { intros n' Hn'. destruct (mint_drew _ _ _ _ _ _ _ Hr Hn') as (i2 & w2 & ip2 & cf2 & tok2 & t2 & f2 & Hc2 & _ & _ & Hd2 & Ek).
    unfold k in Ek. apply token_key_inj in Ek as [_ <-]; [|by eapply Hp|by eapply Hp].
    eapply two_draws; [exact Hd|exact Hd2|]. rewrite E. apply elem_of_app. by left. }
  apply elem_of_list_split in Hst as (ta & tb & E1).
  assert (E2 : tr = ta ++ XoDid nv t' (PeCacheResult (CacheResult tok (w_key w) (cc_duration c)) (An (Ok tt))) f' ::
    (tb ++ XoRet nv (RVerifyPow (Ok (tok, cc_difficulty_factor c))) :: tr2) ++ XoDid n t (PeVerify (VerifyCaptchaResult tok (w_key w)) a) Answered :: tr3).
  { rewrite E, E1, <- !app_assoc. cbn. rewrite <- ?app_assoc. done. }
  assert (Hf' : f' <> NotSent).
  { destruct (did_at _ _ _ _ _ _ _ _ _ _ _ Hr E2) as (i3 & p & p' & sv & _ & Ha).
    pose proof (an_store _ _ _ _ _ _ _ _ Ha _ eq_refl) as Hs. by intros ->. }
  destruct (c82_good_everywhere _ _ _ _ _ _ _ _ _ _ _ _ _ (VerifyCaptchaResult tok (w_key w)) _ _ Hr E2 eq_refl Hle) as [Hu|Hu];
    [|by right|by left].
  intros te Hte [Hsent _] Hk'. cbn [cr_key cr_token] in Hk'. fold k in Hk'. rewrite tokens_app in Hte.
  assert (Hin : te ∈ tokens (tr1 ++ tr2)).
  { rewrite E1, !tokens_app. cbn [tokens omap list_omap token_of]. fold (tokens tb).
    apply elem_of_app in Hte as [Hte|Hte]; apply elem_of_app; [left|right; done].
    apply elem_of_app. right. by right. }
  destruct (te_call te) as [m|m|m] eqn:Ec.
  2, 3: apply (Hnone te Hin); split; [done|]; rewrite Ec; by split.
  (* another store under this key *)
  clear Hin. set (r := XoRet nv (RVerifyPow (Ok (tok, cc_difficulty_factor c)))) in *.
  assert (Hte' : te ∈ tokens (tb ++ r :: tr2)) by (rewrite tokens_app; done).
  apply elem_of_list_omap in Hte' as (o & Ho & Hto).
  assert (exists n' t0, stores o = Some (n', t0, m)) as (n' & t0 & Hs).
  { destruct o as [|n' t0 [] f0| | |t0 c0 f0|n' t0 m0]; cbn in Hto; try discriminate Hto; injection Hto as <-; cbn in Ec, Hsent; try discriminate Ec.
    - injection Ec as ->. exists n', t0. cbn. by rewrite decide_False.
    - subst c0. exfalso. eapply (other_no_add _ _ _ _ _ t0 m f0 Hr). rewrite E2. apply elem_of_app. right. right.
      apply elem_of_app. by left.
    - injection Ec as ->. by exists n', t0. }
  apply elem_of_list_split in Ho as (x1 & x2 & Ex).
  assert (Hm : minted k tr = minted k ta ++ nv :: minted k x1 ++ n' :: minted k x2 ++
    minted k (XoDid n t (PeVerify (VerifyCaptchaResult tok (w_key w)) a) Answered :: tr3)).
  { rewrite E2, Ex, <- app_assoc. cbn [app].
    rewrite minted_app, (minted_store k _ nv t' (CacheResult tok (w_key w) (cc_duration c))); [|cbn; by rewrite decide_False|done].
    rewrite minted_app, (minted_store k o n' t0 m), minted_app; done. }
  pose proof (minted_once _ _ _ _ _ k Hr) as Hnd. rewrite Hm in Hnd.
  assert (n' = nv) as ->.
  { apply Hmint. rewrite Hm. apply elem_of_app. right. right. apply elem_of_app. right. by left. }
  apply NoDup_app in Hnd as (_ & _ & Hnd). apply NoDup_cons in Hnd as [Hnd _]. apply Hnd. apply elem_of_app. right. by left.
Qed.
