(** Proofs of the theorems of Properties/MixedProperties.v. *)
From Coq Require Import ZifyBool ZifyN ZifyNat Lia.
From Verif Require Import Model.Base Model.Defense Model.MCaptcha Model.Counter Model.Master Model.HashCache Model.Pow Model.System Model.Json Model.Serde
  Model.Redis Model.RedisActor Model.RedisTokens Model.SystemProgram Model.SystemShared
  Spec.MCaptchaSpec Spec.MasterSpec Spec.SiteSpec Spec.SerdeSpec Spec.RedisSpec Spec.ProgramSpec Spec.SharedSpec Spec.ModuleSpec Spec.MergedSpec Spec.HonestSpec Spec.MixedSpec
  Proofs.SiteProofs Proofs.SystemHistory Proofs.RedisProofs Proofs.SerdeProofs Proofs.ModuleProofs Proofs.ProgramProofs Proofs.SharedProofs Proofs.MergedProofs
  Proofs.SiteTheorems Proofs.SharedTheorems Proofs.ModuleTheorems Proofs.MergedTheorems Proofs.HonestTheorems.

Lemma cache_side_app a b : cache_side (a ++ b) = cache_side a ++ cache_side b.
Proof. apply List.filter_app. Qed.

Lemma cache_side_elem o tr : not_visit o = true -> o ∈ tr -> o ∈ cache_side tr.
Proof. rewrite !elem_of_list_In. intros. by apply List.filter_In. Qed.

Lemma cache_side_split tr a o b : cache_side tr = a ++ o :: b ->
  exists tra trb, tr = tra ++ o :: trb /\ cache_side tra = a /\ cache_side trb = b.
Proof.
  revert a. induction tr as [|x tr IH]; intros a E; [by destruct a|].
  unfold cache_side in E. cbn [List.filter] in E. fold (cache_side tr) in E.
  destruct (not_visit x) eqn:Ex.
  - destruct a as [|y a]; injection E as -> E.
    + by exists [], tr.
    + destruct (IH _ E) as (tra & trb & -> & Ha & <-). exists (y :: tra), trb. split; [done|]. split; [|done].
      unfold cache_side. cbn [List.filter]. rewrite Ex. fold (cache_side tra). by rewrite Ha.
  - destruct (IH _ E) as (tra & trb & -> & Ha & <-). exists (x :: tra), trb. split; [done|]. split; [|done].
    unfold cache_side. cbn [List.filter]. by rewrite Ex.
Qed.

Lemma visit_no_cache o m : not_visit o = false -> module_request o <> Some (AkCache m).
Proof. intros H. destruct o as [|? ? [] ?| | | |]; try discriminate H; discriminate. Qed.

(** Masters on the same Redis are a special case: what they asked is then what
    others asked. *)
Lemma c119_general : forall tr l, merged tr l -> merged (cache_side tr) l.
Proof.
  induction 1 as [|tr l o Hm IH Hq|tr l o Hm IH Hq|tr l o x Hm IH Hq Ht|tr l o x Hm IH Ho Hq Ha|tr l x Hm IH Hx]; [apply mg_start|..].
  - rewrite cache_side_app. destruct (not_visit o) eqn:E; unfold cache_side at 2; cbn [List.filter]; rewrite E.
    + by apply mg_quiet.
    + by rewrite app_nil_r.
  - rewrite cache_side_app. destruct (not_visit o) eqn:E; unfold cache_side at 2; cbn [List.filter]; rewrite E.
    + by apply mg_unsent.
    + by rewrite app_nil_r.
  - rewrite cache_side_app. destruct (not_visit o) eqn:E; unfold cache_side at 2; cbn [List.filter]; rewrite E.
    + by apply mg_asked.
    + rewrite app_nil_r. apply mg_other; [done|]. intros m Hm'. rewrite Hm' in Hq.
      by eapply visit_no_cache.
  - destruct (not_visit o) eqn:E.
    + eapply mg_late; [done| |done|done]. by apply cache_side_elem.
    + apply mg_other; [done|]. intros m Hm'. rewrite Hm' in Hq.
      by eapply visit_no_cache.
  - by apply mg_other.
Qed.

Lemma c119_challenge : forall ls now es s tr l tr1 n t q cfg f tr2,
  sh_run ls (sh_init now) es = Some (s, tr) ->
  merged (cache_side tr) l -> Forall (fun x => ok_ask (ex_ask x)) l -> honest_module l ->
  tr = tr1 ++ XoDid n t (PeRetrieve q (An (Ok (Some cfg)))) f :: tr2 ->
  exists before n' i t' v f' between t'' a f'' after,
    tr1 = before ++ XoDid n' t' (PeVisit (vr_key q) (An (Ok (Some v)))) f' :: between ++
      XoDid n' t'' (PeCachePoW (CachePoW (vr_token q) (avr_difficulty_factor v) (avr_duration v) (vr_key q)) a) f'' :: after /\
    XoCall n' i (CGetPow (vr_key q)) ∈ before /\
    (a = An (Ok tt) ->
     forall n0 t0 d u f0, XoDid n0 t0 (PeCachePoW (CachePoW (vr_token q) d u (vr_key q)) (An (Ok tt))) f0 ∉ after) /\
    cfg = CachedPoWConfig (vr_key q) (avr_difficulty_factor v) (avr_duration v).
Proof.
  intros ls now es s tr l tr1 n t q cfg f tr2 Hr Hm Hok Hh E.
  assert (Hl : right_log l) by by split.
  assert (Ec : cache_side tr = cache_side tr1 ++ XoDid n t (PeRetrieve q (An (Ok (Some cfg)))) f :: cache_side tr2)
    by (by rewrite E, cache_side_app).
  destruct (retrieve_stored _ _ _ _ _ _ _ _ _ Hm Hl Ec) as (tra' & n' & t'' & m & a & f'' & after' & E1' & Hk & Hs & Hcfg & Hlate).
  apply cache_side_split in E1' as (tra & after & E1 & _ & Hafter).
  rewrite E1, <- app_assoc in E. cbn in E.
  destruct (did_at _ _ _ _ _ _ _ _ _ _ _ Hr E) as (i & p & p' & sv & (c & Hc & Hu & Hp) & [Hstep _ _ _ _ _ _]).
  pose proof (p_run_snoc _ _ _ _ _ Hp Hstep) as Hp'. pose proof Hp' as Hp''.
  apply before_issue in Hp' as (v & -> & Hreq & _). rewrite Hreq in Hp''. cbn in Hp''.
  rewrite decide_True in Hp'' by done. cbn in Hp''. case_decide as Hm'; [|done]. clear Hp''.
  assert (exists ta tb tv fv, tra = ta ++ XoDid n' tv (PeVisit (cp_key m) (An (Ok (Some v)))) fv :: tb) as (before & between & t' & f' & ->).
  { assert (PeVisit (cp_key m) (An (Ok (Some v))) ∈ requests_of n' tra) as (t0 & f0 & Hin)%requests_elem by (rewrite Hreq; by left).
    apply elem_of_list_split in Hin as (ta & tb & ->). by exists ta, tb, t0, f0. }
  rewrite <- app_assoc in E. cbn in E.
  assert (Hbefore : XoCall n' i (CGetPow (cp_key m)) ∈ before).
  { destruct (did_at _ _ _ _ _ _ _ _ _ _ _ Hr E) as (i0 & p0 & _ & _ & (c0 & Hc0 & _ & _) & _).
    destruct (Hu i0 c0) as [-> ->]; [apply elem_of_app; by left|]. done. }
  destruct m as [ms md mu mk]. cbn in Hk, Hs, Hm', Hcfg, Hbefore. injection Hm' as Hd Hu'. subst mk ms cfg.
  exists before, n', i, t', v, f', between, t'', a, f'', after. rewrite Hd, Hu'.
  split; [by rewrite E1, <- app_assoc|]. split; [done|]. split; [|done].
  intros -> n0 t0 d u f0 Hin. apply cache_side_elem in Hin; [|done]. rewrite Hafter in Hin.
  destruct Hlate as [Hlate|Hlate]; [by destruct (Hlate tt)|]. apply (Hlate _ Hin). by eexists _, _, _, _.
Qed.

Lemma c119_pass_earned : forall ls now es s tr l tr1 n t m f tr2,
  sh_run ls (sh_init now) es = Some (s, tr) ->
  merged (cache_side tr) l -> Forall (fun x => ok_ask (ex_ask x)) l -> honest_module l ->
  tr = tr1 ++ XoDid n t (PeVerify m (An (Ok true))) f :: tr2 ->
  plain_sites tr -> no_colon (vr_key m) ->
  exists w ip i nv ng ig before tv v fv rest tm,
    tr1 = before ++ XoDid ng tv (PeVisit (vr_key m) (An (Ok (Some v)))) fv :: rest /\
    XoCall ng ig (CGetPow (vr_key m)) ∈ before /\
    (exists tc a fc, XoDid ng tc (PeCachePoW (CachePoW (w_string w) (avr_difficulty_factor v) (avr_duration v) (vr_key m)) a) fc ∈ rest) /\
    XoCall nv i (CVerifyPow w ip) ∈ tr1 /\ w_key w = vr_key m /\
    passes (ls i) (QueuedWork (PoW (w_result w) (w_nonce w)) (w_string w) (avr_difficulty_factor v)) /\
    t <= tm + avr_duration v * 1000 /\
    exists o, o ∈ rest /\ stores o = Some (nv, tm, CacheResult (vr_token m) (vr_key m) (avr_duration v)).
Proof.
  intros ls now es s tr l tr1 n t m f tr2 Hr Hm Hok Hh E Hplain Hcolon.
  destruct (c82_earned _ _ _ _ _ _ _ _ _ _ _ Hr E Hplain Hcolon) as
    (tra & o & nv & tm & cfg & trb & i & w & ip & E1 & Hst & Hc & Hwk & Hck & Hret & Hpass & _ & Hdue & _).
  apply requests_elem in Hret as (tq & fq & Hin). apply elem_of_list_split in Hin as (tc & td & ->).
  rewrite E1, <- !app_assoc in E. cbn in E.
  destruct (c119_challenge _ _ _ _ _ _ _ _ _ _ _ _ _ Hr Hm Hok Hh E) as
    (before & ng & ig & t' & v & f' & between & t'' & a' & f'' & after & -> & Hcall & _ & ->).
  cbn [vr_key vr_token cc_difficulty_factor cc_duration] in *. rewrite Hwk in *.
  exists w, ip, i, nv, ng, ig, before, t', v, f'.
  eexists. exists tm. split; [rewrite E1, <- !app_assoc; cbn; rewrite <- !app_assoc; reflexivity|].
  split; [done|]. split.
  { exists t'', a', f''. apply elem_of_app. right. by left. }
  split; [rewrite E1; apply elem_of_app; by left|].
  split; [done|]. split; [done|]. split; [done|].
  exists o. split; [|done]. apply elem_of_app. right. right.
  apply elem_of_app. right. right. apply elem_of_app. right. by left.
Qed.

Lemma c119_configured : forall p ts gcs mess ls now es s tr l tr1 n t m f tr2,
  sh_run ls (sh_init now) es = Some (s, tr) ->
  (forall i, in_memory p (ts i) (gcs i) (mess i) i tr) ->
  merged (cache_side tr) l -> Forall (fun x => ok_ask (ex_ask x)) l -> honest_module l ->
  tr = tr1 ++ XoDid n t (PeVerify m (An (Ok true))) f :: tr2 ->
  plain_sites tr -> no_colon (vr_key m) ->
  exists w ip i nv ng ig es1 es2 mtr1 c t0 site,
    let log := site_log p (ts ig) (gcs ig) (mess ig) in
    XoCall ng ig (CGetPow (vr_key m)) ∈ tr1 /\
    mess ig = es1 ++ MeReq (RqAddVisitor (vr_key m)) :: es2 /\
    (exists s1, m_run p (m_start (ts ig) (gcs ig)) es1 = Some (s1, mtr1)) /\
    bound (hist mtr1) (vr_key m) = Some c /\ registered (ts ig) c log = Some (t0, site) /\
    XoCall nv i (CVerifyPow w ip) ∈ tr1 /\ w_key w = vr_key m /\
    (built_mcaptcha p site -> ~ restored c log ->
     exists lv tm o, lv ∈ d_levels (m_defense site) /\
       passes (ls i) (QueuedWork (PoW (w_result w) (w_nonce w)) (w_string w) (difficulty_factor lv)) /\
       t <= tm + m_duration site * 1000 /\
       o ∈ tr1 /\ stores o = Some (nv, tm, CacheResult (vr_token m) (vr_key m) (m_duration site))).
Proof.
  intros p ts gcs mess ls now es s tr l tr1 n t m f tr2 Hr Hmem Hm Hok Hh E Hplain Hcolon.
  destruct (c119_pass_earned _ _ _ _ _ _ _ _ _ _ _ _ Hr Hm Hok Hh E Hplain Hcolon) as
    (w & ip & i & nv & ng & ig & before & tv & v & fv & rest & tm & E1 & Hcg & _ & Hcv & Hwk & Hpass & Hdue & o & Ho & Hst).
  assert (Hcg' : XoCall ng ig (CGetPow (vr_key m)) ∈ tr1) by (rewrite E1; apply elem_of_app; by left).
  destruct (Hmem ig ng (CGetPow (vr_key m)) tv (vr_key m) v fv) as (es1 & es2 & mtr1 & Ees & s1 & ms & mtr & M1 & M & Hrep).
  { rewrite E. apply elem_of_app. by left. }
  { rewrite E, E1. apply elem_of_app. left. apply elem_of_app. right. by left. }
  destruct (c86_visits _ _ _ _ _ _ _ _ _ _ _ M1 M Hrep) as (c & t0 & site & Hb & Hreg & Hin).
  rewrite <- Ees in M, Hreg, Hin.
  exists w, ip, i, nv, ng, ig, es1, es2, mtr1, c, t0, site. cbn zeta.
  split; [done|]. split; [done|]. split; [by exists s1|]. split; [done|]. split; [done|]. split; [done|]. split; [done|].
  intros Hbm Hnr. destruct (site_told _ _ _ _ _ _ _ _ _ M Hreg Hbm Hnr) as [Hall _].
  rewrite Forall_forall in Hall. destruct (Hall _ Hin) as (Hd & lv & Hlv & Hf). rewrite <- Hd.
  exists lv, tm, o. split; [done|]. rewrite <- Hf. split; [done|]. split; [done|]. split; [|done]. rewrite E1. apply elem_of_app. right. by right.
Qed.

Lemma c119_accepted : forall ls now es s tr l ng ig key cfg nv i w ip r,
  sh_run ls (sh_init now) es = Some (s, tr) ->
  merged (cache_side tr) l -> Forall (fun x => ok_ask (ex_ask x)) l -> honest_module l -> draws_distinct tr ->
  XoCall ng ig (CGetPow key) ∈ tr -> XoRet ng (RGetPow (Ok (Some cfg))) ∈ tr ->
  XoCall nv i (CVerifyPow w ip) ∈ tr -> w_key w = key -> w_string w = pc_string cfg ->
  passes (ls i) (QueuedWork (PoW (w_result w) (w_nonce w)) (pc_string cfg) (pc_difficulty_factor cfg)) ->
  XoRet nv r ∈ tr ->
  (exists tok u t1 a f1 t2 f2,
     r = RVerifyPow (Ok (tok, pc_difficulty_factor cfg)) /\
     XoDid ng t1 (PeCachePoW (CachePoW (pc_string cfg) (pc_difficulty_factor cfg) u key) a) f1 ∈ tr /\
     XoDid nv t2 (PeCacheResult (CacheResult tok key u) (An (Ok tt))) f2 ∈ tr) \/
  setback nv tr r.
Proof.
  intros ls now es s tr l ng ig key cfg nv i w ip r Hr Hm Hok Hh Hd Hcg Hrg Hcv Hkey Hstr Hpass Hrv. subst key.
  destruct (ret_at _ _ _ _ _ _ _ Hr Hrg) as (ig' & cg & Hcg' & Hpg).
  destruct (call_once _ _ _ _ _ _ _ _ _ _ Hr Hcg Hcg') as [-> ->].
  apply get_pow_ends in Hpg as (x & [= <-] & v & Hreq & Hdf & _).
  destruct (ret_at _ _ _ _ _ _ _ Hr Hrv) as (i' & cv & Hcv' & Hpv).
  destruct (call_once _ _ _ _ _ _ _ _ _ _ Hr Hcv Hcv') as [-> ->].
  (* the challenge the call was given is the one that was issued *)
  assert (Hfound : forall c, PeRetrieve (VerifyCaptchaResult (w_string w) (w_key w)) (An (Ok (Some c))) ∈ requests_of nv tr ->
    c = CachedPoWConfig (w_key w) (pc_difficulty_factor cfg) (avr_duration v)).
  { intros c (t & f & Hin)%requests_elem. apply elem_of_list_split in Hin as (tr1 & tr2 & E).
    destruct (c119_challenge _ _ _ _ _ _ _ _ _ _ _ _ _ Hr Hm Hok Hh E) as
      (before & n' & i' & t' & v' & f' & between & t'' & a & f'' & after & E1 & _ & _ & Ec). cbn [vr_key vr_token] in *.
    set (m := CachePoW (w_string w) (avr_difficulty_factor v') (avr_duration v') (w_key w)) in *.
    assert (Hi : XoDid n' t'' (PeCachePoW m a) f'' ∈ tr).
    { rewrite E, E1. apply elem_of_app. left. apply elem_of_app. right. right. apply elem_of_app. right. by left. }
    assert (Hn : n' ∈ issued (w_key w) (w_string w) tr).
    { apply elem_of_list_omap. exists (XoDid n' t'' (PeCachePoW m a) f''). split; [done|]. cbn. by rewrite decide_True. }
    destruct (issue_drew _ _ _ _ _ _ _ _ Hr Hn) as (td & fd & _ & Hdraw & _).
    assert (Hg : PeDraw (pc_string cfg) ∈ requests_of ng tr) by (rewrite Hreq; right; by left).
    apply requests_elem in Hg as (tg & fg & Hg). rewrite <- Hstr in Hg.
    pose proof (two_draws _ _ _ _ _ _ _ _ Hd Hdraw Hg) as ->.
    assert (Hs : PeCachePoW m a ∈ requests_of ng tr) by (apply requests_elem; eauto). rewrite Hreq in Hs.
    repeat (apply elem_of_cons in Hs as [Hs|Hs]); try discriminate Hs; [|by apply elem_of_nil in Hs].
    unfold m in Hs. injection Hs as _ H1 H2 _. by rewrite Ec, H1, H2. }
  assert (Hpart : forall e, e ∈ requests_of nv tr -> exists t f, XoDid nv t e f ∈ tr) by (intros e; apply requests_elem).
  apply verify_pow_ends in Hpv as (x & -> & Hc). destruct x as [[[tok d]|e]|]; cbn [verify_pow_contract] in Hc.
  - left. destruct Hc as (c & Hc & Hk & ->).
    assert (c = CachedPoWConfig (w_key w) (pc_difficulty_factor cfg) (avr_duration v)) as -> by (apply Hfound; rewrite Hc; by left).
    cbn [cc_difficulty_factor cc_duration] in *.
    destruct (Hpart (PeCacheResult (CacheResult tok (w_key w) (avr_duration v)) (An (Ok tt)))) as (t2 & f2 & H2).
    { rewrite Hc. do 4 right. by left. }
    assert (H1 : PeCachePoW (CachePoW (pc_string cfg) (pc_difficulty_factor cfg) (avr_duration v) (w_key w)) (An (Ok tt)) ∈ requests_of ng tr)
      by (rewrite Hreq; do 2 right; by left).
    apply requests_elem in H1 as (t1 & f1 & H1).
    exists tok, (avr_duration v), t1, (An (Ok tt)), f1, t2, f2. done.
  - right. destruct Hc as [(a & Hc & Hf)|[[Hc _]|[(c & Hc & Hk & _)|(c & Hk & [Hc|[(b & Hc & Hb & ->)|(tok & a & Hc & Hf)]])]]].
    + left. destruct (Hpart (PeRetrieve (VerifyCaptchaResult (w_string w) (w_key w)) a)) as (t & f & H); [rewrite Hc; by left|].
      by exists t, (VerifyCaptchaResult (w_string w) (w_key w)), a, f, e.
    + exfalso. destruct (Hpart (PeRetrieve (VerifyCaptchaResult (w_string w) (w_key w)) (An (Ok None)))) as (t & f & H); [rewrite Hc; by left|].
      by eapply never_none.
    + exfalso. apply Hk. rewrite (Hfound c); [done|]. rewrite Hc. by left.
    + right. left. destruct (Hpart (PeSubmit ip (checked_work w c) (SuDone (Err e)))) as (t & f & H); [rewrite Hc; right; by left|].
      eexists t, _, _, _, f. split; [exact H|]. right. by exists e.
    + right. right. left. destruct (Hpart (PeVerdict (checked_work w c) b)) as (t & f & H); [rewrite Hc; do 2 right; by left|].
      destruct b as [b|]; [exfalso|by exists t, (checked_work w c), f].
      assert (c = CachedPoWConfig (w_key w) (pc_difficulty_factor cfg) (avr_duration v)) as -> by (apply Hfound; rewrite Hc; by left).
      apply elem_of_list_split in H as (tr1 & tr2 & E). destruct (did_at _ _ _ _ _ _ _ _ _ _ _ Hr E) as (j & p & p' & sv & Hfo & Ha).
      destruct Hfo as (c0 & Hc0 & _ & _).
      assert (Hc1 : XoCall nv j c0 ∈ tr) by (rewrite E; apply elem_of_app; by left).
      destruct (call_once _ _ _ _ _ _ _ _ _ _ Hr Hcv Hc1) as [-> _].
      pose proof (an_verdict _ _ _ _ _ _ _ _ Ha _ _ eq_refl) as Hv. unfold checked_work in Hv.
      cbn [cc_difficulty_factor] in Hv. rewrite Hstr, (passes_head _ _ Hpass) in Hv. by injection Hv as <-.
    + right. right. right. destruct (Hpart (PeCacheResult (CacheResult tok (w_key w) (cc_duration c)) a)) as (t & f & H); [rewrite Hc; do 4 right; by left|].
      by eexists t, _, a, f, e.
  - right. right. left. destruct Hc as (c & Hk & Hc).
    destruct (Hpart (PeSubmit ip (checked_work w c) SuPanic)) as (t & f & H); [rewrite Hc; right; by left|].
    eexists t, _, _, _, f. split; [exact H|]. by left.
Qed.
