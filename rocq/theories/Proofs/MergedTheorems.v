(** Proofs of the theorems of Properties/MergedProperties.v. *)
From Coq Require Import ZifyBool ZifyN ZifyNat Lia.
From Verif Require Import Model.Base Model.Defense Model.MCaptcha Model.HashCache Model.Pow Model.System Model.Json Model.Serde
  Model.Redis Model.RedisActor Model.RedisTokens Model.SystemProgram Model.SystemShared
  Spec.SerdeSpec Spec.RedisSpec Spec.ProgramSpec Spec.SharedSpec Spec.ModuleSpec Spec.MergedSpec
  Proofs.SystemHistory Proofs.SerdeProofs Proofs.ModuleProofs Proofs.ProgramProofs Proofs.SharedProofs Proofs.MergedProofs
  Proofs.SharedTheorems Proofs.ModuleTheorems.

Lemma c92_challenge_of_site : forall ls now es s tr l tr1 n t q cfg f tr2,
  sh_run ls (sh_init now) es = Some (s, tr) ->
  merged tr l -> Forall (fun x => ok_ask (ex_ask x)) l -> honest_module l ->
  tr = tr1 ++ XoDid n t (PeRetrieve q (An (Ok (Some cfg)))) f :: tr2 ->
  exists before n' i t' v f' between t'' a f'' after earlier later site k lv,
    tr1 = before ++ XoDid n' t' (PeVisit (vr_key q) (An (Ok (Some v)))) f' :: between ++
      XoDid n' t'' (PeCachePoW (CachePoW (vr_token q) (cc_difficulty_factor cfg) (cc_duration cfg) (vr_key q)) a) f'' :: after /\
    XoCall n' i (CGetPow (vr_key q)) ∈ before /\
    (a = An (Ok tt) ->
     forall n0 t0 d u f0, XoDid n0 t0 (PeCachePoW (CachePoW (vr_token q) d u (vr_key q)) (An (Ok tt))) f0 ∉ after) /\
    l = later ++ earlier /\ merged before earlier /\
    site_under (carried_out earlier) (vr_key q) = Some (site, k) /\ lv ∈ d_levels (m_defense site) /\
    cfg = CachedPoWConfig (vr_key q) (difficulty_factor lv) (m_duration site).
Proof.
  intros ls now es s tr l tr1 n t q cfg f tr2 Hr Hm Hok Hh E.
  assert (Hl : right_log l) by by split.
  destruct (retrieve_stored _ _ _ _ _ _ _ _ _ Hm Hl E) as (tra & n' & t'' & m & a & f'' & after & E1 & Hk & Hs & Hcfg & Hlate).
  rewrite E1, <- app_assoc in E. cbn in E.
  destruct (did_at _ _ _ _ _ _ _ _ _ _ _ Hr E) as (i & p & p' & sv & (c & Hc & Hu & Hp) & [Hstep _ _ _ _ _ _]).
  pose proof (p_run_snoc _ _ _ _ _ Hp Hstep) as Hp'. pose proof Hp' as Hp''.
  apply before_issue in Hp' as (v & -> & Hreq & _). rewrite Hreq in Hp''. cbn in Hp''.
  rewrite decide_True in Hp'' by done. cbn in Hp''. case_decide as Hm'; [|done]. clear Hp''.
  assert (exists ta tb tv fv, tra = ta ++ XoDid n' tv (PeVisit (cp_key m) (An (Ok (Some v)))) fv :: tb) as (before & between & t' & f' & ->).
  { assert (PeVisit (cp_key m) (An (Ok (Some v))) ∈ requests_of n' tra) as (t0 & f0 & Hin)%requests_elem by (rewrite Hreq; by left).
    apply elem_of_list_split in Hin as (ta & tb & ->). by exists ta, tb, t0, f0. }
  rewrite <- app_assoc in E. cbn in E.
  destruct (visit_level _ _ _ _ _ _ _ _ _ Hm Hl E) as (l1 & l2 & site & k & lv & -> & Hm1 & Hsite & Hlv & Hv).
  assert (Hbefore : XoCall n' i (CGetPow (cp_key m)) ∈ before).
  { destruct (did_at _ _ _ _ _ _ _ _ _ _ _ Hr E) as (i0 & p0 & _ & _ & (c0 & Hc0 & _ & _) & _).
    destruct (Hu i0 c0) as [-> ->]; [apply elem_of_app; by left|]. done. }
  destruct m as [ms md mu mk]. cbn in Hk, Hs, Hm', Hcfg, Hsite, Hbefore. injection Hm' as Hd Hu'. subst mk ms cfg.
  cbn [cc_difficulty_factor cc_duration].
  exists before, n', i, t', v, f', between, t'', a, f'', after, l1, l2, site, k, lv.
  split; [by rewrite E1, <- app_assoc|]. split; [done|]. split.
  { intros -> n0 t0 d u f0 Hin. destruct Hlate as [Hlate|Hlate]; [by destruct (Hlate tt)|]. apply (Hlate _ Hin). by eexists _, _, _, _. }
  split; [done|]. split; [done|]. split; [done|]. split; [done|]. rewrite <- Hd, <- Hu'. by rewrite Hv.
Qed.

Lemma c92_pass_earned : forall ls now es s tr l tr1 n t m f tr2,
  sh_run ls (sh_init now) es = Some (s, tr) ->
  merged tr l -> Forall (fun x => ok_ask (ex_ask x)) l -> honest_module l ->
  tr = tr1 ++ XoDid n t (PeVerify m (An (Ok true))) f :: tr2 ->
  plain_sites tr -> no_colon (vr_key m) ->
  exists w ip i nv ng ig before rest later earlier site k lv tm,
    (** a get_pow for the site, on some System, issued the challenge, *)
    tr1 = before ++ rest /\ XoCall ng ig (CGetPow (vr_key m)) ∈ before /\
    (exists tc a fc, XoDid ng tc (PeCachePoW (CachePoW (w_string w) (difficulty_factor lv) (m_duration site) (vr_key m)) a) fc ∈ rest) /\
    (** when the site was this one, *)
    l = later ++ earlier /\ merged before earlier /\
    site_under (carried_out earlier) (vr_key m) = Some (site, k) /\ lv ∈ d_levels (m_defense site) /\
    (** and a verify_pow, on some System, found the work to solve it. *)
    XoCall nv i (CVerifyPow w ip) ∈ tr1 /\ w_key w = vr_key m /\
    passes (ls i) (QueuedWork (PoW (w_result w) (w_nonce w)) (w_string w) (difficulty_factor lv)) /\
    t <= tm + m_duration site * 1000 /\
    exists o, o ∈ rest /\ stores o = Some (nv, tm, CacheResult (vr_token m) (vr_key m) (m_duration site)).
Proof.
  intros ls now es s tr l tr1 n t m f tr2 Hr Hm Hok Hh E Hplain Hcolon.
  destruct (c82_earned _ _ _ _ _ _ _ _ _ _ _ Hr E Hplain Hcolon) as
    (tra & o & nv & tm & cfg & trb & i & w & ip & E1 & Hst & Hc & Hwk & Hck & Hret & Hpass & _ & Hdue & _).
  apply requests_elem in Hret as (tq & fq & Hin). apply elem_of_list_split in Hin as (tc & td & ->).
  rewrite E1, <- !app_assoc in E. cbn in E.
  destruct (c92_challenge_of_site _ _ _ _ _ _ _ _ _ _ _ _ _ Hr Hm Hok Hh E) as
    (before & ng & ig & t' & v & f' & between & t'' & a' & f'' & after & earlier & later & site & k & lv &
     -> & Hcall & _ & Hl & Hbefore & Hsite & Hlv & ->).
  cbn [vr_key vr_token cc_difficulty_factor cc_duration] in *. rewrite Hwk in *.
  exists w, ip, i, nv, ng, ig, before.
  eexists. exists later, earlier, site, k, lv, tm. split; [rewrite E1, <- !app_assoc; reflexivity|].
  split; [done|]. split.
  { exists t'', a', f''. cbn. right. rewrite <- app_assoc. apply elem_of_app. right. by left. }
  do 4 (split; [done|]). split; [rewrite E1; apply elem_of_app; by left|].
  split; [done|]. split; [done|]. split; [done|].
  exists o. split; [|done]. cbn. right. rewrite <- app_assoc. apply elem_of_app. right. right.
  apply elem_of_app. right. right. apply elem_of_app. right. by left.
Qed.

Lemma mr_quiet r l o : merged (reverse r) l -> module_request o = None -> merged (reverse (o :: r)) l.
Proof. rewrite reverse_cons. apply mg_quiet. Qed.

Lemma mr_asked r l o x : merged (reverse r) l -> module_request o = Some (ex_ask x) -> told_by o x ->
  merged (reverse (o :: r)) (x :: l).
Proof. rewrite reverse_cons. intros. apply mg_asked; [done..|by right]. Qed.
