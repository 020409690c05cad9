(** Properties of [System]s whose caches are on one Redis and whose Masters are of
    any kind: in memory, on that Redis or on another. *)
From Coq Require Import ZifyBool ZifyN ZifyNat Lia.
From Verif Require Import Model.Base Model.Defense Model.MCaptcha Model.Counter Model.Master Model.HashCache Model.Pow Model.System Model.Json Model.Serde
  Model.Redis Model.RedisActor Model.RedisTokens Model.SystemProgram Model.SystemShared
  Spec.MCaptchaSpec Spec.MasterSpec Spec.SiteSpec Spec.SerdeSpec Spec.RedisSpec Spec.ProgramSpec Spec.SharedSpec Spec.ModuleSpec Spec.MergedSpec Spec.HonestSpec Spec.MixedSpec
  Proofs.SystemHistory Proofs.SiteProofs Proofs.SerdeProofs Proofs.ModuleProofs Proofs.SharedProofs Proofs.MergedProofs
  Properties.SharedProperties Properties.ModuleProperties Properties.MergedProperties.
From Verif Require Proofs.SystemTheorems Proofs.SiteTheorems Properties.SiteProperties.
From Verif Require Export Proofs.MixedTheorems.

(** C119: C92 and C116 do not depend on where the Masters keep the sites. The
    hypothesis is weaker than theirs: it leaves out what was asked of the Masters. *)
Theorem C119_general : forall tr l, merged tr l -> merged (cache_side tr) l.
Proof. exact c119_general. Qed.
Print Assumptions C119_general.

(** What verify_pow is given for a challenge is what a get_pow for the site, on some
    System, was told by its Master and issued the challenge with: the last one that
    did, except if that get_pow was not told that the challenge is stored. *)
Theorem C119_challenge : forall ls now es s tr l tr1 n t q cfg f tr2,
  sh_run ls (sh_init now) es = Some (s, tr) ->
  merged (cache_side tr) l -> Forall (fun x => ok_ask (ex_ask x)) l -> honest_module l ->
  tr = tr1 ++ XoDid n t (PeRetrieve q (An (Ok (Some cfg)))) f :: tr2 ->
  exists before n' i t' v f' between t'' a f'' after,
    tr1 = before ++ XoDid n' t' (PeVisit (vr_key q) (An (Ok (Some v)))) f' :: between ++
      XoDid n' t'' (PeCachePoW (CachePoW (vr_token q) (avr_difficulty_factor v) (avr_duration v) (vr_key q)) a) f'' :: after /\
    XoCall n' i (CGetPow (vr_key q)) ∈ before /\
    (a = An (Ok tt) ->
     forall n0 t0 d u f0, XoDid n0 t0 (PeCachePoW (CachePoW (vr_token q) d u (vr_key q)) (An (Ok tt))) f0 ∉ after) /\
    cfg = CachedPoWConfig (vr_key q) (avr_difficulty_factor v) (avr_duration v).
Proof. exact c119_challenge. Qed.
Print Assumptions C119_challenge.

(** A token is accepted only for work that solves a challenge of its site, at the
    difficulty that a Master told a get_pow for the site, within the lifetime that
    it told. *)
Theorem C119_pass_earned : forall ls now es s tr l tr1 n t m f tr2,
  sh_run ls (sh_init now) es = Some (s, tr) ->
  merged (cache_side tr) l -> Forall (fun x => ok_ask (ex_ask x)) l -> honest_module l ->
  tr = tr1 ++ XoDid n t (PeVerify m (An (Ok true))) f :: tr2 ->
  plain_sites tr -> no_colon (vr_key m) ->
  exists w ip i nv ng ig before tv v fv rest tm,
    tr1 = before ++ XoDid ng tv (PeVisit (vr_key m) (An (Ok (Some v)))) fv :: rest /\
    XoCall ng ig (CGetPow (vr_key m)) ∈ before /\
    (exists tc a fc, XoDid ng tc (PeCachePoW (CachePoW (w_string w) (avr_difficulty_factor v) (avr_duration v) (vr_key m)) a) fc ∈ rest) /\
    XoCall nv i (CVerifyPow w ip) ∈ tr1 /\ w_key w = vr_key m /\
    passes (ls i) (QueuedWork (PoW (w_result w) (w_nonce w)) (w_string w) (avr_difficulty_factor v)) /\
    t <= tm + avr_duration v * 1000 /\
    exists o, o ∈ rest /\ stores o = Some (nv, tm, CacheResult (vr_token m) (vr_key m) (avr_duration v)).
Proof. exact c119_pass_earned. Qed.
Print Assumptions C119_pass_earned.

(** With the Masters in memory, that is the difficulty of a level, and the lifetime,
    that the site was registered with in the Master of the System that issued the
    challenge, whatever sites the other Systems' Masters have. *)
Theorem C119_configured : forall p ts gcs mess ls now es s tr l tr1 n t m f tr2,
  sh_run ls (sh_init now) es = Some (s, tr) ->
  (forall i, in_memory p (ts i) (gcs i) (mess i) i tr) ->
  merged (cache_side tr) l -> Forall (fun x => ok_ask (ex_ask x)) l -> honest_module l ->
  tr = tr1 ++ XoDid n t (PeVerify m (An (Ok true))) f :: tr2 ->
  plain_sites tr -> no_colon (vr_key m) ->
  exists w ip i nv ng ig es1 es2 mtr1 c t0 site,
    let log := site_log p (ts ig) (gcs ig) (mess ig) in
    XoCall ng ig (CGetPow (vr_key m)) ∈ tr1 /\
    mess ig = es1 ++ MeReq (RqAddVisitor (vr_key m)) :: es2 /\
    (exists s1, m_run p (m_start (ts ig) (gcs ig)) es1 = Some (s1, mtr1)) /\
    bound (hist mtr1) (vr_key m) = Some c /\ registered (ts ig) c log = Some (t0, site) /\
    XoCall nv i (CVerifyPow w ip) ∈ tr1 /\ w_key w = vr_key m /\
    (built_mcaptcha p site -> ~ restored c log ->
     exists lv tm o, lv ∈ d_levels (m_defense site) /\
       passes (ls i) (QueuedWork (PoW (w_result w) (w_nonce w)) (w_string w) (difficulty_factor lv)) /\
       t <= tm + m_duration site * 1000 /\
       o ∈ tr1 /\ stores o = Some (nv, tm, CacheResult (vr_token m) (vr_key m) (m_duration site))).
Proof. exact c119_configured. Qed.
Print Assumptions C119_configured.

(** And work that solves a challenge that get_pow returned, at the difficulty that it
    returned, is accepted by verify_pow on every System. *)
Theorem C119_accepted : forall ls now es s tr l ng ig key cfg nv i w ip r,
  sh_run ls (sh_init now) es = Some (s, tr) ->
  merged (cache_side tr) l -> Forall (fun x => ok_ask (ex_ask x)) l -> honest_module l -> draws_distinct tr ->
  XoCall ng ig (CGetPow key) ∈ tr -> XoRet ng (RGetPow (Ok (Some cfg))) ∈ tr ->
  XoCall nv i (CVerifyPow w ip) ∈ tr -> w_key w = key -> w_string w = pc_string cfg ->
  passes (ls i) (QueuedWork (PoW (w_result w) (w_nonce w)) (pc_string cfg) (pc_difficulty_factor cfg)) ->
  XoRet nv r ∈ tr ->
  (exists tok u t1 a f1 t2 f2,
     r = RVerifyPow (Ok (tok, pc_difficulty_factor cfg)) /\
     XoDid ng t1 (PeCachePoW (CachePoW (pc_string cfg) (pc_difficulty_factor cfg) u key) a) f1 ∈ tr /\
     XoDid nv t2 (PeCacheResult (CacheResult tok key u) (An (Ok tt))) f2 ∈ tr) \/
  setback nv tr r.
Proof. exact c119_accepted. Qed.
Print Assumptions C119_accepted.

(** The session of C92_witness, with the Masters in memory: System 0's has the site,
    System 1's has a site of the same name that is harder. *)
Definition ex_mem_site : mcaptcha := SystemTheorems.ex_site.
Definition ex_mem (i : nat) : list mevent :=
  match i with
  | O => [MeReq (RqAddSite "site" ex_mem_site); MeReq (RqAddVisitor "site"); MeTask 1]
  | _ => [MeReq (RqAddSite "site" (shop 99 60))]
  end.
Definition ex_mem_log : list exchange := [
  ok_reply (AkRetrieve (VerifyCaptchaResult "ch" "site")) told;
  ok_reply (AkCache (CachePoW "ch" 50 30 "site")) RvOkay]%string.

Example C119_witness : forall p,
  (forall i, in_memory p 0 60 (ex_mem i) i (ex_shared ex_session)) /\
  merged (cache_side (ex_shared ex_session)) ex_mem_log /\ Forall (fun x => ok_ask (ex_ask x)) ex_mem_log /\ honest_module ex_mem_log /\
  plain_sites (ex_shared ex_session) /\ draws_distinct (ex_shared ex_session) /\
  XoDid 2 31000 (PeVerify (VerifyCaptchaResult "tok" "site") (An (Ok true))) Answered ∈ ex_shared ex_session /\
  registered 0 0 (site_log p 0 60 (ex_mem 0)) = Some (0, ex_mem_site) /\ built_mcaptcha p ex_mem_site /\
  ~ restored 0 (site_log p 0 60 (ex_mem 0)).
Proof.
  intros p. split.
  { rewrite ex_session_eq. intros i n c tv id v f Hc Hd. unfold ex_session_trace in Hc, Hd.
    assert (n = 0%nat /\ id = "site"%string /\ v = ex_visit) as (-> & -> & ->).
    { clear Hc. elem_cases; try discriminate. by injection Hd. }
    clear Hd. assert (i = 0%nat) as -> by (elem_cases; try discriminate; by injection Hc).
    exists [MeReq (RqAddSite "site" ex_mem_site)], [MeTask 1]. eexists. split; [done|].
    eexists _, _, _. split; [by destruct p; vm_compute|]. split; [by destruct p; vm_compute|]. vm_compute. repeat (first [by left|right]). }
  split.
  { rewrite ex_session_eq. rewrite <- (reverse_involutive (cache_side ex_session_trace)).
    let r := eval vm_compute in (reverse (cache_side ex_session_trace)) in
    assert (E : reverse (cache_side ex_session_trace) = r) by (vm_compute; reflexivity); rewrite E; clear E.
    unfold ex_mem_log. repeat (apply mr_quiet; [|reflexivity]). apply mr_asked; [|reflexivity|by vm_compute].
    repeat (apply mr_quiet; [|reflexivity]). apply mr_asked; [|reflexivity|by vm_compute].
    repeat (apply mr_quiet; [|reflexivity]). apply mg_start. }
  split.
  { repeat (apply Forall_cons; split; [try exact I|]); [..|apply Forall_nil_2].
    all: cbn [ex_ask ok_ask ok_reply]; unfold ok_mcaptcha, ok_cache_pow, ok_defense, u32, u64.
    all: repeat (split || apply Forall_cons_2 || apply Forall_nil_2). all: vm_compute; try split; try discriminate. }
  split.
  { unfold ex_mem_log. repeat (apply honest_cons; [|cbn [ok_reply ex_reply ex_ask word_of honest]]); [exact I|..];
      intros v Hv; try discriminate Hv; try exact I; injection Hv as <-.
    exists (challenge_of (CachePoW "ch" 50 30 "site")), (to_string encode_visit (AddVisitorResult 30 50)), (AddVisitorResult 30 50).
    split; [by vm_compute|]. split; [done|]. split; [by vm_compute|]. done. }
  split; [apply C82_witness|]. split; [apply C83_witness|]. split; [apply C82_witness|].
  split; [by destruct p; vm_compute|]. split; [|apply SiteProperties.not_restored; by destruct p; vm_compute].
  apply SiteTheorems.ex_site_built.
Qed.
