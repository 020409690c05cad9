(** Properties of [System]s whose Masters and caches are on one Redis, the module
    of which does what its commands say. *)
From Coq Require Import ZifyBool ZifyN ZifyNat Lia.
From Verif Require Import Model.Base Model.Defense Model.MCaptcha Model.HashCache Model.Pow Model.System Model.Json Model.Serde
  Model.Redis Model.RedisActor Model.RedisTokens Model.SystemProgram Model.SystemShared
  Spec.SerdeSpec Spec.RedisSpec Spec.ProgramSpec Spec.SharedSpec Spec.ModuleSpec Spec.MergedSpec
  Proofs.SystemHistory Proofs.SerdeProofs Proofs.ModuleProofs Proofs.ProgramProofs Proofs.SharedProofs Proofs.MergedProofs
  Properties.SharedProperties Properties.ModuleProperties.
From Verif Require Export Proofs.MergedTheorems.

(** C92: what verify_pow is given for a challenge is what a get_pow that issued it
    was told by the module: a level of the site that had the name then. It is the
    last one, except if that get_pow was not told that the challenge is stored, for
    then it may have been stored later. *)
Theorem C92_challenge_of_site : forall ls now es s tr l tr1 n t q cfg f tr2,
  sh_run ls (sh_init now) es = Some (s, tr) ->
  merged tr l -> Forall (fun x => ok_ask (ex_ask x)) l -> honest_module l ->
  tr = tr1 ++ XoDid n t (PeRetrieve q (An (Ok (Some cfg)))) f :: tr2 ->
  exists before n' i t' v f' between t'' a f'' after earlier later site k lv,
    tr1 = before ++ XoDid n' t' (PeVisit (vr_key q) (An (Ok (Some v)))) f' :: between ++
      XoDid n' t'' (PeCachePoW (CachePoW (vr_token q) (cc_difficulty_factor cfg) (cc_duration cfg) (vr_key q)) a) f'' :: after /\
    XoCall n' i (CGetPow (vr_key q)) ∈ before /\
    (a = An (Ok tt) ->
     forall n0 t0 d u f0, XoDid n0 t0 (PeCachePoW (CachePoW (vr_token q) d u (vr_key q)) (An (Ok tt))) f0 ∉ after) /\
    l = later ++ earlier /\ merged before earlier /\
    site_under (carried_out earlier) (vr_key q) = Some (site, k) /\ lv ∈ d_levels (m_defense site) /\
    cfg = CachedPoWConfig (vr_key q) (difficulty_factor lv) (m_duration site).
Proof. exact c92_challenge_of_site. Qed.
Print Assumptions C92_challenge_of_site.

(** So a token is accepted only for work that solves a challenge of its site, at
    the difficulty of a level of the site as it was configured when the challenge
    was issued, within the site's lifetime of tokens. *)
Theorem C92_pass_earned : forall ls now es s tr l tr1 n t m f tr2,
  sh_run ls (sh_init now) es = Some (s, tr) ->
  merged tr l -> Forall (fun x => ok_ask (ex_ask x)) l -> honest_module l ->
  tr = tr1 ++ XoDid n t (PeVerify m (An (Ok true))) f :: tr2 ->
  plain_sites tr -> no_colon (vr_key m) ->
  exists w ip i nv ng ig before rest later earlier site k lv tm,
    (** a get_pow for the site, on some System, issued the challenge, *)
    tr1 = before ++ rest /\ XoCall ng ig (CGetPow (vr_key m)) ∈ before /\
    (exists tc a fc, XoDid ng tc (PeCachePoW (CachePoW (w_string w) (difficulty_factor lv) (m_duration site) (vr_key m)) a) fc ∈ rest) /\
    (** when the site was this one, *)
    l = later ++ earlier /\ merged before earlier /\
    site_under (carried_out earlier) (vr_key m) = Some (site, k) /\ lv ∈ d_levels (m_defense site) /\
    (** and a verify_pow, on some System, found the work to solve it. *)
    XoCall nv i (CVerifyPow w ip) ∈ tr1 /\ w_key w = vr_key m /\
    passes (ls i) (QueuedWork (PoW (w_result w) (w_nonce w)) (w_string w) (difficulty_factor lv)) /\
    t <= tm + m_duration site * 1000 /\
    exists o, o ∈ rest /\ stores o = Some (nv, tm, CacheResult (vr_token m) (vr_key m) (m_duration site)).
Proof. exact c92_pass_earned. Qed.
Print Assumptions C92_pass_earned.

(** The session of SharedProperties, with somebody who registers the site first
    and replaces it by a harder one after the challenge was issued. *)
Definition ex_log : list exchange := [
  ok_reply (AkRetrieve (VerifyCaptchaResult "ch" "site")) told;
  ok_reply (AkAdd "site" (shop 99 60)) RvOkay;
  ok_reply (AkRemove "site") RvOkay;
  ok_reply (AkCache (CachePoW "ch" 50 30 "site")) RvOkay;
  ok_reply (AkVisit "site") told;
  ok_reply (AkAdd "site" (shop 50 30)) RvOkay]%string.

Example C92_witness :
  merged (ex_shared ex_session) ex_log /\ Forall (fun x => ok_ask (ex_ask x)) ex_log /\ honest_module ex_log /\
  XoDid 2 31000 (PeVerify (VerifyCaptchaResult "tok" "site") (An (Ok true))) Answered ∈ ex_shared ex_session /\
  site_under (carried_out (drop 5 ex_log)) "site" = Some (shop 50 30, 0%nat).
Proof.
  split; [|split; [|split; [|split; [apply C82_witness|by vm_compute]]]].
  - rewrite ex_session_eq. rewrite <- (reverse_involutive ex_session_trace).
    let r := eval vm_compute in (reverse ex_session_trace) in
    assert (E : reverse ex_session_trace = r) by (vm_compute; reflexivity); rewrite E; clear E.
    unfold ex_log. repeat (apply mr_quiet; [|reflexivity]). apply mr_asked; [|reflexivity|by vm_compute].
    repeat (apply mr_quiet; [|reflexivity]). apply mg_other; [|done]. apply mg_other; [|done].
    apply mr_asked; [|reflexivity|by vm_compute]. apply mr_quiet; [|reflexivity].
    apply mr_asked; [|reflexivity|by vm_compute]. apply mr_quiet; [|reflexivity].
    apply mg_other; [|done]. apply mg_start.
  - repeat (apply Forall_cons; split; [try exact I|]); [..|apply Forall_nil_2].
    all: cbn [ex_ask ok_ask ok_reply]; unfold ok_mcaptcha, ok_cache_pow, ok_defense, u32, u64.
    all: repeat (split || apply Forall_cons_2 || apply Forall_nil_2). all: vm_compute; try split; try discriminate.
  - unfold ex_log. repeat (apply honest_cons; [|cbn [ok_reply ex_reply ex_ask word_of honest]]); [exact I|..];
      intros v Hv; try discriminate Hv; try exact I; injection Hv as <-.
    + exists (create_of (shop 50 30)), 0%nat, (to_string encode_visit (AddVisitorResult 30 50)), (AddVisitorResult 30 50).
      split; [by vm_compute|]. split; [done|]. split; [by vm_compute|]. split; [done|]. by left.
    + exists (challenge_of (CachePoW "ch" 50 30 "site")), (to_string encode_visit (AddVisitorResult 30 50)), (AddVisitorResult 30 50).
      split; [by vm_compute|]. split; [done|]. split; [by vm_compute|]. done.
Qed.

(** The connection breaks while the challenge is on its way: get_pow fails, and the
    challenge is stored later. *)
Definition ex_delayed : list shevent :=
  [XeCall 0 (CGetPow "site"); XeStep 0 (XVisit (An (Ok (Some ex_visit)))); XeStep 0 (XDraw "ch");
   XeStep 0 (XReply (RrErr "connection")); XeReturn 0; XeCall 1 (CVerifyPow ex_work "1.2.3.4"); XeStep 1 (XReply ex_json)].

Definition ex_delayed_trace : list shout := Eval vm_compute in ex_shared ex_delayed.

Definition ex_delayed_log : list exchange := [
  ok_reply (AkRetrieve (VerifyCaptchaResult "ch" "site")) told;
  ok_reply (AkCache (CachePoW "ch" 50 30 "site")) RvOkay;
  ok_reply (AkVisit "site") told;
  ok_reply (AkAdd "site" (shop 50 30)) RvOkay]%string.

Example C92_late_witness :
  merged (ex_shared ex_delayed) ex_delayed_log /\ Forall (fun x => ok_ask (ex_ask x)) ex_delayed_log /\ honest_module ex_delayed_log /\
  XoRet 0 (RGetPow (Err (RedisError "connection"))) ∈ ex_shared ex_delayed /\
  XoDid 1 1000 (PeRetrieve (VerifyCaptchaResult "ch" "site") (An (Ok (Some (CachedPoWConfig "site" 50 30))))) Answered ∈ ex_shared ex_delayed.
Proof.
  assert (E : ex_shared ex_delayed = ex_delayed_trace) by by vm_compute. rewrite E. clear E.
  split; [|split; [|split; [|split]]].
  - rewrite <- (reverse_involutive ex_delayed_trace).
    let r := eval vm_compute in (reverse ex_delayed_trace) in
    assert (E : reverse ex_delayed_trace = r) by (vm_compute; reflexivity); rewrite E; clear E.
    unfold ex_delayed_log. apply mr_asked; [|reflexivity|by vm_compute]. repeat (apply mr_quiet; [|reflexivity]).
    eapply mg_late with (o := XoDid 0 1000 (PeCachePoW (CachePoW "ch" 50 30 "site") (An (Err (RedisError "connection")))) Answered);
      [|by vm_compute; repeat (first [left; reflexivity|right])|reflexivity|intros x; discriminate].
    rewrite reverse_cons. apply mg_unsent; [|intros x; discriminate]. apply mr_quiet; [|reflexivity].
    apply mr_asked; [|reflexivity|by vm_compute]. apply mr_quiet; [|reflexivity]. apply mg_other; [|done]. apply mg_start.
  - repeat (apply Forall_cons; split; [try exact I|]); [..|apply Forall_nil_2].
    all: cbn [ex_ask ok_ask ok_reply]; unfold ok_mcaptcha, ok_cache_pow, ok_defense, u32, u64.
    all: repeat (split || apply Forall_cons_2 || apply Forall_nil_2). all: vm_compute; try split; try discriminate.
  - unfold ex_delayed_log. repeat (apply honest_cons; [|cbn [ok_reply ex_reply ex_ask word_of honest]]); [exact I|..];
      intros v Hv; try discriminate Hv; try exact I; injection Hv as <-.
    + exists (create_of (shop 50 30)), 0%nat, (to_string encode_visit (AddVisitorResult 30 50)), (AddVisitorResult 30 50).
      split; [by vm_compute|]. split; [done|]. split; [by vm_compute|]. split; [done|]. by left.
    + exists (challenge_of (CachePoW "ch" 50 30 "site")), (to_string encode_visit (AddVisitorResult 30 50)), (AddVisitorResult 30 50).
      split; [by vm_compute|]. split; [done|]. split; [by vm_compute|]. done.
  - vm_compute. repeat (first [by left|right]).
  - vm_compute. repeat (first [by left|right]).
Qed.
