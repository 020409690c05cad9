(** Properties of several [System]s on one in-memory cache, each with its Master. *)
From Coq Require Import ZifyBool ZifyN ZifyNat Lia.
From Verif Require Import Model.Base Model.Defense Model.MCaptcha Model.Counter Model.Master Model.HashCache Model.Pow Model.System
  Model.Json Model.Serde Model.Redis Model.RedisActor Model.SystemProgram Model.SystemPool
  Spec.MCaptchaSpec Spec.MasterSpec Spec.SiteSpec Spec.SerdeSpec Spec.CacheSpec Spec.ProgramSpec Spec.ModuleSpec Spec.PoolSpec Spec.MixedSpec Spec.PoolMasterSpec
  Proofs.SystemHistory Proofs.SiteProofs Proofs.SerdeProofs Proofs.ModuleProofs Proofs.MergedProofs
  Properties.ModuleProperties Properties.MixedProperties Properties.PoolProperties.
From Verif Require Proofs.SiteTheorems Properties.SiteProperties.
From Verif Require Export Proofs.PoolMasterTheorems.

(** C120: a pass on any System proves work, on some System, at the difficulty of a
    level that the site was registered with in the Master of the System that issued
    the challenge, within the site's duration; whatever sites the other Systems'
    Masters have. *)
Theorem C120_in_memory : forall p ts gcs mess ls t es s tr tr1 n m tr2,
  pl_run ls (po_init t) es = Some (s, tr) ->
  (forall i, pool_in_memory p (ts i) (gcs i) (mess i) i tr) ->
  tr = tr1 ++ LoDid n (PeVerify m (An (Ok true))) :: tr2 -> no_forging tr1 ->
  exists w ip i nv ng ig es1 es2 mtr1 c t0 site,
    let log := site_log p (ts ig) (gcs ig) (mess ig) in
    LoCall ng ig (CGetPow (vr_key m)) ∈ tr1 /\ LoDid ng (PeDraw (w_string w)) ∈ tr1 /\
    mess ig = es1 ++ MeReq (RqAddVisitor (vr_key m)) :: es2 /\
    (exists s1, m_run p (m_start (ts ig) (gcs ig)) es1 = Some (s1, mtr1)) /\
    bound (hist mtr1) (vr_key m) = Some c /\ registered (ts ig) c log = Some (t0, site) /\
    LoCall nv i (CVerifyPow w ip) ∈ tr1 /\ w_key w = vr_key m /\
    (built_mcaptcha p site -> ~ restored c log ->
     exists lv tra o trb, lv ∈ d_levels (m_defense site) /\
       passes (ls i) (QueuedWork (PoW (w_result w) (w_nonce w)) (w_string w) (difficulty_factor lv)) /\
       tr1 = tra ++ o :: trb /\ pl_stores o = Some (nv, CacheResult (vr_token m) (vr_key m) (m_duration site)) /\
       (expiries_done t tr1 -> pool_clock t tr1 < pool_clock t tra + m_duration site * NS)).
Proof. exact c120_in_memory. Qed.
Print Assumptions C120_in_memory.

(** The same for Masters on Redis, each System on any: a level, and the duration, of
    the site that had the name there when the challenge was issued. *)
Theorem C120_redis : forall logs ls t es s tr tr1 n m tr2,
  pl_run ls (po_init t) es = Some (s, tr) ->
  (forall i, heard (calls_on i tr) tr (logs i)) ->
  (forall i, Forall (fun x => ok_ask (ex_ask x)) (logs i)) -> (forall i, honest_module (logs i)) ->
  tr = tr1 ++ LoDid n (PeVerify m (An (Ok true))) :: tr2 -> no_forging tr1 ->
  exists w ip i nv ng ig before rest later earlier site k lv tra o trb,
    tr1 = before ++ rest /\ LoCall ng ig (CGetPow (vr_key m)) ∈ tr1 /\ LoDid ng (PeDraw (w_string w)) ∈ tr1 /\
    logs ig = later ++ earlier /\ heard (calls_on ig tr) before earlier /\
    site_under (carried_out earlier) (vr_key m) = Some (site, k) /\ lv ∈ d_levels (m_defense site) /\
    LoCall nv i (CVerifyPow w ip) ∈ tr1 /\ w_key w = vr_key m /\
    passes (ls i) (QueuedWork (PoW (w_result w) (w_nonce w)) (w_string w) (difficulty_factor lv)) /\
    tr1 = tra ++ o :: trb /\ pl_stores o = Some (nv, CacheResult (vr_token m) (vr_key m) (m_duration site)) /\
    (expiries_done t tr1 -> pool_clock t tr1 < pool_clock t tra + m_duration site * NS).
Proof. exact c120_redis. Qed.
Print Assumptions C120_redis.

(** The session of C118_witness; System 1's Master has a harder site of the name. *)
Definition ex_two_trace : list plout := Eval vm_compute in ex_pool ex_two.
Lemma ex_two_eq : ex_pool ex_two = ex_two_trace.
Proof. by vm_compute. Qed.

Definition ex_heard (i : nat) : list exchange :=
  match i with
  | O => [ok_reply (AkVisit "site") told; ok_reply (AkAdd "site" (shop 50 30)) RvOkay]
  | _ => [ok_reply (AkAdd "site" (shop 99 60)) RvOkay]
  end%string.

Lemma hr_quiet mine r l o : heard mine (reverse r) l ->
  (forall n id x, mine n -> o <> LoDid n (PeVisit id (An (Ok x)))) -> heard mine (reverse (o :: r)) l.
Proof. rewrite reverse_cons. apply hd_quiet. Qed.

Example C120_witness : forall p,
  (exists s, pl_run ex_libs (po_init 0) ex_two = Some (s, ex_pool ex_two)) /\
  (forall i, pool_in_memory p 0 60 (ex_mem i) i (ex_pool ex_two)) /\
  registered 0 0 (site_log p 0 60 (ex_mem 0)) = Some (0, ex_mem_site) /\ built_mcaptcha p ex_mem_site /\
  ~ restored 0 (site_log p 0 60 (ex_mem 0)) /\
  (forall i, heard (calls_on i (ex_pool ex_two)) (ex_pool ex_two) (ex_heard i)) /\
  (forall i, Forall (fun x => ok_ask (ex_ask x)) (ex_heard i)) /\ (forall i, honest_module (ex_heard i)) /\
  LoDid 2 (PeVerify (VerifyCaptchaResult "tok" "site") (An (Ok true))) ∈ ex_pool ex_two /\
  no_forging (ex_pool ex_two).
Proof.
  intros p. split; [apply C118_witness|].
  assert (Hcalls : forall n id r, LoDid n (PeVisit id (An (Ok r))) ∈ ex_two_trace ->
    n = 0%nat /\ id = "site"%string /\ r = Some (AddVisitorResult 30 50)).
  { intros n id r H. unfold ex_two_trace in H. elem_cases; try discriminate. by injection H. }
  assert (Hon : forall i c, LoCall 0 i c ∈ ex_two_trace -> i = 0%nat).
  { intros i c H. unfold ex_two_trace in H. elem_cases; try discriminate. by injection H. }
  split.
  { rewrite ex_two_eq. intros i n c id v Hc Hd. apply Hcalls in Hd as (-> & -> & [= ->]). apply Hon in Hc as ->.
    exists [MeReq (RqAddSite "site" ex_mem_site)], [MeTask 1]. eexists. split; [done|].
    eexists _, _, _. split; [by destruct p; vm_compute|]. split; [by destruct p; vm_compute|]. vm_compute. repeat (first [by left|right]). }
  split; [by destruct p; vm_compute|]. split; [apply SiteTheorems.ex_site_built|].
  split; [apply SiteProperties.not_restored; by destruct p; vm_compute|].
  split.
  { rewrite ex_two_eq. intros i.
    assert (Hi : forall n, calls_on i ex_two_trace n -> n = 0%nat -> i = 0%nat) by (intros n [c Hc] ->; by eapply Hon).
    revert Hi. generalize (calls_on i ex_two_trace). intros mine Hi.
    rewrite <- (reverse_involutive ex_two_trace).
    let r := eval vm_compute in (reverse ex_two_trace) in
    assert (E : reverse ex_two_trace = r) by (vm_compute; reflexivity); rewrite E; clear E.
    repeat (apply hr_quiet; [|intros; discriminate]).
    destruct i as [|i]; cbn [ex_heard].
    - rewrite reverse_cons. apply hd_asked; [|done|by vm_compute]. repeat (apply hr_quiet; [|intros; discriminate]).
      apply hd_other, hd_start.
    - apply hr_quiet; [|intros n id x Hm [= <- _ _]; by specialize (Hi _ Hm eq_refl)].
      repeat (apply hr_quiet; [|intros; discriminate]). apply hd_other, hd_start. }
  split.
  { intros [|i]; cbn [ex_heard]; repeat (apply Forall_cons; split; [try exact I|]); try apply Forall_nil_2.
    all: cbn [ex_ask ok_ask ok_reply]; unfold ok_mcaptcha, ok_cache_pow, ok_defense, u32, u64.
    all: repeat (split || apply Forall_cons_2 || apply Forall_nil_2). all: vm_compute; try split; try discriminate. }
  split.
  { intros [|i]; cbn [ex_heard];
    repeat (apply honest_cons; [|cbn [ok_reply ex_reply ex_ask word_of honest]]); try exact I;
      intros v Hv; try discriminate Hv; try exact I; injection Hv as <-.
    exists (create_of (shop 50 30)), 0%nat, (to_string encode_visit (AddVisitorResult 30 50)), (AddVisitorResult 30 50).
    split; [by vm_compute|]. split; [done|]. split; [by vm_compute|]. split; [done|]. by left. }
  split; [vm_compute; repeat (first [by left|right])|].
  intros m r H. exfalso. revert H. by apply C118_witness.
Qed.
