(** Proofs of the theorems of Properties/PoolMasterProperties.v. *)
From Coq Require Import ZifyBool ZifyN ZifyNat Lia.
From Verif Require Import Model.Base Model.Defense Model.MCaptcha Model.Counter Model.Master Model.HashCache Model.Pow Model.System
  Model.Redis Model.RedisActor Model.SystemProgram Model.SystemPool
  Spec.MCaptchaSpec Spec.MasterSpec Spec.SiteSpec Spec.CacheSpec Spec.ProgramSpec Spec.ModuleSpec Spec.PoolSpec Spec.MixedSpec Spec.PoolMasterSpec
  Proofs.SiteProofs Proofs.ModuleProofs Proofs.MergedProofs Proofs.SiteTheorems Proofs.PoolTheorems.

(** A pass, back to the visit behind the challenge. *)
Lemma pass_visit : forall ls t es s tr tr1 n m tr2,
  pl_run ls (po_init t) es = Some (s, tr) ->
  tr = tr1 ++ LoDid n (PeVerify m (An (Ok true))) :: tr2 -> no_forging tr1 ->
  exists w ip i nv ng ig v before between tra o trb,
    tr1 = tra ++ o :: trb /\
    tra = before ++ LoDid ng (PeVisit (vr_key m) (An (Ok (Some v)))) :: between /\
    LoCall ng ig (CGetPow (vr_key m)) ∈ tra /\ LoDid ng (PeDraw (w_string w)) ∈ tra /\
    LoCall nv i (CVerifyPow w ip) ∈ tra /\ w_key w = vr_key m /\
    passes (ls i) (QueuedWork (PoW (w_result w) (w_nonce w)) (w_string w) (avr_difficulty_factor v)) /\
    pl_stores o = Some (nv, CacheResult (vr_token m) (vr_key m) (avr_duration v)) /\
    (expiries_done t tr1 -> pool_clock t tr1 < pool_clock t tra + avr_duration v * NS).
Proof.
  intros ls t es s tr tr1 n m tr2 Hr E Hnf.
  destruct (c118_earned _ _ _ _ _ _ _ _ _ Hr E Hnf) as
    (tra & o & nv & cfg & trb & i & w & ip & E1 & Hst & Hc & Hwk & Hck & Hret & Hpass & _ & Hdue).
  apply elem_of_list_split in Hret as (ta & tb & Ea).
  assert (E2 : tr = ta ++ LoDid nv (PeRetrieve (VerifyCaptchaResult (w_string w) (w_key w)) (An (Ok (Some cfg)))) ::
    (tb ++ o :: trb ++ LoDid n (PeVerify m (An (Ok true))) :: tr2)).
  { rewrite E, E1, Ea, <- !app_assoc. done. }
  assert (Hsub : forall x, x ∈ ta -> x ∈ tra) by (intros x Hx; rewrite Ea; apply elem_of_app; by left).
  destruct (c118_challenge _ _ _ _ _ _ _ _ _ _ Hr E2) as (tc & o' & ng & td & ig & Ec & _ & Hg & Hv & Hd & _ & _).
  { intros m' r' Hin. apply (Hnf m' r'). rewrite E1. apply elem_of_app. left. by apply Hsub. }
  cbn [vr_key vr_token] in *. rewrite Hck in Hg, Hv.
  assert (Hsub' : forall x, x ∈ tc -> x ∈ tra) by (intros x Hx; apply Hsub; rewrite Ec; apply elem_of_app; by left).
  pose proof Hv as Hv'. apply Hsub', elem_of_list_split in Hv' as (before & between & Ebb).
  eexists w, ip, i, nv, ng, ig, _, before, between, tra, o, trb. split; [exact E1|]. split; [exact Ebb|].
  split; [by apply Hsub'|]. split; [by apply Hsub'|]. split; [done|]. split; [done|]. cbn [avr_difficulty_factor avr_duration].
  split; [done|]. split; done.
Qed.

Lemma c120_in_memory : forall p ts gcs mess ls t es s tr tr1 n m tr2,
  pl_run ls (po_init t) es = Some (s, tr) ->
  (forall i, pool_in_memory p (ts i) (gcs i) (mess i) i tr) ->
  tr = tr1 ++ LoDid n (PeVerify m (An (Ok true))) :: tr2 -> no_forging tr1 ->
  exists w ip i nv ng ig es1 es2 mtr1 c t0 site,
    let log := site_log p (ts ig) (gcs ig) (mess ig) in
    LoCall ng ig (CGetPow (vr_key m)) ∈ tr1 /\ LoDid ng (PeDraw (w_string w)) ∈ tr1 /\
    mess ig = es1 ++ MeReq (RqAddVisitor (vr_key m)) :: es2 /\
    (exists s1, m_run p (m_start (ts ig) (gcs ig)) es1 = Some (s1, mtr1)) /\
    bound (hist mtr1) (vr_key m) = Some c /\ registered (ts ig) c log = Some (t0, site) /\
    LoCall nv i (CVerifyPow w ip) ∈ tr1 /\ w_key w = vr_key m /\
    (built_mcaptcha p site -> ~ restored c log ->
     exists lv tra o trb, lv ∈ d_levels (m_defense site) /\
       passes (ls i) (QueuedWork (PoW (w_result w) (w_nonce w)) (w_string w) (difficulty_factor lv)) /\
       tr1 = tra ++ o :: trb /\ pl_stores o = Some (nv, CacheResult (vr_token m) (vr_key m) (m_duration site)) /\
       (expiries_done t tr1 -> pool_clock t tr1 < pool_clock t tra + m_duration site * NS)).
Proof.
  intros p ts gcs mess ls t es s tr tr1 n m tr2 Hr Hmem E Hnf.
  destruct (pass_visit _ _ _ _ _ _ _ _ _ Hr E Hnf) as
    (w & ip & i & nv & ng & ig & v & before & between & tra & o & trb & E1 & Ea & Hcg & Hdr & Hcv & Hwk & Hpass & Hst & Hdue).
  assert (Hsub : forall x, x ∈ tra -> x ∈ tr1) by (intros x Hx; rewrite E1; apply elem_of_app; by left).
  destruct (Hmem ig ng (CGetPow (vr_key m)) (vr_key m) v) as (es1 & es2 & mtr1 & Ees & s1 & ms & mtr & M1 & M & Hrep).
  { rewrite E. apply elem_of_app. left. by apply Hsub. }
  { rewrite E. apply elem_of_app. left. apply Hsub. rewrite Ea. apply elem_of_app. right. by left. }
  destruct (c86_visits _ _ _ _ _ _ _ _ _ _ _ M1 M Hrep) as (c & t0 & site & Hb & Hreg & Hin).
  rewrite <- Ees in M, Hreg, Hin.
  exists w, ip, i, nv, ng, ig, es1, es2, mtr1, c, t0, site. cbn zeta.
  split; [by apply Hsub|]. split; [by apply Hsub|]. split; [done|]. split; [by exists s1|]. split; [done|]. split; [done|].
  split; [by apply Hsub|]. split; [done|].
  intros Hbm Hnr. destruct (site_told _ _ _ _ _ _ _ _ _ M Hreg Hbm Hnr) as [Hall _].
  rewrite Forall_forall in Hall. destruct (Hall _ Hin) as (Hd & lv & Hlv & Hf). rewrite <- Hd.
  exists lv, tra, o, trb. split; [done|]. rewrite <- Hf. done.
Qed.

(** A visit that was heard. *)
Lemma heard_at mine tr l tr1 n id r tr2 : heard mine tr l -> mine n -> tr = tr1 ++ LoDid n (PeVisit id (An (Ok r))) :: tr2 ->
  exists l1 x l2, heard mine tr1 l1 /\ l = l2 ++ x :: l1 /\ ex_ask x = AkVisit id /\ ex_answer x = Some (Val (RoVisit (Ok r))).
Proof.
  intros H Hn. revert tr1 tr2.
  assert (Hsnoc : forall tr tr1 (o o' : plout) tr2, tr ++ [o] = tr1 ++ o' :: tr2 ->
    (tr = tr1 /\ o = o' /\ tr2 = []) \/ exists tr3, tr2 = tr3 ++ [o] /\ tr = tr1 ++ o' :: tr3).
  { intros tr0 tr1 o o' tr2 E. destruct tr2 as [|y tr3 _] using rev_ind.
    - apply app_inj_tail in E as [-> ->]. by left.
    - rewrite app_comm_cons, app_assoc in E. apply app_inj_tail in E as [-> ->]. right. by exists tr3. }
  induction H as [|tr l n' id' r' x H IH Ha Hx|tr l o H IH Ho|tr l x H IH]; intros tr1 tr2 E.
  - by destruct tr1.
  - apply Hsnoc in E as [(-> & [= -> -> ->] & ->)|(tr3 & -> & ->)].
    + by exists l, x, [].
    + destruct (IH _ _ eq_refl) as (l1 & y & l2 & H1 & -> & Hy). by exists l1, y, (x :: l2).
  - apply Hsnoc in E as [(-> & -> & ->)|(tr3 & -> & ->)]; [by destruct (Ho n id r Hn)|]. by apply (IH _ _ eq_refl).
  - destruct (IH _ _ E) as (l1 & y & l2 & H1 & -> & Hy). by exists l1, y, (x :: l2).
Qed.

Lemma c120_redis : forall logs ls t es s tr tr1 n m tr2,
  pl_run ls (po_init t) es = Some (s, tr) ->
  (forall i, heard (calls_on i tr) tr (logs i)) ->
  (forall i, Forall (fun x => ok_ask (ex_ask x)) (logs i)) -> (forall i, honest_module (logs i)) ->
  tr = tr1 ++ LoDid n (PeVerify m (An (Ok true))) :: tr2 -> no_forging tr1 ->
  exists w ip i nv ng ig before rest later earlier site k lv tra o trb,
    tr1 = before ++ rest /\ LoCall ng ig (CGetPow (vr_key m)) ∈ tr1 /\ LoDid ng (PeDraw (w_string w)) ∈ tr1 /\
    logs ig = later ++ earlier /\ heard (calls_on ig tr) before earlier /\
    site_under (carried_out earlier) (vr_key m) = Some (site, k) /\ lv ∈ d_levels (m_defense site) /\
    LoCall nv i (CVerifyPow w ip) ∈ tr1 /\ w_key w = vr_key m /\
    passes (ls i) (QueuedWork (PoW (w_result w) (w_nonce w)) (w_string w) (difficulty_factor lv)) /\
    tr1 = tra ++ o :: trb /\ pl_stores o = Some (nv, CacheResult (vr_token m) (vr_key m) (m_duration site)) /\
    (expiries_done t tr1 -> pool_clock t tr1 < pool_clock t tra + m_duration site * NS).
Proof.
  intros logs ls t es s tr tr1 n m tr2 Hr Hheard Hok Hh E Hnf.
  destruct (pass_visit _ _ _ _ _ _ _ _ _ Hr E Hnf) as
    (w & ip & i & nv & ng & ig & v & before & between & tra & o & trb & E1 & Ea & Hcg & Hdr & Hcv & Hwk & Hpass & Hst & Hdue).
  assert (Hsub : forall x, x ∈ tra -> x ∈ tr1) by (intros x Hx; rewrite E1; apply elem_of_app; by left).
  assert (Hmine : calls_on ig tr ng).
  { exists (CGetPow (vr_key m)). rewrite E. apply elem_of_app. left. by apply Hsub. }
  assert (E2 : exists tl, tr = before ++ LoDid ng (PeVisit (vr_key m) (An (Ok (Some v)))) :: tl).
  { eexists. rewrite E, E1, Ea, <- !app_assoc. cbn. reflexivity. }
  destruct E2 as (tl & E2).
  destruct (heard_at _ _ _ _ _ _ _ _ (Hheard ig) Hmine E2) as (l1 & x & l2 & H1 & El & Ha & Hx).
  assert (Hl : right_log (x :: l1)).
  { apply (right_tail _ l2). rewrite <- El. split; [apply Hok|apply Hh]. }
  destruct (answered_ok l1 x _ Hl Hx) as [_ Hright]; [by intros e ?|]. rewrite Ha in Hright.
  destruct Hright as (site & k & lv & Hs & Hlv & Hv). injection Hv as ->. cbn [avr_difficulty_factor avr_duration] in *.
  exists w, ip, i, nv, ng, ig, before.
  eexists. exists (l2 ++ [x]), l1, site, k, lv, tra, o, trb.
  split; [rewrite E1, Ea, <- app_assoc; reflexivity|]. split; [by apply Hsub|]. split; [by apply Hsub|].
  split; [by rewrite El, <- app_assoc|]. split; [done|]. split; [done|]. split; [done|]. split; [by apply Hsub|].
  split; [done|]. split; [done|]. split; [done|]. split; done.
Qed.
