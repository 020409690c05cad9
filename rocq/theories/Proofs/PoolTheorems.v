(** Proofs of the theorems of Properties/PoolProperties.v. *)
From Coq Require Import ZifyBool ZifyN ZifyNat Lia.
From Verif Require Import Model.Base Model.MCaptcha Model.HashCache Model.Pow Model.System Model.SystemProgram
  Model.SystemPool Spec.CacheSpec Spec.ProgramSpec Spec.PoolSpec
  Proofs.CacheProofs Proofs.ProgramProofs Proofs.SharedProofs Proofs.SystemHistory Proofs.PoolProofs Proofs.CacheTheorems.

Lemma c118_check_behind_pass : forall ls t es s tr n b,
  pl_run ls (po_init t) es = Some (s, tr) -> LoRet n (RValidate (Ok b)) ∈ tr ->
  exists i m, LoCall n i (CValidate m) ∈ tr /\ LoDid n (PeVerify m (An (Ok b))) ∈ tr.
Proof.
  intros ls t es s tr n b Hr Hin. destruct (pl_ret_at _ _ _ _ _ _ _ Hr Hin) as (i & c & Hc & Hp).
  destruct c as [id|w ip|m].
  - apply get_pow_ends in Hp as (x & [=] & _).
  - apply verify_pow_ends in Hp as ([x|] & [=] & _).
  - apply validate_ends in Hp as (x & [= <-] & a & He & ->).
    exists i, m. split; [done|]. apply pl_requests_elem. rewrite He. by left.
Qed.

Lemma c118_earned : forall ls t es s tr tr1 n m tr2,
  pl_run ls (po_init t) es = Some (s, tr) ->
  tr = tr1 ++ LoDid n (PeVerify m (An (Ok true))) :: tr2 -> no_forging tr1 ->
  exists tra o n' cfg trb i w ip,
    tr1 = tra ++ o :: trb /\ pl_stores o = Some (n', CacheResult (vr_token m) (vr_key m) (cc_duration cfg)) /\
    LoCall n' i (CVerifyPow w ip) ∈ tra /\ w_key w = vr_key m /\ cc_key cfg = vr_key m /\
    LoDid n' (PeRetrieve (VerifyCaptchaResult (w_string w) (w_key w)) (An (Ok (Some cfg)))) ∈ tra /\
    passes (ls i) (checked_work w cfg) /\
    Forall (fun e => about_token (vr_token m) e = None) (pool_cache trb).*1 /\
    (expiries_done t tr1 -> pool_clock t tr1 < pool_clock t tra + cc_duration cfg * NS).
Proof.
  intros ls t es s tr tr1 n m tr2 Hr E Hnf.
  destruct (pl_talk_at _ _ _ _ _ _ _ _ _ _ _ Hr E eq_refl) as (h & h' & Hc & Hs).
  assert (Hval : validates h (vr_token m) (vr_key m) true) by (exists h'; by destruct m).
  destruct (c33_token_exact _ _ _ _ (vr_token m) (vr_key m) Hc) as [_ [(pre & ma & post & Ec & Et & Ek & Hp) _]]; [done|].
  destruct (pool_cache_split _ _ _ _ Ec) as (tra & o & r & trb & E1 & Ho & Hpre & Hpost).
  apply seen_store in Ho as [(n' & Ho)|(r' & ->)].
  2: { exfalso. apply (Hnf (HmCacheResult ma) r'). rewrite E1. apply elem_of_app. right. by left. }
  assert (E2 : tr = tra ++ o :: (trb ++ LoDid n (PeVerify m (An (Ok true))) :: tr2))
    by (by rewrite E, E1, <- app_assoc).
  destruct (pl_store_at _ _ _ _ _ _ _ _ _ _ Hr E2 Ho) as (i & w & ip & c & Hcall & Hk & Hma & Hpass & Hreq).
  rewrite Et in Hma. assert (w_key w = vr_key m) as Hkey by (rewrite <- Ek, Hma; done). rewrite Hkey in Hma. subst ma.
  exists tra, o, n', c, trb, i, w, ip. split; [done|]. split; [done|]. split; [done|]. split; [done|]. split; [congruence|].
  split; [apply pl_requests_elem; rewrite Hreq; by left|]. split; [done|]. split; [by rewrite Hpost|].
  intros (h2 & os2 & Hc2 & Hn2). rewrite Hc in Hc2. injection Hc2 as <- <-.
  destruct (c34_token_not_after _ _ _ _ _ _ Hc Hn2 Hval) as (pre' & m' & post' & Ec' & Et' & Ek' & Hp' & Hclk).
  (* the last store of the token is the one found above *)
  assert (Hsame : pre' = pre /\ m' = CacheResult (vr_token m) (vr_key m) (cc_duration c)).
  { rewrite Ec in Ec'. clear -Ec' Hp Hp' Et'.
    revert pre' Ec'. induction pre as [|e pre IH]; intros [|e' pre'] Ec'; cbn in Ec'; injection Ec' as He Ec'.
    - by rewrite He.
    - exfalso. subst. rewrite Forall_forall in Hp.
      specialize (Hp (HeMsg (HmCacheResult m'))). cbn in Hp. rewrite decide_True in Hp by done.
      discriminate Hp. apply elem_of_app. right. by left.
    - exfalso. subst. rewrite Forall_forall in Hp'.
      specialize (Hp' (HeMsg (HmCacheResult (CacheResult (vr_token m) (vr_key m) (cc_duration c))))). cbn in Hp'.
      rewrite decide_True in Hp' by done. discriminate Hp'. apply elem_of_app. right. by left.
    - subst. destruct (IH pre' Ec') as [-> ->]. done. }
  destruct Hsame as [-> ->]. unfold pool_clock. rewrite Hpre. exact Hclk.
Qed.

Lemma c118_challenge : forall ls t es s tr tr1 n m c tr2,
  pl_run ls (po_init t) es = Some (s, tr) ->
  tr = tr1 ++ LoDid n (PeRetrieve m (An (Ok (Some c)))) :: tr2 -> no_forging tr1 ->
  exists tra o n' trb i,
    tr1 = tra ++ o :: trb /\
    pl_issues o = Some (n', CachePoW (vr_token m) (cc_difficulty_factor c) (cc_duration c) (cc_key c)) /\
    LoCall n' i (CGetPow (cc_key c)) ∈ tra /\
    LoDid n' (PeVisit (cc_key c) (An (Ok (Some (AddVisitorResult (cc_duration c) (cc_difficulty_factor c)))))) ∈ tra /\
    LoDid n' (PeDraw (vr_token m)) ∈ tra /\
    Forall (fun e => about_challenge (vr_token m) e = None) (pool_cache trb).*1 /\
    (expiries_done t tr1 -> pool_clock t tr1 < pool_clock t tra + cc_duration c * NS).
Proof.
  intros ls t es s tr tr1 n m c tr2 Hr E Hnf.
  destruct (pl_talk_at _ _ _ _ _ _ _ _ _ _ _ Hr E eq_refl) as (h & h' & Hc & Hs).
  assert (Hval : retrieves h (vr_token m) (vr_key m) (Some c)) by (exists h'; by destruct m).
  destruct (c32_challenge_exact _ _ _ _ (vr_token m) (vr_key m) Hc) as [_ H32].
  destruct (proj1 (H32 c) Hval) as (pre & ma & post & Ec & Et & -> & Hp). clear H32. cbn [cc_key cc_difficulty_factor cc_duration].
  destruct (pool_cache_split _ _ _ _ Ec) as (tra & o & r & trb & E1 & Ho & Hpre & Hpost).
  apply seen_issue in Ho as [(n' & Ho)|(r' & ->)].
  2: { exfalso. apply (Hnf (HmCachePoW ma) r'). rewrite E1. apply elem_of_app. right. by left. }
  assert (E2 : tr = tra ++ o :: (trb ++ LoDid n (PeRetrieve m (An (Ok (Some
    (CachedPoWConfig (cp_key ma) (cp_difficulty_factor ma) (cp_duration ma)))))) :: tr2))
    by (by rewrite E, E1, <- app_assoc).
  destruct (pl_issue_at _ _ _ _ _ _ _ _ _ _ Hr E2 Ho) as (i & Hcall & Hreq).
  exists tra, o, n', trb, i. rewrite <- Et. split; [done|]. split; [rewrite Ho; by destruct ma|]. split; [done|].
  split; [apply pl_requests_elem; rewrite Hreq; by left|].
  split; [apply pl_requests_elem; rewrite Hreq; right; by left|]. split; [by rewrite Hpost, Et|].
  intros (h2 & os2 & Hc2 & Hn2). rewrite Hc in Hc2. injection Hc2 as <- <-.
  destruct (c34_challenge_not_after _ _ _ _ _ _ _ Hc Hn2 Hval) as (pre' & m' & post' & Ec' & Et' & Ek' & Hp' & Hclk).
  assert (Hsame : pre' = pre /\ m' = ma).
  { rewrite Ec in Ec'. clear -Ec' Hp Hp' Et Et'.
    revert pre' Ec'. induction pre as [|e pre IH]; intros [|e' pre'] Ec'; cbn in Ec'; injection Ec' as He Ec'.
    - by rewrite He.
    - exfalso. subst. rewrite Forall_forall in Hp.
      specialize (Hp (HeMsg (HmCachePoW m'))). cbn in Hp. rewrite decide_True in Hp by done.
      discriminate Hp. apply elem_of_app. right. by left.
    - exfalso. subst. rewrite Forall_forall in Hp'.
      specialize (Hp' (HeMsg (HmCachePoW ma))). cbn in Hp'.
      rewrite decide_True in Hp' by done. discriminate Hp'. apply elem_of_app. right. by left.
    - subst. destruct (IH pre' Ec') as [-> ->]. done. }
  destruct Hsame as [-> ->]. unfold pool_clock. rewrite Hpre. exact Hclk.
Qed.

(** Over all Systems, a token passes at most as often as calls of verify_pow stored
    it, each after passing work for a challenge it was given, and a challenge is given
    to at most as many callers of verify_pow as calls of get_pow stored it. *)
Definition held {V} (about : cache_event -> option (option V)) (es : list cache_event) : nat :=
  match stored about es with Some _ => 1 | None => 0 end.

Lemma held_snoc {V} (about : cache_event -> option (option V)) es e :
  held about (es ++ [e]) = match about e with Some (Some _) => 1%nat | Some None => 0%nat | None => held about es end.
Proof.
  unfold held, stored. rewrite omap_app. cbn. destruct (about e) as [[v|]|]; [by rewrite last_snoc..|by rewrite app_nil_r].
Qed.

Lemma held_le {V} (about : cache_event -> option (option V)) es : (held about es <= 1)%nat.
Proof. unfold held. destruct (stored about es); lia. Qed.

Lemma pl_minters_app x a b : pl_minters x (a ++ b) = pl_minters x a ++ pl_minters x b.
Proof. apply omap_app. Qed.

Lemma pl_acceptors_app x a b : pl_acceptors x (a ++ b) = pl_acceptors x a ++ pl_acceptors x b.
Proof. apply omap_app. Qed.

Lemma pl_issuers_app x a b : pl_issuers x (a ++ b) = pl_issuers x a ++ pl_issuers x b.
Proof. apply omap_app. Qed.

Lemma pl_consumers_app x a b : pl_consumers x (a ++ b) = pl_consumers x a ++ pl_consumers x b.
Proof. apply omap_app. Qed.

(** What an observation adds to what the cache saw. *)
Lemma cache_of_one o : (pool_cache [o]).*1 = match cache_seen o with Some (e, _) => [e] | None => [] end.
Proof. unfold pool_cache. cbn. by destruct (cache_seen o) as [[e r]|]. Qed.

Lemma tokens_counted ls t es s tr x : pl_run ls (po_init t) es = Some (s, tr) -> no_forging tr ->
  (length (pl_acceptors x tr) + held (about_token x) (pool_cache tr).*1 <= length (pl_minters x tr))%nat.
Proof.
  revert s tr. induction es as [|e es IH] using rev_ind; intros s tr Hr Hnf; [by injection Hr as <- <-|].
  pose proof Hr as Hr0. apply pl_run_snoc in Hr as (s1 & tr1 & o & H1 & _ & ->).
  specialize (IH _ _ H1). assert (Hnf1 : no_forging tr1) by (intros m r Hx; apply (Hnf m r); apply elem_of_app; by left).
  specialize (IH Hnf1). pose proof (held_le (about_token x) (pool_cache tr1).*1) as Hle.
  rewrite pl_acceptors_app, pl_minters_app, pool_cache_app, fmap_app, cache_of_one, !app_length.
  destruct o as [n i c|n e'|n r|n|n m r|m r|due d|d]; cbn [cache_seen];
    rewrite ?held_snoc, ?app_nil_r; cbn [about_token pl_acceptors pl_minters pl_stores omap list_omap length]; try lia.
  - destruct e' as [id a|y|m a|m a|ip q a|q b|m a|m a]; cbn [cache_talk]; rewrite ?app_nil_r; try (cbn [length]; lia);
      (destruct a as [| |a]; rewrite ?held_snoc, ?app_nil_r; cbn [about_token]; try (cbn [length]; lia)).
    + destruct (decide (cr_token m = x)); cbn [length]; lia.
    + destruct (pl_talk_at _ _ _ _ _ tr1 n (PeVerify m (An a)) [] _ _ Hr0 eq_refl eq_refl) as (h & h' & Hc & Hs).
      destruct a as [[]|e0]; destruct (decide (vr_token m = x)) as [Hx|Hx]; cbn [length]; try lia.
      assert (Hval : validates h (vr_token m) (vr_key m) true) by (exists h'; by destruct m).
      apply validates_iff in Hval. destruct (run_maps t _ _ _ (vr_token m) Hc) as (_ & Hm & _). rewrite Hm in Hval.
      symmetry in Hval. apply bool_decide_eq_true in Hval. rewrite Hx in Hval.
      unfold held in IH. rewrite Hval in IH. lia.
  - destruct m as [m|m|m|m|[y|y]]; cbn [about_token]; try (cbn [length]; lia).
    + destruct (decide (cr_token m = x)); cbn [length]; lia.
    + destruct (decide (vr_token m = x)); cbn [length]; lia.
    + destruct (decide (y = x)); cbn [length]; lia.
  - destruct m as [m|m|m|m|[y|y]]; cbn [about_token]; try (cbn [length]; lia).
    + exfalso. apply (Hnf (HmCacheResult m) r). apply elem_of_app. right. by left.
    + destruct (decide (vr_token m = x)); cbn [length]; lia.
    + destruct (decide (y = x)); cbn [length]; lia.
  - destruct d as [y|y]; cbn [about_token]; [lia|]. destruct (decide (y = x)); lia.
Qed.

Lemma challenges_counted ls t es s tr x : pl_run ls (po_init t) es = Some (s, tr) -> no_forging tr ->
  (length (pl_consumers x tr) + held (about_challenge x) (pool_cache tr).*1 <= length (pl_issuers x tr))%nat.
Proof.
  revert s tr. induction es as [|e es IH] using rev_ind; intros s tr Hr Hnf; [by injection Hr as <- <-|].
  pose proof Hr as Hr0. apply pl_run_snoc in Hr as (s1 & tr1 & o & H1 & _ & ->).
  specialize (IH _ _ H1). assert (Hnf1 : no_forging tr1) by (intros m r Hx; apply (Hnf m r); apply elem_of_app; by left).
  specialize (IH Hnf1). pose proof (held_le (about_challenge x) (pool_cache tr1).*1) as Hle.
  rewrite pl_consumers_app, pl_issuers_app, pool_cache_app, fmap_app, cache_of_one, !app_length.
  destruct o as [n i c|n e'|n r|n|n m r|m r|due d|d]; cbn [cache_seen];
    rewrite ?held_snoc, ?app_nil_r; cbn [about_challenge pl_consumers pl_issuers pl_issues omap list_omap length]; try lia.
  - destruct e' as [id a|y|m a|m a|ip q a|q b|m a|m a]; cbn [cache_talk]; rewrite ?app_nil_r; try (cbn [length]; lia);
      (destruct a as [| |a]; rewrite ?held_snoc, ?app_nil_r; cbn [about_challenge]; try (cbn [length]; lia)).
    + destruct (decide (cp_string m = x)); cbn [length]; lia.
    + destruct (pl_talk_at _ _ _ _ _ tr1 n (PeRetrieve m (An a)) [] _ _ Hr0 eq_refl eq_refl) as (h & h' & Hc & Hs).
      destruct a as [[c|]|e0]; destruct (decide (vr_token m = x)) as [Hx|Hx]; cbn [length]; try lia.
      assert (Hval : retrieves h (vr_token m) (vr_key m) (Some c)) by (exists h'; by destruct m).
      apply (proj1 (c32_challenge_exact _ _ _ _ (vr_token m) (vr_key m) Hc)) in Hval. rewrite Hx in Hval.
      unfold held in IH. rewrite <- Hval in IH. lia.
  - destruct m as [m|m|m|m|[y|y]]; cbn [about_challenge]; try (cbn [length]; lia).
    + destruct (decide (cp_string m = x)); cbn [length]; lia.
    + destruct (decide (vr_token m = x)); cbn [length]; lia.
    + destruct (decide (y = x)); cbn [length]; lia.
  - destruct m as [m|m|m|m|[y|y]]; cbn [about_challenge]; try (cbn [length]; lia).
    + exfalso. apply (Hnf (HmCachePoW m) r). apply elem_of_app. right. by left.
    + destruct (decide (vr_token m = x)); cbn [length]; lia.
    + destruct (decide (y = x)); cbn [length]; lia.
  - destruct d as [y|y]; cbn [about_challenge]; [|lia]. destruct (decide (y = x)); lia.
Qed.

Lemma c118_once : forall ls t es s tr x,
  pl_run ls (po_init t) es = Some (s, tr) ->
  NoDup (pl_issuers x tr) /\ NoDup (pl_consumers x tr) /\ NoDup (pl_minters x tr) /\ NoDup (pl_acceptors x tr) /\
  (forall n, n ∈ pl_issuers x tr -> exists i k, LoCall n i (CGetPow k) ∈ tr /\ LoDid n (PeDraw x) ∈ tr) /\
  (forall n, n ∈ pl_minters x tr -> exists i w ip c, LoCall n i (CVerifyPow w ip) ∈ tr /\ cc_key c = w_key w /\
     n ∈ pl_consumers (w_string w) tr /\ passes (ls i) (checked_work w c) /\ LoDid n (PeDraw x) ∈ tr) /\
  (no_forging tr ->
   (length (pl_acceptors x tr) <= length (pl_minters x tr))%nat /\
   (length (pl_consumers x tr) <= length (pl_issuers x tr))%nat).
Proof.
  intros ls t es s tr x Hr. split_and!.
  - apply (calls_once _ (HmCachePoW (CachePoW "" 0 0 "")) ls t es s tr); [|exact Hr].
    intros o n. destruct (pl_issues o) as [[n' m]|] eqn:Eo; [|done]. case_decide; [|done]. intros [= ->].
    exists (HmCachePoW m). split; [|done].
    destruct o as [|n' [| |m' []| | | | |]| | |n' [] r| | |]; try discriminate Eo; injection Eo as -> ->; done.
  - apply (calls_once _ (HmRetrivePoW (VerifyCaptchaResult "" "")) ls t es s tr); [|exact Hr].
    intros o n. destruct o as [|n' [| | |m [| |[[]|]]| | | |]| | | | | |]; try done. case_decide; [|done]. intros [= ->].
    by exists (HmRetrivePoW m).
  - apply (calls_once _ (HmCacheResult (CacheResult "" "" 0)) ls t es s tr); [|exact Hr].
    intros o n. destruct (pl_stores o) as [[n' m]|] eqn:Eo; [|done]. case_decide; [|done]. intros [= ->].
    exists (HmCacheResult m). split; [|done].
    destruct o as [|n' [| | | | | |m' []|]| | |n' [] r| | |]; try discriminate Eo; injection Eo as -> ->; done.
  - apply (calls_once _ (HmVerifyCaptchaResult (VerifyCaptchaResult "" "")) ls t es s tr); [|exact Hr].
    intros o n. destruct o as [|n' [| | | | | | |m [| |[[]|]]]| | | | | |]; try done. case_decide; [|done]. intros [= ->].
    by exists (HmVerifyCaptchaResult m).
  - intros n (o & Hin & Ho)%elem_of_list_omap. destruct (pl_issues o) as [[n' m]|] eqn:Eo; [|done].
    destruct (decide (cp_string m = x)) as [<-|]; [|done]. injection Ho as ->. apply elem_of_list_split in Hin as (tr1 & tr2 & E).
    destruct (pl_issue_at _ _ _ _ _ _ _ _ _ _ Hr E Eo) as (i & Hc & Hreq). exists i, (cp_key m).
    rewrite E. split; [apply elem_of_app; by left|]. apply elem_of_app. left. apply pl_requests_elem. rewrite Hreq. right. by left.
  - intros n (o & Hin & Ho)%elem_of_list_omap. destruct (pl_stores o) as [[n' m]|] eqn:Eo; [|done].
    destruct (decide (cr_token m = x)) as [<-|]; [|done]. injection Ho as ->. apply elem_of_list_split in Hin as (tr1 & tr2 & E).
    destruct (pl_store_at _ _ _ _ _ _ _ _ _ _ Hr E Eo) as (i & w & ip & c & Hc & Hk & _ & Hpass & Hreq). exists i, w, ip, c.
    rewrite E. split; [apply elem_of_app; by left|]. split; [done|]. split; [|split; [done|]].
    + rewrite pl_consumers_app. apply elem_of_app. left. apply elem_of_list_omap.
      exists (LoDid n (PeRetrieve (VerifyCaptchaResult (w_string w) (w_key w)) (An (Ok (Some c))))).
      split; [apply pl_requests_elem; rewrite Hreq; by left|]. cbn. by rewrite decide_True.
    + apply elem_of_app. left. apply pl_requests_elem. rewrite Hreq. do 3 right. by left.
  - intros Hnf. split.
    + pose proof (tokens_counted _ _ _ _ _ x Hr Hnf). lia.
    + pose proof (challenges_counted _ _ _ _ _ x Hr Hnf). lia.
Qed.

Lemma c118_good_everywhere : forall ls t es s tr tr1 n m r tr2 n' a tr3,
  pl_run ls (po_init t) es = Some (s, tr) ->
  tr = tr1 ++ LoDid n (PeCacheResult m (An r)) :: tr2 ++
       LoDid n' (PeVerify (VerifyCaptchaResult (cr_token m) (cr_key m)) a) :: tr3 ->
  Forall (fun e => ~ caches_token (cr_token m) e) (pool_cache tr1).*1 ->
  Forall (fun e => ~ touches_token (cr_token m) e) (pool_cache tr2).*1 ->
  pool_clock t (tr1 ++ LoDid n (PeCacheResult m (An r)) :: tr2) < pool_clock t tr1 + cr_duration m * NS ->
  a = An (Ok true) \/ unanswered a.
Proof.
  intros ls t es s tr tr1 n m r tr2 n' a tr3 Hr E H1 H2 Hclk. destruct a as [| |a]; [right; by left|right; by right|left].
  assert (E' : tr = (tr1 ++ LoDid n (PeCacheResult m (An r)) :: tr2) ++
    LoDid n' (PeVerify (VerifyCaptchaResult (cr_token m) (cr_key m)) (An a)) :: tr3) by (by rewrite E, <- app_assoc).
  destruct (pl_talk_at _ _ _ _ _ _ _ _ _ _ _ Hr E' eq_refl) as (h & h' & Hc & Hs).
  unfold pool_clock in Hclk. rewrite pool_cache_app, fmap_app in Hc, Hclk. cbn in Hc, Hclk.
  destruct (c34_token_not_before t _ m _ _ _ H1 H2 Hc Hclk) as [h2 Hv]. rewrite Hs in Hv. by injection Hv as _ ->.
Qed.

(** Work that solves a challenge as it was issued, in time, on whatever System, is
    accepted at the difficulty that was issued; or it failed for a reason that has
    nothing to do with the work. *)
Lemma head_passes l q : passes l q -> head (fst (validate l q)) = Some true.
Proof. intros [H1 H2]. unfold validate. by rewrite H1, H2. Qed.

Lemma c118_honest : forall ls t es s tr ng ig key cfg tr0 m a0 tr1 nv i w ip q a tr2 r,
  pl_run ls (po_init t) es = Some (s, tr) -> no_forging tr0 ->
  LoCall ng ig (CGetPow key) ∈ tr -> LoRet ng (RGetPow (Ok (Some cfg))) ∈ tr ->
  LoCall nv i (CVerifyPow w ip) ∈ tr -> LoRet nv r ∈ tr ->
  w_key w = key -> w_string w = pc_string cfg ->
  passes (ls i) (QueuedWork (PoW (w_result w) (w_nonce w)) (pc_string cfg) (pc_difficulty_factor cfg)) ->
  tr = tr0 ++ LoDid ng (PeCachePoW m a0) :: tr1 ++ LoDid nv (PeRetrieve q a) :: tr2 ->
  (** drawn for the first time, not touched by anybody else, not expired *)
  pl_issuers (pc_string cfg) tr0 = [] ->
  Forall (fun e => ~ touches_challenge (pc_string cfg) e) (pool_cache tr1).*1 ->
  pool_clock t (tr0 ++ LoDid ng (PeCachePoW m a0) :: tr1) < pool_clock t tr0 + cp_duration m * NS ->
  (exists tok, r = RVerifyPow (Ok (tok, pc_difficulty_factor cfg)) /\
     LoDid nv (PeCacheResult (CacheResult tok key (cp_duration m)) (An (Ok tt))) ∈ tr) \/
  pl_setback nv tr r.
Proof.
  intros ls t es s tr ng ig key cfg tr0 m a0 tr1 nv i w ip q a tr2 r Hr Hnf Hcg Hrg Hcv Hrv <- Hstr Hpass E Hiss Htouch Hclk.
  destruct (pl_ret_at _ _ _ _ _ _ _ Hr Hrg) as (ig' & cg & Hcg' & Hpg).
  destruct (pl_call_once _ _ _ _ _ _ _ _ _ _ Hr Hcg Hcg') as [-> ->].
  apply get_pow_ends in Hpg as (x & [= <-] & v & Hreq & Hdf & _).
  destruct (pl_ret_at _ _ _ _ _ _ _ Hr Hrv) as (i' & cv & Hcv' & Hpv).
  destruct (pl_call_once _ _ _ _ _ _ _ _ _ _ Hr Hcv Hcv') as [-> ->].
  assert (m = CachePoW (pc_string cfg) (pc_difficulty_factor cfg) (avr_duration v) (w_key w) /\ a0 = An (Ok tt)) as [-> ->].
  { assert (Hs : PeCachePoW m a0 ∈ pl_requests ng tr) by (apply pl_requests_elem; rewrite E; apply elem_of_app; right; by left).
    rewrite Hreq in Hs. repeat (apply elem_of_cons in Hs as [Hs|Hs]); try discriminate Hs; [|by apply elem_of_nil in Hs]. by simplify_eq. }
  set (m := CachePoW (pc_string cfg) (pc_difficulty_factor cfg) (avr_duration v) (w_key w)) in *.
  set (c := CachedPoWConfig (w_key w) (pc_difficulty_factor cfg) (avr_duration v)).
  assert (Hq : PeRetrieve q a ∈ pl_requests nv tr).
  { apply pl_requests_elem. rewrite E. apply elem_of_app. right. right. apply elem_of_app. right. by left. }
  (* if the cache answers, it answers with the challenge as issued *)
  assert (Hans : vr_token q = pc_string cfg -> forall y, a = An y -> y = Ok (Some c)).
  { intros Hvr y ->.
    assert (E' : tr = (tr0 ++ LoDid ng (PeCachePoW m (An (Ok tt))) :: tr1) ++ LoDid nv (PeRetrieve q (An y)) :: tr2)
      by (by rewrite E, <- app_assoc).
    destruct (pl_talk_at _ _ _ _ _ _ _ _ _ _ _ Hr E' eq_refl) as (h & h' & Hc & Hs).
    unfold pool_clock in Hclk. rewrite pool_cache_app, fmap_app in Hc, Hclk. cbn in Hc, Hclk.
    destruct ((fun H => c34_challenge_not_before t _ m _ _ _ (vr_key q) H Htouch Hc Hclk)) as [h2 Hv].
    - apply Forall_forall. intros e He Hca. apply elem_of_list_fmap in He as ([e1 r1] & -> & He).
      apply elem_of_list_omap in He as (o & Ho & Hseen). cbn in Hca.
      destruct e1 as [[m1|m1|m1|m1|d]|d|due d]; try done. cbn in Hca.
      apply seen_issue in Hseen as [(n1 & Hi)|(r' & ->)].
      + assert (n1 ∈ pl_issuers (pc_string cfg) tr0) as Hx; [|rewrite Hiss in Hx; by apply elem_of_nil in Hx].
        apply elem_of_list_omap. eexists. split; [exact Ho|]. rewrite Hi. by rewrite decide_True.
      + by apply (Hnf _ _ Ho).
    - change (cp_string m) with (pc_string cfg) in Hv. rewrite <- Hvr in Hv. destruct q as [qt qk]. cbn [vr_token vr_key] in Hv.
      rewrite Hs in Hv. by injection Hv as _ ->. }
  assert (Hone : forall a', PeRetrieve (VerifyCaptchaResult (w_string w) (w_key w)) a' ∈ pl_requests nv tr ->
    (forall e, e ∈ pl_requests nv tr -> forall m1 a1, e = PeRetrieve m1 a1 -> m1 = VerifyCaptchaResult (w_string w) (w_key w) /\ a1 = a') ->
    forall y, a' = An y -> y = Ok (Some c)).
  { intros a' _ Huniq y ->. destruct (Huniq _ Hq _ _ eq_refl) as [-> ->]. by apply Hans. }
  clear Hans. apply verify_pow_ends in Hpv as (x & -> & Hc).
  assert (Hpart : forall e, e ∈ pl_requests nv tr -> LoDid nv e ∈ tr) by (intros e; apply pl_requests_elem).
  assert (Hshape : exists a' rest, pl_requests nv tr = PeRetrieve (VerifyCaptchaResult (w_string w) (w_key w)) a' :: rest /\
    (forall e, e ∈ rest -> forall m1 a1, e <> PeRetrieve m1 a1)).
  { destruct x as [[[tok d]|e]|]; cbn [verify_pow_contract] in Hc.
    - destruct Hc as (c' & -> & _). eexists _, _. split; [done|]. intros e He m1 a1 ->. elem_cases; discriminate.
    - destruct Hc as [(a' & -> & _)|[[-> _]|[(c' & -> & _)|(c' & _ & [->|[(b & -> & _)|(tok & a' & -> & _)]])]]];
        (eexists _, _; split; [done|]; intros e' He m1 a1 ->; elem_cases; discriminate).
    - destruct Hc as (c' & _ & ->). eexists _, _. split; [done|]. intros e He m1 a1 ->. elem_cases; discriminate. }
  destruct Hshape as (a' & rest & Hsh & Hrest).
  specialize (Hone a'). rewrite Hsh in Hone.
  assert (Hfound : forall y, a' = An y -> y = Ok (Some c)).
  { apply Hone; [by left|]. intros e [->|He]%elem_of_cons m1 a1 Ee; [by injection Ee as <- <-|]. by destruct (Hrest _ He m1 a1). }
  clear Hone Hrest.
  destruct x as [[[tok d]|e]|]; cbn [verify_pow_contract] in Hc.
  - left. destruct Hc as (c' & Hc & Hk & ->). rewrite Hc in Hsh. injection Hsh as <- _.
    specialize (Hfound _ eq_refl). injection Hfound as ->. exists tok. split; [done|]. apply Hpart. rewrite Hc. do 4 right. by left.
  - right. destruct Hc as [(a1 & Hc & Hf)|[[Hc _]|[(c' & Hc & Hk & _)|(c' & Hk & [Hc|[(b & Hc & Hb & ->)|(tok & a1 & Hc & Hf)]])]]];
      pose proof Hsh as Hsh'; rewrite Hc in Hsh'; injection Hsh' as <- _.
    + left. exists (VerifyCaptchaResult (w_string w) (w_key w)), a1, e. split; [apply Hpart; rewrite Hc; by left|].
      split; [|done]. destruct a1 as [| |y]; [by left|by right|]. by rewrite (Hfound _ eq_refl) in Hf.
    + by specialize (Hfound _ eq_refl).
    + exfalso. specialize (Hfound _ eq_refl). injection Hfound as ->. by apply Hk.
    + right. left. exists ip, (checked_work w c'), (SuDone (Err e)). split; [apply Hpart; rewrite Hc; right; by left|].
      right. by exists e.
    + right. right. left. specialize (Hfound _ eq_refl). injection Hfound as ->.
      assert (H : LoDid nv (PeVerdict (checked_work w c) b) ∈ tr) by (apply Hpart; rewrite Hc; do 2 right; by left).
      destruct b as [b|]; [exfalso|by exists (checked_work w c)].
      apply elem_of_list_split in H as (ta & tb & E2). destruct (pl_did_at _ _ _ _ _ _ _ _ _ Hr E2) as (j & p & p' & h & h' & Hfo & _ & [_ _ Hv]).
      destruct Hfo as (c0 & Hc0 & _ & _).
      assert (Hc1 : LoCall nv j c0 ∈ tr) by (rewrite E2; apply elem_of_app; by left).
      destruct (pl_call_once _ _ _ _ _ _ _ _ _ _ Hr Hcv Hc1) as [-> _].
      specialize (Hv _ _ eq_refl). unfold checked_work in Hv. cbn [cc_difficulty_factor c] in Hv.
      rewrite Hstr, (head_passes _ _ Hpass) in Hv. by injection Hv as <-.
    + right. right. right. exists (CacheResult tok (w_key w) (cc_duration c')), a1, e.
      assert (H : LoDid nv (PeCacheResult (CacheResult tok (w_key w) (cc_duration c')) a1) ∈ tr) by (apply Hpart; rewrite Hc; do 4 right; by left).
      split; [done|]. split; [|done]. destruct a1 as [| |y]; [by left|by right|].
      apply elem_of_list_split in H as (ta & tb & E2). by rewrite (stored_ok _ _ _ _ _ _ _ _ _ _ _ Hr E2 eq_refl) in Hf.
  - right. right. left. destruct Hc as (c' & Hk & Hc).
    exists ip, (checked_work w c'), SuPanic. split; [apply Hpart; rewrite Hc; right; by left|]. by left.
Qed.

Lemma none_of (f : plout -> bool) tr o : forallb (fun x => negb (f x)) tr = true -> f o = true -> o ∉ tr.
Proof. intros H Ho Hin. apply elem_of_list_In in Hin. rewrite forallb_forall in H. specialize (H _ Hin). by rewrite Ho in H. Qed.
