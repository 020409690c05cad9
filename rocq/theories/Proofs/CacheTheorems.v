(** Proofs of the theorems of Properties/CacheProperties.v. *)
From Coq Require Import ZifyBool ZifyN ZifyNat Lia.
From Verif Require Import Model.Base Model.HashCache Spec.CacheSpec Proofs.CacheProofs.

Lemma c32_challenge_exact t es s os token key :
  cache_run (cache_start t) es = Some (s, os) ->
  (forall r, retrieves s token key r <-> r = stored (about_challenge token) es) /\
  (forall c, retrieves s token key (Some c) <->
     exists pre m post, es = pre ++ HeMsg (HmCachePoW m) :: post /\ cp_string m = token /\
       c = CachedPoWConfig (cp_key m) (cp_difficulty_factor m) (cp_duration m) /\
       Forall (fun e => about_challenge token e = None) post).
Proof.
  intros Hr.
  assert (forall r, retrieves s token key r <-> r = stored (about_challenge token) es) as H1.
  { intros r. rewrite retrieves_iff. destruct (run_maps t es s os token Hr) as (-> & _). split; congruence. }
  split; [done|]. intros c. rewrite H1. split.
  - intros Hc. symmetry in Hc.
    destruct (stored_challenge_timer _ _ _ _ _ _ Hr Hc) as (pre & m & post & He & Hx & Hcc & Hp & _).
    exists pre, m, post. split; [done|]. split; [done|]. split; [done|].
    clear -Hp. induction post as [|e post IH]; [done|]. simpl in Hp.
    destruct (about_challenge token e) eqn:E; [done|]. constructor; [done|]. by apply IH.
  - intros (pre & m & post & -> & <- & -> & Hp).
    change (HeMsg (HmCachePoW m) :: post) with ([HeMsg (HmCachePoW m)] ++ post). rewrite app_assoc.
    rewrite stored_app_none.
    + rewrite stored_snoc. simpl. by rewrite decide_True.
    + clear -Hp. induction Hp as [|e post He _ IH]; [done|]. simpl. by rewrite He.
Qed.

Lemma c32_at_most_once t es s os token key key' s' o post s'' os' :
  cache_run (cache_start t) es = Some (s, os) ->
  cache_step s (HeMsg (HmRetrivePoW (VerifyCaptchaResult token key))) = Some (s', o) ->
  cache_run s' post = Some (s'', os') ->
  Forall (fun e => ¬ caches_challenge token e) post ->
  retrieves s'' token key' None.
Proof.
  intros Hr Hs Hr' Hf. apply retrieves_iff.
  revert s'' os' Hr'. induction post as [|e post IH] using rev_ind; intros s'' os' Hr'.
  - injection Hr' as <- <-. rewrite (step_challenge _ _ _ _ token Hs). simpl. by rewrite decide_True.
  - apply cache_run_snoc in Hr' as (s1 & os1 & o1 & Hr1 & Hs1 & ->).
    apply Forall_app in Hf as [Hf He]. rewrite Forall_singleton in He.
    rewrite (step_challenge _ _ _ _ token Hs1). specialize (IH Hf _ _ Hr1). rewrite IH.
    destruct (about_challenge token e) as [v|] eqn:Ea; [|done].
    destruct e as [[m|m|m|m|[|]]| |due [|]]; simpl in Ea, He; try done; destruct (decide _); congruence.
Qed.

Lemma c33_token_exact t es s os token key :
  cache_run (cache_start t) es = Some (s, os) ->
  (exists b, validates s token key b) /\
  (validates s token key true <->
     exists pre m post, es = pre ++ HeMsg (HmCacheResult m) :: post /\ cr_token m = token /\
       cr_key m = key /\ Forall (fun e => about_token token e = None) post).
Proof.
  intros Hr. split; [eexists; by eapply validate_spec|].
  rewrite validates_iff. destruct (run_maps t es s os token Hr) as (_ & -> & _). split.
  - intros Hc. symmetry in Hc. apply bool_decide_eq_true in Hc.
    destruct (stored_token_timer _ _ _ _ _ _ Hr Hc) as (pre & m & post & He & Hx & Hcc & Hp & _).
    exists pre, m, post. split; [done|]. split; [done|]. split; [done|].
    clear -Hp. induction post as [|e post IH]; [done|]. simpl in Hp.
    destruct (about_token token e) eqn:E; [done|]. constructor; [done|]. by apply IH.
  - intros (pre & m & post & -> & <- & <- & Hp). symmetry. apply bool_decide_eq_true.
    change (HeMsg (HmCacheResult m) :: post) with ([HeMsg (HmCacheResult m)] ++ post). rewrite app_assoc.
    rewrite stored_app_none.
    + rewrite stored_snoc. simpl. by rewrite decide_True.
    + clear -Hp. induction Hp as [|e post He _ IH]; [done|]. simpl. by rewrite He.
Qed.

Lemma c33_at_most_once t es s os token key key' s' o post s'' os' :
  cache_run (cache_start t) es = Some (s, os) ->
  cache_step s (HeMsg (HmVerifyCaptchaResult (VerifyCaptchaResult token key))) = Some (s', o) ->
  cache_run s' post = Some (s'', os') ->
  Forall (fun e => ¬ caches_token token e) post ->
  validates s'' token key' false.
Proof.
  intros Hr Hs Hr' Hf. apply validates_iff. symmetry. apply bool_decide_eq_false.
  enough (hc_result_map (hs_cache s'') !! token = None) as -> by done.
  revert s'' os' Hr'. induction post as [|e post IH] using rev_ind; intros s'' os' Hr'.
  - injection Hr' as <- <-. rewrite (step_token _ _ _ _ token Hs). simpl. by rewrite decide_True.
  - apply cache_run_snoc in Hr' as (s1 & os1 & o1 & Hr1 & Hs1 & ->).
    apply Forall_app in Hf as [Hf He]. rewrite Forall_singleton in He.
    rewrite (step_token _ _ _ _ token Hs1). specialize (IH Hf _ _ Hr1). rewrite IH.
    destruct (about_token token e) as [v|] eqn:Ea; [|done].
    destruct e as [[m|m|m|m|[|]]| |due [|]]; simpl in Ea, He; try done; destruct (decide _); congruence.
Qed.

Lemma c34_challenge_not_after t es s os x key c :
  cache_run (cache_start t) es = Some (s, os) -> nothing_overdue s ->
  retrieves s x key (Some c) ->
  exists pre m post, es = pre ++ HeMsg (HmCachePoW m) :: post /\ cp_string m = x /\
    c = CachedPoWConfig (cp_key m) (cp_difficulty_factor m) (cp_duration m) /\
    Forall (fun e => about_challenge x e = None) post /\
    cache_clock t es < cache_clock t pre + cp_duration m * NS.
Proof.
  intros Hr Hn Hret. destruct (challenge_expires _ _ _ _ _ _ _ Hr Hn Hret)
    as (pre & m & post & ? & ? & ? & Hp & ?).
  exists pre, m, post. split_and!; try done.
  clear -Hp. induction post as [|e post IH]; [done|]. simpl in Hp.
  destruct (about_challenge x e) eqn:E; [done|]. constructor; [done|]. by apply IH.
Qed.

Lemma c34_token_not_after t es s os x key :
  cache_run (cache_start t) es = Some (s, os) -> nothing_overdue s ->
  validates s x key true ->
  exists pre m post, es = pre ++ HeMsg (HmCacheResult m) :: post /\ cr_token m = x /\ cr_key m = key /\
    Forall (fun e => about_token x e = None) post /\
    cache_clock t es < cache_clock t pre + cr_duration m * NS.
Proof.
  intros Hr Hn Hret. destruct (token_expires _ _ _ _ _ _ Hr Hn Hret)
    as (pre & m & post & ? & ? & ? & Hp & ?).
  exists pre, m, post. split_and!; try done.
  clear -Hp. induction post as [|e post IH]; [done|]. simpl in Hp.
  destruct (about_token x e) eqn:E; [done|]. constructor; [done|]. by apply IH.
Qed.

Lemma c34_challenge_not_before t pre m post s os key :
  Forall (fun e => ¬ caches_challenge (cp_string m) e) pre ->
  Forall (fun e => ¬ touches_challenge (cp_string m) e) post ->
  cache_run (cache_start t) (pre ++ HeMsg (HmCachePoW m) :: post) = Some (s, os) ->
  cache_clock t (pre ++ HeMsg (HmCachePoW m) :: post) < cache_clock t pre + cp_duration m * NS ->
  retrieves s (cp_string m) key
    (Some (CachedPoWConfig (cp_key m) (cp_difficulty_factor m) (cp_duration m))).
Proof. apply challenge_lives. Qed.

Lemma c34_token_not_before t pre m post s os :
  Forall (fun e => ¬ caches_token (cr_token m) e) pre ->
  Forall (fun e => ¬ touches_token (cr_token m) e) post ->
  cache_run (cache_start t) (pre ++ HeMsg (HmCacheResult m) :: post) = Some (s, os) ->
  cache_clock t (pre ++ HeMsg (HmCacheResult m) :: post) < cache_clock t pre + cr_duration m * NS ->
  validates s (cr_token m) (cr_key m) true.
Proof. apply token_lives. Qed.

Lemma c35_recache_refuted t x d1 d2 k f :
  0 < d1 -> 0 < d2 ->
  let m1 := CachePoW x f d1 k in
  let m2 := CachePoW x f d2 k in
  exists s1 os1 s2 os2,
    cache_run (cache_start t) [HeMsg (HmCachePoW m1); HeTick (d1 * NS - 1); HeMsg (HmCachePoW m2)]
      = Some (s1, os1) /\
    hs_now s1 = t + (d1 * NS - 1) /\
    retrieves s1 x k (Some (CachedPoWConfig k f d2)) /\
    cache_run s1 [HeTick 1; HeExpire (t + d1 * NS) (DeletePoW x)] = Some (s2, os2) /\
    hs_now s2 < hs_now s1 + d2 * NS /\
    retrieves s2 x k None.
Proof.
  intros H1 H2 m1 m2. assert (1 < NS) as HN by done.
  eexists _, _. do 2 eexists. split; [reflexivity|]. split; [done|].
  split. { apply retrieves_iff. simpl. by rewrite lookup_insert. }
  cbn [cache_run cache_step hs_now hs_cache cache_start]. unfold hc_expire. cbn [hs_now hs_cache cache_start].
  rewrite decide_True by (simpl; left).
  replace (t + d1 * NS <=? t + (d1 * NS - 1) + 1) with true by (symmetry; apply N.leb_le; nia).
  split; [reflexivity|]. cbn [hs_now cache_start]. split; [nia|].
  apply retrieves_iff. cbn. by rewrite lookup_delete.
Qed.

Lemma c36_challenge_noninterference t1 t2 es1 es2 s1 s2 os1 os2 x k1 k2 :
  cache_run (cache_start t1) es1 = Some (s1, os1) ->
  cache_run (cache_start t2) es2 = Some (s2, os2) ->
  omap (about_challenge x) es1 = omap (about_challenge x) es2 ->
  forall r, retrieves s1 x k1 r <-> retrieves s2 x k2 r.
Proof.
  intros H1 H2 He r. rewrite !retrieves_iff.
  destruct (run_maps _ _ _ _ x H1) as (-> & _). destruct (run_maps _ _ _ _ x H2) as (-> & _).
  unfold stored. by rewrite He.
Qed.

Lemma c36_token_noninterference t1 t2 es1 es2 s1 s2 os1 os2 x k :
  cache_run (cache_start t1) es1 = Some (s1, os1) ->
  cache_run (cache_start t2) es2 = Some (s2, os2) ->
  omap (about_token x) es1 = omap (about_token x) es2 ->
  forall b, validates s1 x k b <-> validates s2 x k b.
Proof.
  intros H1 H2 He r. rewrite !validates_iff.
  destruct (run_maps _ _ _ _ x H1) as (_ & -> & _). destruct (run_maps _ _ _ _ x H2) as (_ & -> & _).
  unfold stored. by rewrite He.
Qed.

Lemma c36_one_step s e s' o x k :
  cache_step s e = Some (s', o) ->
  (subject e <> Some (true, x) -> forall r, retrieves s x k r <-> retrieves s' x k r) /\
  (subject e <> Some (false, x) -> forall b, validates s x k b <-> validates s' x k b).
Proof.
  intros Hs. split; intros Hne r.
  - rewrite !retrieves_iff, (step_challenge _ _ _ _ x Hs).
    destruct e as [[m|m|m|m|[|]]| |due [|]]; simpl in Hne |- *; try done;
      rewrite decide_False by congruence; done.
  - rewrite !validates_iff, (step_token _ _ _ _ x Hs).
    destruct e as [[m|m|m|m|[|]]| |due [|]]; simpl in Hne |- *; try done;
      rewrite decide_False by congruence; done.
Qed.

Lemma c37_wrong_key_refuted s token key wrong :
  validates s token key true -> wrong <> key ->
  exists s', cache_step s (HeMsg (HmVerifyCaptchaResult (VerifyCaptchaResult token wrong)))
               = Some (s', Some (HrBool (Ok false))) /\
    forall k, validates s' token k false.
Proof.
  intros Hv Hne. assert (validates s token wrong false) as [s' Hs].
  { apply validates_iff in Hv. symmetry in Hv. apply bool_decide_eq_true in Hv.
    apply validates_iff. rewrite Hv. symmetry. apply bool_decide_eq_false. congruence. }
  exists s'. split; [done|]. intros k. apply validates_iff.
  rewrite (step_token _ _ _ _ token Hs). simpl. rewrite decide_True by done. by rewrite bool_decide_false.
Qed.

Lemma c76_all_answers t es s os :
  cache_run (cache_start t) es = Some (s, os) ->
  length os = length es /\
  (forall i e o, es !! i = Some e -> os !! i = Some o -> o = cache_answer (take i es) e) /\
  (forall m, is_Some (cache_step s (HeMsg m))).
Proof.
  intros Hr. split; [|split].
  - revert s os Hr. induction es as [|e es IH] using rev_ind; intros s os Hr; [by injection Hr as <- <-|].
    apply cache_run_snoc in Hr as (s1 & os1 & o1 & Hr1 & Hs1 & ->).
    rewrite !app_length. by rewrite (IH _ _ Hr1).
  - revert s os Hr. induction es as [|e es IH] using rev_ind; intros s os Hr i e' o He Ho; [done|].
    apply cache_run_snoc in Hr as (s1 & os1 & o1 & Hr1 & Hs1 & ->).
    assert (length os1 = length es) as Hl.
    { clear -Hr1. revert s1 os1 Hr1. induction es as [|e es IH] using rev_ind; intros s os Hr; [by injection Hr as <- <-|].
      apply cache_run_snoc in Hr as (s1 & os1 & o1 & Hr1 & Hs1 & ->).
      rewrite !app_length. by rewrite (IH _ _ Hr1). }
    destruct (decide (i < length es)%nat) as [Hi|Hi].
    + rewrite lookup_app_l in He by done. rewrite lookup_app_l in Ho by lia.
      rewrite take_app_le by lia. by eapply IH.
    + assert (i = length es) as -> by (apply lookup_lt_Some in He; rewrite app_length in He; simpl in He; lia).
      rewrite lookup_app_r, Nat.sub_diag in He by lia. injection He as <-.
      rewrite lookup_app_r, Hl, Nat.sub_diag in Ho by lia. injection Ho as <-.
      rewrite take_app. destruct e as [m| |due d].
      * cbn [cache_step] in Hs1. destruct (hc_handle _ _ _) as [h r] eqn:E. injection Hs1 as <- <-.
        destruct m as [m|m|m|m|d]; cbn [hc_handle] in E; cbn [cache_answer].
        -- by injection E as <- <-.
        -- unfold retrive_pow_config, remove_pow_config in E. destruct (run_maps _ _ _ _ (vr_token m) Hr1) as (<- & _).
           destruct (_ !! _); by injection E as <- <-.
        -- by injection E as <- <-.
        -- unfold verify_result, remove_cache_result in E. destruct (run_maps _ _ _ _ (vr_token m) Hr1) as (_ & <- & _).
           destruct (_ !! _) as [c|]; [destruct (decide _) as [->|Hne]|]; injection E as <- <-.
           ++ by rewrite bool_decide_true.
           ++ rewrite bool_decide_false by congruence. done.
           ++ done.
        -- by injection E as <- <-.
      * by injection Hs1 as <- <-.
      * cbn [cache_step] in Hs1. destruct (hc_expire _ _ _ _); [|done]. by injection Hs1 as <- <-.
  - intros m. cbn [cache_step]. destruct (hc_handle _ _ _) as [h r]. eauto.
Qed.
