(** Proofs about the in-memory cache. *)
From Coq Require Import ZifyBool ZifyN ZifyNat Lia.
From Verif Require Import Model.Base Model.HashCache Spec.CacheSpec.

Lemma cache_run_snoc s es e s' os :
  cache_run s (es ++ [e]) = Some (s', os) <->
  exists s1 os1 o, cache_run s es = Some (s1, os1) /\
    cache_step s1 e = Some (s', o) /\ os = os1 ++ [o].
Proof.
  revert s os. induction es as [|x es IH]; intros s os; cbn [app cache_run].
  - split.
    + destruct (cache_step s e) as [[s1 o]|] eqn:E; [|done]. intros [= <- <-]. by exists s, [], o.
    + intros (s1 & os1 & o & [= <- <-] & -> & ->). done.
  - destruct (cache_step s x) as [[s0 o0]|]; [|by split; [|intros (?&?&?&?&_)]].
    split.
    + destruct (cache_run s0 (es ++ [e])) as [[s2 os2]|] eqn:E; [|done].
      intros [= <- <-]. destruct (proj1 (IH s0 os2)) as (s1 & os1 & o & Hr & Hs & ->).
      { by rewrite E. }
      rewrite Hr. by exists s1, (o0 :: os1), o.
    + intros (s1 & os1 & o & Hr & Hs & ->). destruct (cache_run s0 es) as [[s2 os2]|] eqn:E; [|done].
      injection Hr as -> <-. rewrite (proj2 (IH s0 (os2 ++ [o]))); [done|]. by exists s1, os2, o.
Qed.
Lemma cache_run_app s es1 es2 s2 os :
  cache_run s (es1 ++ es2) = Some (s2, os) ->
  exists s1 os1 os2, cache_run s es1 = Some (s1, os1) /\ cache_run s1 es2 = Some (s2, os2).
Proof.
  revert s os. induction es1 as [|x es IH]; intros s os; cbn [app cache_run].
  - intros H. by exists s, [], os.
  - destruct (cache_step s x) as [[s0 o0]|]; [|done].
    destruct (cache_run s0 (es ++ es2)) as [[s3 os3]|] eqn:E; [|done]. intros [= -> _].
    destruct (IH _ _ E) as (s1 & os1 & os2 & H1 & H2). rewrite H1. eauto.
Qed.

Lemma stored_snoc {V} (about : cache_event -> option (option V)) es e :
  stored about (es ++ [e]) =
  match about e with Some v => v | None => stored about es end.
Proof.
  unfold stored. rewrite omap_app. simpl. destruct (about e); simpl.
  - by rewrite last_snoc.
  - by rewrite app_nil_r.
Qed.

Lemma cache_clock_snoc t es e :
  cache_clock t (es ++ [e]) = match e with HeTick d => cache_clock t es + d | _ => cache_clock t es end.
Proof.
  revert t. induction es as [|x es IH]; intros t; simpl; [by destruct e|]. destruct x; apply IH.
Qed.
Lemma cache_clock_le t es : t <= cache_clock t es.
Proof.
  revert t. induction es as [|x es IH]; intros t; simpl; [lia|].
  destruct x as [|d|]; [apply IH| |apply IH]. specialize (IH (t + d)). lia.
Qed.
Lemma cache_clock_app t a b : cache_clock t (a ++ b) = cache_clock (cache_clock t a) b.
Proof. revert t. induction a as [|x a IH]; intros t; simpl; [done|]. destruct x; apply IH. Qed.

(** One step: both maps change exactly as described by [about_*]. *)
Lemma step_challenge s e s' o x :
  cache_step s e = Some (s', o) ->
  hc_difficulty_map (hs_cache s') !! x =
  match about_challenge x e with Some v => v | None => hc_difficulty_map (hs_cache s) !! x end.
Proof.
  destruct e as [m|d|due d]; simpl; intros Hs.
  - destruct m as [m|m|m|m|d]; simpl in Hs.
    + injection Hs as <- <-. simpl. destruct (decide (cp_string m = x)) as [<-|Hne].
      * by rewrite lookup_insert. * by rewrite lookup_insert_ne.
    + unfold retrive_pow_config in Hs. simpl in Hs.
      destruct (hc_difficulty_map (hs_cache s) !! vr_token m); injection Hs as <- <-; simpl;
      (destruct (decide (vr_token m = x)) as [<-|Hne]; [by rewrite lookup_delete|by rewrite lookup_delete_ne]).
    + injection Hs as <- <-. done.
    + unfold verify_result in Hs. simpl in Hs.
      destruct (hc_result_map (hs_cache s) !! vr_token m); [destruct (decide _)|]; injection Hs as <- <-; done.
    + injection Hs as <- <-. destruct d as [y|y]; simpl; [|done].
      destruct (decide (y = x)) as [<-|Hne]; [by rewrite lookup_delete|by rewrite lookup_delete_ne].
  - injection Hs as <- <-. done.
  - unfold hc_expire in Hs. destruct (decide _); [|done]. destruct (_ <=? _); [|done].
    injection Hs as <- <-. destruct d as [y|y]; simpl; [|done].
    destruct (decide (y = x)) as [<-|Hne]; [by rewrite lookup_delete|by rewrite lookup_delete_ne].
Qed.
Lemma step_token s e s' o x :
  cache_step s e = Some (s', o) ->
  hc_result_map (hs_cache s') !! x =
  match about_token x e with Some v => v | None => hc_result_map (hs_cache s) !! x end.
Proof.
  destruct e as [m|d|due d]; simpl; intros Hs.
  - destruct m as [m|m|m|m|d]; simpl in Hs.
    + injection Hs as <- <-. done.
    + unfold retrive_pow_config in Hs. simpl in Hs.
      destruct (hc_difficulty_map (hs_cache s) !! vr_token m); injection Hs as <- <-; done.
    + injection Hs as <- <-. simpl. destruct (decide (cr_token m = x)) as [<-|Hne].
      * by rewrite lookup_insert. * by rewrite lookup_insert_ne.
    + unfold verify_result in Hs. simpl in Hs.
      destruct (hc_result_map (hs_cache s) !! vr_token m); [destruct (decide (_ = vr_key m))|]; injection Hs as <- <-; simpl;
      (destruct (decide (vr_token m = x)) as [<-|Hne]; [by rewrite lookup_delete|by rewrite lookup_delete_ne]).
    + injection Hs as <- <-. destruct d as [y|y]; simpl; [done|].
      destruct (decide (y = x)) as [<-|Hne]; [by rewrite lookup_delete|by rewrite lookup_delete_ne].
  - injection Hs as <- <-. done.
  - unfold hc_expire in Hs. destruct (decide _); [|done]. destruct (_ <=? _); [|done].
    injection Hs as <- <-. destruct d as [y|y]; simpl; [done|].
    destruct (decide (y = x)) as [<-|Hne]; [by rewrite lookup_delete|by rewrite lookup_delete_ne].
Qed.

Lemma run_maps t es s os x :
  cache_run (cache_start t) es = Some (s, os) ->
  hc_difficulty_map (hs_cache s) !! x = stored (about_challenge x) es /\
  hc_result_map (hs_cache s) !! x = stored (about_token x) es /\
  hs_now s = cache_clock t es.
Proof.
  revert s os. induction es as [|e es IH] using rev_ind; intros s os Hr.
  - injection Hr as <- <-. simpl. by rewrite !lookup_empty.
  - apply cache_run_snoc in Hr as (s1 & os1 & o & Hr & Hs & ->).
    destruct (IH s1 os1 Hr) as (IH1 & IH2 & IH3). rewrite !stored_snoc, cache_clock_snoc.
    rewrite (step_challenge _ _ _ _ x Hs), (step_token _ _ _ _ x Hs), IH1, IH2.
    split; [done|]. split; [done|].
    destruct e as [m|d|due d]; simpl in Hs.
    + destruct (hc_handle _ _ _). by injection Hs as <- <-.
    + injection Hs as <- <-. simpl. lia.
    + destruct (hc_expire _ _ _ _); [|done]. by injection Hs as <- <-.
Qed.

Lemma retrieves_iff s token key r :
  retrieves s token key r <-> hc_difficulty_map (hs_cache s) !! token = r.
Proof.
  unfold retrieves. simpl. unfold retrive_pow_config. simpl.
  destruct (hc_difficulty_map (hs_cache s) !! token); split.
  - intros (s' & [= _ <-]). done. - intros <-. eauto.
  - intros (s' & [= _ <-]). done. - intros <-. eauto.
Qed.
Lemma validates_iff s token key b :
  validates s token key b <->
  b = bool_decide (hc_result_map (hs_cache s) !! token = Some key).
Proof.
  unfold validates. simpl. unfold verify_result. simpl.
  destruct (hc_result_map (hs_cache s) !! token) as [k|].
  - destruct (decide (k = key)) as [->|Hne]; simpl.
    + rewrite bool_decide_true by done. split; [intros (s' & [= _ <-]); done|intros ->; eauto].
    + rewrite bool_decide_false by congruence. split; [intros (s' & [= _ <-]); done|intros ->; eauto].
  - rewrite bool_decide_false by done. split; [intros (s' & [= _ <-]); done|intros ->; eauto].
Qed.

Lemma retrieve_spec t es s os token key :
  cache_run (cache_start t) es = Some (s, os) ->
  retrieves s token key (stored (about_challenge token) es).
Proof. intros Hr. apply retrieves_iff. by eapply run_maps. Qed.
Lemma validate_spec t es s os token key :
  cache_run (cache_start t) es = Some (s, os) ->
  validates s token key (bool_decide (stored (about_token token) es = Some key)).
Proof.
  intros Hr. apply validates_iff. destruct (run_maps t es s os token Hr) as (_ & <- & _). done.
Qed.

(** ** Timers *)
Lemma remove_first_in x y ts : y ∈ remove_first x ts -> y ∈ ts.
Proof.
  induction ts as [|z r IH]; simpl; [done|]. destruct (decide (x = z)).
  - intros H. by right.
  - intros H. apply elem_of_cons in H as [->|H]; [by left|]. right. by apply IH.
Qed.
Lemma remove_first_other x y ts : y ∈ ts -> y <> x -> y ∈ remove_first x ts.
Proof.
  induction ts as [|z r IH]; simpl; [done|]. intros H Hne. destruct (decide (x = z)) as [->|].
  - by apply elem_of_cons in H as [->|H].
  - apply elem_of_cons in H as [->|H]; [by left|]. right. by apply IH.
Qed.

Definition new_timer (now : N) (e : cache_event) : list (N * deletion) :=
  match e with
  | HeMsg (HmCachePoW m) => [(now + cp_duration m * NS, DeletePoW (cp_string m))]
  | HeMsg (HmCacheResult m) => [(now + cr_duration m * NS, DeleteCaptchaResult (cr_token m))]
  | _ => []
  end.
Lemma step_timers s e s' o :
  cache_step s e = Some (s', o) ->
  hc_timers (hs_cache s') =
  match e with
  | HeExpire due d => remove_first (due, d) (hc_timers (hs_cache s))
  | _ => hc_timers (hs_cache s) ++ new_timer (hs_now s) e
  end.
Proof.
  destruct e as [m|d|due d]; simpl; intros Hs.
  - destruct m as [m|m|m|m|d]; simpl in Hs |- *; rewrite ?app_nil_r.
    + injection Hs as <- <-. done.
    + unfold retrive_pow_config in Hs. simpl in Hs.
      destruct (hc_difficulty_map (hs_cache s) !! vr_token m); injection Hs as <- <-; done.
    + injection Hs as <- <-. done.
    + unfold verify_result in Hs. simpl in Hs.
      destruct (hc_result_map (hs_cache s) !! vr_token m); [destruct (decide (_ = vr_key m))|]; injection Hs as <- <-; done.
    + injection Hs as <- <-. by destruct d.
  - injection Hs as <- <-. by rewrite app_nil_r.
  - unfold hc_expire in Hs. destruct (decide _); [|done]. destruct (_ <=? _); [|done].
    injection Hs as <- <-. by destruct d.
Qed.
Lemma step_expire s due d s' o :
  cache_step s (HeExpire due d) = Some (s', o) -> (due, d) ∈ hc_timers (hs_cache s) /\ due <= hs_now s.
Proof.
  simpl. unfold hc_expire. destruct (decide _); [|done].
  destruct (N.leb_spec due (hs_now s)); [done|done].
Qed.

(** Every pending expiry stems from a caching event. *)
Lemma timers_origin t es s os due d :
  cache_run (cache_start t) es = Some (s, os) -> (due, d) ∈ hc_timers (hs_cache s) ->
  exists pre e post, es = pre ++ e :: post /\ (due, d) ∈ new_timer (cache_clock t pre) e.
Proof.
  revert s os. induction es as [|e es IH] using rev_ind; intros s os Hr Hin.
  - injection Hr as <- <-. by apply elem_of_nil in Hin.
  - apply cache_run_snoc in Hr as (s1 & os1 & o & Hr & Hs & ->).
    rewrite (step_timers _ _ _ _ Hs) in Hin.
    assert ((due, d) ∈ hc_timers (hs_cache s1) \/ (due, d) ∈ new_timer (hs_now s1) e) as [H|H].
    { destruct e; try (by apply elem_of_app in Hin). left. by eapply remove_first_in. }
    + destruct (IH _ _ Hr H) as (pre & e' & post & -> & Hn). exists pre, e', (post ++ [e]).
      by rewrite <- app_assoc.
    + destruct (run_maps t es s1 os1 "" Hr) as (_ & _ & Hnow). rewrite Hnow in H.
      exists es, e, []. done.
Qed.

(** A stored challenge (token) still has the expiry of its caching event
    pending: an expiry with the same due time removes it when delivered. *)
Lemma stored_challenge_timer t es s os x c :
  cache_run (cache_start t) es = Some (s, os) ->
  stored (about_challenge x) es = Some c ->
  exists pre m post, es = pre ++ HeMsg (HmCachePoW m) :: post /\
    cp_string m = x /\ c = CachedPoWConfig (cp_key m) (cp_difficulty_factor m) (cp_duration m) /\
    omap (about_challenge x) post = [] /\
    (cache_clock t pre + cp_duration m * NS, DeletePoW x) ∈ hc_timers (hs_cache s).
Proof.
  revert s os. induction es as [|e es IH] using rev_ind; intros s os Hr Hst; [done|].
  apply cache_run_snoc in Hr as (s1 & os1 & o & Hr & Hs & ->).
  rewrite stored_snoc in Hst.
  destruct (run_maps t es s1 os1 x Hr) as (_ & _ & Hnow).
  destruct (about_challenge x e) as [v|] eqn:Ea.
  - subst v. destruct e as [m|d|due d]; try done.
    + destruct m as [m|m|m|m|d]; try done.
      * simpl in Ea. destruct (decide (cp_string m = x)) as [<-|]; [|done].
        injection Ea as <-. exists es, m, []. split; [done|]. split; [done|]. split; [done|]. split; [done|].
        rewrite (step_timers _ _ _ _ Hs). simpl. rewrite Hnow. apply elem_of_app. right. by left.
      * simpl in Ea. destruct (decide _); done.
      * destruct d; simpl in Ea; [destruct (decide _)|]; done.
    + destruct d; simpl in Ea; [destruct (decide _)|]; done.
  - destruct (IH _ _ Hr Hst) as (pre & m & post & -> & Hx & Hc & Hp & Hin).
    exists pre, m, (post ++ [e]). rewrite <- app_assoc. split; [done|]. split; [done|]. split; [done|].
    split. { rewrite omap_app, Hp. simpl. by rewrite Ea. }
    rewrite (step_timers _ _ _ _ Hs). destruct e as [m'|d|due d].
    + apply elem_of_app. by left.
    + apply elem_of_app. by left.
    + apply remove_first_other; [done|]. intros [= _ <-]. simpl in Ea. by rewrite decide_True in Ea.
Qed.
Lemma stored_token_timer t es s os x k :
  cache_run (cache_start t) es = Some (s, os) ->
  stored (about_token x) es = Some k ->
  exists pre m post, es = pre ++ HeMsg (HmCacheResult m) :: post /\
    cr_token m = x /\ k = cr_key m /\ omap (about_token x) post = [] /\
    (cache_clock t pre + cr_duration m * NS, DeleteCaptchaResult x) ∈ hc_timers (hs_cache s).
Proof.
  revert s os. induction es as [|e es IH] using rev_ind; intros s os Hr Hst; [done|].
  apply cache_run_snoc in Hr as (s1 & os1 & o & Hr & Hs & ->).
  rewrite stored_snoc in Hst.
  destruct (run_maps t es s1 os1 x Hr) as (_ & _ & Hnow).
  destruct (about_token x e) as [v|] eqn:Ea.
  - subst v. destruct e as [m|d|due d]; try done.
    + destruct m as [m|m|m|m|d]; try done.
      * simpl in Ea. destruct (decide (cr_token m = x)) as [<-|]; [|done].
        injection Ea as <-. exists es, m, []. split; [done|]. split; [done|]. split; [done|]. split; [done|].
        rewrite (step_timers _ _ _ _ Hs). simpl. rewrite Hnow. apply elem_of_app. right. by left.
      * simpl in Ea. destruct (decide _); done.
      * destruct d; simpl in Ea; [|destruct (decide _)]; done.
    + destruct d; simpl in Ea; [|destruct (decide _)]; done.
  - destruct (IH _ _ Hr Hst) as (pre & m & post & -> & Hx & Hc & Hp & Hin).
    exists pre, m, (post ++ [e]). rewrite <- app_assoc. split; [done|]. split; [done|]. split; [done|].
    split. { rewrite omap_app, Hp. simpl. by rewrite Ea. }
    rewrite (step_timers _ _ _ _ Hs). destruct e as [m'|d|due d].
    + apply elem_of_app. by left.
    + apply elem_of_app. by left.
    + apply remove_first_other; [done|]. intros [= _ <-]. simpl in Ea. by rewrite decide_True in Ea.
Qed.

Lemma overdue_none s due d :
  nothing_overdue s -> (due, d) ∈ hc_timers (hs_cache s) -> hs_now s < due.
Proof.
  intros Hno Hin. specialize (Hno due d). simpl in Hno. unfold hc_expire in Hno.
  rewrite decide_True in Hno by done. destruct (N.leb_spec due (hs_now s)); [done|lia].
Qed.

Lemma challenge_expires t es s os x key c :
  cache_run (cache_start t) es = Some (s, os) -> nothing_overdue s ->
  retrieves s x key (Some c) ->
  exists pre m post, es = pre ++ HeMsg (HmCachePoW m) :: post /\ cp_string m = x /\
    c = CachedPoWConfig (cp_key m) (cp_difficulty_factor m) (cp_duration m) /\
    omap (about_challenge x) post = [] /\
    cache_clock t es < cache_clock t pre + cp_duration m * NS.
Proof.
  intros Hr Hno Hret. apply retrieves_iff in Hret.
  destruct (run_maps t es s os x Hr) as (H1 & _ & Hnow). rewrite H1 in Hret.
  destruct (stored_challenge_timer t es s os x c Hr Hret) as (pre & m & post & Hes & Hx & Hc & Hp & Hin).
  exists pre, m, post. split; [done|]. split; [done|]. split; [done|]. split; [done|].
  rewrite <- Hnow. by eapply overdue_none.
Qed.
Lemma token_expires t es s os x key :
  cache_run (cache_start t) es = Some (s, os) -> nothing_overdue s ->
  validates s x key true ->
  exists pre m post, es = pre ++ HeMsg (HmCacheResult m) :: post /\ cr_token m = x /\
    cr_key m = key /\ omap (about_token x) post = [] /\
    cache_clock t es < cache_clock t pre + cr_duration m * NS.
Proof.
  intros Hr Hno Hret. apply validates_iff in Hret. symmetry in Hret. apply bool_decide_eq_true in Hret.
  destruct (run_maps t es s os x Hr) as (_ & H1 & Hnow). rewrite H1 in Hret.
  destruct (stored_token_timer t es s os x key Hr Hret) as (pre & m & post & Hes & Hx & Hc & Hp & Hin).
  exists pre, m, post. split; [done|]. split; [done|]. split; [done|]. split; [done|].
  rewrite <- Hnow. by eapply overdue_none.
Qed.

(** Without a message about it, a challenge cached for the first time stays
    until its duration has elapsed. *)
Lemma stored_app_none {V} (about : cache_event -> option (option V)) es post :
  omap about post = [] -> stored about (es ++ post) = stored about es.
Proof. intros H. unfold stored. by rewrite omap_app, H, app_nil_r. Qed.

Lemma challenge_lives t pre m post s os key :
  Forall (fun e => ¬ caches_challenge (cp_string m) e) pre ->
  Forall (fun e => ¬ touches_challenge (cp_string m) e) post ->
  cache_run (cache_start t) (pre ++ HeMsg (HmCachePoW m) :: post) = Some (s, os) ->
  cache_clock t (pre ++ HeMsg (HmCachePoW m) :: post) < cache_clock t pre + cp_duration m * NS ->
  retrieves s (cp_string m) key
    (Some (CachedPoWConfig (cp_key m) (cp_difficulty_factor m) (cp_duration m))).
Proof.
  intros Hpre Hpost Hr Hlt. pose proof (retrieve_spec _ _ _ _ (cp_string m) key Hr) as Hs.
  replace (stored (about_challenge (cp_string m)) (pre ++ HeMsg (HmCachePoW m) :: post))
    with (Some (CachedPoWConfig (cp_key m) (cp_difficulty_factor m) (cp_duration m))) in Hs; [done|].
  change (HeMsg (HmCachePoW m) :: post) with ([HeMsg (HmCachePoW m)] ++ post) in *.
  rewrite app_assoc in *. set (base := pre ++ [HeMsg (HmCachePoW m)]) in *.
  assert (omap (about_challenge (cp_string m)) post = []) as Hnil.
  { clear Hs. revert s os Hr Hlt. induction post as [|e post IH] using rev_ind; intros s os Hr Hlt; [done|].
    apply Forall_app in Hpost as [Hpost He]. rewrite Forall_singleton in He.
    rewrite app_assoc in Hr, Hlt. apply cache_run_snoc in Hr as (s1 & os1 & o & Hr & Hs & ->).
    rewrite cache_clock_snoc in Hlt.
    assert (cache_clock t (base ++ post) < cache_clock t pre + cp_duration m * NS) as Hlt1.
    { destruct e; lia. }
    rewrite omap_app, (IH Hpost _ _ Hr Hlt1). simpl.
    destruct (about_challenge (cp_string m) e) as [v|] eqn:Ea; [|done]. exfalso.
    destruct e as [msg|d|due d]; [| |].
    - apply He. destruct msg as [m'|m'|m'|m'|[|]]; simpl in Ea |- *; try done;
        by destruct (decide _).
    - done.
    - destruct d as [y|y]; simpl in Ea; [|done]. destruct (decide (y = cp_string m)) as [->|]; [|done].
      apply step_expire in Hs as [Hin Hdue].
      destruct (run_maps t _ _ _ "" Hr) as (_ & _ & Hnow). rewrite Hnow in Hdue.
      destruct (timers_origin t _ _ _ _ _ Hr Hin) as (p1 & e1 & p2 & Heq & Hn).
      assert (caches_challenge (cp_string m) e1 /\
              exists m', e1 = HeMsg (HmCachePoW m') /\ due = cache_clock t p1 + cp_duration m' * NS)
        as (Hc1 & m' & He1 & Hdue').
      { destruct e1 as [[m'|m'|m'|m'|d']| |]; simpl in Hn; try (by apply elem_of_nil in Hn).
        - apply elem_of_list_singleton in Hn as [= -> Hx]. split; [done|]. eauto.
        - by apply elem_of_list_singleton in Hn. }
      unfold base in Heq. rewrite <- app_assoc in Heq. simpl in Heq.
      apply app_eq_inv in Heq as [(k & Hk1 & Hk2)|(k & Hk1 & Hk2)].
      + destruct k as [|z k]; simpl in Hk2.
        * injection Hk2 as -> ->. rewrite app_nil_r in Hk1. subst p1.
          injection He1 as <-. lia.
        * injection Hk2 as -> _. rewrite Hk1 in Hpre. apply Forall_app in Hpre as [_ Hpre].
          by apply Forall_cons in Hpre as [? _].
      + destruct k as [|z k]; simpl in Hk2.
        * injection Hk2 as <- ->. rewrite app_nil_r in Hk1. subst p1.
          injection He1 as <-. lia.
        * injection Hk2 as <- Hk2. assert (e1 ∈ post) as Hp by (rewrite Hk2; apply elem_of_app; right; by left).
          rewrite Forall_forall in Hpost. apply (Hpost e1 Hp). subst e1. done. }
  rewrite stored_app_none by done. unfold base. rewrite stored_snoc. simpl. by rewrite decide_True.
Qed.

Lemma token_lives t pre m post s os :
  Forall (fun e => ¬ caches_token (cr_token m) e) pre ->
  Forall (fun e => ¬ touches_token (cr_token m) e) post ->
  cache_run (cache_start t) (pre ++ HeMsg (HmCacheResult m) :: post) = Some (s, os) ->
  cache_clock t (pre ++ HeMsg (HmCacheResult m) :: post) < cache_clock t pre + cr_duration m * NS ->
  validates s (cr_token m) (cr_key m) true.
Proof.
  intros Hpre Hpost Hr Hlt. pose proof (validate_spec _ _ _ _ (cr_token m) (cr_key m) Hr) as Hs.
  replace (bool_decide _) with true in Hs; [done|]. symmetry. apply bool_decide_eq_true.
  change (HeMsg (HmCacheResult m) :: post) with ([HeMsg (HmCacheResult m)] ++ post) in *.
  rewrite app_assoc in *. set (base := pre ++ [HeMsg (HmCacheResult m)]) in *.
  assert (omap (about_token (cr_token m)) post = []) as Hnil.
  { clear Hs. revert s os Hr Hlt. induction post as [|e post IH] using rev_ind; intros s os Hr Hlt; [done|].
    apply Forall_app in Hpost as [Hpost He]. rewrite Forall_singleton in He.
    rewrite app_assoc in Hr, Hlt. apply cache_run_snoc in Hr as (s1 & os1 & o & Hr & Hs & ->).
    rewrite cache_clock_snoc in Hlt.
    assert (cache_clock t (base ++ post) < cache_clock t pre + cr_duration m * NS) as Hlt1.
    { destruct e; lia. }
    rewrite omap_app, (IH Hpost _ _ Hr Hlt1). simpl.
    destruct (about_token (cr_token m) e) as [v|] eqn:Ea; [|done]. exfalso.
    destruct e as [msg|d|due d]; [| |].
    - apply He. destruct msg as [m'|m'|m'|m'|[|]]; simpl in Ea |- *; try done;
        by destruct (decide _).
    - done.
    - destruct d as [y|y]; simpl in Ea; [done|]. destruct (decide (y = cr_token m)) as [->|]; [|done].
      apply step_expire in Hs as [Hin Hdue].
      destruct (run_maps t _ _ _ "" Hr) as (_ & _ & Hnow). rewrite Hnow in Hdue.
      destruct (timers_origin t _ _ _ _ _ Hr Hin) as (p1 & e1 & p2 & Heq & Hn).
      assert (caches_token (cr_token m) e1 /\
              exists m', e1 = HeMsg (HmCacheResult m') /\ due = cache_clock t p1 + cr_duration m' * NS)
        as (Hc1 & m' & He1 & Hdue').
      { destruct e1 as [[m'|m'|m'|m'|d']| |]; simpl in Hn; try (by apply elem_of_nil in Hn).
        - by apply elem_of_list_singleton in Hn.
        - apply elem_of_list_singleton in Hn as [= -> Hx]. split; [done|]. eauto. }
      unfold base in Heq. rewrite <- app_assoc in Heq. simpl in Heq.
      apply app_eq_inv in Heq as [(k & Hk1 & Hk2)|(k & Hk1 & Hk2)].
      + destruct k as [|z k]; simpl in Hk2.
        * injection Hk2 as -> ->. rewrite app_nil_r in Hk1. subst p1.
          injection He1 as <-. lia.
        * injection Hk2 as -> _. rewrite Hk1 in Hpre. apply Forall_app in Hpre as [_ Hpre].
          by apply Forall_cons in Hpre as [? _].
      + destruct k as [|z k]; simpl in Hk2.
        * injection Hk2 as <- ->. rewrite app_nil_r in Hk1. subst p1.
          injection He1 as <-. lia.
        * injection Hk2 as <- Hk2. assert (e1 ∈ post) as Hp by (rewrite Hk2; apply elem_of_app; right; by left).
          rewrite Forall_forall in Hpost. apply (Hpost e1 Hp). subst e1. done. }
  rewrite stored_app_none by done. unfold base. rewrite stored_snoc. simpl. by rewrite decide_True.
Qed.
