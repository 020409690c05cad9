(** Proofs about the Counter actor. *)
From Coq Require Import Sorted ZifyBool ZifyN ZifyNat Lia.
From Verif Require Import Model.Base Model.Defense Model.MCaptcha Model.Counter
  Spec.DefenseSpec Spec.MCaptchaSpec Spec.CounterSpec
  Proofs.DefenseProofs Proofs.MCaptchaProofs.

(** ** Runs *)
Lemma counter_run_snoc p s es e s' os :
  counter_run p s (es ++ [e]) = Some (s', os) <->
  exists s1 os1 o, counter_run p s es = Some (s1, os1) /\
    counter_step p s1 e = Some (s', o) /\ os = os1 ++ [o].
Proof.
  revert s os. induction es as [|x es IH]; intros s os; cbn [app counter_run].
  - split.
    + destruct (counter_step p s e) as [[s1 o]|] eqn:E; [|done]. intros [= <- <-]. by exists s, [], o.
    + intros (s1 & os1 & o & [= <- <-] & -> & ->). done.
  - destruct (counter_step p s x) as [[s0 o0]|]; [|by split; [|intros (?&?&?&?&_)]].
    split.
    + destruct (counter_run p s0 (es ++ [e])) as [[s2 os2]|] eqn:E; [|done].
      intros [= <- <-]. destruct (proj1 (IH s0 os2)) as (s1 & os1 & o & Hr & Hs & ->).
      { by rewrite E. }
      rewrite Hr. by exists s1, (o0 :: os1), o.
    + intros (s1 & os1 & o & Hr & Hs & ->). destruct (counter_run p s0 es) as [[s2 os2]|] eqn:E; [|done].
      injection Hr as -> <-. rewrite (proj2 (IH s0 (os2 ++ [o]))); [done|]. by exists s1, os2, o.
Qed.

Lemma counter_run_app p s es1 es2 :
  counter_run p s (es1 ++ es2) =
  match counter_run p s es1 with
  | None => None
  | Some (s1, os1) =>
      match counter_run p s1 es2 with
      | None => None
      | Some (s2, os2) => Some (s2, os1 ++ os2)
      end
  end.
Proof.
  revert s. induction es1 as [|x es IH]; intros s; cbn [app counter_run].
  - by destruct (counter_run p s es2) as [[? ?]|].
  - destruct (counter_step p s x) as [[s0 o0]|]; [|done]. rewrite IH.
    destruct (counter_run p s0 es) as [[s1 os1]|]; [|done].
    by destruct (counter_run p s1 es2) as [[? ?]|].
Qed.

(** ** Timers *)
Lemma Forall_filter {A} (P Q : A -> Prop) `{!forall x, Decision (P x)} (l : list A) :
  Forall Q l -> Forall Q (filter P l).
Proof.
  rewrite !Forall_forall. intros HQ x Hx. apply elem_of_list_filter in Hx as [_ Hx]. by apply HQ.
Qed.
Lemma NoDup_fst_filter {A B} (P : A * B -> Prop) `{!forall x, Decision (P x)} (l : list (A * B)) :
  NoDup (fst <$> l) -> NoDup (fst <$> filter P l).
Proof.
  induction l as [|x l IH]; intros Hnd; [done|]. rewrite filter_cons.
  rewrite fmap_cons in Hnd. apply NoDup_cons in Hnd as [Hx Hnd].
  destruct (decide (P x)); [|by apply IH]. rewrite fmap_cons. apply NoDup_cons. split; [|by apply IH].
  intros Hin. apply Hx. apply elem_of_list_fmap in Hin as (y & Heq & Hy).
  apply elem_of_list_filter in Hy as [_ Hy]. apply elem_of_list_fmap. by exists y.
Qed.
Lemma timer_lookup_Some ts id x :
  timer_lookup id ts = Some x -> (id, x) ∈ ts.
Proof.
  induction ts as [|[i y] r IH]; simpl; [done|]. destruct (Nat.eqb_spec i id).
  - intros [= ->]. subst. left.
  - intros H. right. by apply IH.
Qed.
Lemma timer_lookup_in ts id x :
  NoDup (fst <$> ts) -> (id, x) ∈ ts -> timer_lookup id ts = Some x.
Proof.
  induction ts as [|[i y] r IH]; intros Hnd Hin; [by apply elem_of_nil in Hin|].
  simpl. apply NoDup_cons in Hnd as [Hn Hnd].
  apply elem_of_cons in Hin as [[= -> ->]|Hin]; [by rewrite Nat.eqb_refl|].
  destruct (Nat.eqb_spec i id) as [->|]; [|by apply IH].
  exfalso. apply Hn. apply elem_of_list_fmap. by exists (id, x).
Qed.
Lemma timer_remove_filter ts id :
  NoDup (fst <$> ts) -> timer_remove id ts = filter (fun t => fst t <> id) ts.
Proof.
  induction ts as [|[i y] r IH]; intros Hnd; [done|]. cbn [timer_remove].
  apply NoDup_cons in Hnd as [Hn Hnd]. rewrite filter_cons. simpl. rewrite (IH Hnd).
  destruct (Nat.eqb_spec i id) as [->|Hne].
  - rewrite decide_False by (intros H; by apply H).
    assert (forall l : list (nat * (N * expiry)), id ∉ (fst <$> l) -> filter (fun t => fst t <> id) l = l) as Hall.
    { clear. induction l as [|[j z] l IH]; [done|]. intros Hn. rewrite fmap_cons, not_elem_of_cons in Hn.
      destruct Hn as [Hj Hn]. rewrite filter_cons_True; [by rewrite IH|]. simpl in *. congruence. }
    symmetry. by apply Hall.
  - by rewrite decide_True.
Qed.

(** ** Arrivals of an extended schedule *)
Lemma clock_snoc t es e :
  clock t (es ++ [e]) = match e with CeTick d => clock t es + d | _ => clock t es end.
Proof.
  revert t. induction es as [|x es IH]; intros t; simpl; [by destruct e|].
  destruct x; apply IH.
Qed.
Lemma clock_le t es : t <= clock t es.
Proof.
  revert t. induction es as [|x es IH]; intros t; simpl; [lia|].
  destruct x as [|d|]; [apply IH| |apply IH]. specialize (IH (t + d)). lia.
Qed.
Lemma arrivals_of_snoc k t es e :
  no_restore es ->
  arrivals_of k t (es ++ [e]) = arrivals_of k t es ++
    match e with
    | CeMsg CmAddVisitor => [((k + length (arrivals_of k t es))%nat, clock t es)]
    | _ => []
    end.
Proof.
  revert k t. induction es as [|x es IH]; intros k t Hn; simpl.
  - rewrite Nat.add_0_r. by destruct e as [[]| |].
  - apply Forall_cons in Hn as [Hx Hn].
    destruct x as [m|d|id]; [destruct m|..]; simpl; try done; try by apply IH.
    rewrite IH by done. simpl. do 2 f_equal. destruct e as [[]| |]; try done. do 3 f_equal. lia.
Qed.
Lemma arrivals_of_bound k t es a :
  no_restore es -> a ∈ arrivals_of k t es ->
  (k <= fst a < k + length (arrivals_of k t es))%nat /\ t <= snd a <= clock t es.
Proof.
  revert k t. induction es as [|x es IH]; intros k t Hn Ha; simpl in *; [by apply elem_of_nil in Ha|].
  apply Forall_cons in Hn as [Hx Hn].
  destruct x as [m|d|id]; [destruct m|..]; try done; try (by apply IH).
  - apply elem_of_cons in Ha as [->|Ha].
    + simpl. pose proof (clock_le t es). lia.
    + specialize (IH (S k) t Hn Ha). simpl. lia.
  - specialize (IH k (t + d) Hn Ha). lia.
Qed.
Lemma arrivals_of_nodup k t es : no_restore es -> NoDup (fst <$> arrivals_of k t es).
Proof.
  revert k t. induction es as [|x es IH]; intros k t Hn; simpl; [constructor|].
  apply Forall_cons in Hn as [Hx Hn].
  destruct x as [m|d|id]; [destruct m|..]; try done; try (by apply IH).
  rewrite fmap_cons. constructor; [|by apply IH]. intros Hin.
  apply elem_of_list_fmap in Hin as (a & Ha & Hin). apply arrivals_of_bound in Hin; [|done].
  simpl in *. lia.
Qed.

(** ** The structural invariant *)
Definition mk_timer (dur : N) (a : nat * N) : nat * (N * expiry) :=
  (fst a, (snd a + dur * NS, DeleteVisitor)).
Definition unfired (es : list counter_event) (ts : list (nat * (N * expiry))) :=
  filter (fun t => CeFire (fst t) ∉ es) ts.

Record cwf (c : counter) : Prop := {
  cwf_ids : Forall (fun t => (fst t < ct_next c)%nat) (ct_timers c);
  cwf_nodup : NoDup (fst <$> ct_timers c) }.

Record cinv (s0 : counter_sys) (es : list counter_event) (s : counter_sys) : Prop := {
  ci_now : cs_now s = clock (cs_now s0) es;
  ci_next : ct_next (cs_counter s) =
    (ct_next (cs_counter s0) + length (arrivals_of (ct_next (cs_counter s0)) (cs_now s0) es))%nat;
  ci_timers : ct_timers (cs_counter s) =
    unfired es (ct_timers (cs_counter s0) ++
      (mk_timer (m_duration (ct_data (cs_counter s0))) <$>
         arrivals_of (ct_next (cs_counter s0)) (cs_now s0) es));
  ci_fired : forall id, CeFire id ∈ es -> (id < ct_next (cs_counter s))%nat;
  ci_duration : m_duration (ct_data (cs_counter s)) = m_duration (ct_data (cs_counter s0)) }.

Lemma unfired_cons_not_fire es e ts :
  (forall id, e <> CeFire id) -> unfired (es ++ [e]) ts = unfired es ts.
Proof.
  intros He. unfold unfired. apply list_filter_iff. intros t. rewrite not_elem_of_app.
  split; [by intros []|]. intros H. split; [done|]. rewrite elem_of_list_singleton. by intros <-; eapply He.
Qed.
Lemma unfired_fire es id ts :
  unfired (es ++ [CeFire id]) ts = filter (fun t => fst t <> id) (unfired es ts).
Proof.
  unfold unfired. rewrite list_filter_filter. apply list_filter_iff. intros t.
  rewrite not_elem_of_app, elem_of_list_singleton. split.
  - intros [H1 H2]. split; [|done]. intros <-. by apply H2.
  - intros [H1 H2]. split; [done|]. intros [= <-]. done.
Qed.

Lemma unfired_nodup es ts : NoDup (fst <$> ts) -> NoDup (fst <$> unfired es ts).
Proof.
  apply NoDup_fst_filter.
Qed.
Lemma unfired_app es a b : unfired es (a ++ b) = unfired es a ++ unfired es b.
Proof. apply filter_app. Qed.

Lemma mk_timer_fst dur (l : list (nat * N)) : fst <$> (mk_timer dur <$> l) = fst <$> l.
Proof. rewrite <- list_fmap_compose. by apply list_fmap_ext. Qed.

Lemma created_nodup s0 es :
  cwf (cs_counter s0) -> no_restore es ->
  NoDup (fst <$> (ct_timers (cs_counter s0) ++
      (mk_timer (m_duration (ct_data (cs_counter s0))) <$>
         arrivals_of (ct_next (cs_counter s0)) (cs_now s0) es))).
Proof.
  intros [Hids Hnd] Hn. rewrite fmap_app, mk_timer_fst. apply NoDup_app. split; [done|]. split.
  - intros x Hx Hx'. apply elem_of_list_fmap in Hx as (t & -> & Ht).
    apply elem_of_list_fmap in Hx' as (a & Heq & Ha). apply arrivals_of_bound in Ha; [|done].
    rewrite Forall_forall in Hids. specialize (Hids t Ht). simpl in Hids. lia.
  - by apply arrivals_of_nodup.
Qed.

Lemma counter_handle_alive p now c msg c' r :
  counter_handle p now c msg = (c', r) -> ct_alive c' = true -> ct_alive c = true.
Proof. unfold counter_handle. destruct (ct_alive c) eqn:E; [done|]. intros [= <- <-]. congruence. Qed.

Lemma add_visitor_duration p m m' : add_visitor p m = Val m' -> m_duration m' = m_duration m.
Proof.
  unfold add_visitor. destruct (u32_add p _ _); simpl; [|done].
  destruct (current_level _); simpl; [|done]. destruct (_ <? _).
  - destruct (tighten_up _ _); simpl; [|done]. by intros [= <-].
  - by intros [= <-].
Qed.

(** Handling AddVisitor on a live actor. *)
Lemma handle_add_alive p now c c' r :
  handle_add_visitor p now c = (c', r) -> ct_alive c' = true ->
  exists m' ar, add_visitor p (ct_data c) = Val m' /\ avr_new m' = Val ar /\ r = CrAdded ar /\
    c' = Counter m' (ct_alive c) (S (ct_next c))
           (ct_timers c ++ [(ct_next c, (now + m_duration (ct_data c) * NS, DeleteVisitor))]).
Proof.
  unfold handle_add_visitor. simpl. intros H Ha.
  destruct (add_visitor p (ct_data c)) as [m'|]; simpl in H; [|by injection H as <- <-].
  destruct (avr_new m') as [ar|] eqn:E; simpl in H; [|by injection H as <- <-].
  injection H as <- <-. exists m', ar. done.
Qed.

Lemma handle_expiry_eq m e :
  handle_expiry m e = MCaptcha (m_visitors m - match e with DeleteVisitor => 1 | BulkDecrement n => n end)
                        (m_defense m) (m_duration m).
Proof. destruct e; simpl; apply decrement_eq. Qed.

Lemma cinv_init s0 : cinv s0 [] s0.
Proof.
  split; simpl; try done; try lia.
  - rewrite app_nil_r. unfold unfired. symmetry.
    assert (forall l : list (nat * (N * expiry)), filter (fun t => CeFire (fst t) ∉ ([] : list counter_event)) l = l) as H.
    { induction l as [|t l IH]; [done|]. rewrite filter_cons_True by apply not_elem_of_nil. by rewrite IH. }
    apply H.
  - intros id H. by apply elem_of_nil in H.
Qed.

Lemma cinv_step p s0 es s e s' o :
  cwf (cs_counter s0) -> no_restore (es ++ [e]) ->
  cinv s0 es s -> counter_step p s e = Some (s', o) -> ct_alive (cs_counter s') = true ->
  cinv s0 (es ++ [e]) s'.
Proof.
  intros Hwf Hn [H1 H2 H3 H4 H5] Hs Halive.
  pose proof Hn as Hn'. apply Forall_app in Hn' as [Hn1 Hne].
  rewrite Forall_singleton in Hne.
  assert (Hkeep : forall e', e = e' -> (forall id, e' <> CeFire id) ->
     forall id, CeFire id ∈ es ++ [e] -> CeFire id ∈ es).
  { intros e' -> He id Hin. apply elem_of_app in Hin as [|Hin]; [done|].
    apply elem_of_list_singleton in Hin. by destruct (He id). }
  destruct e as [m|d|id]; simpl in Hs.
  - destruct (counter_handle p (cs_now s) (cs_counter s) m) as [c' r] eqn:Eh.
    injection Hs as <- <-. simpl in Halive.
    pose proof (counter_handle_alive _ _ _ _ _ _ Eh Halive) as Ha.
    unfold counter_handle in Eh. rewrite Ha in Eh.
    destruct m.
    + apply handle_add_alive in Eh as (m' & ar & Hadd & _ & _ & ->); [|done].
      apply add_visitor_duration in Hadd as Hdur.
      split; simpl.
      * by rewrite clock_snoc.
      * rewrite arrivals_of_snoc, app_length by done. simpl. lia.
      * rewrite arrivals_of_snoc by done. rewrite H3, unfired_cons_not_fire by done.
        rewrite fmap_app, !unfired_app, app_assoc. f_equal.
        unfold unfired. rewrite H5, H2, H1. simpl.
        rewrite filter_cons_True; [done|]. simpl. intros Hin. apply H4 in Hin. lia.
      * intros id Hin. apply (Hkeep _ eq_refl) in Hin; [|done]. apply H4 in Hin. lia.
      * congruence.
    + injection Eh as <- <-. split; simpl.
      * by rewrite clock_snoc. * by rewrite arrivals_of_snoc, app_nil_r by done.
      * by rewrite arrivals_of_snoc, app_nil_r, unfired_cons_not_fire by done.
      * intros id Hin. apply (Hkeep _ eq_refl) in Hin; [|done]. by apply H4. * done.
    + injection Eh as <- <-. done.
    + injection Eh as <- <-. split; simpl.
      * by rewrite clock_snoc. * by rewrite arrivals_of_snoc, app_nil_r by done.
      * by rewrite arrivals_of_snoc, app_nil_r, unfired_cons_not_fire by done.
      * intros id Hin. apply (Hkeep _ eq_refl) in Hin; [|done]. by apply H4. * done.
    + done.
  - injection Hs as <- <-. split; simpl.
    * rewrite clock_snoc. lia. * by rewrite arrivals_of_snoc, app_nil_r by done.
    * by rewrite arrivals_of_snoc, app_nil_r, unfired_cons_not_fire by done.
    * intros id Hin. apply (Hkeep _ eq_refl) in Hin; [|done]. by apply H4. * done.
  - destruct (counter_fire (cs_now s) (cs_counter s) id) as [c'|] eqn:Ef; [|done].
    injection Hs as <- <-. unfold counter_fire in Ef.
    destruct (ct_alive (cs_counter s)); [|done].
    destruct (timer_lookup id (ct_timers (cs_counter s))) as [[due x]|] eqn:El; [|done].
    destruct (due <=? cs_now s); [|done]. injection Ef as <-. simpl in *.
    apply timer_lookup_Some in El.
    split; simpl.
    * by rewrite clock_snoc. * by rewrite arrivals_of_snoc, app_nil_r by done.
    * rewrite arrivals_of_snoc, app_nil_r, unfired_fire by done. rewrite <- H3.
      apply timer_remove_filter. rewrite H3. apply unfired_nodup. by apply created_nodup.
    * intros id' Hin. apply elem_of_app in Hin as [Hin|Hin]; [by apply H4|].
      apply elem_of_list_singleton in Hin as [= ->].
      rewrite H3 in El. unfold unfired in El. apply elem_of_list_filter in El as [_ El].
      apply elem_of_app in El as [El|El].
      -- pose proof (cwf_ids _ Hwf) as Hids. rewrite Forall_forall in Hids.
         specialize (Hids _ El). simpl in Hids. lia.
      -- apply elem_of_list_fmap in El as (a & [= -> _] & Hin).
         apply arrivals_of_bound in Hin; [|done]. lia.
    * by rewrite handle_expiry_eq.
Qed.

Lemma counter_step_alive p s e s' o :
  counter_step p s e = Some (s', o) -> ct_alive (cs_counter s') = true -> ct_alive (cs_counter s) = true.
Proof.
  intros Hs Ha. destruct e as [m|d|id]; simpl in Hs.
  - destruct (counter_handle _ _ _ _) as [c' r] eqn:E. injection Hs as <- <-.
    by eapply counter_handle_alive.
  - by injection Hs as <- <-.
  - unfold counter_fire in Hs. destruct (ct_alive (cs_counter s)); [done|by simpl in Hs].
Qed.

Lemma cinv_run p s0 es s os :
  cwf (cs_counter s0) -> no_restore es -> counter_run p s0 es = Some (s, os) ->
  ct_alive (cs_counter s) = true -> cinv s0 es s.
Proof.
  intros Hwf. revert s os. induction es as [|e es IH] using rev_ind; intros s os Hn Hr Ha.
  - injection Hr as <- <-. apply cinv_init.
  - apply counter_run_snoc in Hr as (s1 & os1 & o & Hr & Hs & ->).
    pose proof (counter_step_alive _ _ _ _ _ Hs Ha) as Ha1.
    pose proof Hn as Hn'. apply Forall_app in Hn' as [Hn1 _].
    eapply cinv_step; [done|done|eapply IH; eauto|done|done].
Qed.

(** Well-formedness of every reachable counter. *)
Lemma cwf_step p s e s' o :
  cwf (cs_counter s) -> counter_step p s e = Some (s', o) -> cwf (cs_counter s').
Proof.
  intros [H1 H2] Hs.
  assert (Hspawn : forall m al x, cwf (Counter m al (S (ct_next (cs_counter s)))
     (ct_timers (cs_counter s) ++ [(ct_next (cs_counter s), x)]))).
  { intros m al x. split; simpl.
    - apply Forall_app. split; [|by repeat constructor].
      eapply Forall_impl; [exact H1|]. simpl. intros. lia.
    - rewrite fmap_app. apply NoDup_app. split; [done|]. split; [|by apply NoDup_singleton].
      intros i Hi Hi'. apply elem_of_list_singleton in Hi'. simpl in Hi'. subst i.
      apply elem_of_list_fmap in Hi as (t & Heq & Ht). rewrite Forall_forall in H1.
      specialize (H1 t Ht). simpl in H1. lia. }
  destruct e as [m|d|id]; simpl in Hs.
  - unfold counter_handle in Hs. destruct (ct_alive (cs_counter s)); [|by injection Hs as <- <-].
    destruct m; simpl in Hs; try (by injection Hs as <- <-).
    + unfold handle_add_visitor in Hs. destruct (obind _ _) as [[m r]|]; injection Hs as <- <-; simpl.
      * apply Hspawn.
      * split; simpl; [constructor|constructor].
    + injection Hs as <- <-. simpl. split; constructor.
    + injection Hs as <- <-. simpl. apply Hspawn.
  - by injection Hs as <- <-.
  - destruct (counter_fire _ _ _) as [c|] eqn:E; [|done]. injection Hs as <- <-. simpl.
    unfold counter_fire in E. destruct (ct_alive _); [|done].
    destruct (timer_lookup _ _) as [[due x]|]; [|done]. destruct (_ <=? _); [|done].
    injection E as <-. split; simpl.
    + rewrite timer_remove_filter by done. apply Forall_filter. done.
    + rewrite timer_remove_filter by done. by apply NoDup_fst_filter.
Qed.
Lemma cwf_run p s es s' os :
  cwf (cs_counter s) -> counter_run p s es = Some (s', os) -> cwf (cs_counter s').
Proof.
  revert s os. induction es as [|e es IH]; intros s os Hw Hr; simpl in Hr.
  - by injection Hr as <- <-.
  - destruct (counter_step p s e) as [[s1 o]|] eqn:E; [|done].
    destruct (counter_run p s1 es) as [[s2 os2]|] eqn:E2; [|done]. injection Hr as <- <-.
    eapply IH; [|exact E2]. by eapply cwf_step.
Qed.
Lemma cwf_start m : cwf (counter_start m).
Proof. split; constructor. Qed.

(** ** Exact counting (C16, C21) *)
Lemma timer_remove_length ts id x :
  timer_lookup id ts = Some x -> S (length (timer_remove id ts)) = length ts.
Proof.
  induction ts as [|[i y] r IH]; simpl; [done|]. destruct (_ =? _)%nat; [done|].
  intros H. simpl. by rewrite IH.
Qed.

Lemma unfired_mk es dur (l : list (nat * N)) :
  unfired es (mk_timer dur <$> l) = mk_timer dur <$> unexpired es l.
Proof.
  unfold unfired, unexpired. induction l as [|a l IH]; [done|].
  rewrite fmap_cons, !filter_cons. simpl.
  destruct (decide (CeFire (fst a) ∉ es)); simpl; by rewrite IH.
Qed.

Lemma avr_new_mwf m : mwf m -> exists r, avr_new m = Val r.
Proof.
  intros (_ & (_ & Hc & _) & _). destruct (vindex_lt _ _ Hc) as (l & Hi & _).
  unfold avr_new, m_get_difficulty, get_difficulty. rewrite Hi. simpl. eauto.
Qed.

Lemma count_run p t0 m es s os :
  mwf m -> visits_only es ->
  counter_run p (CounterSys t0 (counter_start m)) es = Some (s, os) ->
  m_visitors m + count (arrivals_of 0 t0 es) <= u32_max ->
  ct_alive (cs_counter s) = true /\ mwf (ct_data (cs_counter s)) /\
  m_visitors (ct_data (cs_counter s)) = m_visitors m + N.of_nat (length (ct_timers (cs_counter s))) /\
  Forall (fun t => snd (snd t) = DeleteVisitor) (ct_timers (cs_counter s)) /\
  (length (ct_timers (cs_counter s)) <= length (arrivals_of 0 t0 es))%nat.
Proof.
  intros Hm. revert s os. induction es as [|e es IH] using rev_ind; intros s os Hv Hr Hfit.
  - injection Hr as <- <-. simpl. repeat split; try done; try apply Hm. lia.
  - apply counter_run_snoc in Hr as (s1 & os1 & o & Hr & Hs & ->).
    apply Forall_app in Hv as [Hv He]. rewrite Forall_singleton in He.
    assert (no_restore es) as Hn.
    { eapply Forall_impl; [exact Hv|]. simpl. by intros [[]| |]. }
    rewrite arrivals_of_snoc in Hfit |- * by done. unfold count in *. rewrite app_length in Hfit |- *.
    destruct (IH s1 os1 Hv Hr) as (Ha & Hmw & Hcnt & Hdel & Hle); [lia|]. clear IH.
    destruct e as [msg|d|id]; simpl in Hs.
    + unfold counter_handle in Hs. rewrite Ha in Hs. destruct msg; try done.
      * unfold handle_add_visitor in Hs. simpl in Hs, Hfit |- *.
        destruct (add_visitor_mwf p _ Hmw) as (m' & Hadd & Hmw' & Hv' & _); [lia|].
        rewrite Hadd in Hs. simpl in Hs. destruct (avr_new_mwf _ Hmw') as [r Hr'].
        rewrite Hr' in Hs. simpl in Hs. injection Hs as <- <-. simpl.
        rewrite app_length. simpl. repeat split; try done; try apply Hmw'; try lia.
        apply Forall_app. split; [done|]. by repeat constructor.
      * injection Hs as <- <-. simpl. repeat split; try done; try apply Hmw; try lia.
      * injection Hs as <- <-. simpl. repeat split; try done; try apply Hmw; try lia.
    + injection Hs as <- <-. simpl. repeat split; try done; try apply Hmw; try lia.
    + destruct (counter_fire _ _ _) as [c|] eqn:E; [|done]. injection Hs as <- <-. simpl.
      unfold counter_fire in E. rewrite Ha in E.
      destruct (timer_lookup id (ct_timers (cs_counter s1))) as [[due x]|] eqn:El; [|done].
      destruct (_ <=? _); [|done]. injection E as <-. simpl.
      apply timer_remove_length in El as Hlen. apply timer_lookup_Some in El as Hin.
      rewrite Forall_forall in Hdel. pose proof (Hdel _ Hin) as Hx. simpl in Hx. subst x.
      rewrite handle_expiry_eq. simpl. destruct Hmw as (Hl & Hw & Hmax).
      split; [done|]. split; [split; [done|]; split; [done|]; simpl; lia|].
      split; [lia|]. split; [|lia].
      rewrite timer_remove_filter.
      -- apply Forall_filter. by apply Forall_forall.
      -- apply (cwf_nodup (cs_counter s1)). eapply cwf_run; [|exact Hr]. apply cwf_start.
Qed.

Lemma count_from_start p t0 m es s os :
  mwf m -> visits_only es ->
  counter_run p (CounterSys t0 (counter_start m)) es = Some (s, os) ->
  m_visitors m + count (arrivals_of 0 t0 es) <= u32_max ->
  reads_count p s (m_visitors m + count (unexpired es (arrivals_of 0 t0 es))) /\
  cinv (CounterSys t0 (counter_start m)) es s.
Proof.
  intros Hm Hv Hr Hfit. destruct (count_run p t0 m es s os Hm Hv Hr Hfit) as (Ha & _ & Hc & _).
  assert (no_restore es) as Hn.
  { eapply Forall_impl; [exact Hv|]. simpl. by intros [[]| |]. }
  assert (cinv (CounterSys t0 (counter_start m)) es s) as Hi by by eapply cinv_run; [apply cwf_start|..].
  split; [|done]. unfold reads_count. cbn [counter_step]. unfold counter_handle. rewrite Ha.
  destruct s as [now c]. simpl. do 3 f_equal. unfold m_get_visitors. simpl in Hc. rewrite Hc.
  pose proof (ci_timers _ _ _ Hi) as Ht. simpl in Ht. rewrite unfired_mk in Ht.
  unfold count. rewrite Ht, fmap_length. done.
Qed.

Lemma list_filter_length_mono {A} (P Q : A -> Prop) `{!forall x, Decision (P x)} `{!forall x, Decision (Q x)} (l : list A) :
  (forall x, x ∈ l -> P x -> Q x) -> (length (filter P l) <= length (filter Q l))%nat.
Proof.
  induction l as [|x l IH]; intros HPQ; [done|]. rewrite !filter_cons.
  assert (length (filter P l) <= length (filter Q l))%nat as IH'.
  { apply IH. intros y Hy. apply HPQ. by right. }
  destruct (decide (P x)) as [HP|]; destruct (decide (Q x)) as [HQ|HQ]; simpl; try lia.
  exfalso. apply HQ, HPQ; [by left|done].
Qed.

(** Expiries are delivered only when due: a fired arrival is old. *)
Lemma fired_is_old p t0 m es s os a :
  visits_only es ->
  counter_run p (CounterSys t0 (counter_start m)) es = Some (s, os) ->
  ct_alive (cs_counter s) = true ->
  a ∈ arrivals_of 0 t0 es -> CeFire (fst a) ∈ es ->
  snd a + m_duration m * NS <= clock t0 es.
Proof.
  revert s os. induction es as [|e es IH] using rev_ind; intros s os Hv Hr Hal Ha Hf.
  { by apply elem_of_nil in Hf. }
  apply counter_run_snoc in Hr as (s1 & os1 & o & Hr & Hs & ->).
  pose proof (counter_step_alive _ _ _ _ _ Hs Hal) as Hal1.
  apply Forall_app in Hv as [Hv He]. rewrite Forall_singleton in He.
  assert (no_restore es) as Hn.
  { eapply Forall_impl; [exact Hv|]. simpl. by intros [[]| |]. }
  pose proof (cinv_run p (CounterSys t0 (counter_start m)) es s1 os1 (cwf_start m) Hn Hr Hal1) as Hi.
  rewrite arrivals_of_snoc in Ha by done. rewrite clock_snoc.
  apply elem_of_app in Ha as [Ha|Ha].
  - apply elem_of_app in Hf as [Hf|Hf].
    + specialize (IH s1 os1 Hv Hr Hal1 Ha Hf). destruct e; lia.
    + apply elem_of_list_singleton in Hf. subst e. simpl in Hs.
      destruct (counter_fire _ _ _) as [c|] eqn:E; [|done]. unfold counter_fire in E.
      rewrite Hal1 in E. destruct (timer_lookup _ _) as [[due x]|] eqn:El; [|done].
      destruct (N.leb_spec due (cs_now s1)) as [Hdue|]; [|done].
      apply timer_lookup_Some in El. rewrite (ci_timers _ _ _ Hi) in El. simpl in El.
      unfold unfired in El. apply elem_of_list_filter in El as [_ El].
      apply elem_of_list_fmap in El as (b & Heq & Hb). unfold mk_timer in Heq. injection Heq as Hid -> _.
      assert (a = b) as ->.
      { apply elem_of_list_lookup in Ha as [i Hia]. apply elem_of_list_lookup in Hb as [j Hjb].
        pose proof (arrivals_of_nodup 0 t0 es Hn) as Hnd.
        assert (i = j); [|congruence]. eapply NoDup_lookup; [exact Hnd| |].
        - rewrite list_lookup_fmap, Hia. done.
        - rewrite list_lookup_fmap, Hjb. simpl. by rewrite Hid. }
      rewrite (ci_now _ _ _ Hi) in Hdue. simpl in Hdue. done.
  - (* just arrived: cannot have fired *)
    exfalso. destruct e as [[]| |]; try (by apply elem_of_nil in Ha).
    apply elem_of_list_singleton in Ha. subst a. simpl in Hf.
    apply elem_of_app in Hf as [Hf|Hf]; [|by apply elem_of_list_singleton in Hf].
    apply (ci_fired _ _ _ Hi) in Hf. rewrite (ci_next _ _ _ Hi) in Hf. simpl in Hf. lia.
Qed.

Lemma no_overdue_due p s id due x :
  no_overdue p s -> cwf (cs_counter s) -> ct_alive (cs_counter s) = true ->
  (id, (due, x)) ∈ ct_timers (cs_counter s) -> cs_now s < due.
Proof.
  intros Hno Hw Ha Hin. specialize (Hno id). simpl in Hno. unfold counter_fire in Hno.
  rewrite Ha in Hno. rewrite (timer_lookup_in _ _ _ (cwf_nodup _ Hw) Hin) in Hno.
  destruct (N.leb_spec due (cs_now s)); [done|lia].
Qed.

Lemma window_from_start p t0 m es s os :
  mwf m -> visits_only es ->
  counter_run p (CounterSys t0 (counter_start m)) es = Some (s, os) ->
  m_visitors m + count (arrivals_of 0 t0 es) <= u32_max ->
  exists n, reads_count p s n /\
    n = m_visitors m + count (unexpired es (arrivals_of 0 t0 es)) /\
    m_visitors m + count (young (clock t0 es) (m_duration m) (arrivals_of 0 t0 es)) <= n /\
    (no_overdue p s -> n = m_visitors m + count (young (clock t0 es) (m_duration m) (arrivals_of 0 t0 es))).
Proof.
  intros Hm Hv Hr Hfit.
  destruct (count_from_start p t0 m es s os Hm Hv Hr Hfit) as [Hread Hi].
  destruct (count_run p t0 m es s os Hm Hv Hr Hfit) as (Ha & _ & _).
  eexists. split; [exact Hread|]. split; [done|].
  assert (length (young (clock t0 es) (m_duration m) (arrivals_of 0 t0 es)) <=
          length (unexpired es (arrivals_of 0 t0 es)))%nat as Hle.
  { apply list_filter_length_mono. intros a Hin Hy Hf.
    pose proof (fired_is_old p t0 m es s os a Hv Hr Ha Hin Hf). lia. }
  split; [unfold count; lia|]. intros Hno.
  assert (length (unexpired es (arrivals_of 0 t0 es)) <=
          length (young (clock t0 es) (m_duration m) (arrivals_of 0 t0 es)))%nat; [|unfold count; lia].
  apply list_filter_length_mono. intros a Hin Hu.
  assert (cwf (cs_counter s)) as Hw by (eapply cwf_run; [|exact Hr]; apply cwf_start).
  pose proof (ci_timers _ _ _ Hi) as Ht. simpl in Ht. rewrite unfired_mk in Ht.
  pose proof (ci_now _ _ _ Hi) as Hnow. simpl in Hnow. rewrite <- Hnow.
  eapply no_overdue_due; [exact Hno|exact Hw|done|].
  rewrite Ht. apply elem_of_list_fmap. exists a. split; [done|].
  apply elem_of_list_filter. done.
Qed.

(** ** Restores never over-count (C18) *)
Definition weight (e : expiry) : N := match e with DeleteVisitor => 1 | BulkDecrement n => n end.
Fixpoint wsum (k : nat) (ts : list (nat * (N * expiry))) : N :=
  match ts with
  | [] => 0
  | (i, (_, e)) :: r => (if (k <=? i)%nat then weight e else 0) + wsum k r
  end.
Lemma wsum_app k a b : wsum k (a ++ b) = wsum k a + wsum k b.
Proof. induction a as [|[i [d e]] a IH]; simpl; [done|]. rewrite IH. lia. Qed.
Lemma wsum_remove k id ts due e :
  timer_lookup id ts = Some (due, e) ->
  wsum k ts = (if (k <=? id)%nat then weight e else 0) + wsum k (timer_remove id ts).
Proof.
  induction ts as [|[i [d x]] r IH]; simpl; [done|]. destruct (Nat.eqb_spec i id) as [->|].
  - by intros [= -> ->].
  - intros H. rewrite (IH H). simpl. lia.
Qed.

Lemma add_visitor_le p m m' : add_visitor p m = Val m' -> m_visitors m' <= m_visitors m + 1.
Proof.
  unfold add_visitor, u32_add. destruct (_ <=? u32_max); [|destruct p; [done|]]; simpl;
  (destruct (current_level _); simpl; [|done]); destruct (_ <? _).
  1,3: destruct (tighten_up _ _); simpl; [|done].
  all: intros [= <-]; simpl; lia.
Qed.

Lemma wsum_bound_step k p s e s' o :
  (match e with CeMsg (CmSetInternalData _) => False | _ => True end) ->
  counter_step p s e = Some (s', o) -> ct_alive (cs_counter s') = true ->
  (k <= ct_next (cs_counter s))%nat ->
  m_visitors (ct_data (cs_counter s)) <= wsum k (ct_timers (cs_counter s)) ->
  m_visitors (ct_data (cs_counter s')) <= wsum k (ct_timers (cs_counter s')) /\
  (k <= ct_next (cs_counter s'))%nat.
Proof.
  intros He Hs Ha Hk Hb. pose proof (counter_step_alive _ _ _ _ _ Hs Ha) as Ha1.
  destruct e as [msg|d|id]; simpl in Hs.
  - unfold counter_handle in Hs. rewrite Ha1 in Hs. destruct msg; try done.
    + destruct (handle_add_visitor _ _ _) as [c' r] eqn:E. injection Hs as <- <-.
      apply handle_add_alive in E as (m' & ar & Hadd & _ & _ & ->); [|done]. simpl.
      apply add_visitor_le in Hadd. rewrite wsum_app. simpl.
      replace (k <=? ct_next (cs_counter s))%nat with true by lia. split; lia.
    + by injection Hs as <- <-.
    + by injection Hs as <- <-.
    + by injection Hs as <- <-.
  - by injection Hs as <- <-.
  - destruct (counter_fire _ _ _) as [c|] eqn:E; [|done]. injection Hs as <- <-. simpl.
    unfold counter_fire in E. rewrite Ha1 in E.
    destruct (timer_lookup id (ct_timers (cs_counter s))) as [[due x]|] eqn:El; [|done].
    destruct (_ <=? _); [|done]. injection E as <-. simpl. split; [|done].
    rewrite handle_expiry_eq. simpl. rewrite (wsum_remove k _ _ _ _ El) in Hb.
    fold (weight x). destruct (k <=? id)%nat; lia.
Qed.

Lemma wsum_bound_run k p s es s' os :
  no_restore es ->
  counter_run p s es = Some (s', os) -> ct_alive (cs_counter s') = true ->
  (k <= ct_next (cs_counter s))%nat ->
  m_visitors (ct_data (cs_counter s)) <= wsum k (ct_timers (cs_counter s)) ->
  m_visitors (ct_data (cs_counter s')) <= wsum k (ct_timers (cs_counter s')).
Proof.
  intros Hn Hr Ha Hk Hb.
  assert (m_visitors (ct_data (cs_counter s')) <= wsum k (ct_timers (cs_counter s')) /\
          (k <= ct_next (cs_counter s'))%nat) as [? _]; [|done].
  revert s' os Hr Ha. induction es as [|e es IH] using rev_ind; intros s' os Hr Ha.
  - injection Hr as <- <-. done.
  - apply counter_run_snoc in Hr as (s1 & os1 & o & Hr & Hs & ->).
    apply Forall_app in Hn as [Hn He]. rewrite Forall_singleton in He.
    pose proof (counter_step_alive _ _ _ _ _ Hs Ha) as Ha1.
    destruct (IH Hn s1 os1 Hr Ha1) as [H1 H2]. by eapply wsum_bound_step.
Qed.

Lemma wsum_below k ts : Forall (fun t => (fst t < k)%nat) ts -> wsum k ts = 0.
Proof.
  induction ts as [|[i [d e]] r IH]; intros H; simpl; [done|]. apply Forall_cons in H as [Hi H].
  simpl in Hi. replace (k <=? i)%nat with false by lia. by rewrite IH.
Qed.
Lemma wsum_arrivals k dur (l : list (nat * N)) :
  Forall (fun a => (k <= fst a)%nat) l -> wsum k (mk_timer dur <$> l) = count l.
Proof.
  unfold count. induction l as [|a l IH]; intros H; [done|]. apply Forall_cons in H as [Ha H].
  rewrite fmap_cons. simpl. replace (k <=? fst a)%nat with true by lia. rewrite IH by done. lia.
Qed.

Lemma reads_count_alive p s n :
  reads_count p s n -> ct_alive (cs_counter s) = true /\ n = m_visitors (ct_data (cs_counter s)).
Proof.
  unfold reads_count. simpl. unfold counter_handle. destruct (ct_alive (cs_counter s)); [|done].
  intros [=]. done.
Qed.

(** The weight of what is pending after a restore. *)
Lemma restore_state p m0 t0 es0 s os0 d es s' os' n :
  counter_run p (CounterSys t0 (counter_start m0)) es0 = Some (s, os0) ->
  no_restore es ->
  counter_run p s (CeMsg (CmSetInternalData d) :: es) = Some (s', os') ->
  reads_count p s' n ->
  let k := ct_next (cs_counter s) in
  exists s1, cinv s1 es s' /\ cwf (cs_counter s1) /\ ct_alive (cs_counter s') = true /\
    n = m_visitors (ct_data (cs_counter s')) /\
    cs_counter s1 = Counter d true (S k)
      (ct_timers (cs_counter s) ++ [(k, (cs_now s + m_duration d * NS, BulkDecrement (m_visitors d)))]) /\
    cs_now s1 = cs_now s /\ Forall (fun t => (fst t < k)%nat) (ct_timers (cs_counter s)) /\
    n <= wsum k (ct_timers (cs_counter s')).
Proof.
  intros Hr0 Hn Hr Hread k. apply reads_count_alive in Hread as [Ha ->].
  assert (cwf (cs_counter s)) as Hw by (eapply cwf_run; [|exact Hr0]; apply cwf_start).
  cbn [counter_run] in Hr.
  destruct (counter_step p s (CeMsg (CmSetInternalData d))) as [[s1 o]|] eqn:E; [|done].
  destruct (counter_run p s1 es) as [[s2 os2]|] eqn:E2; [|done]. injection Hr as -> <-.
  assert (ct_alive (cs_counter s1) = true) as Ha1.
  { clear -E2 Ha. revert s1 os2 E2. induction es as [|e es IH]; intros s1 os2 E2; simpl in E2.
    - by injection E2 as -> _.
    - destruct (counter_step p s1 e) as [[s2 o]|] eqn:E; [|done].
      destruct (counter_run p s2 es) as [[s3 os3]|] eqn:E3; [|done]. injection E2 as -> _.
      eapply counter_step_alive; [exact E|]. by eapply IH. }
  pose proof (counter_step_alive _ _ _ _ _ E Ha1) as Ha0.
  assert (cwf (cs_counter s1)) as Hw1 by by eapply cwf_step.
  exists s1. split; [by eapply cinv_run|]. split; [done|]. split; [done|]. split; [done|].
  simpl in E. unfold counter_handle in E. rewrite Ha0 in E. simpl in E. injection E as <- _.
  simpl. unfold spawn_timer. simpl. rewrite Ha0. split; [done|]. split; [done|].
  split; [apply cwf_ids, Hw|].
  eapply (wsum_bound_run k); [exact Hn|exact E2|done|simpl; lia|].
  simpl. rewrite wsum_app, wsum_below by (apply cwf_ids, Hw). simpl.
  rewrite Nat.leb_refl. unfold weight, m_get_visitors. lia.
Qed.

Lemma restore_never_overcounts p m0 t0 es0 s os0 d es s' os' n :
  counter_run p (CounterSys t0 (counter_start m0)) es0 = Some (s, os0) ->
  no_restore es ->
  counter_run p s (CeMsg (CmSetInternalData d) :: es) = Some (s', os') ->
  reads_count p s' n ->
  let k := ct_next (cs_counter s) in
  let arr := arrivals_of (S k) (cs_now s) es in
  n <= (if bool_decide (CeFire k ∈ es) then 0 else m_visitors d) + count (unexpired es arr).
Proof.
  intros Hr0 Hn Hr Hread k arr.
  destruct (restore_state p m0 t0 es0 s os0 d es s' os' n Hr0 Hn Hr Hread)
    as (s1 & Hi & Hw1 & Ha & -> & Hc1 & Hnow1 & Hids & Hle).
  etrans; [exact Hle|]. rewrite (ci_timers _ _ _ Hi), Hc1, Hnow1. simpl.
  fold k arr. rewrite !unfired_app, unfired_mk, !wsum_app.
  rewrite wsum_below by (apply Forall_filter, Hids).
  rewrite wsum_arrivals.
  - unfold unfired. destruct (bool_decide_reflect (CeFire k ∈ es)) as [Hin|Hin].
    + rewrite filter_cons_False by (simpl; intros H; by apply H). simpl. lia.
    + rewrite filter_cons_True by done. simpl. rewrite Nat.leb_refl. lia.
  - apply Forall_filter, Forall_forall. intros a Hin. apply arrivals_of_bound in Hin; [|done]. lia.
Qed.

Lemma restore_never_overcounts_timed p m0 t0 es0 s os0 d es s' os' n :
  counter_run p (CounterSys t0 (counter_start m0)) es0 = Some (s, os0) ->
  no_restore es ->
  counter_run p s (CeMsg (CmSetInternalData d) :: es) = Some (s', os') ->
  reads_count p s' n -> no_overdue p s' ->
  let k := ct_next (cs_counter s) in
  let arr := arrivals_of (S k) (cs_now s) es in
  let now := clock (cs_now s) es in
  n <= (if now <? cs_now s + m_duration d * NS then m_visitors d else 0)
       + count (young now (m_duration d) arr).
Proof.
  intros Hr0 Hn Hr Hread Hno k arr now.
  destruct (restore_state p m0 t0 es0 s os0 d es s' os' n Hr0 Hn Hr Hread)
    as (s1 & Hi & Hw1 & Ha & -> & Hc1 & Hnow1 & Hids & Hle).
  pose proof (restore_never_overcounts p m0 t0 es0 s os0 d es s' os' _ Hr0 Hn Hr Hread) as Hmain.
  simpl in Hmain. fold k arr in Hmain.
  assert (cwf (cs_counter s')) as Hw'.
  { assert (counter_run p (CounterSys t0 (counter_start m0)) (es0 ++ (CeMsg (CmSetInternalData d) :: es)) = Some (s', os0 ++ os')) as Hall.
    { rewrite counter_run_app, Hr0. cbn beta iota. rewrite Hr. done. }
    eapply cwf_run; [|exact Hall]. apply cwf_start. }
  pose proof (ci_timers _ _ _ Hi) as Ht. rewrite Hc1, Hnow1 in Ht. simpl in Ht. fold k arr in Ht.
  rewrite !unfired_app, unfired_mk in Ht.
  pose proof (ci_now _ _ _ Hi) as Hnow. rewrite Hnow1 in Hnow. fold now in Hnow.
  assert (length (unexpired es arr) <= length (young now (m_duration d) arr))%nat as Hy.
  { apply list_filter_length_mono. intros a Hin Hu. rewrite <- Hnow.
    eapply no_overdue_due; [exact Hno|exact Hw'|done|]. rewrite Ht.
    apply elem_of_app. right. apply elem_of_list_fmap. exists a. split; [done|].
    apply elem_of_list_filter. done. }
  assert ((if bool_decide (CeFire k ∈ es) then 0 else m_visitors d) <=
          (if now <? cs_now s + m_duration d * NS then m_visitors d else 0)) as Hb.
  { destruct (bool_decide_reflect (CeFire k ∈ es)) as [Hin|Hin]; [lia|].
    assert (cs_now s' < cs_now s + m_duration d * NS) as Hd.
    { eapply no_overdue_due; [exact Hno|exact Hw'|done|]. rewrite Ht.
      apply elem_of_app. left. apply elem_of_app. right. unfold unfired.
      rewrite filter_cons_True by done. by left. }
    rewrite Hnow in Hd. replace (now <? _) with true by lia. lia. }
  unfold count in *. lia.
Qed.

(** ** Replies (C17) *)
Lemma add_reply p s s' o :
  counter_step p s (CeMsg CmAddVisitor) = Some (s', Some (CrAdded o)) ->
  exists m m', reads_data p s m /\ reads_data p s' m' /\ add_visitor p m = Val m' /\
    avr_duration o = m_get_duration m /\ m_get_duration m' = m_get_duration m /\
    m_get_difficulty m' = Val (avr_difficulty_factor o).
Proof.
  simpl. unfold counter_handle. destruct (ct_alive (cs_counter s)) eqn:Ha; [|done].
  destruct (handle_add_visitor _ _ _) as [c' r] eqn:E. intros [= <- ->].
  assert (ct_alive c' = true) as Ha'.
  { unfold handle_add_visitor in E. destruct (obind _ _) as [[m r]|]; injection E as <- H; [done|done]. }
  apply handle_add_alive in E as (m' & ar & Hadd & Hav & [= ->] & ->); [|done].
  exists (ct_data (cs_counter s)), m'. destruct s as [now c]. simpl in *.
  unfold reads_data. simpl. unfold counter_handle. simpl. rewrite Ha.
  split; [done|]. split; [done|]. split; [done|].
  apply add_visitor_duration in Hadd as Hd. unfold avr_new, m_get_duration in *.
  destruct (m_get_difficulty m') as [f|]; [|done]. simpl in Hav. injection Hav as <-. simpl.
  split; [done|]. done.
Qed.

(** Reachable data stays within the public invariants, so AddVisitor answers. *)
Lemma add_always_answers p s :
  mwf (ct_data (cs_counter s)) -> ct_alive (cs_counter s) = true ->
  m_visitors (ct_data (cs_counter s)) < u32_max ->
  exists s' o, counter_step p s (CeMsg CmAddVisitor) = Some (s', Some (CrAdded o)).
Proof.
  intros Hm Ha Hv. simpl. unfold counter_handle. rewrite Ha. unfold handle_add_visitor. simpl.
  destruct (add_visitor_mwf p _ Hm Hv) as (m' & Hadd & Hmw' & _). rewrite Hadd. simpl.
  destruct (avr_new_mwf _ Hmw') as [r Hr]. rewrite Hr. simpl. eauto.
Qed.

(** ** Stopped counters (C20) *)
Lemma stop_stops p s :
  ct_alive (cs_counter s) = true ->
  exists s', counter_step p s (CeMsg CmStop) = Some (s', Some CrUnit) /\
    ct_alive (cs_counter s') = false.
Proof. intros Ha. simpl. unfold counter_handle. rewrite Ha. eauto. Qed.

Lemma dead_stays_dead p s es s' os :
  ct_alive (cs_counter s) = false -> counter_run p s es = Some (s', os) ->
  ct_alive (cs_counter s') = false /\ cs_counter s' = cs_counter s /\
  (forall id, CeFire id ∉ es) /\
  os = (fun e => match e with CeMsg _ => Some CrMailboxError | _ => None end) <$> es.
Proof.
  revert s os. induction es as [|e es IH]; intros s os Hd Hr; cbn [counter_run] in Hr.
  - injection Hr as <- <-. repeat split; try done. intros id H. by apply elem_of_nil in H.
  - destruct (counter_step p s e) as [[s1 o]|] eqn:E; [|done].
    destruct (counter_run p s1 es) as [[s2 os2]|] eqn:E2; [|done]. injection Hr as -> <-.
    assert (cs_counter s1 = cs_counter s /\ (forall id, e <> CeFire id) /\
            o = match e with CeMsg _ => Some CrMailboxError | _ => None end) as (H1 & H2 & ->).
    { destruct e as [m|d|id]; simpl in E.
      - unfold counter_handle in E. rewrite Hd in E. injection E as <- <-. done.
      - injection E as <- <-. done.
      - unfold counter_fire in E. rewrite Hd in E. done. }
    destruct (IH s1 os2) as (H3 & H4 & H5 & ->); [by rewrite H1|done|].
    split; [done|]. split; [congruence|]. split; [|by rewrite fmap_cons].
    intros id Hin. apply elem_of_cons in Hin as [<-|Hin]; [by eapply H2|by eapply H5].
Qed.

(** ** Restores into a counter without pending expiries are exact (C18) *)
Lemma restore_takes_over p s n d :
  reads_count p s n ->
  exists s', counter_step p s (CeMsg (CmSetInternalData d)) = Some (s', Some CrUnit) /\
    reads_data p s' d /\ reads_count p s' (m_get_visitors d) /\ cs_now s' = cs_now s.
Proof.
  intros Hr. apply reads_count_alive in Hr as [Ha _]. simpl. unfold counter_handle. rewrite Ha.
  simpl. eexists. split; [done|]. unfold reads_data, reads_count. simpl. unfold counter_handle. simpl.
  by rewrite Ha.
Qed.

Lemma exact_run p s0 es s os :
  cwf (cs_counter s0) -> mwf (ct_data (cs_counter s0)) -> ct_alive (cs_counter s0) = true ->
  m_visitors (ct_data (cs_counter s0)) = wsum 0 (ct_timers (cs_counter s0)) ->
  visits_only es -> counter_run p s0 es = Some (s, os) ->
  m_visitors (ct_data (cs_counter s0)) +
    count (arrivals_of (ct_next (cs_counter s0)) (cs_now s0) es) <= u32_max ->
  ct_alive (cs_counter s) = true /\ mwf (ct_data (cs_counter s)) /\
  m_visitors (ct_data (cs_counter s)) = wsum 0 (ct_timers (cs_counter s)) /\
  m_visitors (ct_data (cs_counter s)) <= m_visitors (ct_data (cs_counter s0)) +
    count (arrivals_of (ct_next (cs_counter s0)) (cs_now s0) es).
Proof.
  intros Hw Hm Ha0 Hsum. revert s os.
  induction es as [|e es IH] using rev_ind; intros s os Hv Hr Hfit.
  - injection Hr as <- <-. repeat split; try done; try apply Hm. lia.
  - apply counter_run_snoc in Hr as (s1 & os1 & o & Hr & Hs & ->).
    apply Forall_app in Hv as [Hv He]. rewrite Forall_singleton in He.
    assert (no_restore es) as Hn.
    { eapply Forall_impl; [exact Hv|]. simpl. by intros [[]| |]. }
    rewrite arrivals_of_snoc in Hfit |- * by done. unfold count in *. rewrite app_length in Hfit |- *.
    destruct (IH s1 os1 Hv Hr) as (Ha & Hmw & Hcnt & Hle); [lia|]. clear IH.
    destruct e as [msg|d|id]; simpl in Hs.
    + unfold counter_handle in Hs. rewrite Ha in Hs. destruct msg; try done.
      * unfold handle_add_visitor in Hs. simpl in Hs, Hfit |- *.
        destruct (add_visitor_mwf p _ Hmw) as (m' & Hadd & Hmw' & Hv' & _); [lia|].
        rewrite Hadd in Hs. simpl in Hs. destruct (avr_new_mwf _ Hmw') as [r Hr'].
        rewrite Hr' in Hs. simpl in Hs. injection Hs as <- <-. simpl.
        rewrite wsum_app. simpl. repeat split; try done; try apply Hmw'; try lia.
      * injection Hs as <- <-. simpl. repeat split; try done; try apply Hmw; try lia.
      * injection Hs as <- <-. simpl. repeat split; try done; try apply Hmw; try lia.
    + injection Hs as <- <-. simpl. repeat split; try done; try apply Hmw; try lia.
    + destruct (counter_fire _ _ _) as [c|] eqn:E; [|done]. injection Hs as <- <-. simpl.
      unfold counter_fire in E. rewrite Ha in E.
      destruct (timer_lookup id (ct_timers (cs_counter s1))) as [[due x]|] eqn:El; [|done].
      destruct (_ <=? _); [|done]. injection E as <-. simpl.
      pose proof (wsum_remove 0 _ _ _ _ El) as Hws. simpl in Hws.
      rewrite handle_expiry_eq. simpl. fold (weight x). destruct Hmw as (Hl & Hwf & Hmax).
      split; [done|]. split; [split; [done|]; split; [done|]; simpl; lia|]. split; lia.
Qed.

Lemma fresh_restore_exact p m0 t0 d es s os :
  mwf d -> visits_only es ->
  counter_run p (CounterSys t0 (counter_start m0)) (CeMsg (CmSetInternalData d) :: es) = Some (s, os) ->
  let arr := arrivals_of 1 t0 es in
  let now := clock t0 es in
  m_visitors d + count arr <= u32_max ->
  exists n, reads_count p s n /\
    n = (if bool_decide (CeFire 0 ∈ es) then 0 else m_visitors d) + count (unexpired es arr) /\
    (if now <? t0 + m_duration d * NS then m_visitors d else 0) + count (young now (m_duration d) arr) <= n /\
    (no_overdue p s ->
     n = (if now <? t0 + m_duration d * NS then m_visitors d else 0) + count (young now (m_duration d) arr)).
Proof.
  intros Hm Hv Hr arr now Hfit.
  assert (no_restore es) as Hn.
  { eapply Forall_impl; [exact Hv|]. simpl. by intros [[]| |]. }
  pose proof Hr as Hr'. cbn [counter_run counter_step] in Hr'. simpl in Hr'.
  set (s1 := CounterSys t0 _) in Hr'.
  destruct (counter_run p s1 es) as [[s2 os2]|] eqn:E; [|done]. injection Hr' as <- <-.
  assert (cwf (cs_counter s1)) as Hw1.
  { split; simpl; [by repeat constructor|apply NoDup_singleton]. }
  destruct (exact_run p s1 es s2 os2 Hw1 Hm) as (Ha & Hm2 & Hsum & _); try done.
  { simpl. unfold m_get_visitors. lia. }
  assert (cinv s1 es s2) as Hi by by eapply cinv_run.
  assert (reads_count p s2 (m_visitors (ct_data (cs_counter s2)))) as Hread.
  { unfold reads_count. cbn [counter_step]. unfold counter_handle. rewrite Ha. by destruct s2. }
  assert (m_visitors (ct_data (cs_counter s2)) =
          (if bool_decide (CeFire 0 ∈ es) then 0 else m_visitors d) + count (unexpired es arr)) as Hex.
  { rewrite Hsum, (ci_timers _ _ _ Hi), unfired_app, unfired_mk, wsum_app.
    cbn [cs_counter s1 spawn_timer with_data ct_next ct_timers ct_data ct_alive counter_start cs_now app].
    fold arr. rewrite wsum_arrivals by (apply Forall_filter, Forall_forall; lia).
    unfold unfired. destruct (bool_decide_reflect (CeFire 0 ∈ es)) as [Hin|Hin].
    + rewrite filter_cons_False by (simpl; intros H; by apply H). simpl. lia.
    + rewrite filter_cons_True by done. simpl. unfold m_get_visitors. lia. }
  eexists. split; [exact Hread|]. split; [exact Hex|].
  pose proof (restore_never_overcounts_timed p m0 t0 [] _ [] d es s2 _ _ eq_refl Hn Hr Hread) as Hup.
  cbn [cs_now cs_counter counter_start ct_next] in Hup. fold arr now in Hup.
  assert ((if now <? t0 + m_duration d * NS then m_visitors d else 0) + count (young now (m_duration d) arr)
          <= m_visitors (ct_data (cs_counter s2))) as Hlow; [|split; [done|intros Hno; specialize (Hup Hno); lia]].
  rewrite Hex. unfold count.
  assert (forall id due x, CeFire id ∈ es ->
            (id, (due, x)) ∈ (ct_timers (cs_counter s1) ++ (mk_timer (m_duration d) <$> arr)) -> due <= now) as Hold.
  { clear Hup Hex Hread Hsum Hm2 Ha Hi Hfit Hr. subst arr now. revert s2 os2 E.
    induction es as [|e es IH] using rev_ind; intros s2 os2 E id due x Hf Hin.
    { by apply elem_of_nil in Hf. }
    apply counter_run_snoc in E as (s3 & os3 & o & E & Hs & ->).
    apply Forall_app in Hv as [Hv He]. rewrite Forall_singleton in He.
    apply Forall_app in Hn as [Hn _].
    rewrite clock_snoc. rewrite arrivals_of_snoc in Hin by done. rewrite fmap_app in Hin.
    assert (Hlive : forall s' e' s'' o', counter_step p s' e' = Some (s'', o') ->
              (exists i, e' = CeFire i) -> ct_alive (cs_counter s') = true).
    { intros s' e' s'' o' H [i ->]. simpl in H. unfold counter_fire in H.
      destruct (ct_alive (cs_counter s')); [done|by simpl in H]. }
    rewrite app_assoc in Hin. apply elem_of_app in Hin as [Hin|Hin].
    - apply elem_of_app in Hf as [Hf|Hf].
      + pose proof (IH Hv Hn s3 os3 E id due x Hf Hin). destruct e; lia.
      + apply elem_of_list_singleton in Hf. subst e.
        assert (ct_alive (cs_counter s3) = true) as Ha3 by (eapply Hlive; [exact Hs|eauto]).
        assert (cinv s1 es s3) as Hi by by eapply cinv_run.
        simpl in Hs. destruct (counter_fire _ _ _) as [c|] eqn:Ef; [|done]. unfold counter_fire in Ef.
        rewrite Ha3 in Ef. destruct (timer_lookup _ _) as [[due' x']|] eqn:El; [|done].
        destruct (N.leb_spec due' (cs_now s3)) as [Hdue|]; [|done].
        apply timer_lookup_Some in El. rewrite (ci_timers _ _ _ Hi) in El.
        unfold unfired in El. apply elem_of_list_filter in El as [_ El].
        pose proof (created_nodup s1 es Hw1 Hn) as Hnd.
        pose proof (timer_lookup_in _ _ _ Hnd El) as L1.
        pose proof (timer_lookup_in _ _ _ Hnd Hin) as L2.
        rewrite L1 in L2. injection L2 as -> ->. rewrite (ci_now _ _ _ Hi) in Hdue. done.
    - exfalso. destruct e as [[]| |]; try (by apply elem_of_nil in Hin).
      apply elem_of_list_singleton in Hin. injection Hin as -> _ _.
      apply elem_of_app in Hf as [Hf|Hf]; [|by apply elem_of_list_singleton in Hf].
      (* an identifier is fired only after it was handed out *)
      assert (forall s' es' os', counter_run p s1 es' = Some (s', os') -> no_restore es' ->
                forall i, CeFire i ∈ es' -> (i < 1 + length (arrivals_of 1 t0 es'))%nat) as Hb.
      { clear -Hw1 Hlive. intros s' es'. revert s'. induction es' as [|e' es' IH] using rev_ind; intros s' os' E Hn i Hf.
        { by apply elem_of_nil in Hf. }
        apply counter_run_snoc in E as (s3 & os3 & o & E & Hs & ->).
        apply Forall_app in Hn as [Hn _]. rewrite arrivals_of_snoc, app_length by done.
        apply elem_of_app in Hf as [Hf|Hf]; [pose proof (IH _ _ E Hn i Hf); lia|].
        apply elem_of_list_singleton in Hf. subst e'.
        assert (ct_alive (cs_counter s3) = true) as Ha3 by (eapply Hlive; [exact Hs|eauto]).
        assert (cinv s1 es' s3) as Hi by by eapply cinv_run.
        simpl in Hs. destruct (counter_fire _ _ _) as [c|] eqn:Ef; [|done]. unfold counter_fire in Ef.
        rewrite Ha3 in Ef. destruct (timer_lookup _ _) as [[due' x']|] eqn:El; [|done].
        apply timer_lookup_Some in El.
        assert (cwf (cs_counter s3)) as Hw3 by (eapply cwf_run; [exact Hw1|exact E]).
        pose proof (cwf_ids _ Hw3) as Hids. rewrite Forall_forall in Hids. specialize (Hids _ El).
        simpl in Hids. rewrite (ci_next _ _ _ Hi) in Hids. simpl in Hids. lia. }
      pose proof (Hb _ _ _ E Hn _ Hf). simpl in *. lia. }
  assert (length (young now (m_duration d) arr) <= length (unexpired es arr))%nat as Hy.
  { apply list_filter_length_mono. intros a Hin Hy Hf.
    assert (snd a + m_duration d * NS <= now); [|lia].
    apply (Hold (fst a) _ DeleteVisitor Hf). apply elem_of_app. right. apply elem_of_list_fmap. by exists a. }
  assert ((if now <? t0 + m_duration d * NS then m_visitors d else 0) <=
          (if bool_decide (CeFire 0 ∈ es) then 0 else m_visitors d)) as Hb.
  { destruct (bool_decide_reflect (CeFire 0 ∈ es)) as [Hin|Hin]; [|destruct (_ <? _); lia].
    assert (t0 + m_duration d * NS <= now).
    { apply (Hold 0%nat _ (BulkDecrement (m_visitors d)) Hin). apply elem_of_app. left. by left. }
    replace (now <? _) with false by lia. lia. }
  lia.
Qed.
