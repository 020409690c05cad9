(** What the visitors of one Counter are told. *)
From Coq Require Import ZifyBool ZifyN ZifyNat Lia.
From Verif Require Import Model.Base Model.Defense Model.MCaptcha Model.Counter Model.Master
  Spec.DefenseSpec Spec.MCaptchaSpec Spec.CounterSpec Spec.MasterSpec Spec.SiteSpec
  Proofs.DefenseProofs Proofs.MCaptchaProofs Proofs.CounterProofs.

(** * Arithmetic of visitor numbers *)
Lemma numbers_snoc d ts t : numbers d (ts ++ [t]) = numbers d ts ++ [1 + window d t ts].
Proof.
  unfold numbers. rewrite imap_app. f_equal.
  - apply imap_ext. intros i x Hi. apply lookup_lt_Some in Hi. by rewrite take_app_le by lia.
  - cbn. rewrite Nat.add_0_r, take_app. done.
Qed.
Lemma window_young d now (l : list (nat * N)) : window d now (l.*2) = count (young now d l).
Proof.
  unfold window, young, count. induction l as [|[k t] l IH]; [done|]. cbn [fmap list_fmap snd].
  rewrite !filter_cons. cbn [snd]. destruct (decide (now < t + d * NS)); cbn [length]; rewrite ?Nat2N.inj_succ; lia.
Qed.
Lemma numbers_length d ts : length (numbers d ts) = length ts.
Proof. apply imap_length. Qed.

Fixpoint climb_end (ls : list level) (i : nat) (ns : list N) : nat :=
  match ns with [] => i | n :: r => climb_end ls (next_level ls i n) r end.
Lemma climb_snoc ls i ns n :
  climb ls i (ns ++ [n]) = climb ls i ns ++ [difficulty_factor <$> ls !! next_level ls (climb_end ls i ns) n].
Proof. revert i. induction ns as [|x ns IH]; intros i; cbn; [done|]. by rewrite IH. Qed.
Lemma climb_end_snoc ls i ns n : climb_end ls i (ns ++ [n]) = next_level ls (climb_end ls i ns) n.
Proof. revert i. induction ns as [|x ns IH]; intros i; cbn; [done|]. by rewrite IH. Qed.
Lemma climb_length ls i ns : length (climb ls i ns) = length ns.
Proof. revert i. induction ns as [|x ns IH]; intros i; cbn; [done|]. by rewrite IH. Qed.

(** * The visitors of a schedule *)
Fixpoint c_visits (t : N) (es : list counter_event) (os : list (option counter_reply)) : list (N * add_visitor_result) :=
  match es, os with
  | CeTick d :: es', _ :: os' => c_visits (t + d) es' os'
  | CeMsg _ :: es', Some (CrAdded v) :: os' => (t, v) :: c_visits t es' os'
  | _ :: es', _ :: os' => c_visits t es' os'
  | _, _ => []
  end.
Lemma c_visits_snoc t es os e o :
  length es = length os ->
  c_visits t (es ++ [e]) (os ++ [o]) =
  c_visits t es os ++ match e, o with CeMsg _, Some (CrAdded v) => [(clock t es, v)] | _, _ => [] end.
Proof.
  revert t os. induction es as [|x es IH]; intros t [|y os] Hl; [|done|done|].
  - by destruct e; [destruct o as [[]|]|..].
  - injection Hl as Hl. cbn. destruct x as [msg|d|id]; [|by apply IH..].
    destruct y as [[]|]; cbn; by rewrite IH.
Qed.
Lemma counter_run_length p s es s' os : counter_run p s es = Some (s', os) -> length es = length os.
Proof.
  revert s os. induction es as [|e es IH]; intros s os H; cbn in H; [by injection H as <- <-|].
  destruct (counter_step p s e) as [[s1 o]|]; [|done].
  destruct (counter_run p s1 es) as [[s2 os']|] eqn:E; [|done]. injection H as <- <-. cbn. by erewrite IH.
Qed.
Lemma counter_run_now p s es s' os : counter_run p s es = Some (s', os) -> cs_now s' = clock (cs_now s) es.
Proof.
  revert s' os. induction es as [|e es IH] using rev_ind; intros s' os H; [by injection H as <- <-|].
  apply counter_run_snoc in H as (s1 & os1 & o & H1 & H2 & ->). rewrite clock_snoc. apply IH in H1.
  destruct e as [msg|d|id]; cbn in H2.
  - destruct (counter_handle _ _ _ _) as [c r]. injection H2 as <- <-. done.
  - injection H2 as <- <-. cbn. lia.
  - destruct (counter_fire _ _ _); [|done]. injection H2 as <- <-. done.
Qed.

Definition prompt_c (p : profile) (s0 : counter_sys) (es : list counter_event) : Prop :=
  forall a b s1 os1 s2 v, es = a ++ CeMsg CmAddVisitor :: b -> counter_run p s0 a = Some (s1, os1) ->
    counter_step p s1 (CeMsg CmAddVisitor) = Some (s2, Some (CrAdded v)) -> no_overdue p s1.

(** What a visitor is told, whatever happened before. *)
Lemma add_told p now c c' v :
  mwf (ct_data c) -> handle_add_visitor p now c = (c', CrAdded v) ->
  mwf (ct_data c') /\ m_duration (ct_data c') = m_duration (ct_data c) /\
  d_levels (m_defense (ct_data c')) = d_levels (m_defense (ct_data c)) /\
  avr_duration v = m_duration (ct_data c) /\
  exists l, d_levels (m_defense (ct_data c)) !! N.to_nat (d_current (m_defense (ct_data c'))) = Some l /\
    avr_difficulty_factor v = difficulty_factor l.
Proof.
  intros Hm H. unfold handle_add_visitor in H. cbn [ct_data spawn_timer] in H.
  destruct (add_visitor p (ct_data c)) as [m'|] eqn:Ea; [|done]. cbn [obind] in H.
  destruct (avr_new m') as [r|] eqn:Er; [|done]. cbn [obind] in H. injection H as <- <-. cbn [with_data ct_data].
  destruct (m_apply_mwf p _ MAdd _ Hm Ea) as (Hm' & Hd & Hl). split; [done|]. split; [done|]. split; [done|].
  unfold avr_new, m_get_difficulty, get_difficulty in Er. destruct Hm' as (_ & (_ & Hc & _) & _).
  destruct (vindex_lt _ _ Hc) as (l & Hi & Hlk). rewrite Hi in Er. cbn in Er. injection Er as <-. cbn.
  split; [done|]. exists l. rewrite <- Hl. done.
Qed.

Lemma told_in_ladder p t0 m es s os :
  mwf m -> no_restore es -> counter_run p (CounterSys t0 (counter_start m)) es = Some (s, os) ->
  mwf (ct_data (cs_counter s)) /\ m_duration (ct_data (cs_counter s)) = m_duration m /\
  d_levels (m_defense (ct_data (cs_counter s))) = d_levels (m_defense m) /\
  Forall (fun x => avr_duration (snd x) = m_duration m /\
    exists l, l ∈ d_levels (m_defense m) /\ avr_difficulty_factor (snd x) = difficulty_factor l) (c_visits t0 es os).
Proof.
  intros Hm. revert s os. induction es as [|e es IH] using rev_ind; intros s os Hn Hr.
  - injection Hr as <- <-. split_and!; try done. constructor.
  - apply counter_run_snoc in Hr as (s1 & os1 & o & Hr & Hs & ->).
    apply Forall_app in Hn as [Hn He]. rewrite Forall_singleton in He.
    rewrite c_visits_snoc by (by eapply counter_run_length).
    destruct (IH _ _ Hn Hr) as (Hw & Hd & Hl & Hall). rewrite Forall_app.
    assert (forall c, ct_data c = ct_data (cs_counter s1) -> mwf (ct_data c) /\ m_duration (ct_data c) = m_duration m /\
       d_levels (m_defense (ct_data c)) = d_levels (m_defense m)) as Hsame by (by intros c ->).
    destruct e as [msg|d|id]; cbn in Hs.
    + unfold counter_handle in Hs. destruct (ct_alive (cs_counter s1)).
      * destruct msg; try done.
        -- destruct (handle_add_visitor p (cs_now s1) (cs_counter s1)) as [c' r] eqn:E.
           injection Hs as <- <-. destruct r as [v| | | |].
           ++ destruct (add_told _ _ _ _ _ Hw E) as (Hw' & Hd' & Hl' & Hv & l & Hlk & Hf). cbn. split_and!; [done|congruence|congruence|done|].
              apply Forall_singleton. cbn. split; [congruence|]. exists l. split; [|done]. rewrite <- Hl. by eapply elem_of_list_lookup_2.
           ++ unfold handle_add_visitor in E. by destruct (olet _ := _ in _) as [[]|].
           ++ unfold handle_add_visitor in E. by destruct (olet _ := _ in _) as [[]|].
           ++ unfold handle_add_visitor in E. by destruct (olet _ := _ in _) as [[]|].
           ++ assert (c' = kill (spawn_timer (cs_now s1) (cs_counter s1) (m_get_duration (ct_data (cs_counter s1))) DeleteVisitor)) as ->.
              { unfold handle_add_visitor in E. destruct (olet _ := _ in _) as [[]|]; [done|]. by injection E as <-. }
              cbn. destruct (Hsame (cs_counter s1) eq_refl) as (? & ? & ?). by split_and!.
        -- injection Hs as <- <-. cbn. by split_and!.
        -- injection Hs as <- <-. cbn. by split_and!.
        -- injection Hs as <- <-. cbn. by split_and!.
      * injection Hs as <- <-. by split_and!.
    + injection Hs as <- <-. by split_and!.
    + destruct (counter_fire _ _ _) as [c|] eqn:E; [|done]. injection Hs as <- <-. cbn.
      unfold counter_fire in E. destruct (ct_alive _); [|done].
      destruct (timer_lookup _ _) as [[due x]|]; [|done]. destruct (_ <=? _); [|done]. injection E as <-. cbn.
      rewrite handle_expiry_eq. cbn. split_and!; try done. destruct Hw as (Hw1 & Hw2 & Hw3).
      split; [done|]. split; [done|]. cbn. lia.
Qed.

Lemma add_step p now c :
  mwf (ct_data c) -> m_visitors (ct_data c) < u32_max ->
  let ls := d_levels (m_defense (ct_data c)) in
  let j := next_level ls (N.to_nat (d_current (m_defense (ct_data c)))) (m_visitors (ct_data c) + 1) in
  exists c' v, handle_add_visitor p now c = (c', CrAdded v) /\
    N.to_nat (d_current (m_defense (ct_data c'))) = j /\ difficulty_factor <$> ls !! j = Some (avr_difficulty_factor v) /\
    m_visitors (ct_data c') = m_visitors (ct_data c) + 1.
Proof.
  intros Hm Hv ls j. pose proof Hm as (_ & Hw & _).
  destruct (add_visitor_wf p _ Hw Hv) as (l & Hl & _ & Ha).
  destruct (add_visitor_mwf p _ Hm Hv) as (m' & Ha' & Hm' & _). rewrite Ha in Ha'. 
  destruct (avr_new_mwf _ Hm') as [r Hr].
  destruct (handle_add_visitor p now c) as [c' r'] eqn:E. pose proof E as E0. unfold handle_add_visitor in E. cbn [ct_data spawn_timer] in E.
  rewrite Ha in E. injection Ha' as <-. cbn [obind] in E. rewrite Hr in E. cbn [obind] in E. injection E as <- <-.
  exists (with_data (spawn_timer now c (m_get_duration (ct_data c)) DeleteVisitor)
    (MCaptcha (m_visitors (ct_data c) + 1) (Defense (d_levels (m_defense (ct_data c)))
      (if visitor_threshold l <? m_visitors (ct_data c) + 1
       then N.min (d_current (m_defense (ct_data c)) + 1) (vlen (d_levels (m_defense (ct_data c))) - 1)
       else d_current (m_defense (ct_data c)) - 1)) (m_duration (ct_data c)))), r.
  split; [done|].
  apply add_told in E0 as (_ & _ & _ & _ & l' & Hl' & Hf); [|done].
  assert (N.to_nat (if visitor_threshold l <? m_visitors (ct_data c) + 1
       then N.min (d_current (m_defense (ct_data c)) + 1) (vlen (d_levels (m_defense (ct_data c))) - 1)
       else d_current (m_defense (ct_data c)) - 1) = j) as Hj.
  { subst j. unfold next_level. fold ls in Hl. rewrite Hl. fold ls. unfold vlen. destruct (_ <? _); lia. }
  cbn [with_data ct_data m_defense m_visitors d_current] in *. split; [done|]. split; [|done].
  rewrite Hj in Hl'. fold ls in Hl'. rewrite Hl'. cbn. by rewrite Hf.
Qed.

(** Exactly what the visitors are told while the count stays within its type. *)
Lemma counter_told p t0 m es s os :
  mwf m -> m_visitors m = 0 -> visits_only es ->
  counter_run p (CounterSys t0 (counter_start m)) es = Some (s, os) ->
  count (arrivals_of 0 t0 es) <= u32_max ->
  let vs := c_visits t0 es os in
  let times := vs.*1 in
  let ls := d_levels (m_defense m) in
  let i := N.to_nat (d_current (m_defense m)) in
  times = (arrivals_of 0 t0 es).*2 /\
  exists ns, length ns = length vs /\
    Some <$> (avr_difficulty_factor <$> vs.*2) = climb ls i ns /\
    climb_end ls i ns = N.to_nat (d_current (m_defense (ct_data (cs_counter s)))) /\
    (forall k n, ns !! k = Some n -> exists t, times !! k = Some t /\
       1 + window (m_duration m) t (take k times) <= n <= N.of_nat k + 1) /\
    (prompt_c p (CounterSys t0 (counter_start m)) es -> ns = numbers (m_duration m) times) /\
    (forall k a b, ns !! k = Some a -> ns !! S k = Some b -> b <= a + 1) /\
    m_visitors (ct_data (cs_counter s)) <= default 0 (last ns).
Proof.
  intros Hm H0. cbn zeta. revert s os. induction es as [|e es IH] using rev_ind; intros s os Hv Hr Hfit.
  - injection Hr as <- <-. split; [done|]. exists []. split_and!; try done. cbn. lia.
  - pose proof Hr as Hfull. apply counter_run_snoc in Hr as (s1 & os1 & o & Hr & Hs & ->).
    apply Forall_app in Hv as [Hv He]. rewrite Forall_singleton in He.
    assert (no_restore es) as Hn.
    { eapply Forall_impl; [exact Hv|]. simpl. by intros [[]| |]. }
    rewrite arrivals_of_snoc in Hfit |- * by done. unfold count in Hfit. rewrite app_length in Hfit.
    rewrite c_visits_snoc by (by eapply counter_run_length).
    destruct (IH s1 os1 Hv Hr) as (Ht & ns & Hlen & Hcl & Hend & Hb & Hp & Hrise & Hvis); [unfold count; lia|]. clear IH.
    destruct (count_run p t0 m es s1 os1 Hm Hv Hr) as (Ha & Hmw & _); [unfold count; lia|].
    assert (prompt_c p (CounterSys t0 (counter_start m)) (es ++ [e]) -> prompt_c p (CounterSys t0 (counter_start m)) es) as Hpc.
    { intros H a b s2 os2 s3 v E Hra. apply (H a (b ++ [e]) s2 os2 s3 v); [|done]. by rewrite E, <- app_assoc. }
    assert (e <> CeMsg CmAddVisitor -> o = None \/ (exists r, o = Some r /\ forall v, r <> CrAdded v)) as Hoth.
    { intros Hne. destruct e as [msg|d|id]; cbn in Hs.
      - unfold counter_handle in Hs. rewrite Ha in Hs. right. destruct msg; try done; injection Hs as <- <-; by eexists.
      - injection Hs as <- <-. by left.
      - destruct (counter_fire _ _ _); [|done]. injection Hs as <- <-. by left. }
    assert (e <> CeMsg CmAddVisitor ->
       d_current (m_defense (ct_data (cs_counter s))) = d_current (m_defense (ct_data (cs_counter s1)))) as Hcur.
    { intros Hne. destruct e as [msg|d|id]; cbn in Hs.
      - unfold counter_handle in Hs. rewrite Ha in Hs. destruct msg; try done; injection Hs as <- <-; done.
      - injection Hs as <- <-. done.
      - destruct (counter_fire _ _ _) as [c|] eqn:E; [|done]. injection Hs as <- <-. cbn. unfold counter_fire in E.
        rewrite Ha in E. destruct (timer_lookup _ _) as [[due x]|]; [|done]. destruct (_ <=? _); [|done]. injection E as <-.
        cbn. by rewrite handle_expiry_eq. }
    assert (e <> CeMsg CmAddVisitor -> m_visitors (ct_data (cs_counter s)) <= m_visitors (ct_data (cs_counter s1))) as Hless.
    { intros Hne. destruct e as [msg|d|id]; cbn in Hs.
      - unfold counter_handle in Hs. rewrite Ha in Hs. destruct msg; try done; injection Hs as <- <-; done.
      - injection Hs as <- <-. done.
      - destruct (counter_fire _ _ _) as [c|] eqn:E; [|done]. injection Hs as <- <-. cbn. unfold counter_fire in E.
        rewrite Ha in E. destruct (timer_lookup _ _) as [[due x]|]; [|done]. destruct (_ <=? _); [|done]. injection E as <-.
        cbn. rewrite handle_expiry_eq. cbn. lia. }
    destruct (decide (e = CeMsg CmAddVisitor)) as [->|Hne].
    2:{ specialize (Hoth Hne). specialize (Hcur Hne). specialize (Hless Hne).
        assert (match e, o with CeMsg _, Some (CrAdded v) => [(clock t0 es, v)] | _, _ => [] end = []) as ->.
        { destruct e; try done. destruct Hoth as [->|(r & -> & Hr')]; [done|]. destruct r; try done. by destruct (Hr' r). }
        assert (match e with CeMsg CmAddVisitor => [((0 + length (arrivals_of 0 t0 es))%nat, clock t0 es)] | _ => [] end = []) as ->.
        { by destruct e as [[]| |]. }
        rewrite !app_nil_r. split; [done|]. exists ns. split_and!; try done; [congruence|eauto|lia]. }
    clear Hoth Hcur Hless. cbn [counter_step] in Hs. unfold counter_handle in Hs. rewrite Ha in Hs. cbn [length] in Hfit.
    destruct (window_from_start p t0 m es s1 os1 Hm Hv Hr) as (n & Hread & Hn1 & Hlow & Hprompt); [unfold count; lia|].
    assert (n = m_visitors (ct_data (cs_counter s1))) as En.
    { unfold reads_count in Hread. cbn in Hread. unfold counter_handle in Hread. rewrite Ha in Hread. by injection Hread as <-. }
    assert (n <= N.of_nat (length ns)) as Hup.
    { rewrite Hlen. apply (f_equal length) in Ht. rewrite !fmap_length in Ht. rewrite Ht, Hn1, H0. unfold count, unexpired.
      pose proof (filter_length (fun a : nat * N => CeFire a.1 ∉ es) (arrivals_of 0 t0 es)). lia. }
    destruct (add_step p (cs_now s1) (cs_counter s1) Hmw) as (c' & v & E & Hc & Hf & Hc').
    { apply (f_equal length) in Ht. rewrite !fmap_length in Ht. lia. }
    rewrite E in Hs. injection Hs as <- <-. cbn [cs_counter].
    destruct (told_in_ladder p t0 m es s1 os1 Hm Hn Hr) as (_ & Hdur & Hls & _).
    rewrite Hls, <- Hend, <- En in Hc, Hf. rewrite H0, N.add_0_l in Hlow, Hprompt.
    rewrite <- window_young, <- Ht in Hlow, Hprompt.
    rewrite !fmap_app. cbn [fmap list_fmap fst snd]. split; [by rewrite Ht|].
    exists (ns ++ [n + 1]). rewrite !app_length, climb_snoc, climb_end_snoc, Hcl, Hf. cbn [length fmap list_fmap].
    split; [lia|]. split; [done|]. split; [done|]. split.
    + intros k x Hk. apply lookup_app_Some in Hk as [Hk|[Hle Hk]].
      * pose proof (lookup_lt_Some _ _ _ Hk) as Hlt. destruct (Hb _ _ Hk) as (t & Htk & Hb1 & Hb2).
        exists t. split; [by apply lookup_app_l_Some|]. rewrite take_app_le by (rewrite fmap_length; lia). done.
      * apply list_lookup_singleton_Some in Hk as [Hk <-]. assert (k = length ns) as -> by lia.
        exists (clock t0 es). rewrite lookup_app_r by (rewrite fmap_length; lia). rewrite fmap_length, Hlen, Nat.sub_diag.
        split; [done|]. rewrite take_app_alt by (by rewrite fmap_length). lia.
    + split; [|split].
      * intros Hpm. rewrite numbers_snoc, <- (Hp (Hpc Hpm)). do 2 f_equal.
        rewrite (Hprompt (Hpm es [] s1 os1 (CounterSys (cs_now s1) c') v eq_refl Hr ltac:(cbn; unfold counter_handle; by rewrite Ha, E))). lia.
      * intros k a b Hka Hkb. apply lookup_app_Some in Hkb as [Hkb|[Hle Hkb]].
        -- apply lookup_app_Some in Hka as [Hka|[Hle _]]; [by eapply Hrise|]. apply lookup_lt_Some in Hkb. lia.
        -- apply list_lookup_singleton_Some in Hkb as [Hkb <-]. rewrite lookup_app_l in Hka by lia.
           replace k with (pred (length ns)) in Hka by lia. rewrite <- last_lookup in Hka. rewrite Hka in Hvis. cbn in Hvis. lia.
      * rewrite last_snoc. cbn. lia.
Qed.

(** While the counter lives all its visitors were told something; when it has
    died, the ones told something came before. *)
Lemma alive_before p s e s' o :
  counter_step p s e = Some (s', o) -> ct_alive (cs_counter s') = true -> ct_alive (cs_counter s) = true.
Proof.
  intros Hs Ha. destruct e as [msg|d|id]; cbn in Hs.
  - unfold counter_handle in Hs. destruct (ct_alive (cs_counter s)) eqn:E; [done|]. injection Hs as <- <-. cbn in Ha. congruence.
  - by injection Hs as <- <-.
  - unfold counter_fire in Hs. destruct (ct_alive (cs_counter s)) eqn:E; done.
Qed.
Lemma told_alive p s e s' v : counter_step p s e = Some (s', Some (CrAdded v)) -> ct_alive (cs_counter s') = true.
Proof.
  intros Hs. destruct e as [msg|d|id]; cbn in Hs; [|done|by destruct (counter_fire _ _ _)].
  unfold counter_handle in Hs. destruct (ct_alive (cs_counter s)) eqn:E; [|done].
  destruct msg; try done. unfold handle_add_visitor in Hs. destruct (obind _ _) as [[m w]|]; [|done]. by injection Hs as <- <-.
Qed.
Lemma alive_visits p t0 m es s os :
  counter_run p (CounterSys t0 (counter_start m)) es = Some (s, os) -> no_restore es ->
  ct_alive (cs_counter s) = true ->
  visits_only es /\ (c_visits t0 es os).*1 = (arrivals_of 0 t0 es).*2.
Proof.
  revert s os. induction es as [|e es IH] using rev_ind; intros s os Hr Hn Ha.
  - injection Hr as <- <-. split; [constructor|done].
  - apply counter_run_snoc in Hr as (s1 & os1 & o & Hr & Hs & ->). apply Forall_app in Hn as [Hn He].
    rewrite Forall_singleton in He. pose proof (alive_before _ _ _ _ _ Hs Ha) as Ha1.
    destruct (IH _ _ Hr Hn Ha1) as [Hv Ht]. rewrite c_visits_snoc by by eapply counter_run_length.
    rewrite arrivals_of_snoc by done. rewrite !fmap_app, Ht.
    destruct e as [msg|d|id]; cbn in Hs.
    + unfold counter_handle in Hs. rewrite Ha1 in Hs. destruct msg; try done.
      * unfold handle_add_visitor in Hs. destruct (obind _ _) as [[m' v]|]; injection Hs as <- <-; [|done].
        split; [|done]. apply Forall_app. split; [done|by constructor].
      * injection Hs as <- <-. split; [|done]. apply Forall_app. split; [done|by constructor].
      * by injection Hs as <- <-.
      * injection Hs as <- <-. split; [|done]. apply Forall_app. split; [done|by constructor].
    + split; [|done]. apply Forall_app. split; [done|by constructor].
    + split; [|done]. apply Forall_app. split; [done|by constructor].
Qed.
Lemma alive_prefix p t0 m es s os :
  counter_run p (CounterSys t0 (counter_start m)) es = Some (s, os) ->
  exists a b s1 os1, es = a ++ b /\ counter_run p (CounterSys t0 (counter_start m)) a = Some (s1, os1) /\
    ct_alive (cs_counter s1) = true /\ c_visits t0 a os1 = c_visits t0 es os.
Proof.
  revert s os. induction es as [|e es IH] using rev_ind; intros s os Hr.
  - injection Hr as <- <-. by exists [], [], (CounterSys t0 (counter_start m)), [].
  - pose proof Hr as Hr'. apply counter_run_snoc in Hr as (s1 & os1 & o & Hr & Hs & ->).
    destruct (ct_alive (cs_counter s)) eqn:Ha.
    + exists (es ++ [e]), [], s, (os1 ++ [o]). by rewrite app_nil_r.
    + destruct (IH _ _ Hr) as (a & b & s2 & os2 & -> & H1 & H2 & H3). exists a, (b ++ [e]), s2, os2.
      split; [by rewrite <- app_assoc|]. split_and!; try done. rewrite H3, c_visits_snoc by by eapply counter_run_length.
      enough (match e, o with CeMsg _, Some (CrAdded v) => [(clock t0 (a ++ b), v)] | _, _ => [] end = []) as -> by by rewrite app_nil_r.
      destruct e; try done. destruct o as [[]|]; try done. apply told_alive in Hs. congruence.
Qed.
