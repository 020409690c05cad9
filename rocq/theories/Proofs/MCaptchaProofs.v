(** Proofs about the model of mcaptcha.rs. *)
From Coq Require Import Sorted ZifyBool ZifyN ZifyNat Lia.
From Verif Require Import Model.Base Model.Defense Model.MCaptcha
  Spec.DefenseSpec Spec.MCaptchaSpec Proofs.DefenseProofs.

(** ** Builder *)
Lemma mb_run_fields cs :
  mb_visitors (mb_run cs) = 0 /\ mb_defense (mb_run cs) = defense_set cs /\
  mb_duration (mb_run cs) = duration_set cs.
Proof.
  induction cs as [|c cs IH] using rev_ind; [done|]. destruct IH as (IH0 & IH1 & IH2).
  unfold mb_run, defense_set, duration_set in *. rewrite fold_left_snoc, !last_some_snoc.
  destruct c; simpl; auto.
Qed.

Lemma mcaptcha_builder_spec cs :
  mb_build (mb_run cs) =
    match duration_set cs, defense_set cs with
    | None, _ => Err (PleaseSetValue "duration")
    | Some _, None => Err (PleaseSetValue "defense")
    | Some n, Some d => if n =? 0 then Err CaptchaDurationZero else Ok (MCaptcha 0 d n)
    end.
Proof.
  destruct (mb_run_fields cs) as (H0 & H1 & H2). unfold mb_build. rewrite H0, H1, H2.
  destruct (duration_set cs) as [n|]; [|done]. destruct (defense_set cs) as [d|]; [|done].
  by replace (n <=? 0) with (n =? 0) by lia.
Qed.

(** ** Well-formedness *)
Definition mwf (m : mcaptcha) : Prop :=
  ladder (d_levels (m_defense m)) /\ wf (m_defense m) /\ m_visitors m <= u32_max.

Lemma built_mwf p m : built_mcaptcha p m -> mwf m /\ m_visitors m = 0 /\ m_duration m <> 0.
Proof.
  intros (cs & d & Hb & <- & Hr). destruct (reachable_wf p _ Hr) as [Hl Hw].
  rewrite mcaptcha_builder_spec in Hb. destruct (duration_set cs) as [n|]; [|done].
  destruct (defense_set cs) as [d|]; [|done]. destruct (N.eqb_spec n 0); [done|].
  injection Hb as <-. simpl in *. split; [|done]. split; [done|]. split; [done|]. simpl. unfold u32_max. lia.
Qed.

Lemma fresh_built p m : fresh_mcaptcha m -> built_mcaptcha p m.
Proof. intros (cs & d & Hb & Hd & Hbd). exists cs, d. repeat split; [done..|]. by exists d, []. Qed.

Lemma fresh_bottom m : fresh_mcaptcha m -> d_current (m_defense m) = 0.
Proof. intros (cs & d & _ & <- & Hbd). by apply buildable_ladder in Hbd as [_ ?]. Qed.

Lemma add_visitor_wf p m :
  wf (m_defense m) -> m_visitors m < u32_max ->
  exists l, d_levels (m_defense m) !! N.to_nat (d_current (m_defense m)) = Some l /\
    current_level (m_defense m) = Val l /\
    add_visitor p m = Val (MCaptcha (m_visitors m + 1)
      (Defense (d_levels (m_defense m))
         (if visitor_threshold l <? m_visitors m + 1
          then N.min (d_current (m_defense m) + 1) (vlen (d_levels (m_defense m)) - 1)
          else d_current (m_defense m) - 1))
      (m_duration m)).
Proof.
  intros Hw Hv. pose proof Hw as (_ & Hc & _).
  destruct (vindex_lt _ _ Hc) as (l & Hi & Hlk). exists l. split; [done|]. split; [done|].
  unfold add_visitor, u32_add. replace (_ <=? u32_max) with true by lia.
  unfold current_level. cbn [obind]. rewrite Hi. cbn [obind].
  destruct (visitor_threshold l <? m_visitors m + 1).
  - rewrite tighten_wf by done. done.
  - by rewrite loosen_eq.
Qed.

Lemma decrement_eq m n :
  decrement_visitor_by m n = MCaptcha (m_visitors m - n) (m_defense m) (m_duration m).
Proof.
  unfold decrement_visitor_by. destruct m as [v d t]. simpl.
  destruct (N.ltb_spec 0 v); [|f_equal; lia]. destruct (N.leb_spec n v); [done|f_equal; lia].
Qed.

Lemma wf_step d c :
  wf d -> c < vlen (d_levels d) -> wf (Defense (d_levels d) c).
Proof. intros (H1 & H2 & H3) Hc. by split. Qed.

Lemma add_visitor_mwf p m :
  mwf m -> m_visitors m < u32_max ->
  exists m', add_visitor p m = Val m' /\ mwf m' /\
     m_visitors m' = m_visitors m + 1 /\ m_duration m' = m_duration m /\
     d_levels (m_defense m') = d_levels (m_defense m).
Proof.
  intros (Hl & Hw & _) Hv. destruct (add_visitor_wf p m Hw Hv) as (l & _ & _ & Ha).
  eexists. split; [exact Ha|]. pose proof Hw as (Hne & Hc & Hlen). apply vlen_pos in Hne as Hpos.
  split; [|done]. split; [done|]. split; [|simpl; lia]. simpl.
  apply wf_step; [done|]. destruct (_ <? _); lia.
Qed.

Lemma fits_cons v c cs : fits v (c :: cs) <-> v <= u32_max /\ fits (count1 v c) cs.
Proof.
  unfold fits. split.
  - intros H. split; [exact (H [] (c :: cs) eq_refl)|]. intros pre post ->. exact (H (c :: pre) post eq_refl).
  - intros [H0 H] pre post Heq. destruct pre as [|x pre]; [done|].
    injection Heq as <- ->. exact (H pre post eq_refl).
Qed.
Lemma fits_nil v : fits v [] <-> v <= u32_max.
Proof.
  unfold fits. split.
  - intros H. exact (H [] [] eq_refl).
  - intros H pre post Heq. symmetry in Heq. apply app_nil in Heq as [-> ->]. done.
Qed.

Lemma m_run_spec p m cs :
  mwf m -> fits (m_visitors m) cs ->
  exists m', m_run p m cs = Val m' /\ mwf m' /\
    m_visitors m' = count_after (m_visitors m) cs /\
    m_duration m' = m_duration m /\ d_levels (m_defense m') = d_levels (m_defense m).
Proof.
  revert m. induction cs as [|c cs IH]; intros m Hm Hf.
  - exists m. done.
  - apply fits_cons in Hf as [Hv Hf]. cbn [m_run]. destruct c as [|n]; simpl in Hf.
    + assert (m_visitors m < u32_max) as Hlt.
      { destruct cs; [apply fits_nil in Hf|apply fits_cons in Hf as [Hf _]]; lia. }
      destruct (add_visitor_mwf p m Hm Hlt) as (m1 & Ha & Hm1 & Hv1 & Hd1 & Hl1).
      simpl. rewrite Ha. simpl. rewrite <- Hv1 in Hf.
      destruct (IH m1 Hm1 Hf) as (m' & Hr & Hm' & Hv' & Hd' & Hl').
      exists m'. split; [done|]. split; [done|]. rewrite Hv', Hv1, Hd', Hl'. done.
    + simpl. rewrite decrement_eq.
      destruct (IH (MCaptcha (m_visitors m - n) (m_defense m) (m_duration m))) as (m' & Hr & Hm' & Hv' & Hd' & Hl').
      * destruct Hm as (? & ? & ?). split; [done|]. split; [done|]. simpl. lia.
      * done.
      * exists m'. done.
Qed.

Lemma m_run_app p m cs1 cs2 :
  m_run p m (cs1 ++ cs2) = olet m' := m_run p m cs1 in m_run p m' cs2.
Proof.
  revert m. induction cs1 as [|c cs IH]; intros m; simpl; [done|].
  destruct (m_apply p m c); simpl; [apply IH|done].
Qed.

(** Every successful step keeps well-formedness (Release wraps the count). *)
Lemma m_apply_mwf p m c m' :
  mwf m -> m_apply p m c = Val m' ->
  mwf m' /\ m_duration m' = m_duration m /\ d_levels (m_defense m') = d_levels (m_defense m).
Proof.
  intros Hm Hs. destruct c as [|n]; simpl in Hs.
  - destruct (N.lt_ge_cases (m_visitors m) u32_max) as [Hlt|Hge].
    + destruct (add_visitor_mwf p m Hm Hlt) as (m1 & Ha & Hm1 & _ & Hd1 & Hl1).
      rewrite Ha in Hs. injection Hs as ->. done.
    + destruct Hm as (Hl & Hw & Hv). unfold add_visitor, u32_add in Hs.
      replace (_ <=? u32_max) with false in Hs by lia. destruct p; [done|]. cbn [obind] in Hs.
      pose proof Hw as (Hne & Hc & Hlen). apply vlen_pos in Hne as Hpos.
      destruct (vindex_lt _ _ Hc) as (l & Hi & _). unfold current_level in Hs. rewrite Hi in Hs.
      cbn [obind] in Hs. destruct (_ <? _).
      * rewrite tighten_wf in Hs by done. injection Hs as <-. split; [|done].
        split; [done|]. split; [apply wf_step; [done|]; simpl; lia|simpl; unfold u32_max in *; lia].
      * rewrite loosen_eq in Hs. injection Hs as <-. split; [|done].
        split; [done|]. split; [apply wf_step; [done|]; simpl; lia|simpl; unfold u32_max in *; lia].
  - injection Hs as <-. rewrite decrement_eq. destruct Hm as (? & ? & ?).
    split; [|done]. split; [done|]. split; [done|]. simpl. lia.
Qed.

Lemma m_run_mwf p m cs m' :
  mwf m -> m_run p m cs = Val m' ->
  mwf m' /\ m_duration m' = m_duration m /\ d_levels (m_defense m') = d_levels (m_defense m).
Proof.
  revert m. induction cs as [|c cs IH]; intros m Hm Hs; simpl in Hs.
  - injection Hs as <-. done.
  - destruct (m_apply p m c) as [m1|] eqn:E; [|done]. simpl in Hs.
    destruct (m_apply_mwf p m c m1 Hm E) as (Hm1 & Hd1 & Hl1).
    destruct (IH m1 Hm1 Hs) as (? & ? & ?). split; [done|]. split; congruence.
Qed.

Lemma reachable_mwf p m : reachable_mcaptcha p m -> mwf m /\ m_duration m <> 0.
Proof.
  intros (m0 & cs & Hb & Hr). destruct (built_mwf p m0 Hb) as (Hm & _ & Hd).
  destruct (m_run_mwf p m0 cs m Hm Hr) as (? & Hdd & _). split; [done|congruence].
Qed.

(** C09 *)
Lemma visitor_count_exact p m cs :
  built_mcaptcha p m -> fits 0 cs ->
  exists m', m_run p m cs = Val m' /\
    m_get_visitors m' = count_after 0 cs /\
    m_get_duration m' = m_get_duration m /\
    d_levels (m_get_defense m') = d_levels (m_get_defense m).
Proof.
  intros Hb Hf. destruct (built_mwf p m Hb) as (Hm & H0 & _). rewrite <- H0 in Hf |- *.
  destruct (m_run_spec p m cs Hm Hf) as (m' & ? & ? & ? & ? & ?). exists m'. done.
Qed.

Lemma visitor_count_overflow p m :
  reachable_mcaptcha p m -> m_visitors m = u32_max ->
  match p with
  | Debug => add_visitor p m = Panic
  | Release => exists m', add_visitor p m = Val m' /\ m_visitors m' = 0
  end.
Proof.
  intros Hr Hv. destruct (reachable_mwf p m Hr) as [(Hl & Hw & _) _].
  unfold add_visitor, u32_add. rewrite Hv. destruct p; [done|].
  replace (_ <=? u32_max) with false by done. cbn [obind].
  pose proof Hw as (Hne & Hc & Hlen). destruct (vindex_lt _ _ Hc) as (l & Hi & _).
  unfold current_level. rewrite Hi. cbn [obind]. destruct (_ <? _).
  - rewrite tighten_wf by done. eexists. split; [done|]. done.
  - eexists. split; [done|]. done.
Qed.

(** C10 *)
Lemma difficulty_from_ladder p m :
  reachable_mcaptcha p m ->
  exists l lo hi,
    current_level (m_defense m) = Val l /\ l ∈ d_levels (m_defense m) /\
    m_get_difficulty m = Val (difficulty_factor l) /\ difficulty_factor l <> 0 /\
    head (d_levels (m_defense m)) = Some lo /\ last (d_levels (m_defense m)) = Some hi /\
    difficulty_factor lo <= difficulty_factor l <= difficulty_factor hi.
Proof.
  intros Hr. destruct (reachable_mwf p m Hr) as [(Hl & Hw & _) _]. destruct Hw as (Hne & Hc & _).
  destruct (vindex_lt _ _ Hc) as (l & Hi & Hlk).
  destruct (d_levels (m_defense m)) as [|lo r] eqn:E; [done|].
  destruct (last (lo :: r)) as [hi|] eqn:Eh; [|by apply last_None in Eh].
  exists l, lo, hi. unfold current_level, m_get_difficulty, get_difficulty. rewrite E, Hi.
  split; [done|]. split; [by eapply elem_of_list_lookup_2|]. split; [done|]. split.
  { pose proof (ladder_nonzero _ Hl) as Hnz. rewrite Forall_forall in Hnz. apply Hnz.
    by eapply elem_of_list_lookup_2. }
  split; [done|]. split; [done|]. pose proof (ladder_factors _ Hl) as Hf.
  rewrite last_lookup in Eh. split.
  - eapply (factors_mono _ 0); [exact Hf| |reflexivity|exact Hlk]. lia.
  - eapply (factors_mono _ _ (pred (length (lo :: r)))); [exact Hf| |exact Hlk|exact Eh].
    unfold vlen in Hc. lia.
Qed.

Lemma add_visitor_moves_one p m :
  reachable_mcaptcha p m -> m_visitors m < u32_max ->
  let ls := d_levels (m_defense m) in
  exists (i : nat) l l' m',
    ls !! i = Some l /\ current_level (m_defense m) = Val l /\
    add_visitor p m = Val m' /\ m_visitors m' = m_visitors m + 1 /\
    d_levels (m_defense m') = ls /\ m_duration m' = m_duration m /\
    current_level (m_defense m') = Val l' /\
    ls !! (if (visitor_threshold l <? m_visitors m + 1)%N
           then Nat.min (i + 1) (length ls - 1) else i - 1)%nat = Some l'.
Proof.
  intros Hr Hv ls. destruct (reachable_mwf p m Hr) as [(Hl & Hw & _) _].
  destruct (add_visitor_wf p m Hw Hv) as (l & Hlk & Hcl & Ha).
  pose proof Hw as (Hne & Hc & Hlen). apply vlen_pos in Hne as Hpos.
  set (c' := if visitor_threshold l <? m_visitors m + 1
          then N.min (d_current (m_defense m) + 1) (vlen (d_levels (m_defense m)) - 1)
          else d_current (m_defense m) - 1) in *.
  assert (c' < vlen ls) as Hc'. { unfold c', ls. destruct (_ <? _); lia. }
  destruct (vindex_lt _ _ Hc') as (l' & Hi' & Hlk').
  exists (N.to_nat (d_current (m_defense m))), l, l'. eexists.
  split; [done|]. split; [done|]. split; [exact Ha|]. simpl.
  split; [done|]. split; [done|]. split; [done|]. split; [done|].
  rewrite <- Hlk'. f_equal. unfold c', ls, vlen. destruct (_ <? _); lia.
Qed.

Lemma decrement_keeps_level m n :
  m_defense (decrement_visitor_by m n) = m_defense m /\
  m_duration (decrement_visitor_by m n) = m_duration m /\
  m_visitors (decrement_visitor_by m n) = m_visitors m - n.
Proof. by rewrite decrement_eq. Qed.

(** C11: the band invariant *)
Lemma thresholds_below_le v ls : (thresholds_below v ls <= length ls)%nat.
Proof. induction ls as [|l r IH]; simpl; [lia|]. destruct (_ <? _); lia. Qed.

Lemma thresholds_below_none v ls :
  (forall x, x ∈ ls -> v <= visitor_threshold x) -> thresholds_below v ls = 0%nat.
Proof.
  induction ls as [|a ls IH]; intros H; simpl; [done|].
  assert (v <= visitor_threshold a) by (apply H; left). replace (_ <? _) with false by lia.
  apply IH. intros x Hx. apply H. by right.
Qed.

Lemma thresholds_below_lookup v ls i l :
  ascending ls -> ls !! i = Some l ->
  ((visitor_threshold l < v) <-> (i < thresholds_below v ls)%nat).
Proof.
  unfold ascending. intros Hs. revert i. induction Hs as [|h r Hs IH Hh]; intros i Hi.
  { by rewrite lookup_nil in Hi. }
  rewrite Forall_forall in Hh.
  assert (v <= visitor_threshold h -> thresholds_below v r = 0%nat) as Hz.
  { intros Hle. apply thresholds_below_none. intros x Hx. specialize (Hh x Hx). simpl in Hh. lia. }
  destruct i as [|i]; simpl in *.
  - injection Hi as ->. destruct (N.ltb_spec (visitor_threshold l) v); [lia|].
    rewrite Hz by done. lia.
  - specialize (IH i Hi). assert (l ∈ r) as Hlr by by eapply elem_of_list_lookup_2.
    specialize (Hh l Hlr). simpl in Hh.
    destruct (N.ltb_spec (visitor_threshold h) v) as [Hhv|Hhv]; [lia|].
    rewrite Hz by done. lia.
Qed.

Lemma thresholds_below_succ v ls :
  ascending ls ->
  (thresholds_below v ls <= thresholds_below (v + 1) ls <= thresholds_below v ls + 1)%nat.
Proof.
  unfold ascending. induction 1 as [|h r Hs IH Hh]; simpl; [lia|].
  rewrite Forall_forall in Hh.
  destruct (N.ltb_spec (visitor_threshold h) v); destruct (N.ltb_spec (visitor_threshold h) (v + 1)); try lia.
  assert (visitor_threshold h = v) by lia. subst v.
  rewrite (thresholds_below_none (visitor_threshold h + 1) r),
    (thresholds_below_none (visitor_threshold h) r); [lia|..];
  intros x Hx; specialize (Hh x Hx); simpl in Hh; lia.
Qed.

Definition band (m : mcaptcha) : Prop :=
  let K := thresholds_below (m_visitors m) (d_levels (m_defense m)) in
  let i := N.to_nat (d_current (m_defense m)) in
  (i <= K <= i + 1)%nat.

Lemma add_visitor_band p m m' :
  mwf m -> m_visitors m < u32_max -> band m -> add_visitor p m = Val m' -> band m'.
Proof.
  intros (Hl & Hw & _) Hv Hb Ha. destruct (add_visitor_wf p m Hw Hv) as (l & Hlk & _ & Ha').
  rewrite Ha' in Ha. injection Ha as <-. unfold band in *. simpl.
  pose proof (ladder_ascending _ Hl) as Hasc.
  pose proof (thresholds_below_succ (m_visitors m) _ Hasc) as Hs.
  pose proof (thresholds_below_lookup (m_visitors m + 1) _ _ _ Hasc Hlk) as Hi.
  pose proof (thresholds_below_le (m_visitors m + 1) (d_levels (m_defense m))) as Hle.
  destruct Hw as (Hne & Hc & _). unfold vlen in *.
  destruct (N.ltb_spec (visitor_threshold l) (m_visitors m + 1)) as [Hlt|Hge].
  - apply Hi in Hlt. lia.
  - assert (¬ (N.to_nat (d_current (m_defense m)) < thresholds_below (m_visitors m + 1) (d_levels (m_defense m)))%nat) by (intros H; apply Hi in H; lia).
    lia.
Qed.

Lemma count_after_adds v n : count_after v (replicate n MAdd) = v + N.of_nat n.
Proof.
  unfold count_after. revert v. induction n as [|n IH]; intros v; simpl; [lia|]. rewrite IH. lia.
Qed.

Lemma arrivals_only_band p m n :
  fresh_mcaptcha m -> N.of_nat n <= u32_max ->
  exists m' (i : nat) l,
    m_run p m (replicate n MAdd) = Val m' /\ m_visitors m' = N.of_nat n /\
    current_level (m_defense m') = Val l /\ d_levels (m_defense m) !! i = Some l /\
    let K := thresholds_below (N.of_nat n) (d_levels (m_defense m)) in
    (i <= K <= i + 1)%nat.
Proof.
  intros Hf Hn. pose proof (fresh_bottom m Hf) as Hbot.
  destruct (built_mwf p m (fresh_built p m Hf)) as (Hm & H0 & _).
  assert (exists m', m_run p m (replicate n MAdd) = Val m' /\ mwf m' /\ m_visitors m' = N.of_nat n /\
            band m' /\ d_levels (m_defense m') = d_levels (m_defense m)) as (m' & Hr & Hm' & Hv' & Hb' & Hl').
  { induction n as [|n IH].
    - exists m. split; [done|]. split; [done|]. split; [done|]. split; [|done].
      unfold band. rewrite H0, Hbot. rewrite thresholds_below_none; [cbn; lia|]. intros; lia.
    - destruct IH as (m1 & Hr1 & Hm1 & Hv1 & Hb1 & Hl1); [lia|].
      rewrite replicate_S_end, m_run_app, Hr1. simpl.
      destruct (add_visitor_mwf p m1 Hm1) as (m2 & Ha & Hm2 & Hv2 & Hd2 & Hl2); [lia|].
      rewrite Ha. simpl. exists m2. split; [done|]. split; [done|]. split; [lia|].
      split; [|congruence]. eapply add_visitor_band; [exact Hm1|lia|done|done]. }
  destruct Hm' as (Hlad & (Hne & Hc & Hlen) & _). destruct (vindex_lt _ _ Hc) as (l & Hi & Hlk).
  exists m', (N.to_nat (d_current (m_defense m'))), l. split; [done|]. split; [done|].
  split; [done|]. split; [by rewrite <- Hl'|]. unfold band in Hb'. by rewrite Hv', Hl' in Hb'.
Qed.

(** C12: alternation inside a gap *)
Lemma alternation p m (i : nat) a b :
  reachable_mcaptcha p m ->
  d_levels (m_defense m) !! i = Some a -> d_levels (m_defense m) !! (i + 1)%nat = Some b ->
  current_level (m_defense m) = Val a ->
  visitor_threshold a < m_visitors m + 1 -> m_visitors m + 2 <= visitor_threshold b ->
  exists m1 m2,
    add_visitor p m = Val m1 /\ current_level (m_defense m1) = Val b /\
    add_visitor p m1 = Val m2 /\ current_level (m_defense m2) = Val a.
Proof.
  intros Hr Ha Hb Hcur Hlo Hhi. destruct (reachable_mwf p m Hr) as [(Hl & Hw & Hmax) _].
  assert (m_visitors m + 2 <= u32_max) as Hv.
  { pose proof (ladder_u32 _ Hl) as Hu. rewrite Forall_forall in Hu.
    destruct (Hu b) as [Hu1 _]; [by eapply elem_of_list_lookup_2|]. lia. }
  destruct (add_visitor_wf p m Hw ltac:(lia)) as (l & Hlk & Hcl & Hadd).
  rewrite Hcl in Hcur. injection Hcur as ->.
  assert (N.to_nat (d_current (m_defense m)) = i) as Hi.
  { pose proof (ladder_ascending _ Hl) as Hasc. apply ascending_nodup in Hasc.
    eapply NoDup_lookup; [exact Hasc| |].
    - rewrite list_lookup_fmap, Hlk. done.
    - rewrite list_lookup_fmap, Ha. done. }
  pose proof (lookup_lt_Some _ _ _ Hb) as Hlt.
  replace (visitor_threshold a <? m_visitors m + 1) with true in Hadd by lia.
  pose proof Hw as (Hne & Hc & Hlen).
  eexists _. eexists. split; [exact Hadd|].
  set (m1 := MCaptcha _ _ _) in *.
  assert (d_current (m_defense m1) = N.of_nat (i + 1)) as Hc1.
  { unfold m1. simpl. unfold vlen. lia. }
  assert (wf (m_defense m1)) as Hw1.
  { unfold m1 at 1. apply wf_step; [done|]. unfold vlen. lia. }
  assert (d_levels (m_defense m1) = d_levels (m_defense m)) as Hl1 by done.
  destruct (add_visitor_wf p m1 Hw1) as (l1 & Hlk1 & Hcl1 & Hadd1); [simpl; lia|].
  rewrite Hl1, Hc1, Nat2N.id, Hb in Hlk1. injection Hlk1 as ->.
  split; [done|]. split; [exact Hadd1|]. simpl.
  replace (visitor_threshold l1 <? m_visitors m + 1 + 1) with false by lia.
  replace (N.min (d_current (m_defense m) + 1) (vlen (d_levels (m_defense m)) - 1) - 1)
    with (d_current (m_defense m)) by (unfold vlen; lia).
  unfold current_level in *. simpl. done.
Qed.

(** C13: convergence *)
Lemma at_each_arrival_cons P v c cs :
  at_each_arrival P v (c :: cs) <->
  (c = MAdd -> P (v + 1)) /\ at_each_arrival P (count1 v c) cs.
Proof.
  unfold at_each_arrival. split.
  - intros H. split.
    + intros ->. exact (H [] cs eq_refl).
    + intros pre post ->. exact (H (c :: pre) post eq_refl).
  - intros [H0 H] pre post Heq. destruct pre as [|x pre].
    + injection Heq as -> ->. by apply H0.
    + injection Heq as <- ->. exact (H pre post eq_refl).
Qed.

Lemma ascending_mono ls i j a b :
  ascending ls -> (i <= j)%nat -> ls !! i = Some a -> ls !! j = Some b ->
  visitor_threshold a <= visitor_threshold b.
Proof.
  unfold ascending. intros Hs. revert i j. induction Hs as [|h r Hs IH Hh]; intros i j Hij Ha Hb.
  { by rewrite lookup_nil in Ha. }
  rewrite Forall_forall in Hh.
  destruct i as [|i], j as [|j]; simpl in *; [simplify_eq; lia| |lia|eapply (IH i j); eauto; lia].
  injection Ha as ->. apply elem_of_list_lookup_2 in Hb. specialize (Hh b Hb). simpl in Hh. lia.
Qed.

Lemma run_position p m cs (P : N -> Prop) (up : bool) :
  mwf m -> fits (m_visitors m) cs -> at_each_arrival P (m_visitors m) cs ->
  (forall v l, P v -> l ∈ d_levels (m_defense m) -> (visitor_threshold l <? v) = up) ->
  exists m', m_run p m cs = Val m' /\ wf (m_defense m') /\
    d_levels (m_defense m') = d_levels (m_defense m) /\
    d_current (m_defense m') =
      (if up then N.min (d_current (m_defense m) + N.of_nat (arrivals cs)) (vlen (d_levels (m_defense m)) - 1)
       else d_current (m_defense m) - N.of_nat (arrivals cs)).
Proof.
  revert m. induction cs as [|c cs IH]; intros m Hm Hf Ha HP.
  - exists m. pose proof Hm as (_ & Hw & _). split; [done|]. split; [done|]. split; [done|].
    destruct Hw as (Hne & Hc & _). simpl. destruct up; lia.
  - apply fits_cons in Hf as [Hv Hf]. apply at_each_arrival_cons in Ha as [Ha0 Ha].
    cbn [m_run]. destruct c as [|n]; simpl in Hf, Ha.
    + assert (m_visitors m < u32_max) as Hlt.
      { destruct cs; [apply fits_nil in Hf|apply fits_cons in Hf as [Hf _]]; lia. }
      destruct (add_visitor_mwf p m Hm Hlt) as (m1 & Hadd & Hm1 & Hv1 & _ & Hl1).
      destruct Hm as (Hl & Hw & _).
      destruct (add_visitor_wf p m Hw Hlt) as (l & Hlk & _ & Hadd').
      cbn [m_apply]. rewrite Hadd. cbn [obind]. rewrite Hadd in Hadd'.
      rewrite (HP _ l (Ha0 eq_refl)) in Hadd' by (by eapply elem_of_list_lookup_2).
      assert (Hc1 : d_current (m_defense m1) =
        if up then N.min (d_current (m_defense m) + 1) (vlen (d_levels (m_defense m)) - 1)
        else d_current (m_defense m) - 1) by (injection Hadd' as ->; done).
      destruct (IH m1) as (m' & Hr & Hw' & Hl' & Hc').
      { done. } { by rewrite Hv1. } { by rewrite Hv1. } { by rewrite Hl1. }
      exists m'. split; [done|]. split; [done|]. split; [congruence|].
      rewrite Hc', Hc1, Hl1. destruct Hw as (Hne & Hc & _). cbn [arrivals]. destruct up; lia.
    + cbn [m_apply obind]. rewrite decrement_eq.
      destruct (IH (MCaptcha (m_visitors m - n) (m_defense m) (m_duration m))) as (m' & Hr & Hw' & Hl' & Hc').
      { destruct Hm as (? & ? & ?). split; [done|]. split; [done|]. simpl. lia. }
      { done. } { done. } { done. }
      exists m'. done.
Qed.

Lemma surge_reaches_top p m cs top :
  reachable_mcaptcha p m -> fits (m_visitors m) cs ->
  last (d_levels (m_defense m)) = Some top ->
  at_each_arrival (fun v => visitor_threshold top < v) (m_visitors m) cs ->
  (length (d_levels (m_defense m)) - 1 <= arrivals cs)%nat ->
  exists m', m_run p m cs = Val m' /\ current_level (m_defense m') = Val top /\
    m_get_difficulty m' = Val (difficulty_factor top).
Proof.
  intros Hr Hf Htop Ha Hn. destruct (reachable_mwf p m Hr) as [Hm _].
  pose proof Hm as (Hl & _ & _). pose proof (ladder_ascending _ Hl) as Hasc.
  rewrite last_lookup in Htop.
  destruct (run_position p m cs _ true Hm Hf Ha) as (m' & Hr' & Hw' & Hl' & Hc').
  { intros v l Hv Hin. apply elem_of_list_lookup in Hin as [i Hi].
    pose proof (lookup_lt_Some _ _ _ Hi).
    pose proof (ascending_mono _ i (pred (length (d_levels (m_defense m)))) l top Hasc ltac:(lia) Hi Htop). lia. }
  exists m'. split; [done|]. destruct Hw' as (Hne & Hc & _).
  destruct (vindex_lt _ _ Hc) as (l & Hi & Hlk).
  assert (l = top) as ->.
  { rewrite Hl', Hc' in Hlk.
    replace (N.to_nat _) with (pred (length (d_levels (m_defense m)))) in Hlk by (unfold vlen; lia).
    congruence. }
  unfold m_get_difficulty, get_difficulty, current_level. by rewrite Hi.
Qed.

Lemma calm_reaches_bottom p m cs bot :
  reachable_mcaptcha p m -> fits (m_visitors m) cs ->
  head (d_levels (m_defense m)) = Some bot ->
  at_each_arrival (fun v => v <= visitor_threshold bot) (m_visitors m) cs ->
  (length (d_levels (m_defense m)) - 1 <= arrivals cs)%nat ->
  exists m', m_run p m cs = Val m' /\ current_level (m_defense m') = Val bot /\
    m_get_difficulty m' = Val (difficulty_factor bot).
Proof.
  intros Hr Hf Hbot Ha Hn. destruct (reachable_mwf p m Hr) as [Hm _].
  pose proof Hm as (Hl & (_ & Hc0 & _) & _). pose proof (ladder_ascending _ Hl) as Hasc.
  rewrite head_lookup in Hbot.
  destruct (run_position p m cs _ false Hm Hf Ha) as (m' & Hr' & Hw' & Hl' & Hc').
  { intros v l Hv Hin. apply elem_of_list_lookup in Hin as [i Hi].
    pose proof (ascending_mono _ 0 i bot l Hasc ltac:(lia) Hbot Hi). lia. }
  exists m'. split; [done|]. destruct Hw' as (Hne & Hc & _).
  destruct (vindex_lt _ _ Hc) as (l & Hi & Hlk).
  assert (l = bot) as ->.
  { rewrite Hl', Hc' in Hlk. unfold vlen in Hc0.
    replace (N.to_nat _) with 0%nat in Hlk by (unfold vlen; lia). congruence. }
  unfold m_get_difficulty, get_difficulty, current_level. by rewrite Hi.
Qed.

(** C14: the general mechanism. *)
Lemma departures_keep_difficulty p m cs :
  Forall (fun c => exists n, c = MDec n) cs ->
  exists m', m_run p m cs = Val m' /\ m_get_difficulty m' = m_get_difficulty m /\
    m_defense m' = m_defense m.
Proof.
  revert m. induction cs as [|c cs IH]; intros m Hf; [by exists m|].
  apply Forall_cons in Hf as [[n ->] Hf]. cbn [m_run m_apply obind].
  destruct (IH (decrement_visitor_by m n) Hf) as (m' & Hr & Hd & Hdef).
  exists m'. split; [done|]. unfold m_get_difficulty in *. rewrite Hdef, decrement_eq. done.
Qed.

(** After everybody left, the first new visitor is charged the level one below
    the one where the difficulty was left (whatever that is). *)
Lemma first_visitor_after_quiet p m (i : nat) l l' :
  reachable_mcaptcha p m -> m_visitors m = 0 ->
  d_levels (m_defense m) !! (i + 1)%nat = Some l -> current_level (m_defense m) = Val l ->
  d_levels (m_defense m) !! i = Some l' ->
  exists m', add_visitor p m = Val m' /\ m_visitors m' = 1 /\
    m_get_difficulty m' = Val (difficulty_factor l').
Proof.
  intros Hr H0 Hl Hcur Hl'. destruct (reachable_mwf p m Hr) as [(Hlad & Hw & _) _].
  destruct (add_visitor_wf p m Hw) as (x & Hlk & Hcl & Ha); [rewrite H0; done|].
  rewrite Hcl in Hcur. injection Hcur as ->.
  pose proof (ladder_ascending _ Hlad) as Hasc.
  assert (N.to_nat (d_current (m_defense m)) = (i + 1)%nat) as Hi.
  { pose proof (ascending_nodup _ Hasc) as Hnd. eapply NoDup_lookup; [exact Hnd| |].
    - rewrite list_lookup_fmap, Hlk. done.
    - rewrite list_lookup_fmap, Hl. done. }
  assert (visitor_threshold l' < visitor_threshold l) as Hlt.
  { clear -Hasc Hl Hl'. unfold ascending in Hasc. revert i Hl Hl'.
    induction Hasc as [|h r Hs IH Hh]; intros i Hl Hl'; [by rewrite lookup_nil in Hl|].
    destruct i as [|i]; simpl in *.
    - injection Hl' as ->. rewrite Forall_forall in Hh. apply Hh. by eapply elem_of_list_lookup_2.
    - by apply (IH i). }
  rewrite H0 in Ha. replace (visitor_threshold l <? 0 + 1) with false in Ha by lia.
  eexists. split; [exact Ha|]. split; [done|].
  unfold m_get_difficulty, get_difficulty, current_level, vindex, vget. simpl.
  destruct Hw as (_ & Hc & _). replace (_ <? _) with true by lia.
  replace (N.to_nat (d_current (m_defense m) - 1)) with i by lia. by rewrite Hl'.
Qed.

(** C15 *)
Lemma create_payload_spec p m :
  reachable_mcaptcha p m ->
  let c := mcaptcha_into_create m in
  cm_levels c = d_levels (m_defense m) /\ cm_duration c = m_duration m /\ cm_duration c <> 0 /\ ascending (cm_levels c) /\
  exists d, snd (db_build (db_run (DBAdd <$> cm_levels c))) = Ok d /\
    mb_build (mb_run [MBDefense d; MBDuration (cm_duration c)]) =
      Ok (MCaptcha 0 (Defense (d_levels (m_defense m)) 0) (m_duration m)).
Proof.
  intros Hr c. destruct (reachable_mwf p m Hr) as [(Hl & _ & _) Hd].
  split; [done|]. split; [done|]. split; [done|]. split; [apply ladder_ascending, Hl|].
  exists (Defense (d_levels (m_defense m)) 0). split; [by apply ladder_rebuild|].
  rewrite mcaptcha_builder_spec. unfold duration_set, defense_set, last_some. simpl.
  destruct (N.eqb_spec (m_duration m) 0); done.
Qed.
