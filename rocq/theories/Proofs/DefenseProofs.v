(** Proofs about the model of defense.rs. *)
From Coq Require Import Sorted ZifyBool ZifyN ZifyNat Lia.
From Verif Require Import Model.Base Model.Defense Spec.DefenseSpec.

(** ** LevelBuilder *)
Lemma last_some_snoc {A B} (f : A -> option B) cs c :
  last_some f (cs ++ [c]) = match f c with Some b => Some b | None => last_some f cs end.
Proof.
  unfold last_some. rewrite omap_app. simpl.
  destruct (f c) as [b|]; [by rewrite last_snoc|by rewrite app_nil_r].
Qed.

Lemma fold_left_snoc {A B} (f : A -> B -> A) l x a :
  fold_left f (l ++ [x]) a = f (fold_left f l a) x.
Proof. by rewrite fold_left_app. Qed.

Lemma lb_run_fields cs :
  lb_visitor_threshold (lb_run cs) = threshold_set cs /\
  lb_difficulty_factor (lb_run cs) = factor_set cs.
Proof.
  induction cs as [|c cs IH] using rev_ind; [done|].
  destruct IH as [IH1 IH2]. unfold lb_run, threshold_set, factor_set in *.
  rewrite fold_left_snoc, !last_some_snoc. destruct c as [v|d]; simpl.
  - split; [done|exact IH2].
  - unfold lb_set_difficulty_factor.
    destruct (N.ltb_spec 0 d) as [Hd|Hd]; simpl.
    + replace (d =? 0) with false by lia. split; [exact IH1|done].
    + replace (d =? 0) with true by lia. done.
Qed.

Lemma level_builder_spec cs :
  lb_build (lb_run cs) =
    match threshold_set cs, factor_set cs with
    | None, _ => Err SetVisitorThreshold
    | Some _, None => Err SetDifficultyFactor
    | Some v, Some d => Ok (Level v d)
    end.
Proof.
  destruct (lb_run_fields cs) as [H1 H2]. unfold lb_build. rewrite H1, H2.
  destruct (threshold_set cs); [destruct (factor_set cs)|]; done.
Qed.

Lemma factor_set_nonzero cs d : factor_set cs = Some d -> d <> 0.
Proof.
  unfold factor_set. induction cs as [|c cs IH] using rev_ind; [done|].
  rewrite last_some_snoc. destruct c as [v|e]; [done|].
  destruct (N.eqb_spec e 0); [done|]. congruence.
Qed.

(** ** DefenseBuilder: the accepted levels *)
Lemma has_threshold_spec v ls :
  has_threshold v ls = true <-> exists l, l ∈ ls /\ visitor_threshold l = v.
Proof.
  induction ls as [|h r IH]; simpl.
  - split; [done|]. intros (l & Hl & _). by apply elem_of_nil in Hl.
  - destruct (N.eqb_spec (visitor_threshold h) v) as [Heq|Hne].
    + split; [|done]. intros _. exists h. split; [by left|done].
    + rewrite IH. split.
      * intros (l & Hl & Hv). exists l. split; [by right|done].
      * intros (l & Hl & Hv). apply elem_of_cons in Hl as [->|Hl]; [done|eauto].
Qed.

Lemma insert_level_perm l ls : insert_level l ls ≡ₚ l :: ls.
Proof.
  induction ls as [|h r IH]; simpl; [done|].
  destruct (_ <=? _); [done|]. rewrite IH. apply Permutation_swap.
Qed.
Lemma sort_levels_perm ls : sort_levels ls ≡ₚ ls.
Proof.
  induction ls as [|h r IH]; simpl; [done|]. by rewrite insert_level_perm, IH.
Qed.

Definition le_thr (a b : level) : Prop := visitor_threshold a <= visitor_threshold b.
Lemma insert_level_sorted l ls :
  StronglySorted le_thr ls -> StronglySorted le_thr (insert_level l ls).
Proof.
  induction ls as [|h r IH]; simpl; intros Hs; [by repeat constructor|].
  inversion Hs as [|? ? Hr Hh]; subst.
  destruct (N.leb_spec (visitor_threshold l) (visitor_threshold h)) as [Hle|Hgt].
  - constructor; [done|]. constructor; [done|].
    eapply Forall_impl; [exact Hh|]. unfold le_thr. intros x Hx. lia.
  - constructor; [by apply IH|]. rewrite insert_level_perm.
    constructor; [unfold le_thr; lia|done].
Qed.
Lemma sort_levels_sorted ls : StronglySorted le_thr (sort_levels ls).
Proof.
  induction ls as [|h r IH]; simpl; [constructor|]. by apply insert_level_sorted.
Qed.

Lemma sorted_nodup_ascending ls :
  StronglySorted le_thr ls -> NoDup (visitor_threshold <$> ls) -> ascending ls.
Proof.
  unfold ascending. induction ls as [|h r IH]; intros Hs Hn; [constructor|].
  inversion Hs as [|? ? Hr Hh]; subst. apply NoDup_cons in Hn as [Hn1 Hn2].
  constructor; [by apply IH|]. rewrite Forall_forall in Hh |- *.
  intros x Hx. specialize (Hh x Hx). unfold le_thr in Hh.
  assert (visitor_threshold h <> visitor_threshold x); [|lia].
  intros Heq. apply Hn1. rewrite Heq. by apply elem_of_list_fmap_1.
Qed.

Lemma ascending_nodup ls : ascending ls -> NoDup (visitor_threshold <$> ls).
Proof.
  unfold ascending. induction 1 as [|h r Hs IH Hh]; simpl; [constructor|].
  constructor; [|done]. intros Hin. apply elem_of_list_fmap in Hin as (x & Heq & Hx).
  rewrite Forall_forall in Hh. specialize (Hh x Hx). lia.
Qed.

Lemma db_build_levels b : db_levels (fst (db_build b)) ≡ₚ db_levels b.
Proof.
  unfold db_build. destruct (db_levels b) as [|h r] eqn:E; simpl; [by rewrite E|].
  destruct (has_zero_factor _); [|destruct (has_decrease _)];
    simpl; apply (sort_levels_perm (h :: r)).
Qed.

Lemma first_offered_snoc ls l x :
  first_offered (ls ++ [x]) l <->
  first_offered ls l \/
  (l = x /\ forall y, y ∈ ls -> visitor_threshold y <> visitor_threshold x).
Proof.
  split.
  - intros (pre & post & Heq & Hpre).
    destruct post as [|z post _] using rev_ind.
    + apply app_inj_tail in Heq as [-> ->]. right. split; [done|exact Hpre].
    + rewrite app_comm_cons, app_assoc in Heq. apply app_inj_tail in Heq as [-> ->].
      left. exists pre, post. done.
  - intros [(pre & post & -> & Hpre)|[-> Hall]].
    + exists pre, (post ++ [x]). by rewrite <- app_assoc.
    + exists ls, []. done.
Qed.

Lemma first_offered_exists ls y :
  y ∈ ls -> exists l, first_offered ls l /\ visitor_threshold l = visitor_threshold y.
Proof.
  induction ls as [|u ls IH]; intros Hy; [by apply elem_of_nil in Hy|].
  destruct (N.eq_dec (visitor_threshold u) (visitor_threshold y)) as [Hu|Hu].
  - exists u. split; [|done]. exists [], ls. split; [done|].
    intros x Hx. by apply elem_of_nil in Hx.
  - apply elem_of_cons in Hy as [->|Hy]; [done|].
    destruct (IH Hy) as (l & (pre & post & -> & Hpre) & Hl).
    exists l. split; [|done]. exists (u :: pre), post. split; [done|].
    intros x Hx. apply elem_of_cons in Hx as [->|Hx]; [congruence|by apply Hpre].
Qed.

Lemma first_offered_in ls l : first_offered ls l -> l ∈ ls.
Proof.
  intros (pre & post & -> & _). apply elem_of_app. right. by left.
Qed.

Lemma offered_snoc cs c :
  offered (cs ++ [c]) = offered cs ++ match c with DBAdd l => [l] | DBBuild => [] end.
Proof. unfold offered. rewrite omap_app. by destruct c. Qed.

Lemma db_run_levels cs :
  NoDup (visitor_threshold <$> db_levels (db_run cs)) /\
  forall l, l ∈ db_levels (db_run cs) <-> first_offered (offered cs) l.
Proof.
  induction cs as [|c cs [IH1 IH2]] using rev_ind.
  - split; [constructor|]. intros l. split; [intros H; by apply elem_of_nil in H|].
    intros H. apply first_offered_in in H. by apply elem_of_nil in H.
  - unfold db_run in *. rewrite fold_left_snoc, offered_snoc.
    set (b := fold_left db_apply cs db_default) in *. destruct c as [x|]; simpl.
    + unfold db_add_level.
      destruct (has_threshold (visitor_threshold x) (db_levels b)) eqn:E; simpl.
      * split; [done|]. intros l. rewrite first_offered_snoc, IH2.
        apply has_threshold_spec in E as (y & Hy & Heq). split; [by left|].
        intros [H|[-> H]]; [done|]. exfalso.
        apply IH2, first_offered_in in Hy. by apply (H y).
      * split.
        -- rewrite fmap_app. simpl. apply NoDup_app. split; [done|]. split; [|apply NoDup_singleton].
           intros v Hv Hin%elem_of_list_singleton. subst v.
           apply elem_of_list_fmap in Hv as (y & Heq & Hy).
           assert (has_threshold (visitor_threshold x) (db_levels b) = true); [|congruence].
           apply has_threshold_spec. eauto.
        -- intros l. rewrite elem_of_app, elem_of_list_singleton, first_offered_snoc, IH2.
           split; (intros [H|H]; [by left|right]).
           ++ subst l. split; [done|]. intros y Hy Heq.
              destruct (first_offered_exists _ _ Hy) as (z & Hz & Hzy).
              apply IH2 in Hz.
              assert (has_threshold (visitor_threshold x) (db_levels b) = true); [|congruence].
              apply has_threshold_spec. exists z. split; [done|congruence].
           ++ by destruct H.
    + rewrite app_nil_r. pose proof (db_build_levels b) as HP. split.
      * by rewrite HP.
      * intros l. by rewrite HP.
Qed.

Lemma db_add_level_spec cs l :
  let b := db_run cs in
  db_add_level b l =
    (if bool_decide (Exists (fun x => visitor_threshold x = visitor_threshold l) (offered cs))
     then (b, Err DuplicateVisitorCount)
     else (DefenseBuilder (db_levels b ++ [l]), Ok tt)).
Proof.
  intros b. unfold db_add_level. destruct (db_run_levels cs) as [_ Hmem].
  replace (has_threshold (visitor_threshold l) (db_levels b))
    with (bool_decide (Exists (fun x => visitor_threshold x = visitor_threshold l) (offered cs))); [done|].
  apply eq_true_iff_eq. rewrite bool_decide_eq_true, has_threshold_spec, Exists_exists. split.
  - intros (x & Hx & Heq). destruct (first_offered_exists _ _ Hx) as (z & Hz & Hzx).
    exists z. split; [by apply Hmem|congruence].
  - intros (x & Hx & Heq). exists x. split; [|done]. by apply first_offered_in, Hmem.
Qed.

(** ** DefenseBuilder::build *)
Lemma has_zero_factor_spec ls :
  has_zero_factor ls = true <-> exists l, l ∈ ls /\ difficulty_factor l = 0.
Proof.
  induction ls as [|h r IH]; simpl.
  - split; [done|]. intros (l & Hl & _). by apply elem_of_nil in Hl.
  - destruct (N.eqb_spec (difficulty_factor h) 0) as [Heq|Hne].
    + split; [|done]. intros _. exists h. split; [by left|done].
    + rewrite IH. split.
      * intros (l & Hl & Hv). exists l. split; [by right|done].
      * intros (l & Hl & Hv). apply elem_of_cons in Hl as [->|Hl]; [done|eauto].
Qed.

Lemma has_decrease_false ls :
  has_decrease ls = false <-> factors_nondecreasing ls.
Proof.
  unfold factors_nondecreasing. induction ls as [|a r IH]; [split; [constructor|done]|].
  destruct r as [|b r].
  - simpl. split; [by repeat constructor|done].
  - cbn [has_decrease]. destruct (N.ltb_spec (difficulty_factor b) (difficulty_factor a)) as [Hlt|Hge].
    + split; [done|]. intros Hs. inversion Hs as [|? ? _ Hf]; subst.
      inversion Hf; subst. lia.
    + rewrite IH. split.
      * intros Hs. constructor; [done|]. inversion Hs as [|? ? _ Hf]; subst.
        constructor; [done|]. eapply Forall_impl; [exact Hf|]. simpl. intros x Hx. lia.
      * intros Hs. by inversion Hs.
Qed.

Lemma ascending_factors ls :
  ascending ls ->
  factors_nondecreasing ls <->
  forall a b, a ∈ ls -> b ∈ ls -> visitor_threshold a < visitor_threshold b ->
              difficulty_factor a <= difficulty_factor b.
Proof.
  unfold ascending, factors_nondecreasing.
  induction 1 as [|h r Hs IH Hh]; [split; [intros _ a b Ha; by apply elem_of_nil in Ha|constructor]|].
  rewrite Forall_forall in Hh. split.
  - intros Hf a b Ha Hb Hlt. inversion Hf as [|? ? Hf1 Hf2]; subst.
    rewrite Forall_forall in Hf2.
    apply elem_of_cons in Ha as [->|Ha]; apply elem_of_cons in Hb as [->|Hb].
    + lia. + by apply Hf2. + specialize (Hh a Ha); lia.
    + apply (proj1 IH); done.
  - intros H. constructor.
    + apply IH. intros a b Ha Hb. apply H; by right.
    + rewrite Forall_forall. intros x Hx. apply H; [by left|by right|by apply Hh].
Qed.

Lemma db_build_spec cs :
  match snd (db_build (db_run cs)) with
  | Ok d =>
      (exists l, l ∈ offered cs) /\
      (forall l, first_offered (offered cs) l -> difficulty_factor l <> 0) /\
      (forall a b, first_offered (offered cs) a -> first_offered (offered cs) b ->
         visitor_threshold a < visitor_threshold b -> difficulty_factor a <= difficulty_factor b) /\
      (forall l, l ∈ d_levels d <-> first_offered (offered cs) l) /\
      ascending (d_levels d) /\
      (exists l0, current_level d = Val l0 /\ first_offered (offered cs) l0 /\
         forall l, first_offered (offered cs) l -> visitor_threshold l0 <= visitor_threshold l)
  | Err LevelEmpty => offered cs = []
  | Err DifficultyFactorZero =>
      exists l, first_offered (offered cs) l /\ difficulty_factor l = 0
  | Err DecreaseingDifficultyFactor =>
      (forall l, first_offered (offered cs) l -> difficulty_factor l <> 0) /\
      exists a b, first_offered (offered cs) a /\ first_offered (offered cs) b /\
        visitor_threshold a < visitor_threshold b /\ difficulty_factor b < difficulty_factor a
  | Err _ => False
  end.
Proof.
  destruct (db_run_levels cs) as [Hnd Hmem]. unfold db_build.
  set (L := db_levels (db_run cs)) in *.
  assert (Hasc : ascending (sort_levels L)).
  { apply sorted_nodup_ascending; [apply sort_levels_sorted|]. by rewrite sort_levels_perm. }
  assert (Hms : forall l, l ∈ sort_levels L <-> first_offered (offered cs) l).
  { intros l. by rewrite sort_levels_perm. }
  destruct L as [|h r] eqn:E.
  - simpl. destruct (offered cs) as [|y ys] eqn:Eo; [done|].
    destruct (first_offered_exists (y :: ys) y) as (z & Hz & _); [by left|].
    apply Hmem in Hz. by apply elem_of_nil in Hz.
  - rewrite <- E in *. clearbody L.
    destruct (has_zero_factor (sort_levels L)) eqn:Ez; simpl.
    { apply has_zero_factor_spec in Ez as (l & Hl & H0). exists l. split; [by apply Hms|done]. }
    assert (Hnz : forall l, first_offered (offered cs) l -> difficulty_factor l <> 0).
    { intros l Hl H0. assert (has_zero_factor (sort_levels L) = true); [|congruence].
      apply has_zero_factor_spec. exists l. split; [by apply Hms|done]. }
    destruct (has_decrease (sort_levels L)) eqn:Ed; simpl.
    + split; [done|].
      destruct (decide (Exists (fun a => Exists (fun b =>
                 visitor_threshold a < visitor_threshold b /\
                 difficulty_factor b < difficulty_factor a) L) L)) as [Hex|Hno].
      * apply Exists_exists in Hex as (a & Ha & Hb). apply Exists_exists in Hb as (b & Hb & Hab & Hf).
        exists a, b. split; [by apply Hmem|]. split; [by apply Hmem|done].
      * exfalso. assert (has_decrease (sort_levels L) = false); [|congruence].
        apply has_decrease_false, ascending_factors; [done|].
        intros a b Ha Hb Hlt. rewrite sort_levels_perm in Ha, Hb.
        destruct (N.le_gt_cases (difficulty_factor a) (difficulty_factor b)) as [|Hgt]; [done|].
        exfalso. apply Hno. apply Exists_exists. exists a. split; [done|].
        apply Exists_exists. exists b. done.
    + split.
      { exists h. apply first_offered_in, Hmem. rewrite E. by left. }
      split; [done|]. split.
      { intros a b Ha Hb. apply has_decrease_false in Ed.
        rewrite ascending_factors in Ed by done. apply Ed; by apply Hms. }
      split; [done|]. split; [done|].
      destruct (sort_levels L) as [|l0 ls] eqn:Es.
      { assert (h ∈ L) as Hh by (rewrite E; by left).
        apply Hmem, Hms in Hh. by apply elem_of_nil in Hh. }
      exists l0. split; [done|]. split; [apply Hms; by left|].
      intros l Hl. apply Hms in Hl. inversion Hasc as [|? ? _ Hf]; subst.
      apply elem_of_cons in Hl as [->|Hl]; [lia|]. rewrite Forall_forall in Hf.
      specialize (Hf l Hl). lia.
Qed.

(** ** Buildable defenses *)
Lemma NoDup_bounded_length (n : N) (l : list N) :
  NoDup l -> Forall (fun x => x < n) l -> N.of_nat (length l) <= n.
Proof.
  intros Hnd Hb.
  assert (H : (length (N.to_nat <$> l) <= length (seq 0 (N.to_nat n)))%nat).
  { apply submseteq_length, NoDup_submseteq.
    - apply NoDup_fmap_2; [|done]. intros a b Hab. by apply N2Nat.inj.
    - intros x Hx. apply elem_of_list_fmap in Hx as (y & -> & Hy).
      rewrite Forall_forall in Hb. specialize (Hb y Hy). apply elem_of_seq. lia. }
  rewrite fmap_length, seq_length in H. lia.
Qed.

Record ladder (ls : list level) : Prop := {
  ladder_nonempty : ls <> [];
  ladder_ascending : ascending ls;
  ladder_factors : factors_nondecreasing ls;
  ladder_nonzero : Forall (fun l => difficulty_factor l <> 0) ls;
  ladder_u32 : Forall u32_level ls;
  ladder_len : vlen ls <= u32_max + 1 }.

Lemma buildable_ladder d : buildable d -> ladder (d_levels d) /\ d_current d = 0.
Proof.
  intros (cs & Hu & Hb). pose proof (db_build_spec cs) as Hs. rewrite Hb in Hs.
  destruct Hs as (_ & Hnz & Hnd & Hmem & Hasc & l0 & Hcur & Hl0 & _).
  assert (Hcur0 : d_current d = 0).
  { unfold db_build in Hb. destruct (db_levels (db_run cs)); [done|].
    destruct (has_zero_factor _); [done|]. destruct (has_decrease _); [done|].
    simpl in Hb. by injection Hb as <-. }
  assert (Hul : Forall u32_level (d_levels d)).
  { rewrite Forall_forall in Hu |- *. intros l Hl. by apply Hu, first_offered_in, Hmem. }
  split; [|done]. constructor; try done.
  - intros Hn. apply Hmem in Hl0. rewrite Hn in Hl0. by apply elem_of_nil in Hl0.
  - apply ascending_factors; [done|]. intros a b Ha Hb'. apply Hnd; by apply Hmem.
  - rewrite Forall_forall. intros l Hl. by apply Hnz, Hmem.
  - unfold vlen. rewrite <- (fmap_length visitor_threshold (d_levels d)). apply NoDup_bounded_length.
    + by apply ascending_nodup.
    + rewrite Forall_fmap. eapply Forall_impl; [exact Hul|].
      intros l [Hl _]. simpl. lia.
Qed.

(** A ladder can be built: offer its levels in order. *)
Lemma offered_adds ls : offered (DBAdd <$> ls) = ls.
Proof.
  unfold offered. induction ls as [|l ls IH]; [done|].
  rewrite fmap_cons. cbn [omap list_omap]. by f_equal.
Qed.

Lemma first_offered_nodup ls l :
  NoDup (visitor_threshold <$> ls) -> (first_offered ls l <-> l ∈ ls).
Proof.
  intros Hnd. split; [apply first_offered_in|]. intros Hl.
  apply elem_of_list_split in Hl as (pre & post & ->). exists pre, post. split; [done|].
  intros x Hx Heq. rewrite fmap_app, fmap_cons in Hnd.
  apply NoDup_app in Hnd as (_ & Hnd & _). apply (Hnd (visitor_threshold x)).
  - by apply elem_of_list_fmap_1.
  - rewrite Heq. by left.
Qed.

Lemma strongly_sorted_unique ls1 ls2 :
  ascending ls1 -> ascending ls2 -> (forall l, l ∈ ls1 <-> l ∈ ls2) -> ls1 = ls2.
Proof.
  unfold ascending. intros H1. revert ls2. induction H1 as [|a r Hs IH Ha]; intros ls2 H2 Hmem.
  - destruct ls2 as [|b s]; [done|]. assert (b ∈ (@nil level)) as Hb by (apply Hmem; by left).
    by apply elem_of_nil in Hb.
  - destruct H2 as [|b s Hs2 Hb].
    + assert (a ∈ (@nil level)) as Hx by (apply Hmem; by left). by apply elem_of_nil in Hx.
    + rewrite Forall_forall in Ha, Hb.
      assert (a = b) as ->.
      { assert (a ∈ b :: s) as Hab by (apply Hmem; by left).
        assert (b ∈ a :: r) as Hba by (apply Hmem; by left).
        apply elem_of_cons in Hab as [->|Hab]; [done|].
        apply elem_of_cons in Hba as [->|Hba]; [done|].
        specialize (Ha b Hba). specialize (Hb a Hab). simpl in *. lia. }
      f_equal. apply IH; [done|]. intros l. split; intros Hl.
      * assert (l ∈ b :: s) as Hx by (apply Hmem; by right).
        apply elem_of_cons in Hx as [->|Hx]; [|done]. specialize (Ha b Hl). simpl in *; lia.
      * assert (l ∈ b :: r) as Hx by (apply Hmem; by right).
        apply elem_of_cons in Hx as [->|Hx]; [|done]. specialize (Hb b Hl). simpl in *; lia.
Qed.

Lemma ladder_rebuild ls :
  ladder ls -> snd (db_build (db_run (DBAdd <$> ls))) = Ok (Defense ls 0).
Proof.
  intros [Hne Hasc Hfac Hnz Hu Hlen].
  pose proof (db_build_spec (DBAdd <$> ls)) as Hs. rewrite offered_adds in Hs.
  assert (Hf : forall l, first_offered ls l <-> l ∈ ls).
  { intros l. apply first_offered_nodup. by apply ascending_nodup. }
  destruct (db_build (db_run (DBAdd <$> ls))) as [b' r] eqn:E. simpl in *.
  destruct r as [d|e].
  - destruct Hs as (_ & _ & _ & Hmem & Hasc' & _).
    assert (d_levels d = ls) as Hd.
    { apply strongly_sorted_unique; [done..|]. intros l. by rewrite Hmem, Hf. }
    assert (d_current d = 0) as Hc.
    { unfold db_build in E. destruct (db_levels _); [done|].
      destruct (has_zero_factor _); [done|]. destruct (has_decrease _); [done|].
      by injection E as <- <-. }
    destruct d. simpl in *. by subst.
  - destruct e; try done.
    + destruct Hs as (l & Hl & H0). apply Hf in Hl. rewrite Forall_forall in Hnz.
      by apply Hnz in Hl.
    + destruct Hs as (_ & a & b & Ha & Hb & Hlt & Hf'). apply Hf in Ha, Hb.
      rewrite ascending_factors in Hfac by done. specialize (Hfac a b Ha Hb Hlt). lia.
Qed.

Lemma ladder_buildable ls : ladder ls -> buildable (Defense ls 0).
Proof.
  intros H. exists (DBAdd <$> ls). split; [|by apply ladder_rebuild].
  rewrite offered_adds. by destruct H.
Qed.

(** ** Navigation *)
Definition wf (d : defense) : Prop := d_levels d <> [] /\ d_current d < vlen (d_levels d) /\
                                      vlen (d_levels d) <= u64_max.

Lemma vlen_pos {A} (l : list A) : l <> [] -> 0 < vlen l.
Proof. destruct l; [done|]. unfold vlen. simpl. lia. Qed.

Lemma vget_lt {A} (l : list A) i : i < vlen l -> exists a, vget l i = Some a /\ l !! N.to_nat i = Some a.
Proof.
  unfold vget, vlen. intros H. replace (_ <? _) with true by lia.
  destruct (lookup_lt_is_Some_2 l (N.to_nat i)) as [a Ha]; [lia|]. eauto.
Qed.
Lemma vindex_lt {A} (l : list A) i : i < vlen l -> exists a, vindex l i = Val a /\ l !! N.to_nat i = Some a.
Proof. intros H. destruct (vget_lt l i H) as (a & H1 & H2). exists a. unfold vindex. by rewrite H1. Qed.
Lemma vindex_val {A} (l : list A) i a : vindex l i = Val a -> i < vlen l /\ l !! N.to_nat i = Some a.
Proof.
  unfold vindex, vget. destruct (N.ltb_spec i (vlen l)); [|done].
  destruct (l !! N.to_nat i); [|done]. intros [= ->]. done.
Qed.

Lemma d_run_app p d cs1 cs2 :
  d_run p d (cs1 ++ cs2) = olet d' := d_run p d cs1 in d_run p d' cs2.
Proof.
  revert d. induction cs1 as [|c cs IH]; intros d; simpl; [done|].
  destruct (d_apply p d c); simpl; [apply IH|done].
Qed.

Lemma tighten_wf p d :
  wf d -> tighten_up p d = Val (Defense (d_levels d) (N.min (d_current d + 1) (vlen (d_levels d) - 1))).
Proof.
  intros (Hne & Hc & Hlen). apply vlen_pos in Hne. unfold tighten_up, usize_sub.
  replace (1 <=? vlen (d_levels d)) with true by lia. simpl.
  destruct (N.ltb_spec (d_current d) (vlen (d_levels d) - 1)).
  - unfold usize_add. replace (_ <=? u64_max) with true by lia. simpl. do 2 f_equal. lia.
  - destruct d as [ls c]. simpl in *. do 2 f_equal. lia.
Qed.
Lemma loosen_eq d : loosen_up d = Defense (d_levels d) (d_current d - 1).
Proof.
  unfold loosen_up. destruct (N.ltb_spec 0 (d_current d)); [done|].
  destruct d as [ls c]. simpl in *. f_equal. lia.
Qed.
Lemma max_wf p d : wf d -> max_defense p d = Val (Defense (d_levels d) (vlen (d_levels d) - 1)).
Proof.
  intros (Hne & Hc & Hlen). apply vlen_pos in Hne. unfold max_defense, usize_sub.
  by replace (1 <=? vlen (d_levels d)) with true by lia.
Qed.

Lemma nav_snoc n cs c : nav n (cs ++ [c]) = nav1 n (nav n cs) c.
Proof. unfold nav. apply fold_left_snoc. Qed.

Lemma nav_bound n cs : (0 < n)%nat -> (nav n cs < n)%nat.
Proof.
  intros Hn. induction cs as [|c cs IH] using rev_ind; [done|].
  rewrite nav_snoc. destruct c; simpl; lia.
Qed.

Lemma d_run_ladder p ls cs :
  ls <> [] -> vlen ls <= u64_max ->
  d_run p (Defense ls 0) cs = Val (Defense ls (N.of_nat (nav (length ls) cs))).
Proof.
  intros Hne Hlen. assert (0 < length ls)%nat as Hpos by (destruct ls; simpl; [done|lia]).
  induction cs as [|c cs IH] using rev_ind; [done|].
  rewrite d_run_app, IH, nav_snoc. cbn [obind d_run].
  pose proof (nav_bound (length ls) cs Hpos) as Hb.
  assert (wf (Defense ls (N.of_nat (nav (length ls) cs)))) as Hwf.
  { split; [done|]. unfold vlen in *; simpl. lia. }
  destruct c; simpl.
  - rewrite tighten_wf by done. simpl. do 2 f_equal. unfold vlen. lia.
  - rewrite loosen_eq. simpl. do 2 f_equal. lia.
  - rewrite max_wf by done. simpl. do 2 f_equal. unfold vlen. lia.
  - done.
Qed.

Lemma navigation_spec p d cs :
  buildable d ->
  exists d' l,
    d_run p d cs = Val d' /\ d_levels d' = d_levels d /\
    d_levels d !! nav (length (d_levels d)) cs = Some l /\
    current_level d' = Val l /\ get_difficulty d' = Val (difficulty_factor l).
Proof.
  intros Hb. destruct (buildable_ladder d Hb) as [Hl H0].
  assert (d = Defense (d_levels d) 0) as Hd by (destruct d; simpl in *; by subst).
  assert (vlen (d_levels d) <= u64_max) as Hlen.
  { destruct Hl. unfold u32_max, u64_max in *. lia. }
  pose proof (d_run_ladder p (d_levels d) cs (ladder_nonempty _ Hl) Hlen) as Hr.
  assert (0 < length (d_levels d))%nat as Hpos.
  { destruct Hl. destruct (d_levels d); simpl; [done|lia]. }
  pose proof (nav_bound (length (d_levels d)) cs Hpos) as Hbd.
  destruct (vindex_lt (d_levels d) (N.of_nat (nav (length (d_levels d)) cs))) as (l & Hv & Hlk).
  { unfold vlen. lia. }
  rewrite Nat2N.id in Hlk.
  exists (Defense (d_levels d) (N.of_nat (nav (length (d_levels d)) cs))), l.
  rewrite Hd at 1. split; [done|]. split; [done|]. split; [done|].
  unfold current_level, get_difficulty. simpl. by rewrite Hv.
Qed.

Lemma reachable_wf p d : reachable_defense p d -> ladder (d_levels d) /\ wf d.
Proof.
  intros (d0 & cs & Hb & Hr). destruct (navigation_spec p d0 cs Hb) as (d' & l & Hr' & Hl & _ & Hc & _).
  rewrite Hr' in Hr. injection Hr as ->. destruct (buildable_ladder d0 Hb) as [Hlad _].
  split; [by rewrite Hl|]. unfold current_level in Hc. apply vindex_val in Hc as [Hc _].
  rewrite <- Hl in Hlad. destruct Hlad. split; [done|]. split; [done|].
  unfold u32_max, u64_max in *. lia.
Qed.

Lemma factors_mono ls i j a b :
  factors_nondecreasing ls -> (i <= j)%nat -> ls !! i = Some a -> ls !! j = Some b ->
  difficulty_factor a <= difficulty_factor b.
Proof.
  unfold factors_nondecreasing. intros Hs. revert i j. induction Hs as [|h r Hs IH Hh]; intros i j Hij Ha Hb.
  - by rewrite lookup_nil in Ha.
  - rewrite Forall_forall in Hh. destruct i as [|i], j as [|j]; simpl in *.
    + assert (a = b) by congruence. subst. lia.
    + injection Ha as ->. apply Hh. by eapply elem_of_list_lookup_2.
    + lia.
    + apply (IH i j); [lia|done..].
Qed.

Lemma tighten_loosen_monotone p d :
  reachable_defense p d ->
  exists f, get_difficulty d = Val f /\
    (exists d' f', tighten_up p d = Val d' /\ get_difficulty d' = Val f' /\ f <= f') /\
    (exists f', get_difficulty (loosen_up d) = Val f' /\ f' <= f) /\
    (exists d' f', max_defense p d = Val d' /\ get_difficulty d' = Val f' /\
       (exists l, l ∈ d_levels d /\ difficulty_factor l = f') /\
       forall l, l ∈ d_levels d -> difficulty_factor l <= f') /\
    (exists f', get_difficulty (min_defense d) = Val f' /\
       (exists l, l ∈ d_levels d /\ difficulty_factor l = f') /\
       forall l, l ∈ d_levels d -> f' <= difficulty_factor l).
Proof.
  intros Hr. destruct (reachable_wf p d Hr) as [Hl Hwf]. pose proof Hwf as (Hne & Hc & Hlen).
  pose proof (vlen_pos _ Hne) as Hpos. pose proof (ladder_factors _ Hl) as Hf.
  assert (Hgd : forall c, c < vlen (d_levels d) ->
            exists l, get_difficulty (Defense (d_levels d) c) = Val (difficulty_factor l) /\
                      d_levels d !! N.to_nat c = Some l).
  { intros c Hcc. destruct (vindex_lt (d_levels d) c Hcc) as (l & Hv & Hlk).
    exists l. unfold get_difficulty. simpl. by rewrite Hv. }
  destruct (Hgd (d_current d) Hc) as (l & Hgl & Hlk).
  assert (d = Defense (d_levels d) (d_current d)) as Hd by by destruct d.
  exists (difficulty_factor l). split; [by rewrite Hd|]. split; [|split; [|split]].
  - rewrite tighten_wf by done.
    destruct (Hgd (N.min (d_current d + 1) (vlen (d_levels d) - 1))) as (l' & Hgl' & Hlk'); [lia|].
    eexists _, _. split; [done|]. split; [done|]. eapply factors_mono; [done| |done..]. lia.
  - rewrite loosen_eq. destruct (Hgd (d_current d - 1)) as (l' & Hgl' & Hlk'); [lia|].
    eexists. split; [done|]. eapply factors_mono; [done| |done..]. lia.
  - rewrite max_wf by done.
    destruct (Hgd (vlen (d_levels d) - 1)) as (l' & Hgl' & Hlk'); [lia|].
    eexists _, _. split; [done|]. split; [done|]. split.
    + exists l'. split; [by eapply elem_of_list_lookup_2|done].
    + intros x Hx. apply elem_of_list_lookup in Hx as [i Hi].
      eapply factors_mono; [done| |done..]. apply lookup_lt_Some in Hi. unfold vlen. lia.
  - unfold min_defense. destruct (Hgd 0) as (l' & Hgl' & Hlk'); [lia|].
    eexists. split; [done|]. split.
    + exists l'. split; [by eapply elem_of_list_lookup_2|done].
    + intros x Hx. apply elem_of_list_lookup in Hx as [i Hi].
      eapply factors_mono; [done| |done..]. lia.
Qed.

(** Navigation at the ends. *)
Lemma tighten_at_top p d :
  reachable_defense p d -> d_current d = vlen (d_levels d) - 1 -> tighten_up p d = Val d.
Proof.
  intros Hr Hc. destruct (reachable_wf p d Hr) as [_ Hwf]. rewrite tighten_wf by done.
  destruct Hwf as (Hne & _). apply vlen_pos in Hne. destruct d as [ls c]. simpl in *. do 2 f_equal. lia.
Qed.

(** ** The threshold accessor *)
Lemma visitor_threshold_is_factor d : defense_visitor_threshold d = get_difficulty d.
Proof. done. Qed.

(** ** Documented difficulty *)
Lemma documented_difficulty_strict f g :
  1 <= f -> f < g -> g <= u32_max ->
  exists a b, documented_difficulty f = Val a /\ documented_difficulty g = Val b /\ a < b.
Proof.
  intros Hf Hfg Hg. unfold documented_difficulty.
  replace (f =? 0) with false by lia. replace (g =? 0) with false by lia.
  eexists _, _. split; [done|]. split; [done|].
  assert (u128_max / f <= u128_max) as H0.
  { apply N.div_le_upper_bound; [lia|]. nia. }
  assert (u128_max / g < u128_max / f); [|lia].
  assert (u128_max / g <= u128_max / (f + 1)) as H1.
  { apply N.div_le_compat_l. lia. }
  assert (u128_max / (f + 1) < u128_max / f); [|lia].
  (* q = M/(f+1); (q+1)*f <= M because q*(f+1) <= M and q - f >= 0 *)
  set (q := u128_max / (f + 1)). assert (q * (f + 1) <= u128_max) as Hq.
  { unfold q. rewrite N.mul_comm. apply N.mul_div_le. lia. }
  assert (f <= q) as Hfq.
  { unfold q. apply N.div_le_lower_bound; [lia|].
    unfold u32_max in Hg. assert (f <= 4294967294) by lia. unfold u128_max. nia. }
  apply N.lt_le_trans with (q + 1); [lia|]. apply N.div_le_lower_bound; [lia|]. nia.
Qed.
Lemma documented_difficulty_one : documented_difficulty 1 = Val 0.
Proof. reflexivity. Qed.
Lemma documented_difficulty_panic f : documented_difficulty f = Panic <-> f = 0.
Proof. unfold documented_difficulty. destruct (N.eqb_spec f 0); split; try done. Qed.
