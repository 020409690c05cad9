(** Visitors in bulk: visits with the requests behind them, their order in time,
    and how many of them can be told less than the top difficulty. *)
From Coq Require Import ZifyBool ZifyN ZifyNat Lia.
From Verif Require Import Model.Base Model.Defense Model.MCaptcha Model.Counter Model.HashCache Model.Queue Model.Pow
  Model.System Model.Master
  Spec.DefenseSpec Spec.MCaptchaSpec Spec.CounterSpec Spec.CacheSpec Spec.MasterSpec Spec.SystemSpec Spec.SiteSpec Spec.BulkSpec
  Proofs.DefenseProofs Proofs.MCaptchaProofs Proofs.MasterProofs Proofs.SystemProofs Proofs.SystemHistory
  Proofs.SystemVisits Proofs.SiteCounter Proofs.SiteProofs
  Proofs.MCaptchaTheorems Proofs.MasterTheorems Proofs.SiteTheorems.
Import Master.

(** * Lists *)
Lemma inj_list {A B} (R : A -> B -> Prop) (P : B -> Prop) (l : list A) :
  NoDup l -> (forall x, x ∈ l -> exists y, R x y /\ P y) -> (forall x x' y, R x y -> R x' y -> x = x') ->
  exists l', length l' = length l /\ NoDup l' /\ Forall P l' /\ (forall y, y ∈ l' -> exists x, x ∈ l /\ R x y).
Proof.
  intros Hnd. induction Hnd as [|x l Hx Hnd IH]; intros Hex Hinj.
  - exists []. split_and!; try constructor. by intros y ?%elem_of_nil.
  - destruct IH as (l' & H1 & H2 & H3 & H4); [intros y Hy; apply Hex; by right|done|].
    destruct (Hex x) as (y & Hy & Py); [by left|]. exists (y :: l'). split_and!.
    + cbn. lia.
    + constructor; [|done]. intros Hin. destruct (H4 _ Hin) as (x' & Hx' & Hr). by rewrite (Hinj _ _ _ Hy Hr) in Hx.
    + by constructor.
    + intros z [->|Hz]%elem_of_cons; [exists x; split; [by left|done]|].
      destruct (H4 _ Hz) as (x' & ? & ?). exists x'. split; [by right|done].
Qed.
Lemma range_length (l : list nat) a b : NoDup l -> Forall (fun i => a <= i < a + b)%nat l -> (length l <= b)%nat.
Proof.
  intros Hnd Hf. rewrite <- (seq_length b a). apply submseteq_length, NoDup_submseteq; [done|].
  intros i Hi. rewrite Forall_forall in Hf. apply elem_of_seq. by apply Hf.
Qed.
Lemma filter_tail {A} (P : A -> Prop) `{forall x, Decision (P x)} (l : list A) a :
  (forall j x, l !! j = Some x -> (a <= j)%nat -> P x) -> (length l - a <= length (filter P l))%nat.
Proof.
  intros Hp. rewrite <- (take_drop a l) at 2. rewrite filter_app, app_length.
  assert (filter P (drop a l) = drop a l) as ->.
  { assert (Forall P (drop a l)) as Hf.
    { apply Forall_lookup. intros j x Hx. rewrite lookup_drop in Hx. apply (Hp _ _ Hx). lia. }
    induction Hf as [|x r Hx Hf IH]; [done|]. rewrite filter_cons_True by done. by rewrite IH. }
  rewrite drop_length. lia.
Qed.
(** A list in order of time is cut by every moment. *)
Lemma sorted_cut {B} (l : list (N * B)) (t1 : N) :
  (forall j k x y, l !! j = Some x -> l !! k = Some y -> (j <= k)%nat -> fst x <= fst y) ->
  exists a, forall j x, l !! j = Some x -> ((j < a)%nat <-> fst x < t1).
Proof.
  induction l as [|x l IH]; intros Hs; [by exists 0%nat|].
  destruct (N.ltb_spec (fst x) t1) as [Hx|Hx].
  - destruct IH as (a & Ha). { intros j k y z Hy Hz Hjk. apply (Hs (S j) (S k)); [done|done|lia]. }
    exists (S a). intros [|j] y Hy; cbn in Hy. { injection Hy as ->. split; [done|lia]. }
    rewrite <- (Ha _ _ Hy). lia.
  - exists 0%nat. intros j y Hy. pose proof (Hs 0%nat j x y eq_refl Hy ltac:(lia)). lia.
Qed.

(** * Visits with the requests behind them *)
Definition tagged (l : mlog) (c : nat) (o : mout) : option (option nat * add_visitor_result) :=
  match o with
  | MoReply k (MrVisit (Ok (Some v))) => if decide (routed l k = Some c) then Some (Some k, v) else None
  | MoDirect c' (CrAdded v) => if decide (c' = c) then Some (None, v) else None
  | _ => None
  end.
Fixpoint tvisits (t : N) (c : nat) (l : mlog) : list (N * (option nat * add_visitor_result)) :=
  match l with
  | [] => []
  | (_, o) :: r => tvisits t c r ++ (pair (log_time t r) <$> omap (tagged r c) o)
  end.
Definition untag (x : N * (option nat * add_visitor_result)) : N * add_visitor_result := (fst x, snd (snd x)).
Lemma said_tagged l c o : said l c o = snd <$> tagged l c o.
Proof. destruct o as [|k [[[v|]|]| | | | |]|c' []]; try done; cbn; by destruct (decide _). Qed.
Lemma visits_untag t c l : visits t c l = untag <$> tvisits t c l.
Proof.
  induction l as [|[e o] l IH]; [done|]. cbn. rewrite fmap_app, <- IH. f_equal.
  induction o as [|x o IHo]; [done|]. cbn. rewrite said_tagged. destruct (tagged l c x); cbn; [by rewrite IHo|done].
Qed.

(** * Time *)
Lemma log_time_app t l1 l2 : log_time t l2 <= log_time t (l1 ++ l2).
Proof.
  induction l1 as [|[e o] l1 IH]; [done|]. cbn. destruct e; lia.
Qed.
Lemma visits_before t c l : Forall (fun x => fst x <= log_time t l) (visits t c l).
Proof.
  induction l as [|[e o] l IH]; [constructor|]. cbn [visits]. pose proof (log_time_app t [(e, o)] l) as Hle. cbn [app] in Hle.
  apply Forall_app. split.
  - eapply Forall_impl; [exact IH|]. cbn beta. intros; lia.
  - apply Forall_fmap, Forall_true. intros v. exact Hle.
Qed.
Lemma visits_sorted t c l : forall j k x y,
  visits t c l !! j = Some x -> visits t c l !! k = Some y -> (j <= k)%nat -> fst x <= fst y.
Proof.
  induction l as [|[e o] l IH]; intros j k x y Hx Hy Hjk; [done|]. cbn [visits] in Hx, Hy.
  pose proof (visits_before t c l) as Hb. rewrite Forall_lookup in Hb.
  apply lookup_app_Some in Hx as [Hx|[Hxl Hx]]; apply lookup_app_Some in Hy as [Hy|[Hyl Hy]].
  - by eapply IH.
  - apply list_lookup_fmap_inv in Hy as (v & -> & _). cbn. by apply (Hb _ _ Hx).
  - apply lookup_lt_Some in Hy. lia.
  - apply list_lookup_fmap_inv in Hx as (v & -> & _). apply list_lookup_fmap_inv in Hy as (w & -> & _). cbn. lia.
Qed.

(** * At most so many visitors per window are told less than the difficulty of a level *)
Lemma bulk_window d t1 a (vs : list (N * add_visitor_result)) i tm v :
  (forall q x, vs !! q = Some x -> (a <= q)%nat <-> t1 <= fst x) ->
  vs !! i = Some (tm, v) -> tm < t1 + d * NS -> N.of_nat (i - a) <= window d tm (take i vs.*1).
Proof.
  intros Ha Hi Ht. unfold window, count.
  pose proof (filter_tail (fun x => tm < x + d * NS) (take i vs.*1) a) as Hf.
  rewrite take_length, fmap_length in Hf. pose proof (lookup_lt_Some _ _ _ Hi) as Hlt.
  replace (i `min` length vs)%nat with i in Hf by lia.
  enough (i - a <= length (filter (fun x => (tm < x + d * NS)%N) (take i vs.*1)))%nat by lia.
  apply Hf. intros q x Hx Haq. apply lookup_take_Some in Hx as [Hx _].
  apply list_lookup_fmap_inv in Hx as (x' & -> & Hx). pose proof (Ha _ _ Hx). lia.
Qed.
(** Where the visits told less than level [lv'] are, and (when [lv] is the level
    below) that no two of them are neighbours beyond the threshold of [lv]. *)
Lemma bulk_index p t gc es s tr c t0 m lv' t1 :
  m_run p (m_start t gc) es = Some (s, tr) ->
  let l := m_log p (m_start t gc) es [] in let vs := visits t c l in let ls := d_levels (m_defense m) in
  registered t c l = Some (t0, m) -> built_mcaptcha p m -> ~ restored c l -> count vs.*1 <= u32_max ->
  lv' ∈ ls ->
  let cheap i := exists tm v, vs !! i = Some (tm, v) /\ t1 <= tm /\ tm < t1 + m_duration m * NS /\
    avr_difficulty_factor v < difficulty_factor lv' in
  exists a, (forall i, cheap i -> (a <= i)%nat /\ (i < a + N.to_nat (visitor_threshold lv'))%nat) /\
    (forall q lv i, ls !! q = Some lv -> ls !! S q = Some lv' -> (a + N.to_nat (visitor_threshold lv) <= i)%nat ->
      cheap i -> cheap (S i) -> False).
Proof.
  intros Hr l vs ls Hreg Hb Hnr Hfit Hlv cheap.
  destruct (sorted_cut vs t1 (visits_sorted t c l)) as [a Ha]. exists a. split.
  - intros i (tm & v & Hi & Ht1 & Ht2 & Hd).
    assert (a <= i)%nat as Hai. { pose proof (Ha _ _ Hi) as Hc. cbn in Hc. lia. } split; [done|].
    destruct (decide (i < a + N.to_nat (visitor_threshold lv'))%nat) as [|Hge]; [done|]. exfalso.
    pose proof (c89_busy_site p t gc es s tr c t0 m i tm v lv' Hr Hreg Hb Hnr Hfit Hi Hlv) as Hbusy. fold l vs in Hbusy.
    pose proof (bulk_window (m_duration m) t1 a vs i tm v ltac:(intros q x Hx; specialize (Ha _ _ Hx); lia) Hi Ht2) as Hw. lia.
  - intros q lv i Hq Hq' Hai (tm & v & Hi & Ht1 & Ht2 & Hd) (tm' & v' & Hi' & Ht1' & Ht2' & Hd').
    pose proof (c89_alternates p t gc es s tr c t0 m i tm v tm' v' q lv lv' Hr Hreg Hb Hnr Hfit Hi Hi' Hq Hq') as Halt. fold l vs in Halt.
    pose proof (bulk_window (m_duration m) t1 a vs i tm v ltac:(intros ? x Hx; specialize (Ha _ _ Hx); lia) Hi Ht2) as Hw.
    pose proof (bulk_window (m_duration m) t1 a vs (S i) tm' v' ltac:(intros ? x Hx; specialize (Ha _ _ Hx); lia) Hi' Ht2') as Hw'.
    destruct Halt as [?|?]; lia.
Qed.
Lemma filter_split_length {A} (P : A -> Prop) `{!forall x, Decision (P x)} (l : list A) :
  length l = (length (filter P l) + length (filter (fun x => ~ P x) l))%nat.
Proof.
  induction l as [|x l IH]; [done|]. rewrite !filter_cons. destruct (decide (P x)) as [Hx|Hx].
  - rewrite decide_False by (by intros ?). cbn. lia.
  - rewrite decide_True by done. cbn. lia.
Qed.
(** Numbers of a range, no two of them neighbours. *)
Lemma apart_length (l : list nat) b n :
  NoDup l -> Forall (fun i => b <= i < b + n)%nat l -> (forall i, i ∈ l -> S i ∈ l -> False) -> (length l <= (n + 1) / 2)%nat.
Proof.
  intros Hnd Hf Hap. set (g i := ((i - b) / 2)%nat). rewrite <- (fmap_length g l). apply (range_length _ 0).
  - rewrite Forall_forall in Hf. revert Hnd Hf Hap. clear. induction l as [|x l IH]; intros Hnd Hf Hap; [constructor|].
    apply NoDup_cons in Hnd as [Hx Hnd]. rewrite fmap_cons. apply NoDup_cons. split.
    + intros Hin. apply elem_of_list_fmap in Hin as (y & Hxy & Hy). unfold g in Hxy.
      assert (b <= x)%nat as Hbx by (apply Hf; by left). assert (b <= y)%nat as Hby by (apply Hf; by right).
      pose proof (Nat.div_mod (x - b) 2 ltac:(lia)). pose proof (Nat.div_mod (y - b) 2 ltac:(lia)).
      pose proof (Nat.mod_upper_bound (x - b) 2 ltac:(lia)). pose proof (Nat.mod_upper_bound (y - b) 2 ltac:(lia)).
      assert (x = y \/ y = S x \/ x = S y)%nat as [->|[->| ->]].
      { generalize dependent ((x - b) / 2)%nat. generalize dependent ((y - b) / 2)%nat. generalize dependent ((y - b) mod 2)%nat.
        generalize dependent ((x - b) mod 2)%nat. intros; lia. }
      * done.
      * apply (Hap x); [by left|by right].
      * apply (Hap y); [by right|by left].
    + apply IH; [done| |].
      * intros i Hi. apply Hf. by right.
      * intros i Hi Hs. apply (Hap i); by right.
  - apply Forall_fmap. eapply Forall_impl; [exact Hf|]. cbv beta. intros i Hi. unfold g. split; [apply Nat.le_0_l|].
    pose proof (Nat.div_mod (i - b) 2 ltac:(lia)). pose proof (Nat.div_mod (n + 1) 2 ltac:(lia)).
    pose proof (Nat.mod_upper_bound (n + 1) 2 ltac:(lia)). rewrite Nat.add_0_l.
    generalize dependent ((i - b) / 2)%nat. generalize dependent ((i - b) mod 2)%nat.
    generalize dependent ((n + 1) / 2)%nat. generalize dependent ((n + 1) mod 2)%nat. intros; lia.
Qed.

(** * The visit behind a challenge *)
Lemma ticks_app a b : ticks (a ++ b) = ticks a + ticks b.
Proof. induction a as [|x a IH]; [done|]. cbn [app ticks]. destruct x; rewrite ?IH; lia. Qed.
Lemma log_time_ticks p t s es s' tr : m_run p s es = Some (s', tr) -> log_time t (m_log p s es []) = t + ticks es.
Proof.
  revert s' tr. induction es as [|e es IH] using rev_ind; intros s' tr Hr; [cbn; lia|].
  apply m_run_snoc in Hr as (s2 & tr1 & o & H1 & H2 & ->).
  rewrite (m_log_snoc _ _ _ _ _ _ _ _ H1 H2). cbn [log_time]. rewrite (IH _ _ H1).
  rewrite ticks_app. destruct e; cbn; lia.
Qed.
Lemma tvisits_app t c l1 l2 i x : tvisits t c l2 !! i = Some x -> tvisits t c (l1 ++ l2) !! i = Some x.
Proof.
  intros H. induction l1 as [|[e o] l1 IH]; [done|]. cbn. by apply lookup_app_l_Some.
Qed.
Lemma reply_visit p t gc es1 es2 s1 tr1 s tr k v :
  m_run p (m_start t gc) es1 = Some (s1, tr1) -> m_run p (m_start t gc) (es1 ++ es2) = Some (s, tr) ->
  (my_reqs s1 <= k)%nat -> MoReply k (MrVisit (Ok (Some v))) ∈ tr ->
  let l := m_log p (m_start t gc) (es1 ++ es2) [] in
  exists c i tm, routed l k = Some c /\ tvisits t c l !! i = Some (tm, (Some k, v)) /\
    t + ticks es1 <= tm <= t + ticks (es1 ++ es2).
Proof.
  intros Hr1 Hr Hk Hin l. pose proof Hr as Hr'.
  apply m_run_app in Hr' as (s1' & tr1' & tr2 & R1 & R2 & ->). rewrite Hr1 in R1. injection R1 as <- <-.
  assert (MoReply k (MrVisit (Ok (Some v))) ∈ tr2) as Hin2.
  { apply elem_of_app in Hin as [Hin|Hin]; [|done]. apply elem_of_answers in Hin.
    rewrite (m_run_early _ _ _ _ _ _ _ Hr1 Hk) in Hin. by apply elem_of_nil in Hin. }
  destruct (log_step _ _ _ _ _ _ R2 Hin2) as (ea & e & eb & sa & tra & sb & o & -> & H1 & H2 & Ho).
  assert (m_run p (m_start t gc) (es1 ++ ea) = Some (sa, tr1 ++ tra)) as H1' by (apply m_run_app; eauto 10).
  pose proof (site_inv_run _ _ _ _ _ _ H1') as Hi. pose proof (run_inv _ _ _ _ _ _ H1') as Hm.
  assert (l = m_log p sb eb [] ++ (e, o) :: m_log p (m_start t gc) (es1 ++ ea) []) as El.
  { unfold l. rewrite app_assoc, (m_log_app _ _ _ _ _ _ H1'). cbn [m_log]. rewrite H2, m_log_acc, <- app_assoc. done. }
  assert (t + ticks es1 <= log_time t (m_log p (m_start t gc) (es1 ++ ea) []) <= t + ticks (es1 ++ ea ++ e :: eb)) as Htm.
  { rewrite <- (log_time_ticks _ t _ _ _ _ Hr1), <- (log_time_ticks _ t _ _ _ _ Hr). fold l. rewrite El.
    split; [rewrite (m_log_app _ _ _ _ _ _ Hr1); apply log_time_app|].
    etransitivity; [|apply log_time_app]. apply (log_time_app t [(e, o)]). }
  rewrite El. clear El.
  destruct (m_step_effect _ _ _ _ _ H2) as [s' o Hc Hn Hsil Hnr Hnt|d s' He Hc Hn|id m s' o Hc Hn Hsil Hh Hnt|c id x x' s' He Hx Hf Hc Hn
      |c msg x x' r s' He Hx Hh Hc Hn|tk k0 c x x' r s' He Ht Hx Hh Hc Hn|tk c msg x x' r s' o He Hx Hh Hc Hn Hsil Hnr Hna Hset].
  - unfold silent in Hsil. rewrite Forall_forall in Hsil. by specialize (Hsil _ Ho).
  - by apply elem_of_nil in Ho.
  - unfold silent in Hsil. rewrite Forall_forall in Hsil. by specialize (Hsil _ Ho).
  - by apply elem_of_nil in Ho.
  - by apply elem_of_list_singleton in Ho.
  - destruct (sv_visit _ _ _ _ _ _ Hi _ _ _ Ht) as (k' & -> & Hk'). cbn in Ho. apply elem_of_list_singleton in Ho.
    injection Ho as -> Hv. destruct r as [v'| | | |]; try done. injection Hv as ->.
    destruct (mv_task _ Hm _ _ Ht) as (_ & _ & Hq & _). apply Forall_cons in Hq as [Hq _].
    rewrite (sv_req _ _ _ _ _ _ Hi) in Hq.
    exists c, (length (tvisits t c (m_log p (m_start t gc) (es1 ++ ea) []))), (log_time t (m_log p (m_start t gc) (es1 ++ ea) [])).
    split; [rewrite routed_app; [by rewrite routed_cons|]; cbn; by rewrite He|]. split; [|done].
    apply tvisits_app. cbn [tvisits]. rewrite lookup_app_r, Nat.sub_diag by done. cbn. by rewrite decide_True.
  - unfold silent in Hsil. rewrite Forall_forall in Hsil. by specialize (Hsil _ Ho).
Qed.

(** ** From the System's observations *)
Lemma cache_step_quiet p l s e s' oa n m r ob :
  s_step p l s e = Some (s', oa ++ SoCache (Some n) (HeMsg m) r :: ob) ->
  mtrace (oa ++ SoCache (Some n) (HeMsg m) r :: ob) = [].
Proof.
  intros H. apply s_step_case in H. remember (oa ++ SoCache (Some n) (HeMsg m) r :: ob) as o eqn:E.
  destruct H; try done; cbn; try done; exfalso;
    assert (SoCache (Some n) (HeMsg m) r ∈ oa ++ SoCache (Some n) (HeMsg m) r :: ob) as Hin by set_solver;
    rewrite <- E in Hin; elem_cases; simplify_eq.
Qed.
Lemma split_eq {A} (a b a' b' : list A) x x' :
  a ++ x :: b = a' ++ x' :: b' ->
  (a = a' /\ x = x' /\ b = b') \/ (exists c, a' = a ++ x :: c) \/ (exists c, a = a' ++ x' :: c).
Proof.
  revert a'. induction a as [|y a IH]; intros [|y' a'] H; cbn in H; injection H as -> H.
  - left. done.
  - right. left. exists a'. done.
  - right. right. exists a. done.
  - destruct (IH _ H) as [(-> & -> & ->)|[[c ->]|[c ->]]]; [left|right; left|right; right]; eauto.
Qed.
Lemma requests_app a b : requests (a ++ b) = (requests a + requests b)%nat.
Proof. unfold requests. by rewrite List.filter_app, app_length. Qed.
Lemma asked_inj tr n id n' id' k : asked tr n id k -> asked tr n' id' k -> n = n'.
Proof.
  intros (a & os & b & -> & Hk) (a' & os' & b' & E & Hk'). apply split_eq in E as [(-> & E & _)|[[c ->]|[c ->]]].
  - by injection E.
  - exfalso. rewrite mtrace_app in Hk'. cbn in Hk'. rewrite requests_app in Hk'. cbn in Hk'. lia.
  - exfalso. rewrite mtrace_app in Hk. cbn in Hk. rewrite requests_app in Hk. cbn in Hk. lia.
Qed.
Lemma issue_story p l t gc wk ql es s tr n m r :
  s_run p l (sys_start t gc wk ql) es = Some (s, tr) -> SoCache (Some n) (HeMsg (HmCachePoW m)) r ∈ tr ->
  exists id v os f, of_client n tr =
      [SoCall n (CGetPow id); SoMaster (Some n) (MeReq (RqAddVisitor id)) os;
       SoCache (Some n) (HeMsg (HmCachePoW m)) (Some (HrUnit (Ok tt)))] ++ f /\
    (f = [] \/ f = [SoCancel n] \/
     exists cfg, f = [SoRet n (RGetPow (Ok (Some cfg)))] /\ pc_string cfg = cp_string m /\ pc_difficulty_factor cfg = cp_difficulty_factor m) /\
    cp_difficulty_factor m = avr_difficulty_factor v /\ cp_key m = id /\ visited tr n id v.
Proof.
  intros Hr Hin. assert (SoCache (Some n) (HeMsg (HmCachePoW m)) r ∈ of_client n tr) as Hc by (by apply elem_of_of_client).
  pose proof (run_story _ _ _ _ _ _ _ _ _ Hr n) as Hst.
  inversion Hst as [Hx|id0 f0 Hf0 Hx|id0 os0 f0 Hf0 Hx|id0 os0 cfg0 v0 f0 Hv0 Hd0 Hs0 Hf0 Hx|w0 ip0 f0 Hf0 Hx
    |w0 ip0 c0 f0 Hk0 Hf0 Hx|w0 ip0 c0 f0 Hk0 Hf0 Hx|w0 ip0 c0 tok0 f0 Hk0 Hg0 Hf0 Hx|m0 f0 Hf0 Hx|m0 b0 f0 Hf0 Hx];
    rewrite <- Hx in Hc; unfold issue_log, visit_log, queued_log, taken_log, retrieve_out, mint_out in Hc.
  4:{ assert (f0 = [] \/ f0 = [SoCancel n] \/ f0 = [SoRet n (RGetPow (Ok (Some cfg0)))]) as Hf by done.
      assert (m = CachePoW (pc_string cfg0) (pc_difficulty_factor cfg0) (avr_duration v0) id0) as ->.
      { destruct Hf as [->|[->| ->]]; elem_cases; by simplify_eq. }
      exists id0, v0, os0, f0. split; [reflexivity|]. split; [|done].
      destruct Hf as [->|[->| ->]]; [by left|by right; left|]. right. right. by exists cfg0. }
  all: exfalso; repeat match goal with
    | H : _ \/ _ |- _ => destruct H
    | H : _ /\ _ |- _ => destruct H
    | H : exists _, _ |- _ => destruct H
    end; subst; elem_cases; simplify_eq.
Qed.
(** A client asks the Master once. *)
Lemma asked_once n tr pre1 i1 o1 post1 pre2 i2 o2 post2 id os x f :
  of_client n tr = [SoCall n (CGetPow id); SoMaster (Some n) (MeReq (RqAddVisitor id)) os; x] ++ f ->
  (forall e o, SoMaster (Some n) e o ∉ x :: f) ->
  tr = pre1 ++ SoMaster (Some n) (MeReq (RqAddVisitor i1)) o1 :: post1 ->
  tr = pre2 ++ SoMaster (Some n) (MeReq (RqAddVisitor i2)) o2 :: post2 ->
  pre1 = pre2 /\ i1 = i2 /\ o1 = o2 /\ post1 = post2.
Proof.
  intros Ho Hx E1 E2.
  assert (forall a b j1 q1 j2 q2, SoMaster (Some n) (MeReq (RqAddVisitor j1)) q1 ∈ a ->
       of_client n (a ++ SoMaster (Some n) (MeReq (RqAddVisitor j2)) q2 :: b) = of_client n tr -> False) as Htwice.
  { intros a b j1 q1 j2 q2 Ha Hab. rewrite Ho in Hab. unfold of_client in Hab. rewrite filter_app, filter_cons_True in Hab by done.
    assert (SoMaster (Some n) (MeReq (RqAddVisitor j1)) q1 ∈ filter (fun o => who o = Some n) a) as Ha'
      by (by apply elem_of_list_filter).
    revert Hab Ha'. generalize (filter (fun o => who o = Some n) a), (filter (fun o => who o = Some n) b). intros fa fb Hab Ha'.
    destruct fa as [|x1 [|x2 fa]]; cbn in Hab.
    - by apply elem_of_nil in Ha'.
    - injection Hab as -> _. set_solver.
    - injection Hab as -> -> Hab. apply (Hx (MeReq (RqAddVisitor j2)) q2). rewrite <- Hab. set_solver. }
  pose proof E2 as E. rewrite E1 in E. apply split_eq in E as [(-> & E & ->)|[[y ->]|[y ->]]].
  - by injection E as -> ->.
  - exfalso. eapply (Htwice _ post2 i1 o1 i2 o2); [|by rewrite E2]. set_solver.
  - exfalso. eapply (Htwice _ post1 i2 o2 i1 o1); [|by rewrite E1]. set_solver.
Qed.
Lemma issued_visit p l t gc wk ql es s tr c t1 t2 n m :
  s_run p l (sys_start t gc wk ql) es = Some (s, tr) -> issued t tr c t1 t2 n m ->
  exists id k i tm v, asked tr n id k /\
    tvisits t c (m_log p (m_start t gc) (mtrace tr) []) !! i = Some (tm, (Some k, v)) /\
    t1 <= tm /\ tm < t2 /\ cp_difficulty_factor m = avr_difficulty_factor v.
Proof.
  intros Hr (tr1 & id & os & tr2 & r & tr3 & E & Hb & Ht1 & Ht2). set (x := SoCache (Some n) (HeMsg (HmCachePoW m)) r) in *.
  change (tr1 ++ SoMaster (Some n) (MeReq (RqAddVisitor id)) os :: tr2 ++ x :: tr3)
    with (tr1 ++ (SoMaster (Some n) (MeReq (RqAddVisitor id)) os :: tr2) ++ x :: tr3) in E.
  rewrite app_assoc in E.
  destruct (run_boundary _ _ _ _ _ _ _ _ _ Hr E) as (es1 & e & es2 & s1 & s2 & ta & oa & ob & tb & -> & H1 & H2 & H3 & E1 & ->).
  assert (s_run p l (sys_start t gc wk ql) (es1 ++ [e]) = Some (s2, ta ++ oa ++ x :: ob)) as Hp by (apply s_run_snoc; eauto 10).
  pose proof (cache_step_quiet _ _ _ _ _ _ _ _ _ _ H2) as Hnt. fold x in Hnt.
  set (trp := ta ++ oa ++ x :: ob) in *.
  assert (trp = tr1 ++ SoMaster (Some n) (MeReq (RqAddVisitor id)) os :: tr2 ++ x :: ob) as Etrp.
  { unfold trp. rewrite app_assoc, <- E1, <- app_assoc. done. }
  assert (tr = trp ++ tb) as Etr.
  { rewrite E, Etrp, <- !app_assoc. cbn. by rewrite <- ?app_assoc. }
  destruct (issue_story _ _ _ _ _ _ _ _ _ n m r Hp) as (id' & v & os' & f & Ho & Hf & Hd & _ & Hv).
  { rewrite Etrp. set_solver. }
  destruct Hv as (k & (tr1' & os'' & tr2' & E' & Hk) & Hrep).
  assert (forall e o, SoMaster (Some n) e o ∉ SoCache (Some n) (HeMsg (HmCachePoW m)) (Some (HrUnit (Ok tt))) :: f) as Hnf.
  { intros e' o Hin. destruct Hf as [->|[->|(cfg & -> & _)]]; elem_cases; simplify_eq. }
  destruct (asked_once _ _ _ _ _ _ _ _ _ _ _ _ _ _ Ho Hnf Etrp E') as (<- & <- & <- & <-). clear E'.
  pose proof (s_run_m _ _ _ _ _ _ Hp) as M. cbn [sys_start sy_m] in M.
  destruct (run_boundary _ _ _ _ _ _ _ _ _ Hp Etrp) as (es3 & e3 & es4 & s3 & s4 & ta3 & oa3 & ob3 & tb3 & _ & G1 & G2 & G3 & E3 & _).
  destruct (master_step _ _ _ _ _ _ _ _ _ _ G2) as (-> & _ & _). rewrite app_nil_r in E3. subst ta3.
  pose proof (s_run_m _ _ _ _ _ _ G1) as M1. cbn [sys_start sy_m] in M1.
  pose proof (run_sinv _ _ _ _ _ _ _ _ _ G1) as Hi1.
  rewrite <- (si_reqs _ _ _ _ _ _ Hi1) in Hk.
  assert (mtrace trp = mtrace tr1 ++ MeReq (RqAddVisitor id) :: mtrace (tr2 ++ x :: ob)) as Emt
    by (rewrite Etrp; by rewrite mtrace_app).
  assert (ticks (mtrace trp) = ticks (mtrace (tr1 ++ SoMaster (Some n) (MeReq (RqAddVisitor id)) os :: tr2))) as Etk.
  { rewrite E1. unfold trp. rewrite !mtrace_app, !ticks_app. rewrite mtrace_app in Hnt. apply app_eq_nil in Hnt as [-> ->]. done. }
  rewrite Emt in M. destruct (reply_visit _ _ _ _ _ _ _ _ _ k v M1 M) as (c' & i & tm & Hroute & Hi & Htm).
  { lia. } { exact Hrep. }
  rewrite Hk in Hroute. rewrite (routed_request _ _ _ _ _ _ _ _ _ _ M1 M) in Hroute. rewrite Hb in Hroute. injection Hroute as <-.
  exists id, k, i, tm, v. split_and!.
  - exists tr1, os. eexists. split; [rewrite Etr, Etrp, <- app_assoc; cbn; reflexivity|].
    rewrite <- (si_reqs _ _ _ _ _ _ Hi1). done.
  - rewrite Etr, mtrace_app. rewrite <- Emt in M, Hi. rewrite (m_log_app _ _ _ _ _ _ M). by apply tvisits_app.
  - unfold clock in Ht1. lia.
  - unfold clock in Ht2. rewrite <- Emt, Etk in Htm. lia.
  - done.
Qed.

(** * Every challenge and every token is put into the cache once and taken out once *)
Definition issues (n : nat) (o : sout) : bool :=
  match o with SoCache (Some n') (HeMsg (HmCachePoW _)) _ => (n' =? n)%nat | _ => false end.
Definition mints (n : nat) (o : sout) : bool :=
  match o with SoCache (Some n') (HeMsg (HmCacheResult _)) _ => (n' =? n)%nat | _ => false end.
Definition takes (n : nat) (o : sout) : bool :=
  match o with SoCache (Some n') (HeMsg (HmRetrivePoW _)) _ => (n' =? n)%nat | _ => false end.
Definition checks (n : nat) (o : sout) : bool :=
  match o with SoCache (Some n') (HeMsg (HmVerifyCaptchaResult _)) _ => (n' =? n)%nat | _ => false end.
Lemma story_once l tr n lg : story l tr n lg ->
  (length (List.filter (issues n) lg) <= 1)%nat /\ (length (List.filter (mints n) lg) <= 1)%nat /\
  (length (List.filter (takes n) lg) <= 1)%nat /\ (length (List.filter (checks n) lg) <= 1)%nat.
Proof.
  intros H. destruct H;
    repeat match goal with
    | H : _ \/ _ |- _ => destruct H
    | H : _ /\ _ |- _ => destruct H
    | H : exists _, _ |- _ => destruct H
    end; subst; cbn; rewrite ?Nat.eqb_refl; cbn; lia.
Qed.
Lemma own_filter (P : sout -> bool) n tr : (forall o, P o = true -> who o = Some n) ->
  List.filter P tr = List.filter P (of_client n tr).
Proof.
  intros HP. unfold of_client. induction tr as [|o tr IH]; [done|]. rewrite filter_cons. cbn.
  destruct (decide (who o = Some n)) as [E|E]; cbn.
  - by rewrite IH.
  - destruct (P o) eqn:EP; [by destruct E; apply HP|done].
Qed.
Lemma once_split (P : sout -> bool) tr a x b a' x' b' :
  (length (List.filter P tr) <= 1)%nat -> tr = a ++ x :: b -> tr = a' ++ x' :: b' -> P x = true -> P x' = true ->
  a = a' /\ x = x' /\ b = b'.
Proof.
  intros Hl E1 E2 Hx Hx'. pose proof E2 as E. rewrite E1 in E. apply split_eq in E as [E|[[c ->]|[c ->]]]; [done|exfalso..].
  - rewrite E2, !List.filter_app in Hl. cbn in Hl. rewrite Hx, Hx', !app_length in Hl. cbn in Hl. lia.
  - rewrite E1, !List.filter_app in Hl. cbn in Hl. rewrite Hx, Hx', !app_length in Hl. cbn in Hl. lia.
Qed.
Lemma run_once p l t gc wk ql es s tr n :
  s_run p l (sys_start t gc wk ql) es = Some (s, tr) ->
  (length (List.filter (issues n) tr) <= 1)%nat /\ (length (List.filter (mints n) tr) <= 1)%nat /\
  (length (List.filter (takes n) tr) <= 1)%nat /\ (length (List.filter (checks n) tr) <= 1)%nat.
Proof.
  intros Hr. rewrite (own_filter (issues n) n), (own_filter (mints n) n), (own_filter (takes n) n), (own_filter (checks n) n);
    [eapply story_once, run_story, Hr|..];
    (intros o; destruct o as [| | | |[]|]; try done; destruct e as [[]| |]; try done; cbn; by intros ->%Nat.eqb_eq).
Qed.
Lemma solves_inj p l t gc wk ql es s tr n0 m n m' n' :
  s_run p l (sys_start t gc wk ql) es = Some (s, tr) -> solves tr n0 m n -> solves tr n0 m' n' -> m = m' /\ n = n'.
Proof.
  intros Hr (r & a & b & q & c & d & E & Hq & Hf) (r' & a' & b' & q' & c' & d' & E' & Hq' & Hf').
  destruct (run_once _ _ _ _ _ _ _ _ _ n0 Hr) as (Hone & _).
  destruct (once_split _ _ _ _ _ _ _ _ Hone E E') as (-> & Em & Eb); [cbn; by rewrite Nat.eqb_refl..|].
  injection Em as -> ->. split; [done|]. apply split_eq in Eb as [(_ & Eb & _)|[[x ->]|[x ->]]]; [by injection Eb|exfalso..].
  - unfold ctrace in Hf'. rewrite omap_app, fmap_app in Hf'. cbn in Hf'. apply Forall_app in Hf' as [_ [H _]%Forall_cons].
    cbn in H. by rewrite decide_True in H.
  - unfold ctrace in Hf. rewrite omap_app, fmap_app in Hf. cbn in Hf. apply Forall_app in Hf as [_ [H _]%Forall_cons].
    cbn in H. by rewrite decide_True in H.
Qed.
Lemma presents_inj p l t gc wk ql es s tr n0 m n m' n' :
  s_run p l (sys_start t gc wk ql) es = Some (s, tr) -> presents tr n0 m n -> presents tr n0 m' n' -> m = m' /\ n = n'.
Proof.
  intros Hr (r & a & b & q & d & E & Hq & Hf) (r' & a' & b' & q' & d' & E' & Hq' & Hf').
  destruct (run_once _ _ _ _ _ _ _ _ _ n0 Hr) as (_ & Hone & _).
  destruct (once_split _ _ _ _ _ _ _ _ Hone E E') as (-> & Em & Eb); [cbn; by rewrite Nat.eqb_refl..|].
  injection Em as -> ->. split; [done|]. apply split_eq in Eb as [(_ & Eb & _)|[[x ->]|[x ->]]]; [by injection Eb|exfalso..].
  - unfold ctrace in Hf'. rewrite omap_app, fmap_app in Hf'. cbn in Hf'. apply Forall_app in Hf' as [_ [H _]%Forall_cons].
    cbn in H. by rewrite decide_True in H.
  - unfold ctrace in Hf. rewrite omap_app, fmap_app in Hf. cbn in Hf. apply Forall_app in Hf as [_ [H _]%Forall_cons].
    cbn in H. by rewrite decide_True in H.
Qed.

Lemma last_put {A} (a b a' b' : list A) x x' :
  a ++ x :: b = a' ++ x' :: b' -> x' ∉ b -> x ∉ b' -> a = a' /\ x = x'.
Proof.
  intros E H H'. pose proof E as E0. apply split_eq in E as [(-> & -> & _)|[[c ->]|[c ->]]]; [done|exfalso..].
  - rewrite <- app_assoc in E0. cbn in E0. apply app_inv_head in E0. injection E0 as ->. set_solver.
  - rewrite <- app_assoc in E0. cbn in E0. apply app_inv_head in E0. injection E0 as <-. set_solver.
Qed.
Lemma solves_origin p l t gc wk ql es s tr n0 m n0' m' n :
  s_run p l (sys_start t gc wk ql) es = Some (s, tr) -> solves tr n0 m n -> solves tr n0' m' n -> n0 = n0' /\ m = m'.
Proof.
  intros Hr (r & a & b & q & c & d & E & Hq & Hf) (r' & a' & b' & q' & c' & d' & E' & Hq' & Hf').
  destruct (run_once _ _ _ _ _ _ _ _ _ n Hr) as (_ & _ & Hone & _).
  rewrite app_comm_cons, app_assoc in E, E'.
  destruct (once_split _ _ _ _ _ _ _ _ Hone E E') as (Ea & Eq & _); [cbn; by rewrite Nat.eqb_refl..|].
  injection Eq as -> ->. assert (cp_string m' = cp_string m) as Es by congruence.
  assert (forall x y z w, Forall (fun e => about_challenge (cp_string x) e = None) (ctrace y).*1 -> cp_string z = cp_string x ->
    SoCache (Some w.1) (HeMsg (HmCachePoW z)) w.2 ∉ y) as Hno.
  { intros x y z [w1 w2] Hy Hz Hin. apply elem_of_list_split in Hin as (y1 & y2 & ->). unfold ctrace in Hy.
    rewrite omap_app, fmap_app in Hy. cbn in Hy. apply Forall_app in Hy as [_ [Hy _]%Forall_cons]. cbn in Hy.
    by rewrite decide_True in Hy. }
  apply last_put in Ea as [_ [= -> -> _]]; [done|by eapply (Hno m b m' (n0', r'))|by eapply (Hno m' b' m (n0, r))].
Qed.
Lemma presents_origin p l t gc wk ql es s tr n0 m n0' m' n :
  s_run p l (sys_start t gc wk ql) es = Some (s, tr) -> presents tr n0 m n -> presents tr n0' m' n -> n0 = n0' /\ m = m'.
Proof.
  intros Hr (r & a & b & q & d & E & Hq & Hf) (r' & a' & b' & q' & d' & E' & Hq' & Hf').
  destruct (run_once _ _ _ _ _ _ _ _ _ n Hr) as (_ & _ & _ & Hone).
  rewrite app_comm_cons, app_assoc in E, E'.
  destruct (once_split _ _ _ _ _ _ _ _ Hone E E') as (Ea & Eq & _); [cbn; by rewrite Nat.eqb_refl..|].
  injection Eq as ->. assert (cr_token m' = cr_token m) as Es by congruence.
  assert (forall x y z w, Forall (fun e => about_token (cr_token x) e = None) (ctrace y).*1 -> cr_token z = cr_token x ->
    SoCache (Some w.1) (HeMsg (HmCacheResult z)) w.2 ∉ y) as Hno.
  { intros x y z [w1 w2] Hy Hz Hin. apply elem_of_list_split in Hin as (y1 & y2 & ->). unfold ctrace in Hy.
    rewrite omap_app, fmap_app in Hy. cbn in Hy. apply Forall_app in Hy as [_ [Hy _]%Forall_cons]. cbn in Hy.
    by rewrite decide_True in Hy. }
  apply last_put in Ea as [_ [= -> -> _]]; [done|by eapply (Hno m b m' (n0', r'))|by eapply (Hno m' b' m (n0, r))].
Qed.
