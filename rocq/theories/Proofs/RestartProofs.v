(** Facts about moving the sites of a Master to another one. *)
From Coq Require Import ZifyBool ZifyN ZifyNat Lia.
From Verif Require Import Model.Base Model.Defense Model.MCaptcha Model.Counter Model.Master
  Spec.DefenseSpec Spec.MCaptchaSpec Spec.CounterSpec Spec.MasterSpec Spec.SiteSpec Spec.SerdeSpec Spec.RestartSpec
  Proofs.DefenseProofs Proofs.MCaptchaProofs Proofs.CounterProofs Proofs.MasterProofs Proofs.MasterTasks
  Proofs.SiteCounter Proofs.SiteProofs.
Import Master.

(** * What every site's data has in common *)
Section kept.
Context (p : profile) (P : mcaptcha -> Prop).
Context (Padd : forall m m', P m -> add_visitor p m = Val m' -> P m').
Context (Pdec : forall m n, P m -> P (decrement_visitor_by m n)).

Definition pt (x : task) : Prop := match x with TSet _ m | TAdd _ m => P m | _ => True end.
Definition pinv (s : msys) : Prop :=
  (forall c x, my_ctrs s !! c = Some x -> P (ct_data x)) /\ (forall t x, my_tasks s !! t = Some x -> pt x).

Lemma handle_kept now x msg x' r :
  P (ct_data x) -> (forall d, msg = CmSetInternalData d -> P d) -> counter_handle p now x msg = (x', r) -> P (ct_data x').
Proof.
  intros Hx Hm Hh. unfold counter_handle in Hh. destruct (ct_alive x); [|by injection Hh as <- <-].
  destruct msg; try (by injection Hh as <- <-).
  - unfold handle_add_visitor in Hh. cbn [spawn_timer ct_data] in Hh.
    destruct (add_visitor p (ct_data x)) as [m|] eqn:E; cbn in Hh; [|by injection Hh as <- <-].
    destruct (avr_new m) as [v|]; cbn in Hh; injection Hh as <- <-; [|done]. cbn. by eapply Padd.
  - injection Hh as <- <-. cbn. by apply Hm.
Qed.
Lemma fire_kept now x id x' : P (ct_data x) -> counter_fire now x id = Some x' -> P (ct_data x').
Proof.
  intros Hx Hf. unfold counter_fire in Hf. destruct (ct_alive x); [|done].
  destruct (timer_lookup _ _) as [[due e]|]; [|done]. destruct (_ <=? _); [|done]. injection Hf as <-. cbn.
  destruct e; by apply Pdec.
Qed.
Lemma pinv_spawn s t : pinv s -> pt t -> pinv (spawn s t).
Proof.
  intros [H1 H2] Ht. split; [done|]. intros t' x. cbn. intros [[_ <-]|[_ Hx]]%lookup_insert_Some; [done|by eapply H2].
Qed.
Lemma pinv_set s t x : pinv s -> pt x -> pinv (set_task s t x).
Proof.
  intros [H1 H2] Ht. split; [done|]. intros t' y. cbn. intros [[_ <-]|[_ Hx]]%lookup_insert_Some; [done|by eapply H2].
Qed.
Lemma pinv_end s t : pinv s -> pinv (end_task s t).
Proof. intros [H1 H2]. split; [done|]. intros t' y. cbn. intros [_ Hx]%lookup_delete_Some. by eapply H2. Qed.
Lemma pinv_ext s s' : pinv s -> my_ctrs s' = my_ctrs s -> my_tasks s' = my_tasks s -> pinv s'.
Proof. intros [H1 H2] Hc Ht. split; rewrite ?Hc, ?Ht; done. Qed.
Lemma pinv_send s c msg s' r :
  pinv s -> (forall d, msg = CmSetInternalData d -> P d) -> send_counter p s c msg = Some (s', r) -> pinv s'.
Proof.
  intros [H1 H2] Hm Hs. apply send_counter_eq in Hs as (x & x' & Hx & Hh & ->). split; [|done]. cbn.
  intros c' y [(-> & -> & _)|[_ Hy]]%list_lookup_insert_Some; [|by eapply H1].
  eapply handle_kept; [by eapply H1|exact Hm|exact Hh].
Qed.
Definition req_ok (r : mreq) : Prop :=
  match r with RqAddSite _ m => P m | RqSetData d => forall id m, d !! id = Some m -> P m | _ => True end.
Lemma pinv_handle s k r s' o : pinv s -> req_ok r -> m_handle s k r = (s', o) -> pinv s'.
Proof.
  intros Hi Hr Hh. destruct r; cbn [m_handle] in Hh.
  - injection Hh as <- <-. destruct Hi as [H1 H2]. split; [|done]. cbn. intros c x Hx.
    apply lookup_app_Some in Hx as [Hx|[_ Hx]]; [by eapply H1|]. apply list_lookup_singleton_Some in Hx as [_ <-]. done.
  - injection Hh as <- <-. by eapply pinv_ext.
  - unfold rm_site in Hh. destruct (my_sites s !! id); injection Hh as <- <-.
    + apply pinv_spawn; [|done]. by eapply pinv_ext.
    + by eapply pinv_ext.
  - destruct (get_site (my_sites s) id) as [ss [a|]]; injection Hh as <- <-.
    + apply pinv_spawn; [|done]. by eapply pinv_ext.
    + by eapply pinv_ext.
  - destruct (get_site (my_sites s) id) as [ss a]; injection Hh as <- <-. by eapply pinv_ext.
  - injection Hh as <- <-. by apply pinv_spawn.
  - injection Hh as <- <-. assert (Forall (fun nm => P nm.2) (map_to_list d)) as Hf.
    { apply Forall_forall. intros [id m] Hin. apply elem_of_map_to_list in Hin. by eapply Hr. }
    clear Hr. revert s Hi. induction Hf as [|nm l Hnm _ IH]; intros s Hi; [done|]. cbn. apply IH.
    unfold set_data_one. destruct (get_site _ _) as [ss a]. apply pinv_spawn; [by eapply pinv_ext|by destruct a].
  - injection Hh as <- <-. by apply pinv_spawn.
Qed.
Definition event_ok (e : mevent) : Prop :=
  match e with MeReq r => req_ok r | MeDirect _ (CmSetInternalData m) => P m | _ => True end.
Lemma pinv_step s e s' o : pinv s -> event_ok e -> m_step p s e = Some (s', o) -> pinv s'.
Proof.
  intros Hi He Hs. destruct e as [r|t|c id|c msg|d]; cbn [m_step] in Hs.
  - destruct (my_alive s).
    + destruct (m_handle _ _ r) as [s1 o1] eqn:E. injection Hs as <- <-.
      eapply pinv_handle; [|exact He|exact E]. by eapply pinv_ext.
    + injection Hs as <- <-. by eapply pinv_ext.
  - destruct (my_alive s); [|done]. unfold task_step in Hs.
    assert (forall a, pinv a -> pinv (m_die a).1) as Hdie.
    { intros a [H1 H2]. split; [done|]. intros t' x. cbn. by rewrite lookup_empty. }
    destruct (my_tasks s !! t) as [x|] eqn:Et; [|done]. pose proof (proj2 Hi _ _ Et) as Hx.
    destruct x as [due|[|[id [rd c]] rest] []|k c|k c|k [|[id [rd c]] rest] acc|c m|id m];
    repeat match goal with
    | H : (if ?b then _ else _) = Some _ |- _ => destruct b; [|done]
    | H : match send_counter p s ?c ?m with _ => _ end = Some _ |- _ =>
        destruct (send_counter p s c m) as [[s1 r]|] eqn:E; [|done];
        apply pinv_send in E; [|done|by intros ? [= <-]]
    | H : (let '(_, _) := ?x in _) = Some _ |- _ => destruct x as [s1 o1] eqn:E
    | H : match ?r with CrAdded _ => _ | _ => _ end = Some _ |- _ => destruct r
    end; try (injection Hs as <- <-);
    first [ by apply pinv_end
          | by apply pinv_set
          | by apply Hdie
          | by (eapply pinv_handle; [| |exact E]; [by apply pinv_end|])
          | by (eapply pinv_handle; [| |exact E]; [by apply pinv_set|])
          | apply pinv_set; [done|by destruct (_ && _)] ].
  - destruct (my_ctrs s !! c) as [x|] eqn:Ex; [|done]. destruct (counter_fire _ _ _) as [x'|] eqn:Ef; [|done].
    injection Hs as <- <-. destruct Hi as [H1 H2]. split; [|done]. cbn.
    intros c' y [(-> & -> & _)|[_ Hy]]%list_lookup_insert_Some; [|by eapply H1]. eapply fire_kept; [by eapply H1|done].
  - destruct (send_counter p s c msg) as [[s1 r]|] eqn:E; [|done]. injection Hs as <- <-.
    eapply pinv_send; [done| |exact E]. intros d ->. exact He.
  - injection Hs as <- <-. by eapply pinv_ext.
Qed.
Lemma pinv_run s es s' tr : pinv s -> Forall event_ok es -> m_run p s es = Some (s', tr) -> pinv s'.
Proof.
  intros Hi Hf. revert s tr Hi. induction Hf as [|e es He _ IH]; intros s tr Hi Hr; cbn in Hr.
  { by injection Hr as <- <-. }
  destruct (m_step p s e) as [[s1 o]|] eqn:E; [|done]. destruct (m_run p s1 es) as [[s2 os]|] eqn:E2; [|done].
  injection Hr as <- <-. eapply IH; [|exact E2]. by eapply pinv_step.
Qed.
Lemma pinv_start t gc : pinv (m_start t gc).
Proof. split; cbn; [done|]. intros t' x [<- <-]%lookup_singleton_Some. done. Qed.
End kept.

(** * Site data in use *)
Lemma reachable_add p m m' : reachable_mcaptcha p m -> add_visitor p m = Val m' -> reachable_mcaptcha p m'.
Proof.
  intros (m0 & cs & Hb & Hr) Ha. exists m0, (cs ++ [MAdd]). split; [done|].
  rewrite MCaptchaProofs.m_run_app, Hr. cbn. by rewrite Ha.
Qed.
Lemma reachable_dec p m n : reachable_mcaptcha p m -> reachable_mcaptcha p (decrement_visitor_by m n).
Proof.
  intros (m0 & cs & Hb & Hr). exists m0, (cs ++ [MDec n]). split; [done|].
  rewrite MCaptchaProofs.m_run_app, Hr. done.
Qed.
Lemma decrement_duration m n : m_duration (decrement_visitor_by m n) = m_duration m.
Proof. by rewrite decrement_eq. Qed.
Lemma sound_kept p t gc es s tr c m :
  Master.m_run p (m_start t gc) es = Some (s, tr) -> Forall (sound_event p) es -> data_at s c m -> sound_site p m.
Proof.
  intros Hr Hf (x & Hx & _ & <-).
  assert (pinv (sound_site p) s) as [H _]; [|by eapply H].
  eapply (pinv_run p (sound_site p)); [..|exact Hr].
  - intros m m' [H1 H2] Ha. split; [by eapply reachable_add|]. by rewrite (add_visitor_duration _ _ _ Ha).
  - intros m n [H1 H2]. split; [by apply reachable_dec|]. by rewrite decrement_duration.
  - apply pinv_start.
  - eapply Forall_impl; [exact Hf|]. intros [[]| | |? []|]; done.
Qed.

(** The level above the current one has not been exceeded. *)
Definition floor (m : mcaptcha) : Prop :=
  forall x, d_levels (m_defense m) !! S (N.to_nat (d_current (m_defense m))) = Some x -> m_visitors m <= visitor_threshold x.
Lemma floor_run p m cs m' : mwf m -> floor m -> MCaptcha.m_run p m cs = Val m' -> floor m'.
Proof.
  revert m. induction cs as [|c cs IH]; intros m Hm Hf Hr; cbn in Hr; [by injection Hr as <-|].
  destruct (m_apply p m c) as [m1|] eqn:E; [|done]. cbn in Hr.
  destruct (m_apply_mwf p m c m1 Hm E) as (Hm1 & _). apply (IH m1 Hm1); [|done]. clear IH Hr.
  pose proof Hm as (Hlad & Hw & Hv). destruct c as [|n]; cbn in E.
  - destruct (N.lt_ge_cases (m_visitors m) u32_max) as [Hlt|Hge].
    + destruct (add_visitor_wf p m Hw Hlt) as (l & Hl & _ & Ha). rewrite Ha in E. injection E as <-.
      intros x. cbn. set (i := N.to_nat (d_current (m_defense m))) in *.
      intros Hx. apply (next_floor (d_levels (m_defense m)) i (m_visitors m)); [by apply ladder_ascending| |lia|done|].
      * by eapply lookup_lt_Some.
      * rewrite <- Hx. f_equal. unfold next_level. rewrite Hl. destruct (_ <? _); unfold vlen; lia.
    + destruct Hm1 as (_ & _ & Hv1). unfold add_visitor, u32_add in E.
      replace (m_visitors m + 1 <=? u32_max) with false in E by lia. destruct p; [done|]. cbn [obind] in E.
      destruct (current_level _); [|done]. cbn [obind] in E.
      intros x _. assert (m_visitors m1 = 0) as ->; [|lia].
      replace (m_visitors m + 1 - (u32_max + 1)) with 0 in E by lia.
      destruct (_ <? _); [destruct (tighten_up _ _); [|done]|]; injection E as <-; cbn; unfold u32_max in *; lia.
  - injection E as <-. intros x. rewrite decrement_eq. cbn. intros Hx. specialize (Hf x Hx). lia.
Qed.
Lemma reachable_floor p m : reachable_mcaptcha p m -> floor m.
Proof.
  intros (m0 & cs & Hb & Hr). destruct (built_mwf p m0 Hb) as (Hm & H0 & _). eapply floor_run; [exact Hm| |exact Hr].
  intros x _. rewrite H0. lia.
Qed.

(** * The log of a restore into a Master without sites *)
Definition added (d : gmap string mcaptcha) (x : mevent * list mout) : Prop :=
  (exists t, x.1 = MeTask t) /\ exists id m, d !! id = Some m /\ x.2 = [MoHandle (RqAddSite id m)].
Lemma restore_step_log p s0 l dn s i nm s' o :
  my_sites s0 = ∅ -> set_inv s0 l dn s -> l !! i = Some nm -> i ∉ dn ->
  m_step p s (MeTask (my_next s0 + i)) = Some (s', o) -> o = [MoHandle (RqAddSite nm.1 nm.2)].
Proof.
  intros H0 Hs Hl Hi Hst. pose proof (si_pending _ _ _ _ Hs _ _ Hl Hi) as Ht. rewrite H0 in Ht.
  unfold set_task_of in Ht. rewrite lookup_empty in Ht. cbn [m_step] in Hst. rewrite (si_alive _ _ _ _ Hs) in Hst.
  unfold task_step in Hst. rewrite Ht in Hst. cbn [m_handle reply] in Hst. by injection Hst as <- <-.
Qed.
Lemma restore_run_log p s0 d is dn s s' o :
  minv s0 -> my_sites s0 = ∅ -> set_inv s0 (map_to_list d) dn s -> NoDup is ->
  (forall i, i ∈ is -> (i < length (map_to_list d))%nat /\ i ∉ dn) ->
  Master.m_run p s ((fun i => MeTask (my_next s0 + i)%nat) <$> is) = Some (s', o) ->
  Forall (added d) (m_log p s ((fun i => MeTask (my_next s0 + i)%nat) <$> is) []).
Proof.
  intros Hi0 H0. revert dn s s' o. induction is as [|i is IH]; intros dn s s' o Hs Hnd Hin Hr; [constructor|].
  apply NoDup_cons in Hnd as [Hn Hnd]. destruct (Hin i) as [Hlt Hid]; [by left|].
  destruct (lookup_lt_is_Some_2 _ _ Hlt) as [nm Hl].
  destruct (set_inv_step p s0 _ dn s i nm Hi0 (NoDup_fst_map_to_list d) Hs Hl Hid) as (s1 & o1 & H1 & Hs1 & _).
  rewrite fmap_cons in Hr |- *. cbn [Master.m_run m_log] in Hr |- *. rewrite H1 in Hr |- *.
  destruct (Master.m_run p s1 _) as [[s2 o2]|] eqn:E; [|done]. rewrite m_log_acc. apply Forall_app. split.
  - eapply (IH (i :: dn)); [exact Hs1|done| |exact E]. intros j Hj. destruct (Hin j) as [? ?]; [by right|].
    split; [done|]. apply not_elem_of_cons. split; [by intros ->|done].
  - constructor; [|constructor]. split; [by eexists|]. exists nm.1, nm.2. split.
    + apply elem_of_map_to_list. destruct nm. by eapply elem_of_list_lookup_2.
    + exact (restore_step_log p s0 _ dn s i nm s1 o1 H0 Hs Hl Hid H1).
Qed.
Lemma restore_log p t gc d order s' tr :
  order ≡ₚ seq 0 (size d) ->
  Master.m_run p (m_start t gc) (MeReq (RqSetData d) :: ((fun i => MeTask (S i)) <$> order)) = Some (s', tr) ->
  exists lt o, m_log p (m_start t gc) (MeReq (RqSetData d) :: ((fun i => MeTask (S i)) <$> order)) [] =
    lt ++ [(MeReq (RqSetData d), o)] /\ handled o = [RqSetData d] /\ Forall (added d) lt.
Proof.
  intros Hp Hr. assert (minv (m_start t gc)) as Hi by (by eapply (run_inv p t gc [])).
  cbn [Master.m_run] in Hr. destruct (m_step p (m_start t gc) (MeReq (RqSetData d))) as [[s1 o1]|] eqn:E; [|done].
  destruct (set_inv_start _ _ _ _ _ Hi eq_refl E) as [Hsi ->].
  destruct (Master.m_run p s1 _) as [[s2 o2]|] eqn:E2; [|done].
  assert (length (map_to_list d) = size d) as Hlen by done.
  eexists _, _. split; [cbn [m_log]; rewrite E, m_log_acc; reflexivity|]. split; [done|].
  eapply (restore_run_log p (m_start t gc) d order [] s1 s2 o2); [done|done|done| | |exact E2].
  - rewrite Hp. apply NoDup_seq.
  - intros i Hin. rewrite Hp in Hin. apply elem_of_seq in Hin. split; [lia|apply not_elem_of_nil].
Qed.
Lemma added_registered t d lt e o id c :
  handled o = [RqSetData d] -> Forall (added d) lt -> let l := lt ++ [(e, o)] in
  bound (log_hist l) id = Some c ->
  (c < registrations (log_hist l))%nat /\ exists t0 m, d !! id = Some m /\ registered t c l = Some (t0, m).
Proof.
  intros Ho Hf. induction Hf as [|[e1 o1] lt ((tk & He) & id1 & m1 & Hd1 & H1) _ IH]; intros l Hb; subst l.
  - cbn [app] in Hb. rewrite log_hist_cons, Ho in Hb. cbn in Hb. done.
  - cbn [snd fst] in He, H1. subst e1 o1. cbn [app] in Hb |- *. rewrite log_hist_cons in Hb |- *.
    change (handled [MoHandle (RqAddSite id1 m1)]) with [RqAddSite id1 m1] in *.
    change (reverse [RqAddSite id1 m1] ++ ?h) with (RqAddSite id1 m1 :: h) in *. cbn [bound] in Hb. rewrite registrations_cons.
    cbn [registered]. change (handled [MoHandle (RqAddSite id1 m1)]) with [RqAddSite id1 m1]. cbv iota.
    destruct (String.eqb_spec id id1) as [->|].
    + injection Hb as <-. split; [lia|]. rewrite decide_True by done. eauto.
    + destruct (IH Hb) as (Hlt & t0 & m & ? & ?). split; [lia|]. rewrite decide_False by lia. eauto.
Qed.
Lemma added_not_restored d lt r o c :
  handled o = [RqSetData d] -> Forall (added d) lt -> ~ restored c (lt ++ [(MeReq r, o)]).
Proof.
  intros Ho Hf. induction Hf as [|[e1 o1] lt ((tk & He) & id1 & m1 & Hd1 & H1) _ IH].
  - cbn. intros [(? & ?)|[(? & ? & _ & _ & ?)|?]]; done.
  - cbn [snd fst] in He, H1. subst e1 o1. cbn. intros [(? & ?)|[(d' & id & Hin & _)|Hx]]; [done| |by apply IH].
    apply elem_of_list_singleton in Hin. done.
Qed.

(** * Afterwards *)
Lemma set_data_event p s e s' o d : m_step p s e = Some (s', o) -> RqSetData d ∈ handled o -> e = MeReq (RqSetData d).
Proof.
  intros Hs Hin. destruct e as [r|t|c id|c msg|d']; cbn [m_step] in Hs.
  - destruct (my_alive s).
    + destruct (m_handle _ _ r) as [s1 o1] eqn:E. injection Hs as <- <-.
      change (handled (MoHandle r :: o1)) with (r :: handled o1) in Hin. apply elem_of_cons in Hin as [->|Hin]; [done|].
      apply m_handle_effect in E as (_ & E2 & _). rewrite E2 in Hin. by apply elem_of_nil in Hin.
    + injection Hs as <- <-. by apply elem_of_nil in Hin.
  - destruct (my_alive s); [|done]. exfalso. unfold task_step in Hs.
    destruct (my_tasks s !! t) as [[due|[|[id [rd c]] rest] []|k c|k c|k [|[id [rd c]] rest] acc|c m|id m]|] eqn:Et; [..|done];
    repeat match goal with
    | H : (if ?b then _ else _) = Some _ |- _ => destruct b; [|done]
    | H : match send_counter p s ?c ?m with _ => _ end = Some _ |- _ =>
        destruct (send_counter p s c m) as [[s1 r]|] eqn:E; [|done]; try destruct r
    | H : (let '(_, _) := ?x in _) = Some _ |- _ => destruct x as [s1 o1] eqn:E
    end; try (injection Hs as <- <-);
    first [ by apply elem_of_nil in Hin
          | by rewrite handled_reply in Hin; apply elem_of_nil in Hin
          | by rewrite handled_dropped in Hin; apply elem_of_nil in Hin
          | apply m_handle_effect in E as (_ & E2 & _); change (handled (MoHandle ?r :: ?o)) with (r :: handled o) in Hin;
            rewrite E2 in Hin; by apply elem_of_list_singleton in Hin ].
  - destruct (my_ctrs s !! c); [|done]. destruct (counter_fire _ _ _); [|done]. injection Hs as <- <-. by apply elem_of_nil in Hin.
  - destruct (send_counter p s c _) as [[s1 r]|]; [|done]. injection Hs as <- <-. by apply elem_of_nil in Hin.
  - injection Hs as <- <-. by apply elem_of_nil in Hin.
Qed.
Lemma not_written p s es l c s' tr :
  Master.m_run p s es = Some (s', tr) -> Forall (fun e => ~ writes e) es -> ~ restored c l -> ~ restored c (m_log p s es l).
Proof.
  intros Hr Hf. revert s l tr Hr. induction Hf as [|e es He _ IH]; intros s l tr Hr Hl; [done|].
  cbn in Hr |- *. destruct (m_step p s e) as [[s1 o]|] eqn:E; [|done].
  destruct (Master.m_run p s1 es) as [[s2 os]|] eqn:E2; [|done]. injection Hr as <- <-. eapply IH; [exact E2|].
  cbn. intros [(d & ->)|[(d & id & Hin & _)|Hx]]; [by apply He| |done].
  apply (set_data_event _ _ _ _ _ _ E) in Hin as ->. by apply He.
Qed.

(** * What a visitor of a registration is told *)
Lemma counter_run_kept p (P : mcaptcha -> Prop) s es s' os :
  (forall m m', P m -> add_visitor p m = Val m' -> P m') -> (forall m n, P m -> P (decrement_visitor_by m n)) ->
  no_restore es -> P (ct_data (cs_counter s)) -> counter_run p s es = Some (s', os) -> P (ct_data (cs_counter s')).
Proof.
  intros Ha Hd Hno. revert s os. induction Hno as [|e es He _ IH]; intros s os Hs Hr; cbn in Hr; [by injection Hr as <- <-|].
  destruct (counter_step p s e) as [[s1 o]|] eqn:E; [|done]. destruct (counter_run p s1 es) as [[s2 os2]|] eqn:E2; [|done].
  injection Hr as <- <-. eapply IH; [|exact E2]. destruct e as [msg|d|id]; cbn in E.
  - destruct (counter_handle _ _ _ _) as [x' r] eqn:Eh. injection E as <- <-. cbn.
    eapply (handle_kept p P Ha); [exact Hs| |exact Eh]. by intros d ->.
  - by injection E as <- <-.
  - destruct (counter_fire _ _ _) as [x'|] eqn:Ef; [|done]. injection E as <- <-. cbn. by eapply (fire_kept P Hd).
Qed.
Lemma told_floor p t gc es s tr e s' o x c t0 m v lv :
  Master.m_run p (m_start t gc) es = Some (s, tr) ->
  let l := m_log p (m_start t gc) es [] in let times := (visits t c l).*1 in
  registered t c l = Some (t0, m) -> reachable_mcaptcha p m -> ~ restored c l ->
  m_visitors m + count times < u32_max ->
  m_step p s e = Some (s', o) -> x ∈ o -> said l c x = Some v ->
  lv ∈ d_levels (m_defense m) -> visitor_threshold lv < 1 + m_visitors m + window (m_duration m) (my_now s) times ->
  difficulty_factor lv <= avr_difficulty_factor v.
Proof.
  intros Hr l times Hreg Hre Hnr Hfit Hs Hx Hsaid Hlv Hw.
  pose proof (site_inv_run _ _ _ _ _ _ Hr) as Hi.
  assert (exists y y', my_ctrs s !! c = Some y /\ counter_handle p (my_now s) y CmAddVisitor = (y', CrAdded v)) as (y & y' & Hy & Hh).
  { destruct (m_step_effect _ _ _ _ _ Hs) as [s' o Hc Hn Hsil Hnr' Hnt|d s' He Hc Hn|id m' s' o Hc Hn Hsil Hh Hnt|c' id y y' s' He Hy Hf Hc Hn
      |c' msg y y' r s' He Hy Hh Hc Hn|tk k0 c' y y' r s' He Ht Hy Hh Hc Hn|tk c' msg y y' r s' o He Hy Hh Hc Hn Hsil Hnr' Hna Hset].
    all: try (exfalso; assert (omap (said l c) o = []) as E by (by apply silent_said);
      assert (v ∈ omap (said l c) o) as E' by (apply elem_of_list_omap; eauto); rewrite E in E'; by apply elem_of_nil in E').
    - by apply elem_of_nil in Hx.
    - by apply elem_of_nil in Hx.
    - apply elem_of_list_singleton in Hx as ->. cbn in Hsaid. destruct r as [v'| | | |]; try done.
      destruct (decide (c' = c)) as [->|]; [|done]. injection Hsaid as ->.
      pose proof (added_visit _ _ _ _ _ _ Hh) as ->. eauto.
    - destruct (sv_visit _ _ _ _ _ _ Hi _ _ _ Ht) as (k' & -> & Hk'). cbn in Hx. apply elem_of_list_singleton in Hx as ->.
      cbn in Hsaid. destruct r as [v'| | | |]; try done. unfold l in Hsaid. rewrite Hk' in Hsaid.
      destruct (decide _) as [E|]; [|done]. injection E as ->. injection Hsaid as ->. eauto. }
  assert (ct_alive y = true) as Hal.
  { unfold counter_handle in Hh. by destruct (ct_alive y). }
  unfold counter_handle in Hh. rewrite Hal in Hh. unfold handle_add_visitor in Hh. cbn [spawn_timer ct_data] in Hh.
  destruct (add_visitor p (ct_data y)) as [m'|] eqn:Eadd; cbn [obind] in Hh; [|done].
  destruct (avr_new m') as [v'|] eqn:Eavr; cbn [obind] in Hh; [|done]. injection Hh as _ ->.
  destruct (sv_own _ _ _ _ _ _ Hi _ _ Hy) as (t1 & m1 & sched & os & G1 & G2 & _ & G4 & _).
  fold l in G1, G4. rewrite Hreg in G1. injection G1 as <- <-.
  pose proof (not_restored_no_restore _ _ _ G4 Hnr) as Hno.
  destruct (reachable_mwf p m Hre) as ((Hlad & _) & _).
  assert (reachable_mcaptcha p (ct_data y) /\ d_levels (m_defense (ct_data y)) = d_levels (m_defense m)) as [Hry Hly].
  { refine (counter_run_kept p (fun z => reachable_mcaptcha p z /\ d_levels (m_defense z) = d_levels (m_defense m))
      _ _ (CounterSys (my_now s) y) os _ _ Hno _ G2); [| |done].
    - intros a b [H1 H2] Ha. split; [by eapply reachable_add|]. destruct (reachable_mwf p a H1) as [Hma _].
      destruct (m_apply_mwf p a MAdd b Hma Ha) as (_ & _ & ->). done.
    - intros a n [H1 H2]. split; [by apply reachable_dec|]. by rewrite decrement_eq. }
  destruct (site_count_saved p t gc es s tr c t0 m (m_visitors (ct_data y)) Hr Hreg Hre Hnr) as [[Hlo Hhi] _].
  { unfold times in Hfit. fold l. lia. } { by exists y. }
  fold l in Hlo, Hhi. fold times in Hlo, Hhi.
  destruct (reachable_mwf p _ Hry) as ((_ & Hwy & _) & _).
  destruct (add_visitor_wf p _ Hwy) as (l0 & _ & _ & Ea); [lia|].
  pose proof (reachable_floor _ _ (reachable_add _ _ _ Hry Eadd)) as Hfl.
  assert (m_visitors m' = m_visitors (ct_data y) + 1) as Hv' by (rewrite Ea in Eadd; by injection Eadd as <-).
  assert (d_levels (m_defense m') = d_levels (m_defense m)) as Hl' by (rewrite Ea in Eadd; injection Eadd as <-; exact Hly).
  unfold avr_new, m_get_difficulty, get_difficulty in Eavr.
  destruct (vindex (d_levels (m_defense m')) (d_current (m_defense m'))) as [lc|] eqn:Ev; [|done].
  cbn [obind] in Eavr. injection Eavr as <-. cbn [avr_difficulty_factor].
  apply vindex_val in Ev as [Hcl Hlc]. unfold floor in Hfl. rewrite Hl' in Hfl, Hlc.
  apply elem_of_list_lookup in Hlv as [q Hq]. set (j := N.to_nat (d_current (m_defense m'))) in *.
  apply (factors_le (d_levels (m_defense m)) q j); [apply Hlad| |done|done].
  destruct (decide (q <= j)%nat) as [|Hqj]; [done|]. exfalso.
  destruct (lookup_lt_is_Some_2 (d_levels (m_defense m)) (S j)) as [z Hz]; [apply lookup_lt_Some in Hq; lia|].
  specialize (Hfl z Hz).
  destruct (decide (q = S j)) as [->|]; [rewrite Hq in Hz; injection Hz as ->; lia|].
  pose proof (sorted_lookup_lt _ _ (ladder_ascending _ Hlad) (S j) q z lv ltac:(lia) Hz Hq) as Hzx. cbv beta in Hzx. lia.
Qed.
