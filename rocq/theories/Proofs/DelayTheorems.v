(** Proofs of the theorems of Properties/DelayProperties.v. *)
From Coq Require Import ZifyBool ZifyN ZifyNat Lia.
From Verif Require Import Model.Base Model.Defense Model.MCaptcha Model.Counter Model.Master Model.MasterDelay Spec.MasterSpec
  Proofs.MasterProofs Proofs.MCaptchaTheorems Proofs.CounterTheorems Proofs.MasterTheorems
  Spec.DelaySpec.

Lemma dm_run_snoc p d es e d2 tr : dm_run p d (es ++ [e]) = Some (d2, tr) ->
  exists d1 tr1 o, dm_run p d es = Some (d1, tr1) /\ dm_step p d1 e = Some (d2, o) /\ tr = tr1 ++ o.
Proof.
  revert d tr. induction es as [|a es IH]; intros d tr H; cbn in H |- *.
  - destruct (dm_step p d e) as [[d1 o]|] eqn:E; [|done]. injection H as <- <-. exists d, [], o. rewrite app_nil_r. done.
  - destruct (dm_step p d a) as [[d1 o1]|]; [|done]. destruct (dm_run p d1 (es ++ [e])) as [[d3 o3]|] eqn:E; [|done].
    injection H as <- <-. destruct (IH _ _ E) as (d4 & tr4 & o & -> & H2 & ->). exists d4, (o1 ++ tr4), o. by rewrite app_assoc.
Qed.

Lemma doings_app a b : doings (a ++ b) = doings a ++ doings b.
Proof. apply List.filter_app. Qed.

(** The answers for request [k] that are under way. *)
Definition waiting (k : nat) (h : list (nat * mreply)) : list mreply :=
  omap (fun kx => if (kx.1 =? k)%nat then Some kx.2 else None) h.

Lemma waiting_app k a b : waiting k (a ++ b) = waiting k a ++ waiting k b.
Proof. apply omap_app. Qed.

Lemma waiting_dropped k h : answers k (dropped h) = (fun _ => MrDropped) <$> waiting k h.
Proof.
  unfold dropped, waiting, answers. induction h as [|[k' x] l IH]; [done|]. cbn. rewrite IH. by destruct (k' =? k)%nat.
Qed.

Lemma waiting_held k o : waiting k (held o) = answers k o.
Proof.
  unfold waiting, held, answers. induction o as [|[r|k' x|c x] o IH]; cbn; [done|done| |done]. rewrite IH. by destruct (k' =? k)%nat.
Qed.

Lemma doings_dropped h : doings (dropped h) = [].
Proof. by induction h. Qed.

Lemma awaited p s e s' o : m_step p s e = Some (s', o) -> awaits_counter s e = true ->
  my_alive s = true /\ my_alive s' = true /\ doings o = [] /\ Forall (fun kx => of_counter kx.2) (held o).
Proof.
  unfold m_step, awaits_counter. destruct e as [r|t|c i|c m|t]; try done. intros H Ha.
  destruct (my_alive s) eqn:El; [|done]. split; [done|]. unfold task_step in H.
  destruct (my_tasks s !! t) as [[due|todo ph|k c|k c|k todo acc|c m|id m]|]; try done.
  all: unfold send_counter in H; destruct (my_ctrs s !! c) as [x|]; [|done]; destruct (counter_handle p (my_now s) x _) as [x' r].
  all: destruct r; injection H as <- <-; destruct k; repeat split; try done; repeat constructor.
Qed.

Lemma dead_stays p s e s' o : m_step p s e = Some (s', o) -> my_alive s = false -> my_alive s' = false.
Proof.
  unfold m_step. intros H Ha. rewrite Ha in H. destruct e as [r|t|c i|c m|t]; try done.
  - by injection H as <- <-.
  - destruct (my_ctrs s !! c); [|done]. destruct (counter_fire _ _ _); [|done]. by injection H as <- <-.
  - unfold send_counter in H. destruct (my_ctrs s !! c); [|done]. destruct (counter_handle _ _ _ _). by injection H as <- <-.
  - by injection H as <- <-.
Qed.

(** How the answers [l] to a request compare to those, [l'], of a Master that answers
    at once: they are the same, or on their way, or lost with the Master. *)
Definition compares (d : dmaster) (k : nat) (l l' : list mreply) : Prop :=
  (l = l' /\ waiting k (dm_held d) = []) \/
  (l = [] /\ waiting k (dm_held d) = l' /\ my_alive (dm_m d) = true) \/
  (l = [MrDropped] /\ waiting k (dm_held d) = [] /\ my_alive (dm_m d) = false /\ exists x, l' = [x] /\ of_counter x).

Lemma delayed p t gc es d tr : dm_run p (dm_start t gc) es = Some (d, tr) ->
  exists tr', m_run p (m_start t gc) (plain_events es) = Some (dm_m d, tr') /\ doings tr = doings tr' /\
    Forall (fun kx => of_counter kx.2) (dm_held d) /\ (my_alive (dm_m d) = false -> dm_held d = []) /\
    forall k, compares d k (answers k tr) (answers k tr').
Proof.
  revert d tr. induction es as [|e es IH] using rev_ind; intros d tr Hr.
  { injection Hr as <- <-. exists []. repeat split; try done; [constructor|]. by left. }
  apply dm_run_snoc in Hr as (d1 & tr1 & o & Hr & Hs & ->).
  destruct (IH _ _ Hr) as (tr' & Hm & Hd & Hof & Hdead & Hk). unfold plain_events. rewrite omap_app. fold (plain_events es).
  destruct e as [e|j]; cbn [omap list_omap] in *; unfold dm_step in Hs.
  - destruct (m_step p (dm_m d1) e) as [[s o']|] eqn:Es; [|done].
    assert (Hm' : m_run p (m_start t gc) (plain_events es ++ [e]) = Some (s, tr' ++ o')) by (apply m_run_snoc; by exists (dm_m d1), tr', o').
    assert (Hone : forall k, (length (answers k tr' ++ answers k o') <= 1)%nat).
    { intros k. rewrite <- answers_app. by destruct (c75_answered_once _ _ _ _ _ _ k Hm'). }
    destruct (awaits_counter (dm_m d1) e) eqn:Ea; [|destruct (my_alive s) eqn:El].
    + injection Hs as <- <-. destruct (awaited _ _ _ _ _ Es Ea) as (A1 & A2 & A3 & A4). exists (tr' ++ o').
      split; [done|]. split; [by rewrite !doings_app, A3, Hd|]. split; [by apply Forall_app|]. split; [cbn; congruence|].
      intros k. specialize (Hone k). rewrite !answers_app, app_nil_r. unfold compares. cbn [dm_m dm_held]. rewrite waiting_app, waiting_held.
      destruct (Hk k) as [[H1 H2]|[(H1 & H2 & _)|(_ & _ & H3 & _)]]; [| |congruence].
      * rewrite H1, H2. destruct (answers k o') as [|y l] eqn:Eo; [left; by rewrite app_nil_r|].
        rewrite app_length in Hone. cbn in Hone. destruct (answers k tr') as [|z l']; [|cbn in Hone; lia]. right. left. done.
      * rewrite H1, H2. right. left. done.
    + injection Hs as <- <-. exists (tr' ++ o'). split; [done|]. split; [by rewrite !doings_app, Hd|]. split; [done|]. split; [cbn; congruence|].
      assert (A1 : my_alive (dm_m d1) = true).
      { destruct (my_alive (dm_m d1)) eqn:E1; [done|]. by rewrite (dead_stays _ _ _ _ _ Es E1) in El. }
      intros k. specialize (Hone k). rewrite !answers_app. unfold compares. cbn [dm_m dm_held].
      destruct (Hk k) as [[H1 H2]|[(H1 & H2 & _)|(_ & _ & H3 & _)]]; [| |congruence].
      * left. by rewrite H1, H2.
      * rewrite H1. destruct (answers k tr') as [|z l'] eqn:Et; [left; by rewrite H2|]. rewrite app_length in Hone. cbn in Hone.
        destruct (answers k o'); [|cbn in Hone; lia]. right. left. rewrite H2, !app_nil_r. done.
    + injection Hs as <- <-. exists (tr' ++ o'). split; [done|]. split; [by rewrite !doings_app, Hd, doings_dropped, app_nil_r|].
      split; [constructor|]. split; [done|].
      intros k. specialize (Hone k). rewrite !answers_app, waiting_dropped. unfold compares. cbn [dm_m dm_held].
      destruct (Hk k) as [[H1 H2]|[(H1 & H2 & H3)|(H1 & H2 & H3 & x & H4 & H5)]].
      * left. rewrite H1, H2. cbn. by rewrite app_nil_r.
      * rewrite H1, H2. destruct (answers k tr') as [|z l'] eqn:Et; [left; cbn; by rewrite app_nil_r|]. rewrite app_length in Hone. cbn in Hone.
        destruct (answers k o'); [|cbn in Hone; lia]. destruct l'; [|cbn in Hone; lia]. right. right. split; [done|]. split; [done|]. split; [done|].
        exists z. split; [done|].
        assert (Hz : z ∈ waiting k (dm_held d1)) by (rewrite H2; by left). apply elem_of_list_omap in Hz as ([k' z'] & Hz & Ez).
        rewrite Forall_forall in Hof. specialize (Hof _ Hz). cbn in Ez, Hof. destruct (k' =? k)%nat; [|done]. by injection Ez as ->.
      * rewrite (Hdead H3). cbn. rewrite app_nil_r, H4 in *. cbn in Hone. destruct (answers k o'); [|cbn in Hone; lia].
        right. right. rewrite H1. split; [done|]. split; [done|]. split; [done|]. by exists x.
  - destruct (dm_held d1 !! j) as [[k0 x]|] eqn:Ej; [|done]. injection Hs as <- <-. exists tr'. rewrite app_nil_r.
    split; [done|]. split; [by rewrite doings_app, Hd, app_nil_r|].
    split; [apply Forall_delete, Hof|]. split; [cbn; intros Hx; by rewrite (Hdead Hx) in Ej|].
    intros k. assert (Hone : (length (answers k tr') <= 1)%nat) by (by destruct (c75_answered_once _ _ _ _ _ _ k Hm)).
    rewrite answers_app. unfold compares. cbn [dm_m dm_held].
    assert (Hp : waiting k (dm_held d1) ≡ₚ (if (k0 =? k)%nat then [x] else []) ++ waiting k (delete j (dm_held d1))).
    { unfold waiting. rewrite (delete_Permutation _ _ _ Ej) at 1. cbn. by destruct (k0 =? k)%nat. }
    assert (Ho : answers k [MoReply k0 x] = if (k0 =? k)%nat then [x] else []) by (unfold answers; cbn; by destruct (k0 =? k)%nat).
    rewrite Ho. destruct (k0 =? k)%nat.
    + cbn in Hp. destruct (Hk k) as [[H1 H2]|[(H1 & H2 & H3)|(H1 & H2 & _)]].
      * rewrite H2 in Hp. by apply Permutation_nil_cons in Hp.
      * rewrite H2 in Hp. destruct (answers k tr') as [|z [|z' l]]; [by apply Permutation_nil_cons in Hp| |cbn in Hone; lia].
        apply Permutation_singleton_l in Hp. injection Hp as -> Hp. left. rewrite H1. done.
      * rewrite H2 in Hp. by apply Permutation_nil_cons in Hp.
    + cbn in Hp. rewrite app_nil_r. destruct (Hk k) as [[H1 H2]|[(H1 & H2 & H3)|(H1 & H2 & H3)]].
      * left. rewrite H2 in Hp. by apply Permutation_nil in Hp.
      * right. left. split; [done|]. split; [|done]. rewrite H2 in Hp.
        destruct (answers k tr') as [|z [|z' l]]; [by apply Permutation_nil in Hp|by apply Permutation_singleton_l in Hp|cbn in Hone; lia].
      * right. right. split; [done|]. split; [|done]. rewrite H2 in Hp. by apply Permutation_nil in Hp.
Qed.

Lemma c104_delays : forall p t gc es d tr, dm_run p (dm_start t gc) es = Some (d, tr) ->
  exists tr', m_run p (m_start t gc) (plain_events es) = Some (dm_m d, tr') /\ doings tr = doings tr' /\
    forall k,
      answers k tr = answers k tr' \/
      (answers k tr = [] /\ my_alive (dm_m d) = true /\ exists j x, dm_held d !! j = Some (k, x) /\ answers k tr' = [x]) \/
      (answers k tr = [MrDropped] /\ my_alive (dm_m d) = false /\ exists x, answers k tr' = [x] /\ of_counter x).
Proof.
  intros p t gc es d tr Hr. destruct (delayed _ _ _ _ _ _ Hr) as (tr' & Hm & Hd & _ & _ & Hk). exists tr'. split; [done|]. split; [done|].
  intros k. assert (Hone : (length (answers k tr') <= 1)%nat) by (by destruct (c75_answered_once _ _ _ _ _ _ k Hm)).
  destruct (Hk k) as [[H1 _]|[(H1 & H2 & H3)|(H1 & _ & H3 & H4)]]; [by left| |by right; right].
  destruct (answers k tr') as [|x [|y l]]; [by left| |cbn in Hone; lia]. right. left. split; [done|]. split; [done|].
  assert (Hx : x ∈ waiting k (dm_held d)) by (rewrite H2; by left). apply elem_of_list_omap in Hx as ([k' x'] & Hx & Ex).
  cbn in Ex. destruct (Nat.eqb_spec k' k) as [->|]; [|done]. injection Ex as ->. apply elem_of_list_lookup in Hx as [j Hj]. by exists j, x.
Qed.

Lemma c104_at_once : forall p t gc es s tr, m_run p (m_start t gc) es = Some (s, tr) ->
  exists es', dm_run p (dm_start t gc) es' = Some (DMaster s [], tr) /\ plain_events es' = es.
Proof.
  intros p t gc es. induction es as [|e es IH] using rev_ind; intros s tr Hr.
  { injection Hr as <- <-. by exists []. }
  apply m_run_snoc in Hr as (s1 & tr1 & o & Hr & Hs & ->). destruct (IH _ _ Hr) as (es' & Hd & Hp).
  assert (Happ : forall d es1 es2 d1 o1 d2 o2, dm_run p d es1 = Some (d1, o1) -> dm_run p d1 es2 = Some (d2, o2) ->
    dm_run p d (es1 ++ es2) = Some (d2, o1 ++ o2)).
  { clear. intros d es1. revert d. induction es1 as [|e es1 IH]; intros d es2 d1 o1 d2 o2 H1 H2; cbn in *.
    - by injection H1 as <- <-.
    - destruct (dm_step p d e) as [[d3 o3]|]; [|done]. destruct (dm_run p d3 es1) as [[d4 o4]|] eqn:E; [|done].
      injection H1 as <- <-. rewrite (IH _ _ _ _ _ _ E H2). by rewrite app_assoc. }
  destruct (awaits_counter s1 e) eqn:Ea.
  - assert (Ho : o = [] \/ exists k x, o = [MoReply k x]).
    { revert Hs Ea. unfold m_step, awaits_counter. destruct e as [r|w|c i|c m|w]; try done. intros H Ha.
      destruct (my_alive s1); [|done]. unfold task_step in H.
      destruct (my_tasks s1 !! w) as [[due|todo ph|k c|k c|k todo acc|c m|id m]|]; try done.
      all: unfold send_counter in H; destruct (my_ctrs s1 !! c) as [x|]; [|done]; destruct (counter_handle p (my_now s1) x _) as [x' r].
      all: destruct r; injection H as <- <-; (destruct k as [k|]; [right; by eexists _, _|by left]). }
    destruct Ho as [->|(k & x & ->)].
    + exists (es' ++ [DmDo e]). split; [|unfold plain_events in *; by rewrite omap_app, Hp].
      apply (Happ _ _ _ _ _ _ _ Hd). cbn. by rewrite Hs, Ea.
    + exists (es' ++ [DmDo e; DmTell 0]). split; [|unfold plain_events in *; by rewrite omap_app, Hp].
      apply (Happ _ _ _ _ _ _ _ Hd). cbn. by rewrite Hs, Ea.
  - exists (es' ++ [DmDo e]). split; [|unfold plain_events in *; by rewrite omap_app, Hp].
    apply (Happ _ _ _ _ _ _ _ Hd). cbn. rewrite Hs, Ea. destruct (my_alive s); cbn; by rewrite ?app_nil_r.
Qed.

Lemma c104_answered_once : forall p t gc es d tr k, dm_run p (dm_start t gc) es = Some (d, tr) ->
  (length (answers k tr) <= 1)%nat.
Proof.
  intros p t gc es d tr k Hr. destruct (c104_delays _ _ _ _ _ _ Hr) as (tr' & Hm & _ & Hk).
  destruct (c75_answered_once _ _ _ _ _ _ k Hm) as [H1 _].
  destruct (Hk k) as [->|[(-> & _)|(-> & _)]]; cbn; lia.
Qed.

(** A visitor who is told that the request failed may have been counted: the counter,
    which outlives the Master, says so; and a site that could not be removed may be gone. *)
Definition ex_lost : list dmevent :=
  DmDo <$> [MeReq (RqAddSite "a" ex_m3); MeReq (RqAddSite "b" ex_m3); MeTask 0; MeTask 1; MeReq (RqRemove "b"); MeTask 2;
            MeReq (RqAddVisitor "a"); MeTask 3; MeTask 1; MeDirect 0 CmGetCurrentVisitorCount; MeDirect 1 CmGetCurrentVisitorCount].

Lemma c104_counted_unanswered_refuted : forall p, exists d tr,
  dm_run p (dm_start 0 60) ex_lost = Some (d, tr) /\
  answers 3 tr = [MrDropped] /\ MoDirect 0 (CrCount 1) ∈ tr /\
  answers 2 tr = [MrDropped] /\ MoDirect 1 CrMailboxError ∈ tr.
Proof.
  intros p. eexists _, _. split; [by destruct p; vm_compute|]. split; [done|]. split; [repeat (first [by left|right])|].
  split; [done|]. repeat (first [by left|right]).
Qed.
