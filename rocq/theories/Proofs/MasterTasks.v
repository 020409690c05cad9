(** Proofs about the Master's spawned tasks: visits, cleanup passes, saving and
    restoring. *)
From Coq Require Import ZifyBool ZifyN ZifyNat Lia.
From Verif Require Import Model.Base Model.Defense Model.MCaptcha Model.Counter Model.Master
  Spec.MCaptchaSpec Spec.CounterSpec Spec.MasterSpec Proofs.MCaptchaProofs Proofs.CounterProofs
  Proofs.MasterProofs.

(** * Requests and their answers *)
Lemma answers_reply_ne k k' x : k' <> Some k -> answers k (reply k' x) = [].
Proof. destruct k' as [k'|]; [|done]. intros Hn. simpl. destruct (Nat.eqb_spec k' k); [by subst|done]. Qed.
Lemma answers_reply_eq k x : answers k (reply (Some k) x) = [x].
Proof. simpl. by rewrite Nat.eqb_refl. Qed.
Lemma m_handle_frame s k r s' o :
  m_handle s k r = (s', o) ->
  my_alive s' = my_alive s /\ my_reqs s' = my_reqs s /\ my_now s' = my_now s /\ my_gc s' = my_gc s /\
  (forall t, (t < my_next s)%nat -> my_tasks s' !! t = my_tasks s !! t) /\
  (forall j, k <> Some j -> answers j o = []) /\
  (forall t x j, my_tasks s' !! t = Some x -> my_tasks s !! t = Some x \/ (j ∈ task_req x -> k = Some j)).
Proof.
  intros Hh. destruct r; cbn [m_handle] in Hh.
  - injection Hh as <- <-. split_and!; try done; [intros; by apply answers_reply_ne|eauto].
  - injection Hh as <- <-. split_and!; try done; [intros; by apply answers_reply_ne|eauto].
  - unfold rm_site in Hh. destruct (my_sites s !! id) as [x|]; injection Hh as <- <-.
    + split_and!; try done.
      * intros t Ht. cbn. rewrite lookup_insert_ne by lia. done.
      * intros t y j. cbn. destruct (decide (t = my_next s)) as [->|Hn].
        -- rewrite lookup_insert. intros [= <-]. right. simpl. destruct k; [|by intros ?%elem_of_nil].
           by intros ->%elem_of_list_singleton.
        -- rewrite lookup_insert_ne by done. eauto.
    + split_and!; try done; [intros; by apply answers_reply_ne|eauto].
  - destruct (get_site (my_sites s) id) as [ss [a|]]; injection Hh as <- <-.
    + split_and!; try done.
      * intros t Ht. cbn. rewrite lookup_insert_ne by lia. done.
      * intros t y j. cbn. destruct (decide (t = my_next s)) as [->|Hn].
        -- rewrite lookup_insert. intros [= <-]. right. simpl. destruct k; [|by intros ?%elem_of_nil].
           by intros ->%elem_of_list_singleton.
        -- rewrite lookup_insert_ne by done. eauto.
    + split_and!; try done; [intros; by apply answers_reply_ne|eauto].
  - destruct (get_site (my_sites s) id) as [ss a]; injection Hh as <- <-.
    split_and!; try done; [intros; by apply answers_reply_ne|eauto].
  - injection Hh as <- <-. split_and!; try done.
    + intros t Ht. cbn. rewrite lookup_insert_ne by lia. done.
    + intros t y j. cbn. destruct (decide (t = my_next s)) as [->|Hn].
      * rewrite lookup_insert. intros [= <-]. right. simpl. destruct k; [|by intros ?%elem_of_nil].
        by intros ->%elem_of_list_singleton.
      * rewrite lookup_insert_ne by done. eauto.
  - injection Hh as <- <-. destruct (set_data_frame (map_to_list d) s) as (H1 & H2 & H3 & H4 & H5 & H6).
    split_and!; try done.
    + intros t Ht. rewrite set_data_tasks, decide_False by lia. done.
    + intros; by apply answers_reply_ne.
    + intros t x j. rewrite set_data_tasks. destruct (decide _); [|eauto].
      destruct (_ !! _) as [y|]; [|done]. intros [= <-]. right. unfold set_task_of.
      destruct (my_sites s !! y.1); by intros ?%elem_of_nil.
  - injection Hh as <- <-. split_and!; try done.
    + intros t Ht. cbn. rewrite lookup_insert_ne by lia. done.
    + intros; by apply answers_reply_ne.
    + intros t y j. cbn. destruct (decide (t = my_next s)) as [->|Hn].
      * rewrite lookup_insert. intros [= <-]. right. by intros ?%elem_of_nil.
      * rewrite lookup_insert_ne by done. eauto.
Qed.

Definition no_task (k : nat) (s : msys) : Prop := forall t x, my_tasks s !! t = Some x -> k ∉ task_req x.
Definition live_task (k : nat) (s : msys) (t : nat) (x : task) : Prop :=
  my_tasks s !! t = Some x /\ k ∈ task_req x.

Lemma answers_dropped k l :
  answers k ((fun j => MoReply j MrDropped) <$> l) = replicate (length (filter (fun j => j = k) l)) MrDropped.
Proof.
  induction l as [|j l IH]; [done|]. rewrite fmap_cons. simpl. fold (answers k). 
  change (list_omap _ _) with (answers k ((fun j => MoReply j MrDropped) <$> l)).
  destruct (Nat.eqb_spec j k) as [->|Hn].
  - rewrite filter_cons_True by done. simpl. by rewrite IH.
  - rewrite filter_cons_False by done. by rewrite IH.
Qed.

(** Either the master dies in this step, or the step leaves every task but at
    most the one running untouched. *)
Lemma m_step_tasks p s e s' o :
  minv s -> m_step p s e = Some (s', o) ->
  (exists s1, my_tasks s1 = my_tasks s /\ (s', o) = m_die s1 /\ my_alive s = true /\ my_reqs s1 = my_reqs s) \/
  (my_alive s' = my_alive s /\
   (forall t x, my_tasks s !! t = Some x -> e <> MeTask t -> my_tasks s' !! t = Some x) /\
   (forall k, (k < my_reqs s)%nat -> (forall t x, e = MeTask t -> my_tasks s !! t = Some x -> k ∉ task_req x) ->
      answers k o = []) /\
   (forall k t x, (k < my_reqs s)%nat -> my_tasks s' !! t = Some x -> k ∈ task_req x ->
      exists y, my_tasks s !! t = Some y /\ k ∈ task_req y)).
Proof.
  intros Hi Hs. destruct e as [r|t|c id|c msg|d]; cbn [m_step] in Hs.
  - right. destruct (my_alive s) eqn:Ea.
    + destruct (m_handle _ _ r) as [s1 o1] eqn:E. injection Hs as <- <-.
      apply m_handle_frame in E as (Ha & Hr & Hn & Hg & Hold & Hans & Hnew). cbn in *.
      split_and!; [congruence| |..].
      * intros t x Hx _. rewrite Hold; [done|]. by destruct (mv_task _ Hi _ _ Hx).
      * intros k Hk _. simpl. apply Hans. intros [= ?]. lia.
      * intros k t x Hk Hx Hin. destruct (Hnew _ _ k Hx) as [Hx'|Hx']; [eauto|].
        specialize (Hx' Hin). injection Hx'. lia.
    + injection Hs as <- <-. cbn. split_and!; [done|done| |eauto].
      intros k Hk _. destruct (Nat.eqb_spec (my_reqs s) k); [lia|done].
  - destruct (my_alive s) eqn:Ea; [|done]. unfold task_step in Hs.
    destruct (my_tasks s !! t) as [x|] eqn:Et; [|done].
    destruct (mv_task _ Hi _ _ Et) as (Hlt & _).
    (* a task that ends *)
    assert (forall s1, my_tasks s1 = my_tasks s -> 
       (forall t0 x0, my_tasks s !! t0 = Some x0 -> MeTask t <> MeTask t0 -> my_tasks (end_task s1 t) !! t0 = Some x0) /\
       (forall k t0 x0, my_tasks (end_task s1 t) !! t0 = Some x0 -> k ∈ task_req x0 ->
          exists y, my_tasks s !! t0 = Some y /\ k ∈ task_req y)) as Hend.
    { intros s1 H1. cbn. rewrite H1. split.
      - intros t0 x0 Hx Hn. rewrite lookup_delete_ne by congruence. done.
      - intros k t0 x0 [_ Hx]%lookup_delete_Some Hk. eauto. }
    assert (forall s1 z, my_tasks s1 = my_tasks s -> (task_req z = task_req x \/ task_req z = []) ->
       (forall t0 x0, my_tasks s !! t0 = Some x0 -> MeTask t <> MeTask t0 -> my_tasks (set_task s1 t z) !! t0 = Some x0) /\
       (forall k t0 x0, my_tasks (set_task s1 t z) !! t0 = Some x0 -> k ∈ task_req x0 ->
          exists y, my_tasks s !! t0 = Some y /\ k ∈ task_req y)) as Hset.
    { intros s1 z H1 Hz. cbn. rewrite H1. split.
      - intros t0 x0 Hx Hn. rewrite lookup_insert_ne by congruence. done.
      - intros k t0 x0 Hx Hk. destruct (decide (t0 = t)) as [->|Hn].
        + rewrite lookup_insert in Hx. injection Hx as <-. destruct Hz as [Hz|Hz]; rewrite Hz in Hk; [eauto|].
          by apply elem_of_nil in Hk.
        + rewrite lookup_insert_ne in Hx by done. eauto. }
    (* a task that handles an own message *)
    assert (forall s0 r s1 o1, m_handle s0 None r = (s1, o1) -> my_alive s0 = true -> my_next s0 = my_next s ->
       (forall t0 x0, my_tasks s !! t0 = Some x0 -> MeTask t <> MeTask t0 -> my_tasks s0 !! t0 = Some x0) ->
       (forall k t0 x0, my_tasks s0 !! t0 = Some x0 -> k ∈ task_req x0 ->
          exists y, my_tasks s !! t0 = Some y /\ k ∈ task_req y) ->
       my_alive s1 = true /\
       (forall t0 x0, my_tasks s !! t0 = Some x0 -> MeTask t <> MeTask t0 -> my_tasks s1 !! t0 = Some x0) /\
       (forall k, answers k (MoHandle r :: o1) = []) /\
       (forall k t0 x0, my_tasks s1 !! t0 = Some x0 -> k ∈ task_req x0 ->
          exists y, my_tasks s !! t0 = Some y /\ k ∈ task_req y)) as Hown.
    { intros s0 r s1 o1 E Hal Hnx H1 H2.
      apply m_handle_frame in E as (Ha & Hr & Hn & Hg & Hold & Hans & Hnew). split_and!.
      - congruence.
      - intros t0 x0 Hx Hne. rewrite Hold; [by apply H1|]. rewrite Hnx. by destruct (mv_task _ Hi _ _ Hx).
      - intros k. simpl. by apply Hans.
      - intros k t0 x0 Hx Hk. destruct (Hnew _ _ k Hx) as [Hx'|Hx']; [by eapply H2|]. by specialize (Hx' Hk). }
    assert (forall k j x', (forall t0 x0, MeTask t = MeTask t0 -> Some x = my_tasks s !! t0 -> x0 = x -> k ∉ task_req x) ->
       task_req x = match j with Some j => [j] | None => [] end -> answers k (reply j x') = []) as Hrep.
    { intros k j x' Hk Hx. apply answers_reply_ne. intros ->. apply (Hk t x); [done|done|done|].
      rewrite Hx. by left. }
    destruct x as [due|todo ph|k c|k c|k todo acc|c m|id m].
    + right. destruct (due <=? my_now s); [|done].
      destruct (m_handle _ _ RqCleanUp) as [s1 o1] eqn:E. injection Hs as <- <-.
      destruct (Hend s eq_refl) as [He1 He2].
      destruct (Hown _ _ _ _ E Ea eq_refl He1 He2) as (? & ? & ? & ?). split_and!; try done; eauto.
    + destruct todo as [|[id [rd c]] rest].
      { right. injection Hs as <- <-. destruct (Hset s (TWake (my_now s + my_gc s * NS)) eq_refl) as [? ?]; [by right|].
        split_and!; try done; eauto. }
      destruct ph.
      * destruct (send_counter p s c _) as [[s1 r]|] eqn:E; [|done].
        apply send_counter_eq in E as (x & x' & Hx & Hh & ->).
        destruct r; try (left; exists (set_ctrs s (<[c:=x']> (my_ctrs s))); split_and!; try done; congruence).
        right. injection Hs as <- <-. match goal with |- context [set_task ?a t ?z] => destruct (Hset a z eq_refl) as [? ?] end.
        { right. by destruct (_ && _). }
        split_and!; try done; eauto.
      * destruct (send_counter p s c _) as [[s1 r]|] eqn:E; [|done].
        apply send_counter_eq in E as (x & x' & Hx & Hh & ->).
        destruct r; try (left; exists (set_ctrs s (<[c:=x']> (my_ctrs s))); split_and!; try done; congruence).
        right. injection Hs as <- <-. match goal with |- context [set_task ?a t ?z] => destruct (Hset a z eq_refl) as [? ?] end.
        { by right. }
        split_and!; try done; eauto.
      * right. destruct (m_handle _ _ _) as [s1 o1] eqn:E. injection Hs as <- <-.
        destruct (Hset s (TClean rest PCount) eq_refl) as [He1 He2]; [by right|].
        destruct (Hown _ _ _ _ E Ea eq_refl He1 He2) as (? & ? & ? & ?). split_and!; try done; eauto.
    + right. destruct (send_counter p s c _) as [[s1 r]|] eqn:E; [|done].
      apply send_counter_eq in E as (x & x' & Hx & Hh & ->).
      destruct (Hend (set_ctrs s (<[c:=x']> (my_ctrs s))) eq_refl) as [He1 He2].
      destruct r; injection Hs as <- <-; (split_and!; [done|done| |eauto]);
        intros j Hj Hne; (apply Hrep; [|by destruct k]); intros t0 x0 [= <-] Hx0 ->; by apply (Hne t).
    + right. destruct (send_counter p s c _) as [[s1 r]|] eqn:E; [|done].
      apply send_counter_eq in E as (x & x' & Hx & Hh & ->).
      destruct (Hend (set_ctrs s (<[c:=x']> (my_ctrs s))) eq_refl) as [He1 He2].
      destruct r; injection Hs as <- <-; (split_and!; [done|done| |eauto]);
        intros j Hj Hne; (apply Hrep; [|by destruct k]); intros t0 x0 [= <-] Hx0 ->; by apply (Hne t).
    + right. destruct todo as [|[id [rd c]] rest].
      { injection Hs as <- <-. destruct (Hend s eq_refl) as [He1 He2].
        split_and!; [done|done| |eauto]. intros j Hj Hne. (apply Hrep; [|by destruct k]).
        intros t0 x0 [= <-] Hx0 ->; by apply (Hne t). }
      destruct (send_counter p s c _) as [[s1 r]|] eqn:E; [|done].
      apply send_counter_eq in E as (x & x' & Hx & Hh & ->).
      destruct r; injection Hs as <- <-;
        match goal with |- context [set_task ?a t ?z] => destruct (Hset a z eq_refl) as [? ?] end;
        try (by left); split_and!; try done; eauto.
    + right. destruct (send_counter p s c _) as [[s1 r]|] eqn:E; [|done].
      apply send_counter_eq in E as (x & x' & Hx & Hh & ->).
      destruct (Hend (set_ctrs s (<[c:=x']> (my_ctrs s))) eq_refl) as [He1 He2].
      injection Hs as <- <-. split_and!; try done; eauto.
    + right. destruct (m_handle _ _ _) as [s1 o1] eqn:E. injection Hs as <- <-.
      destruct (Hend s eq_refl) as [He1 He2].
      destruct (Hown _ _ _ _ E Ea eq_refl He1 He2) as (? & ? & ? & ?). split_and!; try done; eauto.
  - right. destruct (my_ctrs s !! c); [|done]. destruct (counter_fire _ _ _); [|done]. injection Hs as <- <-.
    split_and!; try done; eauto.
  - right. destruct (send_counter p s c _) as [[s1 r]|] eqn:E; [|done].
    apply send_counter_eq in E as (x & x' & Hx & Hh & ->).
    injection Hs as <- <-. split_and!; try done; eauto.
  - right. injection Hs as <- <-. split_and!; try done; eauto.
Qed.

Lemma m_step_reqs p s e s' o : m_step p s e = Some (s', o) -> (my_reqs s <= my_reqs s')%nat.
Proof.
  intros Hs. destruct e as [r|t|c id|c msg|d]; cbn [m_step] in Hs.
  - destruct (my_alive s).
    + destruct (m_handle _ _ r) as [s1 o1] eqn:E. injection Hs as <- <-.
      apply m_handle_frame in E as (_ & -> & _). cbn. lia.
    + injection Hs as <- <-. cbn. lia.
  - destruct (my_alive s); [|done]. unfold task_step in Hs.
    assert (forall a r s1 o1, m_handle a None r = (s1, o1) -> my_reqs a = my_reqs s ->
       (my_reqs s <= my_reqs s1)%nat) as Hown.
    { intros a r s1 o1 E Hr. apply m_handle_frame in E as (_ & -> & _). lia. }
    destruct (my_tasks s !! t) as [[due|[|[id [rd c]] rest] []|k c|k c|k [|[id [rd c]] rest] acc|c m|id m]|]; [..|done];
    repeat match goal with
    | H : (if ?b then _ else _) = Some _ |- _ => destruct b; [|done]
    | H : match send_counter p s ?c ?m with _ => _ end = Some _ |- _ =>
        destruct (send_counter p s c m) as [[s1 r]|] eqn:E; [|done];
        apply send_counter_eq in E as (x & x' & Hx & Hh & ->); try destruct r
    | H : (let '(_, _) := ?x in _) = Some _ |- _ => destruct x as [s1 o1] eqn:E
    end; try (injection Hs as <- <-); try (cbn; lia); eapply Hown; eauto.
  - destruct (my_ctrs s !! c); [|done]. destruct (counter_fire _ _ _); [|done]. by injection Hs as <- <-.
  - destruct (send_counter p s c _) as [[s1 r]|] eqn:E; [|done].
    apply send_counter_eq in E as (x & x' & Hx & Hh & ->). by injection Hs as <- <-.
  - by injection Hs as <- <-.
Qed.

(** A dead master stays dead. *)
Lemma dead_step p s e s' o : my_alive s = false -> m_step p s e = Some (s', o) -> my_alive s' = false.
Proof.
  intros Hd H2. destruct e as [r|t'|c' id|c' msg|d]; cbn [m_step] in H2; rewrite ?Hd in H2; try done.
  - by injection H2 as <- <-.
  - destruct (my_ctrs s !! c'); [|done]. destruct (counter_fire _ _ _); [|done]. by injection H2 as <- <-.
  - destruct (send_counter p s c' _) as [[s2 r]|] eqn:E; [|done].
    apply send_counter_eq in E as (x & x' & Hx & Hh & ->). by injection H2 as <- <-.
  - by injection H2 as <- <-.
Qed.
Lemma filter_none {A} (P : A -> Prop) `{!forall x, Decision (P x)} l :
  (forall x, x ∈ l -> ~ P x) -> filter P l = [].
Proof.
  induction l as [|a l IH]; intros Ho; [done|]. rewrite filter_cons_False by (apply Ho; by left).
  apply IH. intros x Hx. apply Ho. by right.
Qed.

(** A request without a pending task is never answered (again). *)
Definition gone (k : nat) (s : msys) : Prop := (k < my_reqs s)%nat /\ no_task k s.
Lemma gone_step p s e s' o k :
  minv s -> gone k s -> m_step p s e = Some (s', o) -> gone k s' /\ answers k o = [].
Proof.
  intros Hi [Hk Hg] Hs. pose proof (m_step_reqs _ _ _ _ _ Hs) as Hr.
  destruct (m_step_tasks _ _ _ _ _ Hi Hs) as [(s1 & Ht & Hd & _ & Hrq)|(_ & _ & Ha & Hb)].
  - injection Hd as -> ->. split.
    + split; [cbn; lia|]. intros t x. cbn. by rewrite lookup_empty.
    + rewrite answers_dropped. rewrite filter_none; [done|].
      intros j Hj ->. apply elem_of_list_bind in Hj as (x & Hx & Hin).
      apply elem_of_list_fmap in Hin as ([t y] & -> & Hin%elem_of_map_to_list). rewrite Ht in Hin.
      by apply (Hg _ _ Hin).
  - split.
    + split; [lia|]. intros t x Hx Hin. destruct (Hb _ _ _ Hk Hx Hin) as (y & Hy & Hin').
      by apply (Hg _ _ Hy).
    + apply Ha; [done|]. intros t x _ Hx. by apply (Hg _ _ Hx).
Qed.
Lemma gone_run p s es s' tr k :
  minv s -> gone k s -> m_run p s es = Some (s', tr) -> gone k s' /\ answers k tr = [].
Proof.
  intros Hi Hg Hr. assert (minv s' /\ gone k s' /\ answers k tr = []) as (_ & ? & ?); [|done].
  revert Hr. apply (m_run_ind (fun s tr => minv s /\ gone k s /\ answers k tr = [])).
  - done.
  - intros s1 tr1 e s2 o (Hi1 & Hg1 & Ha1) Hs. split; [by eapply m_step_inv|].
    destruct (gone_step _ _ _ _ _ _ Hi1 Hg1 Hs) as [? Ho]. split; [done|]. by rewrite answers_app, Ha1, Ho.
Qed.

(** Only one task works for a request. *)
Lemma dropped_once s k t x :
  minv s -> my_tasks s !! t = Some x -> task_req x = [k] ->
  answers k (m_die s).2 = [MrDropped].
Proof.
  intros Hi Hx Hk. cbn [m_die snd]. rewrite answers_dropped.
  assert (filter (fun j => j = k) ((map_to_list (my_tasks s)).*2 ≫= task_req) ≡ₚ [k]) as Hp.
  { assert (map_to_list (my_tasks s) ≡ₚ (t, x) :: map_to_list (delete t (my_tasks s))) as E.
    { rewrite <- map_to_list_insert by apply lookup_delete. by rewrite insert_delete. }
    rewrite E. rewrite fmap_cons. cbn [snd]. rewrite bind_cons, Hk, filter_app.
    rewrite filter_cons_True, filter_nil by done.
    rewrite filter_none; [done|].
    intros j Hj ->. apply elem_of_list_bind in Hj as (y & Hy & Hin).
    apply elem_of_list_fmap in Hin as ([t' y'] & -> & Hin%elem_of_map_to_list).
    apply lookup_delete_Some in Hin as [Hne Hin]. apply Hne.
    eapply (mv_uniq _ Hi); [exact Hx|exact Hin| |exact Hy]. rewrite Hk. by left. }
  apply Permutation_length in Hp. by rewrite Hp.
Qed.

(** * AddVisitor *)
Definition visit_answer (r : counter_reply) : mreply :=
  match r with CrAdded v => MrVisit (Ok (Some v)) | _ => MrVisit (Err MailboxError) end.
Lemma visit_step p s t k c s' o :
  my_tasks s !! t = Some (TVisit (Some k) c) -> my_alive s = true -> m_step p s (MeTask t) = Some (s', o) ->
  exists x x' r, my_ctrs s !! c = Some x /\ counter_handle p (my_now s) x CmAddVisitor = (x', r) /\
    s' = end_task (set_ctrs s (<[c := x']> (my_ctrs s))) t /\ o = [MoReply k (visit_answer r)].
Proof.
  intros Ht Ha Hs. cbn [m_step] in Hs. rewrite Ha in Hs. unfold task_step in Hs. rewrite Ht in Hs.
  destruct (send_counter p s c _) as [[s1 r]|] eqn:E; [|done].
  apply send_counter_eq in E as (x & x' & Hx & Hh & ->). exists x, x', r. split; [done|]. split; [done|].
  destruct r; injection Hs as <- <-; done.
Qed.
Lemma is_task_dec (e : mevent) (t : nat) : e = MeTask t \/ e <> MeTask t.
Proof. destruct e as [|t'| | |]; try (by right). destruct (decide (t' = t)) as [->|]; [by left|right; congruence]. Qed.
Lemma visit_run p s t k c es s' tr :
  minv s -> my_alive s = true -> my_tasks s !! t = Some (TVisit (Some k) c) ->
  m_run p s es = Some (s', tr) ->
  (answers k tr = [] /\ my_alive s' = true /\ my_tasks s' !! t = Some (TVisit (Some k) c)) \/
  (answers k tr = [MrDropped] /\ my_alive s' = false /\ gone k s') \/
  (exists es1 es2 s1 tr1 s2 o x x' r,
     es = es1 ++ MeTask t :: es2 /\ m_run p s es1 = Some (s1, tr1) /\
     m_step p s1 (MeTask t) = Some (s2, o) /\
     my_ctrs s1 !! c = Some x /\ counter_handle p (my_now s1) x CmAddVisitor = (x', r) /\
     my_ctrs s2 = <[c := x']> (my_ctrs s1) /\ my_sites s2 = my_sites s1 /\
     answers k tr = [visit_answer r] /\ gone k s').
Proof.
  intros Hi Ha Ht. revert s' tr. induction es as [|e es IH] using rev_ind; intros s' tr Hr.
  { injection Hr as <- <-. by left. }
  apply m_run_snoc in Hr as (s1 & tr1 & o & H1 & H2 & ->).
  pose proof (run_inv_from _ _ _ _ _ Hi H1) as Hi1.
  destruct (IH _ _ H1) as [(Han & Hal & Htk)|[(Han & Hal & Hg)|IH3]]; clear IH.
  - assert (k < my_reqs s1)%nat as Hlt.
    { destruct (mv_task _ Hi1 _ _ Htk) as (_ & _ & Hf & _). by apply Forall_cons in Hf as [? _]. }
    destruct (is_task_dec e t) as [->|Hne].
    + right. right. pose proof H2 as H2'.
      destruct (visit_step _ _ _ _ _ _ _ Htk Hal H2) as (x & x' & r & Hx & Hh & -> & ->).
      exists es, [], s1, tr1. eexists _, _, x, x', r. split; [done|]. split; [done|]. split; [exact H2'|].
      split_and!; try done.
      * rewrite answers_app, Han. simpl. by rewrite Nat.eqb_refl.
      * split; [exact Hlt|]. intros t' z. cbn. intros [Hn Hz]%lookup_delete_Some Hin. apply Hn.
        eapply (mv_uniq _ Hi1); [exact Htk|exact Hz| |exact Hin]. by left.
    + destruct (m_step_tasks _ _ _ _ _ Hi1 H2) as [(s2 & Hts & Hd & _ & Hrq)|(Hal' & Hold & Hans & _)].
      * right. left. rewrite answers_app, Han.
        assert (minv (MSys (my_now s1) (my_alive s1) (my_gc s1) (my_sites s1) (my_ctrs s1) (my_tasks s2)
                 (my_next s1) (my_reqs s1))) as Hi2 by (rewrite Hts; by destruct Hi1).
        rewrite <- Hts in Htk.
        pose proof (dropped_once _ k t _ Hi2 Htk eq_refl) as Hdr. cbn [m_die snd my_tasks] in Hdr.
        injection Hd as -> ->. split; [done|]. split; [done|].
        split; [cbn; lia|]. intros t' z. cbn. by rewrite lookup_empty.
      * left. split_and!; [|by rewrite Hal'|by apply Hold].
        rewrite answers_app, Han. simpl. apply Hans; [done|].
        intros t' x -> Hx Hk. apply Hne. f_equal.
        eapply (mv_uniq _ Hi1); [exact Hx|exact Htk|exact Hk|]. by left.
  - right. left. destruct (gone_step _ _ _ _ _ _ Hi1 Hg H2) as [Hg' Ho].
    split; [by rewrite answers_app, Han, Ho|]. split; [|done].
    by eapply dead_step.
  - right. right. destruct IH3 as (es1 & es2 & sa & tra & sb & oo & x & x' & r & -> & Hra & Hsb & Hx & Hh & Hc & Hss & Han & Hg).
    destruct (gone_step _ _ _ _ _ _ Hi1 Hg H2) as [Hg' Ho].
    exists es1, (es2 ++ [e]), sa, tra, sb, oo, x, x', r. split; [by rewrite <- (assoc_L (++))|].
    split_and!; try done; by rewrite answers_app, Han, Ho.
Qed.

(** * An undisturbed cleanup pass *)
Definition idle_b (s : msys) (x : site) : bool :=
  si_read x && match my_ctrs s !! si_ctr x with Some y => m_get_visitors (ct_data y) =? 0 | None => false end.

Lemma run_cons p s e es s1 o s2 tr :
  m_step p s e = Some (s1, o) -> m_run p s1 es = Some (s2, tr) -> m_run p s (e :: es) = Some (s2, o ++ tr).
Proof. intros H1 H2. cbn [m_run]. by rewrite H1, H2. Qed.

Lemma clean_pass p t todo s :
  minv s -> my_alive s = true -> my_tasks s !! t = Some (TClean todo PCount) ->
  (forall id x, (id, x) ∈ todo -> exists rd, my_sites s !! id = Some (Site rd (si_ctr x))) ->
  (forall id x, (id, x) ∈ todo -> alive_at s (si_ctr x)) ->
  exists n s' o, m_run p s (replicate n (MeTask t)) = Some (s', o) /\
    my_tasks s' !! t = Some (TWake (my_now s + my_gc s * NS)) /\ my_alive s' = true /\ my_now s' = my_now s /\
    (forall k, answers k o = []) /\
    (forall id x, (id, x) ∈ todo -> idle_b s x = true -> my_sites s' !! id = None) /\
    (forall id, (forall x, (id, x) ∈ todo -> idle_b s x = false) -> my_sites s' !! id = my_sites s !! id) /\
    (forall id x y, (id, x) ∈ todo -> idle_b s x = true -> my_ctrs s !! si_ctr x = Some y ->
        my_ctrs s' !! si_ctr x = Some (kill y)) /\
    (forall c, (forall id x, (id, x) ∈ todo -> idle_b s x = true -> si_ctr x <> c) -> my_ctrs s' !! c = my_ctrs s !! c).
Proof.
  revert s. induction todo as [|[id [rd c]] rest IH]; intros s Hi Hal Ht Hreg Hlive.
  { exists 1%nat. cbn [replicate m_run m_step]. rewrite Hal. unfold task_step. rewrite Ht.
    eexists _, _. split; [reflexivity|]. cbn. rewrite lookup_insert. split_and!; try done.
    all: intros *; by intros ?%elem_of_nil. }
  destruct (Hlive id (Site rd c)) as (y & Hy & Hya); [by left|]. cbn [si_ctr] in Hy.
  destruct (mv_task _ Hi _ _ Ht) as (Hlt & _ & _ & Hdt).
  cbn [distinct_todo] in Hdt. rewrite !fmap_cons in Hdt. cbn [fst snd si_ctr] in Hdt. destruct Hdt as [Hd1 Hd2].
  apply NoDup_cons in Hd1 as [Hd1 Hd1']. apply NoDup_cons in Hd2 as [Hd2 Hd2'].
  assert (forall id' x, (id', x) ∈ rest -> id' <> id /\ si_ctr x <> c) as Hne.
  { intros id' x Hin. split.
    - intros ->. apply Hd1. apply elem_of_list_fmap. by exists (id, x).
    - intros Hc. apply Hd2. apply elem_of_list_fmap. by exists (id', x). }
  assert (send_counter p s c CmGetCurrentVisitorCount = Some (s, CrCount (m_get_visitors (ct_data y)))) as E1.
  { unfold send_counter. rewrite Hy. cbn [counter_handle]. unfold counter_handle. rewrite Hya.
    rewrite list_insert_id by done. by destruct s. }
  assert (m_step p s (MeTask t) =
    Some (set_task s t (if (m_get_visitors (ct_data y) =? 0) && rd then TClean ((id, Site rd c) :: rest) PStop
                        else TClean rest PCount), [])) as S1.
  { cbn [m_step]. rewrite Hal. unfold task_step. rewrite Ht, E1. done. }
  pose proof (m_step_inv _ _ _ _ _ Hi S1) as Hi1.
  assert (idle_b s (Site rd c) = (m_get_visitors (ct_data y) =? 0) && rd) as Hidle.
  { unfold idle_b. cbn [si_read si_ctr]. rewrite Hy. apply andb_comm. }
  destruct ((m_get_visitors (ct_data y) =? 0) && rd) eqn:Eidle.
  - (* collected *)
    set (s1 := set_task s t (TClean ((id, Site rd c) :: rest) PStop)) in *.
    set (s2 := set_task (set_ctrs s1 (<[c := kill y]> (my_ctrs s1))) t (TClean ((id, Site rd c) :: rest) PRemove)).
    assert (m_step p s1 (MeTask t) = Some (s2, [])) as S2.
    { cbn [m_step]. unfold s1 at 1. cbn [my_alive set_task set_tasks]. rewrite Hal. unfold task_step.
      unfold s1 at 1. cbn [my_tasks set_task set_tasks]. rewrite lookup_insert.
      unfold send_counter. unfold s1 at 1. cbn [my_ctrs set_task set_tasks]. rewrite Hy.
      unfold counter_handle. rewrite Hya. done. }
    pose proof (m_step_inv _ _ _ _ _ Hi1 S2) as Hi2.
    destruct (Hreg id (Site rd c)) as (rd' & Hsite); [by left|]. cbn [si_ctr] in Hsite.
    set (s3 := spawn (set_sites (set_task s2 t (TClean rest PCount)) (delete id (my_sites s))) (TStop None c)).
    assert (m_step p s2 (MeTask t) = Some (s3, [MoHandle (RqRemove id)])) as S3.
    { cbn [m_step]. unfold s2 at 1. cbn [my_alive set_task set_tasks set_ctrs]. unfold s1 at 1.
      cbn [my_alive set_task set_tasks set_ctrs]. rewrite Hal. unfold task_step.
      unfold s2 at 1. cbn [my_tasks set_task set_tasks]. rewrite lookup_insert.
      cbn [m_handle]. unfold rm_site.
      change (my_sites (set_task s2 t (TClean rest PCount))) with (my_sites s). rewrite Hsite. done. }
    pose proof (m_step_inv _ _ _ _ _ Hi2 S3) as Hi3.
    assert (my_ctrs s3 = <[c := kill y]> (my_ctrs s)) as Hc3 by done.
    assert (my_sites s3 = delete id (my_sites s)) as Hs3 by done.
    assert (forall id' x, (id', x) ∈ rest -> idle_b s3 x = idle_b s x) as Hid3.
    { intros id' x Hin. destruct (Hne _ _ Hin) as [_ Hcn]. unfold idle_b. rewrite Hc3.
      by rewrite list_lookup_insert_ne by done. }
    assert (my_tasks s3 !! t = Some (TClean rest PCount)) as Ht3.
    { unfold s3. cbn [spawn my_tasks set_sites my_next]. unfold s2, s1. cbn. rewrite lookup_insert_ne by lia.
      apply lookup_insert. }
    destruct (IH s3 Hi3 Hal Ht3) as (n & s' & o & Hr & Htw & Hal' & Hnow & Han & Ha & Hb & Hc & Hd).
    { intros id' x Hin. destruct (Hne _ _ Hin) as [Hidn _]. rewrite Hs3, lookup_delete_ne by done.
      apply Hreg. by right. }
    { intros id' x Hin. destruct (Hne _ _ Hin) as [_ Hcn]. unfold alive_at. rewrite Hc3.
      rewrite list_lookup_insert_ne by done. apply (Hlive id'). by right. }
    exists (3 + n)%nat, s', ([] ++ [] ++ [MoHandle (RqRemove id)] ++ o). split.
    { change (replicate (3 + n) (MeTask t)) with (MeTask t :: MeTask t :: MeTask t :: replicate n (MeTask t)).
      eapply run_cons; [exact S1|]. eapply run_cons; [exact S2|]. by eapply run_cons; [exact S3|]. }
    split_and!; try done.
    + intros id' x Hin Hix. apply elem_of_cons in Hin as [[= -> ->]|Hin].
      * rewrite Hb; [by rewrite Hs3, lookup_delete|]. intros x Hin. by destruct (Hne _ _ Hin).
      * eapply Ha; [done|]. by rewrite (Hid3 _ _ Hin).
    + intros id' Hno. rewrite Hb.
      * rewrite Hs3, lookup_delete_ne; [done|]. intros <-.
        assert (idle_b s (Site rd c) = false) by (apply Hno; by left). congruence.
      * intros x Hin. rewrite (Hid3 _ _ Hin). apply Hno. by right.
    + intros id' x z Hin Hix Hz. apply elem_of_cons in Hin as [[= -> ->]|Hin].
      * cbn [si_ctr] in *. rewrite Hd; [rewrite Hc3, list_lookup_insert; [congruence|by eapply lookup_lt_Some]|].
        intros id' x Hin _. by destruct (Hne _ _ Hin).
      * eapply Hc; [done|by rewrite (Hid3 _ _ Hin)|]. rewrite Hc3, list_lookup_insert_ne; [done|].
        by destruct (Hne _ _ Hin).
    + intros c' Hno. rewrite Hd.
      * rewrite Hc3, list_lookup_insert_ne; [done|]. intros <-. eapply Hno; [by left|by rewrite Hidle|done].
      * intros id' x Hin Hix. eapply Hno; [by right|]. by rewrite <- (Hid3 _ _ Hin).
  - (* kept *)
    set (s1 := set_task s t (TClean rest PCount)) in *.
    assert (my_tasks s1 !! t = Some (TClean rest PCount)) as Ht1 by apply lookup_insert.
    destruct (IH s1 Hi1 Hal Ht1) as (n & s' & o & Hr & Htw & Hal' & Hnow & Han & Ha & Hb & Hc & Hd).
    { intros id' x Hin. apply (Hreg id' x). by right. }
    { intros id' x Hin. apply (Hlive id' x). by right. }
    exists (S n), s', ([] ++ o). split; [by eapply run_cons|].
    assert (forall x, idle_b s1 x = idle_b s x) as Hid1 by done.
    split_and!; try done.
    + intros id' x Hin Hix. apply elem_of_cons in Hin as [[= -> ->]|Hin]; [congruence|]. by eapply Ha.
    + intros id' Hno. apply (Hb id'). intros x Hin. apply Hno. by right.
    + intros id' x z Hin Hix Hz. apply elem_of_cons in Hin as [[= -> ->]|Hin]; [congruence|]. by eapply Hc.
    + intros c' Hno. apply (Hd c'). intros id' x Hin. apply (Hno id' x). by right.
Qed.

(** * GetInternalData *)
Lemma get_pass p t k todo acc s :
  minv s -> my_alive s = true -> my_tasks s !! t = Some (TGet k todo acc) ->
  exists d, m_run p s (replicate (S (length todo)) (MeTask t)) = Some (end_task s t, reply k (MrData d)) /\
    (forall id x y, (id, x) ∈ todo -> my_ctrs s !! si_ctr x = Some y ->
        d !! id = if ct_alive y then Some (ct_data y) else acc !! id) /\
    (forall id, id ∉ todo.*1 -> d !! id = acc !! id).
Proof.
  revert s acc. induction todo as [|[id [rd c]] rest IH]; intros s acc Hi Hal Ht.
  { exists acc. split; [|split; [|done]].
    - cbn [length replicate m_run m_step]. rewrite Hal. unfold task_step. rewrite Ht. by rewrite app_nil_r.
    - intros id x y Hin. by apply elem_of_nil in Hin. }
  destruct (mv_task _ Hi _ _ Ht) as (Hlt & Hct & _ & Hdt).
  cbn [distinct_todo] in Hdt. rewrite !fmap_cons in Hdt. cbn [fst snd si_ctr] in Hdt. destruct Hdt as [Hd1 Hd2].
  apply NoDup_cons in Hd1 as [Hd1 _].
  cbn [task_ctrs] in Hct. rewrite fmap_cons in Hct. cbn [snd si_ctr] in Hct. apply Forall_cons in Hct as [Hc _].
  destruct (lookup_lt_is_Some_2 _ _ Hc) as [y Hy].
  set (acc' := if ct_alive y then <[id := ct_data y]> acc else acc).
  assert (m_step p s (MeTask t) = Some (set_task s t (TGet k rest acc'), [])) as S1.
  { cbn [m_step]. rewrite Hal. unfold task_step. rewrite Ht. unfold send_counter. rewrite Hy.
    unfold counter_handle, acc'. destruct (ct_alive y); rewrite list_insert_id by done; by destruct s. }
  pose proof (m_step_inv _ _ _ _ _ Hi S1) as Hi1.
  destruct (IH (set_task s t (TGet k rest acc')) acc' Hi1 Hal) as (d & Hr & Ha & Hb); [apply lookup_insert|].
  exists d. split_and!.
  - change (replicate (S (length ((id, Site rd c) :: rest))) (MeTask t)) with
      (MeTask t :: replicate (S (length rest)) (MeTask t)).
    assert (end_task (set_task s t (TGet k rest acc')) t = end_task s t) as <-.
    { unfold end_task, set_task, set_tasks. cbn. by rewrite delete_insert_delete. }
    by eapply (run_cons _ _ _ _ _ []).
  - intros id' x z Hin Hz. apply elem_of_cons in Hin as [[= -> ->]|Hin].
    + cbn [si_ctr] in Hz. rewrite Hy in Hz. injection Hz as <-. rewrite Hb by done. unfold acc'.
      destruct (ct_alive y); [by rewrite lookup_insert|done].
    + rewrite (Ha _ _ _ Hin Hz). destruct (ct_alive z); [done|]. unfold acc'. destruct (ct_alive y); [|done].
      rewrite lookup_insert_ne; [done|]. intros <-. apply Hd1. apply elem_of_list_fmap. by exists (id, x).
  - intros id'. rewrite fmap_cons. cbn [fst]. intros [Hn Hin]%not_elem_of_cons. rewrite Hb by done.
    unfold acc'. destruct (ct_alive y); [|done]. by rewrite lookup_insert_ne by congruence.
Qed.

(** * SetInternalData *)
(** [s0]: before; [l]: the data; [done]: indices of the data already installed. *)
Record set_inv (s0 : msys) (l : list (string * mcaptcha)) (dn : list nat) (s : msys) : Prop := SetInv {
  si_inv : minv s;
  si_alive : my_alive s = true;
  si_now : my_now s = my_now s0;
  si_pending : forall i nm, l !! i = Some nm -> i ∉ dn ->
    my_tasks s !! (my_next s0 + i)%nat = Some (set_task_of (my_sites s0) nm);
  si_grow : (length (my_ctrs s0) <= length (my_ctrs s))%nat;
  si_known : forall id x, my_sites s0 !! id = Some x ->
    exists rd, my_sites s !! id = Some (Site rd (si_ctr x)) /\ (id ∉ l.*1 -> rd = si_read x);
  si_new : forall id, my_sites s0 !! id = None ->
    (exists i m, l !! i = Some (id, m) /\ i ∈ dn /\ exists c, my_sites s !! id = Some (Site false c) /\
        (length (my_ctrs s0) <= c)%nat /\ my_ctrs s !! c = Some (counter_start m)) \/
    ((forall i m, l !! i = Some (id, m) -> i ∉ dn) /\ my_sites s !! id = None);
  si_ctrs : forall c y, my_ctrs s0 !! c = Some y ->
    (exists i id m x, l !! i = Some (id, m) /\ i ∈ dn /\ my_sites s0 !! id = Some x /\ si_ctr x = c /\
       exists y', my_ctrs s !! c = Some y' /\ ct_alive y' = ct_alive y /\ (ct_alive y = true -> ct_data y' = m)) \/
    ((forall i id m x, l !! i = Some (id, m) -> my_sites s0 !! id = Some x -> si_ctr x = c -> i ∉ dn) /\
     my_ctrs s !! c = Some y) }.

Lemma set_inv_step p s0 l dn s i nm :
  minv s0 -> NoDup (l.*1) -> set_inv s0 l dn s -> l !! i = Some nm -> i ∉ dn ->
  exists s' o, m_step p s (MeTask (my_next s0 + i)) = Some (s', o) /\ set_inv s0 l (i :: dn) s' /\
    (forall k, answers k o = []).
Proof.
  intros Hi0 Hnd [Hi Ha Hnow Hp Hg Hk Hn Hc] Hl Hin.
  assert (forall j a b, l !! j = Some (nm.1, a) -> nm = (nm.1, b) -> j = i) as Huniq.
  { intros j a b Hj _. eapply NoDup_lookup; [exact Hnd| |].
    - rewrite list_lookup_fmap, Hj. done.
    - rewrite list_lookup_fmap, Hl. done. }
  pose proof (Hp _ _ Hl Hin) as Ht. destruct nm as [id m]. cbn [fst] in Huniq.
  unfold set_task_of in Ht. cbn [fst snd] in Ht.
  destruct (my_sites s0 !! id) as [x|] eqn:E0.
  - (* registered before: the counter gets the data *)
    assert (si_ctr x < length (my_ctrs s0))%nat as Hlt by (by eapply mv_site).
    destruct (lookup_lt_is_Some_2 _ _ Hlt) as [y Hy].
    assert (my_ctrs s !! si_ctr x = Some y) as Hys.
    { destruct (Hc _ _ Hy) as [(i' & id' & m' & x' & Hl' & Hd' & Hx' & Hcx & _)|[_ ?]]; [|done].
      exfalso. pose proof (mv_inj _ Hi0 _ _ _ _ Hx' E0 Hcx) as ->.
      rewrite (Huniq i' m' m Hl' eq_refl) in Hd'. done. }
    destruct (counter_handle p (my_now s) y (CmSetInternalData m)) as [y' r] eqn:Eh.
    assert (ct_alive y' = ct_alive y /\ (ct_alive y = true -> ct_data y' = m)) as [Hy'1 Hy'2].
    { unfold counter_handle in Eh. destruct (ct_alive y) eqn:Eal; injection Eh as <- <-; by cbn. }
    set (s' := end_task (set_ctrs s (<[si_ctr x := y']> (my_ctrs s))) (my_next s0 + i)).
    assert (m_step p s (MeTask (my_next s0 + i)) = Some (s', [])) as S1.
    { cbn [m_step]. rewrite Ha. unfold task_step. rewrite Ht. unfold send_counter. rewrite Hys, Eh. done. }
    exists s', []. split; [done|]. split; [|done]. split.
    + by eapply m_step_inv.
    + done.
    + done.
    + intros j nm' Hj [Hji Hjd]%not_elem_of_cons. cbn. rewrite lookup_delete_ne by lia. by apply Hp.
    + cbn. by rewrite insert_length.
    + exact Hk.
    + intros id' Hid'. destruct (Hn _ Hid') as [(i' & m' & H1 & H2 & c & H3 & H4 & H5)|[H1 H2]].
      * left. exists i', m'. split; [done|]. split; [by right|]. exists c. split; [done|]. split; [done|].
        cbn. rewrite list_lookup_insert_ne by lia. done.
      * right. split; [|done]. intros j m' Hj. apply not_elem_of_cons. split; [|by eapply H1].
        intros ->. rewrite Hl in Hj. injection Hj as -> ->. congruence.
    + intros c yc Hyc. destruct (decide (c = si_ctr x)) as [->|Hne].
      * left. exists i, id, m, x. split; [done|]. split; [by left|]. split; [done|]. split; [done|].
        exists y'. cbn. rewrite list_lookup_insert by (by eapply lookup_lt_Some).
        rewrite Hy in Hyc. injection Hyc as <-. done.
      * destruct (Hc _ _ Hyc) as [(i' & id' & m' & x' & Hl' & Hd' & Hx' & Hcx & y'' & H1)|[H1 H2]].
        -- left. exists i', id', m', x'. split_and!; try done; [by right|]. exists y''. cbn.
           by rewrite list_lookup_insert_ne by done.
        -- right. split.
           ++ intros j id' m' x' Hj Hx' Hcx. apply not_elem_of_cons. split; [|by eapply H1].
              intros ->. rewrite Hl in Hj. injection Hj as <- <-. congruence.
           ++ cbn. by rewrite list_lookup_insert_ne by done.
  - (* unknown before: a fresh counter *)
    set (c := length (my_ctrs s)).
    set (s' := set_sites (set_ctrs (end_task s (my_next s0 + i)) (my_ctrs s ++ [counter_start m]))
                 (add_site (my_sites s) c id)).
    assert (m_step p s (MeTask (my_next s0 + i)) = Some (s', [MoHandle (RqAddSite id m)])) as S1.
    { cbn [m_step]. rewrite Ha. unfold task_step. rewrite Ht. done. }
    exists s', [MoHandle (RqAddSite id m)]. split; [done|]. split; [|done].
    assert (forall c' z, my_ctrs s !! c' = Some z -> my_ctrs s' !! c' = Some z) as Hcx.
    { intros c' z Hz. cbn. by apply lookup_app_l_Some. }
    split.
    + by eapply m_step_inv.
    + done.
    + done.
    + intros j nm' Hj [Hji Hjd]%not_elem_of_cons. cbn. rewrite lookup_delete_ne by lia. by apply Hp.
    + cbn. rewrite app_length. lia.
    + intros id' x' Hx'. destruct (decide (id' = id)) as [->|Hne]; [congruence|].
      destruct (Hk _ _ Hx') as (rd & H1 & H2). exists rd. split; [|done]. cbn. unfold add_site.
      by rewrite lookup_insert_ne by done.
    + intros id' Hid'. destruct (decide (id' = id)) as [->|Hne].
      * left. exists i, m. split; [done|]. split; [by left|]. exists c. cbn. unfold add_site.
        rewrite lookup_insert. split; [done|]. split; [unfold c; lia|]. by apply list_lookup_middle.
      * destruct (Hn _ Hid') as [(i' & m' & H1 & H2 & c' & H3 & H4 & H5)|[H1 H2]].
        -- left. exists i', m'. split; [done|]. split; [by right|]. exists c'. split; [|split; [done|by apply Hcx]].
           cbn. unfold add_site. by rewrite lookup_insert_ne by done.
        -- right. split.
           ++ intros j m' Hj. apply not_elem_of_cons. split; [|by eapply H1].
              intros ->. rewrite Hl in Hj. injection Hj as <- <-. done.
           ++ cbn. unfold add_site. by rewrite lookup_insert_ne by done.
    + intros c' yc Hyc. destruct (Hc _ _ Hyc) as [(i' & id' & m' & x' & Hl' & Hd' & Hx' & Hcx' & y'' & H1 & H2)|[H1 H2]].
      * left. exists i', id', m', x'. split_and!; try done; [by right|]. exists y''. split; [by apply Hcx|done].
      * right. split; [|by apply Hcx].
        intros j id' m' x' Hj Hx' Hcx'. apply not_elem_of_cons. split; [|by eapply H1].
        intros ->. rewrite Hl in Hj. injection Hj as <- <-. congruence.
Qed.

Lemma set_inv_run p s0 l is dn s :
  minv s0 -> NoDup (l.*1) -> set_inv s0 l dn s -> NoDup is -> (forall i, i ∈ is -> (i < length l)%nat /\ i ∉ dn) ->
  exists s' o, m_run p s ((fun i => MeTask (my_next s0 + i)%nat) <$> is) = Some (s', o) /\
    set_inv s0 l (reverse is ++ dn) s' /\ (forall k, answers k o = []).
Proof.
  intros Hi0 Hnd. revert dn s. induction is as [|i is IH]; intros dn s Hs Hni Hin.
  { exists s, []. done. }
  apply NoDup_cons in Hni as [Hni Hni']. destruct (Hin i) as [Hlt Hid]; [by left|].
  destruct (lookup_lt_is_Some_2 _ _ Hlt) as [nm Hl].
  destruct (set_inv_step p s0 l dn s i nm Hi0 Hnd Hs Hl Hid) as (s1 & o1 & H1 & Hs1 & Ha1).
  destruct (IH (i :: dn) s1 Hs1 Hni') as (s' & o & H2 & Hs' & Ha2).
  { intros j Hj. destruct (Hin j) as [? ?]; [by right|]. split; [done|]. apply not_elem_of_cons.
    split; [|done]. by intros ->. }
  exists s', (o1 ++ o). split.
  - rewrite fmap_cons. by eapply run_cons.
  - split.
    + rewrite reverse_cons. by rewrite <- (assoc_L (++)).
    + intros k. by rewrite answers_app, Ha1, Ha2.
Qed.

Lemma set_inv_start p s d s1 o :
  minv s -> my_alive s = true -> m_step p s (MeReq (RqSetData d)) = Some (s1, o) ->
  set_inv s (map_to_list d) [] s1 /\ o = [MoHandle (RqSetData d); MoReply (my_reqs s) (MrUnit (Ok tt))].
Proof.
  intros Hi Ha Hs. pose proof (m_step_inv _ _ _ _ _ Hi Hs) as Hi1. cbn [m_step] in Hs. rewrite Ha in Hs.
  cbn [m_handle reply] in Hs. injection Hs as <- <-. split; [|done].
  set (s0 := MSys _ _ _ _ _ _ _ _) in *.
  destruct (set_data_frame (map_to_list d) s0) as (H1 & H2 & H3 & H4 & H5 & H6).
  split; try done.
  - intros i nm Hl _. rewrite set_data_tasks. pose proof (lookup_lt_Some _ _ _ Hl) as Hlt.
    unfold s0. cbn [my_next my_sites]. rewrite decide_True by lia.
    replace (my_next s + i - my_next s)%nat with i by lia. by rewrite Hl.
  - by rewrite H1.
  - intros id x Hx. exists (bool_decide (id ∈ (map_to_list d).*1) || si_read x).
    rewrite set_data_lookup. unfold s0. cbn [my_sites]. rewrite Hx. split; [done|].
    intros Hn. by rewrite bool_decide_false.
  - intros id Hx. right. split; [intros; apply not_elem_of_nil|]. rewrite set_data_lookup.
    unfold s0. cbn [my_sites]. by rewrite Hx.
  - intros c y Hy. right. split; [intros; apply not_elem_of_nil|]. by rewrite H1.
Qed.

(** * Stopped counters *)
Lemma counter_handle_dead p now x msg x' r :
  ct_alive x = false -> counter_handle p now x msg = (x', r) -> x' = x /\ r = CrMailboxError.
Proof. intros Hd. unfold counter_handle. rewrite Hd. by intros [= <- <-]. Qed.

(** Every step changes the counters by handing at most one message or timer to
    one of them, or by starting a new one. *)
Inductive ctr_change (p : profile) (now : N) (cs : list counter) : list counter -> Prop :=
| cc_same : ctr_change p now cs cs
| cc_msg c x msg x' r : cs !! c = Some x -> counter_handle p now x msg = (x', r) ->
    ctr_change p now cs (<[c := x']> cs)
| cc_fire c x id x' : cs !! c = Some x -> counter_fire now x id = Some x' ->
    ctr_change p now cs (<[c := x']> cs)
| cc_new m : ctr_change p now cs (cs ++ [counter_start m]).
Lemma m_handle_ctrs p s k r s' o : m_handle s k r = (s', o) -> ctr_change p (my_now s) (my_ctrs s) (my_ctrs s').
Proof.
  intros Hh. destruct r; cbn [m_handle] in Hh.
  - injection Hh as <- <-. constructor.
  - injection Hh as <- <-. constructor.
  - unfold rm_site in Hh. destruct (my_sites s !! id); injection Hh as <- <-; constructor.
  - destruct (get_site (my_sites s) id) as [ss [a|]]; injection Hh as <- <-; constructor.
  - destruct (get_site (my_sites s) id) as [ss a]; injection Hh as <- <-; constructor.
  - injection Hh as <- <-. constructor.
  - injection Hh as <- <-. rewrite (proj1 (set_data_frame _ _)). constructor.
  - injection Hh as <- <-. constructor.
Qed.
Lemma m_step_ctrs p s e s' o : m_step p s e = Some (s', o) -> ctr_change p (my_now s) (my_ctrs s) (my_ctrs s').
Proof.
  intros Hs. destruct e as [r|t|c id|c msg|d]; cbn [m_step] in Hs.
  - destruct (my_alive s).
    + destruct (m_handle _ _ r) as [s1 o1] eqn:E. injection Hs as <- <-.
      by apply (m_handle_ctrs p) in E.
    + injection Hs as <- <-. constructor.
  - destruct (my_alive s); [|done]. unfold task_step in Hs.
    assert (forall a r s1 o1, m_handle a None r = (s1, o1) -> my_ctrs a = my_ctrs s -> my_now a = my_now s ->
       ctr_change p (my_now s) (my_ctrs s) (my_ctrs s1)) as Hown.
    { intros a r s1 o1 E Hr Hn. apply (m_handle_ctrs p) in E. by rewrite Hr, Hn in E. }
    destruct (my_tasks s !! t) as [[due|[|[id [rd c]] rest] []|k c|k c|k [|[id [rd c]] rest] acc|c m|id m]|]; [..|done];
    repeat match goal with
    | H : (if ?b then _ else _) = Some _ |- _ => destruct b; [|done]
    | H : match send_counter p s ?c ?m with _ => _ end = Some _ |- _ =>
        destruct (send_counter p s c m) as [[s1 r]|] eqn:E; [|done];
        apply send_counter_eq in E as (x & x' & Hx & Hh & ->); try destruct r
    | H : (let '(_, _) := ?x in _) = Some _ |- _ => destruct x as [s1 o1] eqn:E
    end; try (injection Hs as <- <-);
    first [ exact (cc_same _ _ _) | by eapply cc_msg | eapply Hown; eauto; fail ].
  - destruct (my_ctrs s !! c) eqn:Ec; [|done]. destruct (counter_fire _ _ _) eqn:Ef; [|done].
    injection Hs as <- <-. by eapply cc_fire.
  - destruct (send_counter p s c _) as [[s1 r]|] eqn:E; [|done].
    apply send_counter_eq in E as (x & x' & Hx & Hh & ->). injection Hs as <- <-. by eapply cc_msg.
  - injection Hs as <- <-. constructor.
Qed.
Lemma dead_at_step p s e s' o c : dead_at s c -> m_step p s e = Some (s', o) -> dead_at s' c.
Proof.
  intros (x & Hx & Hd) Hs. apply m_step_ctrs in Hs. unfold dead_at.
  inversion Hs as [Hcs|c' y msg y' r Hy Hh Hcs|c' y id y' Hy Hf Hcs|m Hcs].
  - eauto.
  - destruct (decide (c' = c)) as [->|Hn]; [|rewrite list_lookup_insert_ne by done; eauto].
    rewrite Hx in Hy. injection Hy as <-. apply counter_handle_dead in Hh as [-> _]; [|done].
    rewrite list_insert_id by done. eauto.
  - destruct (decide (c' = c)) as [->|Hn]; [|rewrite list_lookup_insert_ne by done; eauto].
    rewrite Hx in Hy. injection Hy as <-. unfold counter_fire in Hf. by rewrite Hd in Hf.
  - exists x. split; [by apply lookup_app_l_Some|done].
Qed.
Lemma dead_at_run p s es s' tr c : dead_at s c -> m_run p s es = Some (s', tr) -> dead_at s' c.
Proof.
  intros Hd. apply (m_run_ind (fun s _ => dead_at s c)); [done|]. intros ? ? ? ? ? ? ?. by eapply dead_at_step.
Qed.

(** The master dies only when a cleanup pass meets a stopped counter. *)
Lemma death_cause p s e s' o :
  m_step p s e = Some (s', o) -> my_alive s = true -> my_alive s' = false ->
  exists t id x rest ph, e = MeTask t /\ my_tasks s !! t = Some (TClean ((id, x) :: rest) ph) /\
    ph <> PRemove /\ dead_at s (si_ctr x).
Proof.
  intros Hs Ha Hd. destruct e as [r|t|c id|c msg|d]; cbn [m_step] in Hs; rewrite ?Ha in Hs.
  - destruct (m_handle _ _ r) as [s1 o1] eqn:E. injection Hs as <- <-.
    apply m_handle_frame in E as (E & _). cbn in E. congruence.
  - unfold task_step in Hs.
    assert (forall a r s1 o1, m_handle a None r = (s1, o1) -> my_alive a = true -> my_alive s1 = false -> False) as Hown.
    { intros a r s1 o1 E Hr. apply m_handle_frame in E as (E & _). congruence. }
    exists t.
    destruct (my_tasks s !! t) as [[due|[|[id [rd c]] rest] []|k c|k c|k [|[id [rd c]] rest] acc|c m|id m]|]; [..|done];
    repeat match goal with
    | H : (if ?b then _ else _) = Some _ |- _ => destruct b; [|done]
    | H : match send_counter p s ?c ?m with _ => _ end = Some _ |- _ =>
        destruct (send_counter p s c m) as [[s1 r]|] eqn:E; [|done];
        apply send_counter_eq in E as (x & x' & Hx & Hh & ->); try destruct r
    | H : (let '(_, _) := ?x in _) = Some _ |- _ => destruct x as [s1 o1] eqn:E
    end; try (injection Hs as <- <-); cbn in Hd; try congruence;
    try (exfalso; eapply Hown; eauto; fail);
    (eexists id, (Site rd c), rest, _; split; [done|]; split; [done|]; split; [done|]; exists x; split; [done|];
     unfold counter_handle in Hh; destruct (ct_alive x); [|done]; done).
  - destruct (my_ctrs s !! c); [|done]. destruct (counter_fire _ _ _); [|done]. injection Hs as <- <-. cbn in Hd. congruence.
  - destruct (send_counter p s c _) as [[s1 r]|] eqn:E; [|done].
    apply send_counter_eq in E as (x & x' & Hx & Hh & ->). injection Hs as <- <-. cbn in Hd. congruence.
  - injection Hs as <- <-. cbn in Hd. congruence.
Qed.
Lemma death_step p s t id x rest ph :
  my_alive s = true -> my_tasks s !! t = Some (TClean ((id, x) :: rest) ph) -> ph <> PRemove ->
  dead_at s (si_ctr x) -> exists s' o, m_step p s (MeTask t) = Some (s', o) /\ my_alive s' = false.
Proof.
  intros Ha Ht Hph (y & Hy & Hd). destruct x as [rd c]. cbn [si_ctr] in Hy. cbn [m_step]. rewrite Ha.
  unfold task_step. rewrite Ht. destruct ph; [..|done]; unfold send_counter; rewrite Hy;
    unfold counter_handle; rewrite Hd; by do 2 eexists.
Qed.

(** An undisturbed pass over a list with a stopped counter kills the master. *)
Lemma death_pass p t todo s :
  minv s -> my_alive s = true -> my_tasks s !! t = Some (TClean todo PCount) ->
  (forall id x, (id, x) ∈ todo -> exists rd, my_sites s !! id = Some (Site rd (si_ctr x))) ->
  (exists id x, (id, x) ∈ todo /\ dead_at s (si_ctr x)) ->
  exists n s' o, m_run p s (replicate n (MeTask t)) = Some (s', o) /\ my_alive s' = false.
Proof.
  revert s. induction todo as [|[id [rd c]] rest IH]; intros s Hi Hal Ht Hreg (idd & xd & Hind & Hdd).
  { by apply elem_of_nil in Hind. }
  destruct (mv_task _ Hi _ _ Ht) as (Hlt & Hct & _ & Hdt).
  cbn [task_ctrs] in Hct. rewrite fmap_cons in Hct. cbn [snd si_ctr] in Hct. apply Forall_cons in Hct as [Hcl _].
  cbn [distinct_todo] in Hdt. rewrite !fmap_cons in Hdt. cbn [fst snd si_ctr] in Hdt. destruct Hdt as [Hd1 Hd2].
  apply NoDup_cons in Hd1 as [Hd1 Hd1']. apply NoDup_cons in Hd2 as [Hd2 Hd2'].
  assert (forall id' x, (id', x) ∈ rest -> id' <> id /\ si_ctr x <> c) as Hne.
  { intros id' x Hin. split.
    - intros ->. apply Hd1. apply elem_of_list_fmap. by exists (id, x).
    - intros Hc. apply Hd2. apply elem_of_list_fmap. by exists (id', x). }
  destruct (lookup_lt_is_Some_2 _ _ Hcl) as [y Hy].
  destruct (ct_alive y) eqn:Hya.
  2:{ destruct (death_step p s t id (Site rd c) rest PCount) as (s' & o & Hs & Hd); try done; [by exists y|].
      exists 1%nat, s', (o ++ []). split; [|done]. by eapply run_cons. }
  apply elem_of_cons in Hind as [[= -> ->]|Hind].
  { destruct Hdd as (z & Hz & Hzd). cbn [si_ctr] in Hz. congruence. }
  assert (send_counter p s c CmGetCurrentVisitorCount = Some (s, CrCount (m_get_visitors (ct_data y)))) as E1.
  { unfold send_counter. rewrite Hy. unfold counter_handle. rewrite Hya.
    rewrite list_insert_id by done. by destruct s. }
  assert (m_step p s (MeTask t) =
    Some (set_task s t (if (m_get_visitors (ct_data y) =? 0) && rd then TClean ((id, Site rd c) :: rest) PStop
                        else TClean rest PCount), [])) as S1.
  { cbn [m_step]. rewrite Hal. unfold task_step. rewrite Ht, E1. done. }
  pose proof (m_step_inv _ _ _ _ _ Hi S1) as Hi1.
  destruct ((m_get_visitors (ct_data y) =? 0) && rd) eqn:Eidle.
  - set (s1 := set_task s t (TClean ((id, Site rd c) :: rest) PStop)) in *.
    set (s2 := set_task (set_ctrs s1 (<[c := kill y]> (my_ctrs s1))) t (TClean ((id, Site rd c) :: rest) PRemove)).
    assert (m_step p s1 (MeTask t) = Some (s2, [])) as S2.
    { cbn [m_step]. unfold s1 at 1. cbn [my_alive set_task set_tasks]. rewrite Hal. unfold task_step.
      unfold s1 at 1. cbn [my_tasks set_task set_tasks]. rewrite lookup_insert.
      unfold send_counter. unfold s1 at 1. cbn [my_ctrs set_task set_tasks]. rewrite Hy.
      unfold counter_handle. rewrite Hya. done. }
    pose proof (m_step_inv _ _ _ _ _ Hi1 S2) as Hi2.
    destruct (Hreg id (Site rd c)) as (rd' & Hsite); [by left|]. cbn [si_ctr] in Hsite.
    set (s3 := spawn (set_sites (set_task s2 t (TClean rest PCount)) (delete id (my_sites s))) (TStop None c)).
    assert (m_step p s2 (MeTask t) = Some (s3, [MoHandle (RqRemove id)])) as S3.
    { cbn [m_step]. unfold s2 at 1. cbn [my_alive set_task set_tasks set_ctrs]. unfold s1 at 1.
      cbn [my_alive set_task set_tasks set_ctrs]. rewrite Hal. unfold task_step.
      unfold s2 at 1. cbn [my_tasks set_task set_tasks]. rewrite lookup_insert.
      cbn [m_handle]. unfold rm_site.
      change (my_sites (set_task s2 t (TClean rest PCount))) with (my_sites s). rewrite Hsite. done. }
    pose proof (m_step_inv _ _ _ _ _ Hi2 S3) as Hi3.
    assert (my_tasks s3 !! t = Some (TClean rest PCount)) as Ht3.
    { unfold s3. cbn [spawn my_tasks set_sites my_next]. unfold s2, s1. cbn. rewrite lookup_insert_ne by lia.
      apply lookup_insert. }
    destruct (IH s3 Hi3 Hal Ht3) as (n & s' & o & Hr & Hdead).
    { intros id' x Hin. destruct (Hne _ _ Hin) as [Hidn _].
      change (my_sites s3) with (delete id (my_sites s)). rewrite lookup_delete_ne by done.
      apply Hreg. by right. }
    { exists idd, xd. split; [done|]. eapply dead_at_step; [|exact S3]. eapply dead_at_step; [|exact S2].
      by eapply dead_at_step; [|exact S1]. }
    exists (3 + n)%nat, s', ([] ++ [] ++ [MoHandle (RqRemove id)] ++ o). split; [|done].
    change (replicate (3 + n) (MeTask t)) with (MeTask t :: MeTask t :: MeTask t :: replicate n (MeTask t)).
    eapply run_cons; [exact S1|]. eapply run_cons; [exact S2|]. by eapply run_cons; [exact S3|].
  - destruct (IH (set_task s t (TClean rest PCount)) Hi1 Hal) as (n & s' & o & Hr & Hdead).
    { apply lookup_insert. }
    { intros id' x Hin. apply (Hreg id' x). by right. }
    { exists idd, xd. split; [done|]. by eapply dead_at_step; [|exact S1]. }
    exists (S n), s', ([] ++ o). split; [|done]. by eapply run_cons.
Qed.

(** A name that was removed stays unbound until it is registered or renamed to. *)
Lemma bound_none_ext h' h id :
  bound h id = None -> Forall (fun r => ~ rebinds id r) h' -> bound (h' ++ h) id = None.
Proof.
  intros Hb. induction 1 as [|r h' Hr _ IH]; [done|]. cbn [app bound]. destruct r; try done.
  - cbn in Hr. destruct (String.eqb_spec id id0); [congruence|done].
  - destruct (bound (h' ++ h) name); [|done]. destruct (String.eqb_spec id rename_to); [cbn in Hr; congruence|].
    by destruct (String.eqb id name).
  - by destruct (String.eqb id id0).
Qed.

(** * Where cleanup work comes from *)
Lemma m_handle_clean s k r s' o t todo ph :
  m_handle s k r = (s', o) -> my_tasks s' !! t = Some (TClean todo ph) ->
  my_tasks s !! t = Some (TClean todo ph) \/
  (ph = PCount /\ todo = sites_iter (my_sites s) /\ t = my_next s /\ r = RqCleanUp).
Proof.
  intros Hh Ht. destruct r; cbn [m_handle] in Hh.
  - injection Hh as <- <-. by left.
  - injection Hh as <- <-. by left.
  - unfold rm_site in Hh. destruct (my_sites s !! id); injection Hh as <- <-; [|by left]. cbn in Ht.
    apply lookup_insert_Some in Ht as [[_ ?]|[_ ?]]; [done|by left].
  - destruct (get_site (my_sites s) id) as [ss [a|]]; injection Hh as <- <-; [|by left]. cbn in Ht.
    apply lookup_insert_Some in Ht as [[_ ?]|[_ ?]]; [done|by left].
  - destruct (get_site (my_sites s) id) as [ss a]; injection Hh as <- <-. by left.
  - injection Hh as <- <-. cbn in Ht. apply lookup_insert_Some in Ht as [[_ ?]|[_ ?]]; [done|by left].
  - injection Hh as <- <-. rewrite set_data_tasks in Ht. destruct (decide _); [|by left].
    destruct (_ !! _) as [y|]; [|done]. unfold set_task_of in Ht. simpl in Ht. by destruct (my_sites s !! y.1).
  - injection Hh as <- <-. cbn in Ht. apply lookup_insert_Some in Ht as [[<- [= <- <-]]|[_ ?]]; [by right|by left].
Qed.
Lemma clean_origin p s e s' o t todo ph :
  m_step p s e = Some (s', o) -> my_tasks s' !! t = Some (TClean todo ph) ->
  my_tasks s !! t = Some (TClean todo ph) \/
  (ph = PCount /\ todo = sites_iter (my_sites s) /\ t = my_next s /\ MoHandle RqCleanUp ∈ o) \/
  (ph = PCount /\ exists x ph', my_tasks s !! t = Some (TClean (x :: todo) ph')) \/
  (ph = PStop /\ my_tasks s !! t = Some (TClean todo PCount) /\ e = MeTask t /\
     exists id c rest, todo = (id, Site true c) :: rest /\ count_at s c 0) \/
  (ph = PRemove /\ my_tasks s !! t = Some (TClean todo PStop)).
Proof.
  intros Hs Ht. destruct e as [r|t'|c id|c msg|d]; cbn [m_step] in Hs.
  - destruct (my_alive s).
    + destruct (m_handle _ _ r) as [s1 o1] eqn:E. injection Hs as <- <-.
      destruct (m_handle_clean _ _ _ _ _ _ _ _ E Ht) as [?|(-> & -> & -> & ->)]; [by left|].
      right. left. split_and!; try done. by left.
    + injection Hs as <- <-. by left.
  - destruct (my_alive s); [|done]. unfold task_step in Hs.
    assert (forall a r s1 o1, m_handle a None r = (s1, o1) -> my_sites a = my_sites s -> my_next a = my_next s ->
       my_tasks s1 !! t = Some (TClean todo ph) ->
       my_tasks a !! t = Some (TClean todo ph) \/
       (ph = PCount /\ todo = sites_iter (my_sites s) /\ t = my_next s /\ MoHandle RqCleanUp ∈ MoHandle r :: o1)) as Hown.
    { intros a r s1 o1 E Hr Hn Hx. destruct (m_handle_clean _ _ _ _ _ _ _ _ E Hx) as [?|(? & -> & -> & ->)]; [auto|].
      right. rewrite Hr, Hn. split_and!; try done. by left. }
    destruct (my_tasks s !! t') as [[due|[|[id [rd c]] rest] ph0|k c|k c|k [|[id [rd c]] rest] acc|c m|id m]|] eqn:Et';
      [..|done].
    + destruct (due <=? my_now s); [|done]. destruct (m_handle _ _ _) as [s1 o1] eqn:E. injection Hs as <- <-.
      destruct (Hown _ _ _ _ E eq_refl eq_refl Ht) as [H|H]; [|auto]. cbn in H.
      apply lookup_delete_Some in H as [_ ?]. by left.
    + injection Hs as <- <-. cbn in Ht. apply lookup_insert_Some in Ht as [[_ ?]|[_ ?]]; [done|by left].
    + destruct ph0.
      * destruct (send_counter p s c _) as [[s1 r]|] eqn:E; [|done].
        apply send_counter_eq in E as (x & x' & Hx & Hh & ->).
        destruct r; try (injection Hs as <- <-; cbn in Ht; by rewrite lookup_empty in Ht).
        injection Hs as <- <-. cbn in Ht. apply lookup_insert_Some in Ht as [[<- Hz]|[_ ?]]; [|by left].
        unfold counter_handle in Hh. destruct (ct_alive x) eqn:Eal; [|done]. injection Hh as <- <-.
        destruct (m_get_visitors (ct_data x) =? 0) eqn:E0; destruct rd; cbn [andb] in Hz; injection Hz as <- <-.
        -- right. right. right. left. split; [done|]. split; [done|]. split; [done|]. exists id, c, rest. split; [done|].
           exists x. apply N.eqb_eq in E0. done.
        -- right. right. left. split; [done|]. eauto.
        -- right. right. left. split; [done|]. eauto.
        -- right. right. left. split; [done|]. eauto.
      * destruct (send_counter p s c _) as [[s1 r]|] eqn:E; [|done].
        apply send_counter_eq in E as (x & x' & Hx & Hh & ->).
        destruct r; try (injection Hs as <- <-; cbn in Ht; by rewrite lookup_empty in Ht).
        injection Hs as <- <-. cbn in Ht. apply lookup_insert_Some in Ht as [[<- [= <- <-]]|[_ ?]]; [|by left].
        right. right. right. right. done.
      * destruct (m_handle _ _ _) as [s1 o1] eqn:E. injection Hs as <- <-.
        destruct (Hown _ _ _ _ E eq_refl eq_refl Ht) as [H|H]; [|auto]. cbn in H.
        apply lookup_insert_Some in H as [[<- [= <- <-]]|[_ ?]]; [|by left].
        right. right. left. split; [done|]. eauto.
    + destruct (send_counter p s c _) as [[s1 r]|] eqn:E; [|done].
      apply send_counter_eq in E as (x & x' & Hx & Hh & ->). left.
      destruct r; injection Hs as <- <-; cbn in Ht; by apply lookup_delete_Some in Ht as [_ ?].
    + destruct (send_counter p s c _) as [[s1 r]|] eqn:E; [|done].
      apply send_counter_eq in E as (x & x' & Hx & Hh & ->). left.
      destruct r; injection Hs as <- <-; cbn in Ht; by apply lookup_delete_Some in Ht as [_ ?].
    + left. injection Hs as <- <-; cbn in Ht; by apply lookup_delete_Some in Ht as [_ ?].
    + destruct (send_counter p s c _) as [[s1 r]|] eqn:E; [|done].
      apply send_counter_eq in E as (x & x' & Hx & Hh & ->). left.
      destruct r; injection Hs as <- <-; cbn in Ht; apply lookup_insert_Some in Ht as [[_ ?]|[_ ?]]; done.
    + destruct (send_counter p s c _) as [[s1 r]|] eqn:E; [|done].
      apply send_counter_eq in E as (x & x' & Hx & Hh & ->). left.
      injection Hs as <- <-; cbn in Ht; by apply lookup_delete_Some in Ht as [_ ?].
    + destruct (m_handle _ _ _) as [s1 o1] eqn:E. injection Hs as <- <-.
      destruct (Hown _ _ _ _ E eq_refl eq_refl Ht) as [H|H]; [|auto]. cbn in H.
      apply lookup_delete_Some in H as [_ ?]. by left.
  - destruct (my_ctrs s !! c); [|done]. destruct (counter_fire _ _ _); [|done]. injection Hs as <- <-. by left.
  - destruct (send_counter p s c _) as [[s1 r]|] eqn:E; [|done].
    apply send_counter_eq in E as (x & x' & Hx & Hh & ->). injection Hs as <- <-. by left.
  - injection Hs as <- <-. by left.
Qed.

(** Every entry a cleanup pass works on was registered when the pass began, and
    it goes on to stop a counter only after having read zero from it. *)
Lemma clean_history p t0 gc es s tr t id x rest ph :
  m_run p (m_start t0 gc) es = Some (s, tr) -> my_tasks s !! t = Some (TClean ((id, x) :: rest) ph) ->
  exists es0 e0 es1 s0 tr0 s0' o0, es = es0 ++ e0 :: es1 /\ m_run p (m_start t0 gc) es0 = Some (s0, tr0) /\
    m_step p s0 e0 = Some (s0', o0) /\ MoHandle RqCleanUp ∈ o0 /\ t = my_next s0 /\
    my_sites s0 !! id = Some x /\
    (ph <> PCount -> si_read x = true /\
       exists es10 es11 s1 tr1, es1 = es10 ++ MeTask t :: es11 /\ m_run p s0' es10 = Some (s1, tr1) /\ count_at s1 (si_ctr x) 0).
Proof.
  intros Hr Ht.
  assert (forall todo ph, my_tasks s !! t = Some (TClean todo ph) ->
    exists es0 e0 es1 s0 tr0 s0' o0, es = es0 ++ e0 :: es1 /\ m_run p (m_start t0 gc) es0 = Some (s0, tr0) /\
      m_step p s0 e0 = Some (s0', o0) /\ MoHandle RqCleanUp ∈ o0 /\ t = my_next s0 /\
      (forall id x, (id, x) ∈ todo -> my_sites s0 !! id = Some x) /\
      (ph <> PCount -> exists id x rest, todo = (id, x) :: rest /\ si_read x = true /\
         exists es10 es11 s1 tr1, es1 = es10 ++ MeTask t :: es11 /\ m_run p s0' es10 = Some (s1, tr1) /\ count_at s1 (si_ctr x) 0)) as H.
  2:{ destruct (H _ _ Ht) as (es0 & e0 & es1 & s0 & tr0 & s0' & o0 & He & H0 & H1 & H2 & H3 & Hin & Hph).
      exists es0, e0, es1, s0, tr0, s0', o0. do 5 (split; [done|]). split; [apply Hin; by left|].
      intros Hn. destruct (Hph Hn) as (id' & x' & rest' & [= <- <- <-] & ? & ?). done. }
  clear Ht id x rest ph. revert s tr Hr t.
  induction es as [|e es IH] using rev_ind; intros s tr Hr t todo ph Ht.
  { injection Hr as <- <-. cbn in Ht. by apply lookup_singleton_Some in Ht as [_ ?]. }
  pose proof Hr as Hrun. apply m_run_snoc in Hr as (s1 & tr1 & o & H1 & H2 & ->).
  specialize (IH _ _ H1).
  assert (forall todo' ph', my_tasks s1 !! t = Some (TClean todo' ph') ->
    exists es0 e0 es1 s0 tr0 s0' o0, es ++ [e] = es0 ++ e0 :: es1 /\ m_run p (m_start t0 gc) es0 = Some (s0, tr0) /\
      m_step p s0 e0 = Some (s0', o0) /\ MoHandle RqCleanUp ∈ o0 /\ t = my_next s0 /\
      (forall id x, (id, x) ∈ todo' -> my_sites s0 !! id = Some x) /\
      (exists es2 tr2, es1 = es2 ++ [e] /\ m_run p s0' es2 = Some (s1, tr2)) /\
      (ph' <> PCount -> exists id x rest, todo' = (id, x) :: rest /\ si_read x = true /\
         exists es10 es11 s1 tr1, es1 = es10 ++ MeTask t :: es11 /\ m_run p s0' es10 = Some (s1, tr1) /\ count_at s1 (si_ctr x) 0)) as Hold.
  { intros todo' ph' Ht'. destruct (IH _ _ _ Ht') as (es0 & e0 & es1 & s0 & tr0 & s0' & o0 & He & H0 & Hs0 & Ho0 & Hn0 & Hin & Hph).
    exists es0, e0, (es1 ++ [e]), s0, tr0, s0', o0. split; [by rewrite He, <- (assoc_L (++))|]. do 5 (split; [done|]).
    split.
    - exists es1. rewrite He in H1. apply m_run_app in H1 as (s0x & tr0' & tr2 & H0' & H2' & ->).
      rewrite H0 in H0'. injection H0' as <- <-. cbn [m_run] in H2'. rewrite Hs0 in H2'.
      destruct (m_run p s0' es1) as [[sy try]|] eqn:Ey; [|done]. injection H2' as <- <-. eauto.
    - intros Hn. destruct (Hph Hn) as (id & x & rest & -> & Hx & es10 & es11 & sz & trz & -> & Hz & Hcz).
      exists id, x, rest. split; [done|]. split; [done|]. exists es10, (es11 ++ [e]), sz, trz.
      by rewrite <- (assoc_L (++)). }
  destruct (clean_origin _ _ _ _ _ _ _ _ H2 Ht) as [Hc|[(-> & -> & Hn & Ho)|[(-> & x & ph' & Hc)|[(-> & Hc & -> & id & c & rest & -> & Hz)|[-> Hc]]]]].
  - destruct (Hold _ _ Hc) as (es0 & e0 & es1 & s0 & tr0 & s0' & o0 & ? & ? & ? & ? & ? & ? & _ & ?).
    exists es0, e0, es1, s0, tr0, s0', o0. done.
  - exists es, e, [], s1, tr1, s, o. do 5 (split; [done|]). split; [|done].
    intros id x. by rewrite sites_iter_elem.
  - destruct (Hold _ _ Hc) as (es0 & e0 & es1 & s0 & tr0 & s0' & o0 & ? & ? & ? & ? & ? & Hin & _ & ?).
    exists es0, e0, es1, s0, tr0, s0', o0. do 5 (split; [done|]). split; [|done]. intros id x' Hx. apply Hin. by right.
  - destruct (Hold _ _ Hc) as (es0 & e0 & es1 & s0 & tr0 & s0' & o0 & ? & ? & ? & ? & ? & Hin & (es2 & tr2 & -> & He2) & _).
    exists es0, e0, (es2 ++ [MeTask t]), s0, tr0, s0', o0. do 5 (split; [done|]). split; [done|]. intros _.
    exists id, (Site true c), rest. split; [done|]. split; [done|]. by exists es2, [], s1, tr2.
  - destruct (Hold _ _ Hc) as (es0 & e0 & es1 & s0 & tr0 & s0' & o0 & ? & ? & ? & ? & ? & Hin & _ & Hph).
    exists es0, e0, es1, s0, tr0, s0', o0. do 5 (split; [done|]). split; [done|]. intros _. by apply Hph.
Qed.

(** * Finished tasks never run again *)
Definition retired (t : nat) (s : msys) : Prop := (t < my_next s)%nat /\ my_tasks s !! t = None.
Lemma m_handle_next s k r s' o : m_handle s k r = (s', o) -> (my_next s <= my_next s')%nat.
Proof.
  destruct r; cbn [m_handle]; unfold rm_site.
  - intros [= <- _]. cbn. lia.
  - intros [= <- _]. cbn. lia.
  - destruct (my_sites s !! id); intros [= <- _]; cbn; lia.
  - destruct (get_site _ _) as [ss [a|]]; intros [= <- _]; cbn; lia.
  - destruct (get_site _ _) as [ss a]; intros [= <- _]; cbn; lia.
  - intros [= <- _]. cbn. lia.
  - intros [= <- _]. destruct (set_data_frame (map_to_list d) s) as (_ & _ & _ & _ & _ & ->). lia.
  - intros [= <- _]. cbn. lia.
Qed.
Lemma retired_handle s k r s' o t : retired t s -> m_handle s k r = (s', o) -> retired t s'.
Proof.
  intros [Hn Ht] Hh. pose proof (m_handle_next _ _ _ _ _ Hh).
  destruct (m_handle_frame _ _ _ _ _ Hh) as (_ & _ & _ & _ & Hk & _).
  split; [lia|]. by rewrite Hk.
Qed.
Lemma retired_step p s e s' o t : retired t s -> m_step p s e = Some (s', o) -> retired t s' /\ e <> MeTask t.
Proof.
  intros Hre Hs. destruct e as [r|t'|c id|c msg|d]; cbn [m_step] in Hs; (split; [|try done]).
  - destruct (my_alive s).
    + destruct (m_handle _ _ r) as [s1 o1] eqn:E. injection Hs as <- <-. by eapply retired_handle; [|exact E].
    + by injection Hs as <- <-.
  - destruct (my_alive s); [|done]. unfold task_step in Hs.
    assert (forall a, my_next a = my_next s -> t' <> t -> forall x, my_tasks a = my_tasks s ->
      retired t (set_task a t' x)) as Hset.
    { intros a Ha Hne x Hx. split; [cbn; rewrite Ha; apply Hre|]. cbn. rewrite lookup_insert_ne by done. rewrite Hx. apply Hre. }
    assert (forall a, my_next a = my_next s -> my_tasks a = my_tasks s -> retired t (end_task a t')) as Hend.
    { intros a Ha Hx. split; [cbn; rewrite Ha; apply Hre|]. cbn. rewrite Hx.
      apply lookup_delete_None. right. apply Hre. }
    assert (forall a, my_next a = my_next s -> retired t (m_die a).1) as Hdie.
    { intros a Ha. split; [cbn; rewrite Ha; apply Hre|done]. }
    assert (is_Some (my_tasks s !! t') -> t' <> t) as Hne.
    { intros [x Hx] ->. destruct Hre as [_ Hre]. by rewrite Hre in Hx. }
    destruct (my_tasks s !! t') as [[due|[|[id [rd c]] rest] ph0|k c|k c|k [|[id [rd c]] rest] acc|c m|id m]|] eqn:Et';
      [..|done].
    + destruct (due <=? my_now s); [|done]. destruct (m_handle _ _ _) as [s1 o1] eqn:E. injection Hs as <- <-.
      eapply retired_handle; [|exact E]. by apply Hend.
    + injection Hs as <- <-. apply Hset; [done|by apply Hne|done].
    + destruct ph0.
      * destruct (send_counter p s c _) as [[s1 r]|] eqn:E; [|done].
        apply send_counter_eq in E as (x & x' & Hx & Hh & ->).
        destruct r; try (injection Hs as <- <-; by apply (Hdie (set_ctrs s _))).
        injection Hs as <- <-. apply Hset; [done|by apply Hne|done].
      * destruct (send_counter p s c _) as [[s1 r]|] eqn:E; [|done].
        apply send_counter_eq in E as (x & x' & Hx & Hh & ->).
        destruct r; try (injection Hs as <- <-; by apply (Hdie (set_ctrs s _))).
        injection Hs as <- <-. apply Hset; [done|by apply Hne|done].
      * destruct (m_handle _ _ _) as [s1 o1] eqn:E. injection Hs as <- <-.
        eapply retired_handle; [|exact E]. apply Hset; [done|by apply Hne|done].
    + destruct (send_counter p s c _) as [[s1 r]|] eqn:E; [|done].
      apply send_counter_eq in E as (x & x' & Hx & Hh & ->).
      destruct r; injection Hs as <- <-; by apply Hend.
    + destruct (send_counter p s c _) as [[s1 r]|] eqn:E; [|done].
      apply send_counter_eq in E as (x & x' & Hx & Hh & ->).
      destruct r; injection Hs as <- <-; by apply Hend.
    + injection Hs as <- <-; by apply Hend.
    + destruct (send_counter p s c _) as [[s1 r]|] eqn:E; [|done].
      apply send_counter_eq in E as (x & x' & Hx & Hh & ->).
      destruct r; injection Hs as <- <-; (apply Hset; [done|by apply Hne|done]).
    + destruct (send_counter p s c _) as [[s1 r]|] eqn:E; [|done].
      apply send_counter_eq in E as (x & x' & Hx & Hh & ->).
      injection Hs as <- <-; by apply Hend.
    + destruct (m_handle _ _ _) as [s1 o1] eqn:E. injection Hs as <- <-.
      eapply retired_handle; [|exact E]. by apply Hend.
  - intros [= ->]. destruct (my_alive s); [|done]. unfold task_step in Hs. destruct Hre as [_ Hre]. by rewrite Hre in Hs.
  - destruct (my_ctrs s !! c); [|done]. destruct (counter_fire _ _ _); [|done]. by injection Hs as <- <-.
  - destruct (send_counter p s c _) as [[s1 r]|] eqn:E; [|done].
    apply send_counter_eq in E as (x & x' & Hx & Hh & ->). by injection Hs as <- <-.
  - by injection Hs as <- <-.
Qed.
Lemma retired_run p es s s' tr t : retired t s -> m_run p s es = Some (s', tr) -> retired t s' /\ MeTask t ∉ es.
Proof.
  revert s tr. induction es as [|e es IH]; intros s tr Hre Hr.
  { injection Hr as <- _. split; [done|apply not_elem_of_nil]. }
  cbn [m_run] in Hr. destruct (m_step p s e) as [[s1 o]|] eqn:E; [|done].
  destruct (m_run p s1 es) as [[s2 os]|] eqn:E2; [|done]. injection Hr as <- <-.
  destruct (retired_step _ _ _ _ _ _ Hre E) as [Hre1 Hne].
  destruct (IH _ _ Hre1 E2) as [? ?]. split; [done|]. apply not_elem_of_cons. done.
Qed.
Lemma dead_run p es s s' tr :
  my_alive s = false -> m_run p s es = Some (s', tr) -> my_alive s' = false /\ forall t, MeTask t ∉ es.
Proof.
  revert s tr. induction es as [|e es IH]; intros s tr Ha Hr.
  { injection Hr as <- _. split; [done|intros t; apply not_elem_of_nil]. }
  cbn [m_run] in Hr. destruct (m_step p s e) as [[s1 o]|] eqn:E; [|done].
  destruct (m_run p s1 es) as [[s2 os]|] eqn:E2; [|done]. injection Hr as <- <-.
  pose proof (dead_step _ _ _ _ _ Ha E) as Ha1. destruct (IH _ _ Ha1 E2) as [? Hn]. split; [done|].
  intros t. apply not_elem_of_cons. split; [|done]. intros <-. cbn [m_step] in E. by rewrite Ha in E.
Qed.
(** Tasks that do a single delivery and end. *)
Definition one_shot (x : task) : Prop :=
  match x with TVisit _ _ | TStop _ _ | TSet _ _ | TAdd _ _ => True | _ => False end.
Lemma one_shot_step p s t x s' o :
  minv s -> my_alive s = true -> my_tasks s !! t = Some x -> one_shot x -> m_step p s (MeTask t) = Some (s', o) -> retired t s'.
Proof.
  intros Hi Ha Ht Ho Hs. cbn [m_step] in Hs. rewrite Ha in Hs. unfold task_step in Hs. rewrite Ht in Hs.
  destruct (mv_task _ Hi _ _ Ht) as (Hlt & _).
  assert (forall a, my_next a = my_next s -> retired t (end_task a t)) as Hend.
  { intros a E. split; [cbn; by rewrite E|]. cbn. apply lookup_delete. }
  destruct x; try done.
  - destruct (send_counter p s c _) as [[s1 a]|] eqn:E; [|done].
    apply send_counter_eq in E as (y & y' & Hx & Hh & ->). destruct a; injection Hs as <- <-; by apply Hend.
  - destruct (send_counter p s c _) as [[s1 a]|] eqn:E; [|done].
    apply send_counter_eq in E as (y & y' & Hx & Hh & ->). destruct a; injection Hs as <- <-; by apply Hend.
  - destruct (send_counter p s c _) as [[s1 a]|] eqn:E; [|done].
    apply send_counter_eq in E as (y & y' & Hx & Hh & ->). injection Hs as <- <-; by apply Hend.
  - destruct (m_handle _ _ _) as [s1 o1] eqn:E. injection Hs as <- <-. eapply retired_handle; [|exact E]. by apply Hend.
Qed.
Lemma one_shot_run p es s s' tr t x :
  minv s -> my_alive s = true -> my_tasks s !! t = Some x -> one_shot x -> m_run p s es = Some (s', tr) ->
  MeTask t ∈ es ->
  exists es1 es2 s1 tr1 s2 o, es = es1 ++ MeTask t :: es2 /\ MeTask t ∉ es1 /\ MeTask t ∉ es2 /\
    m_run p s es1 = Some (s1, tr1) /\ minv s1 /\ my_alive s1 = true /\ my_tasks s1 !! t = Some x /\
    m_step p s1 (MeTask t) = Some (s2, o) /\ retired t s' /\ exists tr2, m_run p s2 es2 = Some (s', tr2).
Proof.
  revert s tr. induction es as [|e es IH]; intros s tr Hi Ha Ht Ho Hr Hin; [by apply elem_of_nil in Hin|].
  cbn [m_run] in Hr. destruct (m_step p s e) as [[s1 o]|] eqn:E; [|done].
  destruct (m_run p s1 es) as [[s2 os]|] eqn:E2; [|done]. injection Hr as <- <-.
  destruct (is_task_dec e t) as [->|Hne].
  - pose proof (one_shot_step _ _ _ _ _ _ Hi Ha Ht Ho E) as Hre.
    destruct (retired_run _ _ _ _ _ _ Hre E2) as [Hre2 Hnot].
    exists [], es, s, [], s1, o. split; [done|]. split; [apply not_elem_of_nil|]. split; [done|].
    repeat (split; [done|]). by exists os.
  - apply elem_of_cons in Hin as [Hx|Hin]; [done|].
    destruct (mv_task _ Hi _ _ Ht) as (Hlt & _).
    destruct (m_step_tasks _ _ _ _ _ Hi E) as [(s0 & Ht0 & [= -> ->] & _)|(Hal & Hk & _)].
    + exfalso. destruct (dead_run p es (m_die s0).1 s2 os eq_refl E2) as [_ Hnot]. by apply (Hnot t).
    + destruct (IH s1 os) as (es1 & es2 & s3 & tr1 & s4 & o4 & -> & Hn1 & Hn2 & Hr1 & Hrest); [..|done|]; try done.
      { by eapply m_step_inv. } { by rewrite Hal. } { by apply Hk. }
      exists (e :: es1), es2, s3, (o ++ tr1), s4, o4. split; [done|].
      split; [by apply not_elem_of_cons|]. split; [done|]. split; [by eapply run_cons|]. done.
Qed.

Lemma elem_task_dec (es : list mevent) t : MeTask t ∈ es \/ MeTask t ∉ es.
Proof.
  induction es as [|e es [IH|IH]]; [right; apply not_elem_of_nil|left; by right|].
  destruct (is_task_dec e t) as [->|Hne]; [left; by left|right]. apply not_elem_of_cons. split; [congruence|done].
Qed.
