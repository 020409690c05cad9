(** Every request to the Master is answered exactly once. *)
From Coq Require Import ZifyBool ZifyN ZifyNat Lia.
From Verif Require Import Model.Base Model.Defense Model.MCaptcha Model.Counter Model.Master
  Spec.MasterSpec Proofs.MasterProofs Proofs.MasterTasks.

Lemma answers_nil k o : (forall x, MoReply k x ∉ o) <-> answers k o = [].
Proof.
  induction o as [|y o IH]; [split; [done|]; intros _ x H; by apply elem_of_nil in H|].
  split.
  - intros Hn. assert (answers k o = []) as Ho.
    { apply IH. intros x Hx. apply (Hn x). by right. }
    destruct y as [|k' x|]; simpl; try done. destruct (Nat.eqb_spec k' k) as [->|]; [|done].
    exfalso. apply (Hn x). by left.
  - intros Ho x Hx. assert (answers k o = []) as Ho'.
    { destruct y as [|k' z|]; simpl in Ho; try done. by destruct (k' =? k)%nat. }
    apply elem_of_cons in Hx as [<-|Hx]; [simpl in Ho; by rewrite Nat.eqb_refl in Ho|].
    by apply (proj2 IH Ho' x).
Qed.

(** A fresh request is answered at once or gets one task. *)
Lemma m_handle_fresh s k r s' o :
  (forall t x, my_tasks s !! t = Some x -> k ∉ task_req x) -> m_handle s (Some k) r = (s', o) ->
  (length (answers k o) = 1%nat /\ no_task k s') \/
  (answers k o = [] /\ exists t x, live_task k s' t x).
Proof.
  intros Hn Hh.
  assert (forall x, length (answers k (reply (Some k) x)) = 1%nat) as H1.
  { intros x. by rewrite answers_reply_eq. }
  assert (forall s1 y, k ∈ task_req y -> exists t x, live_task k (spawn s1 y) t x) as Hsp.
  { intros s1 y Hy. exists (my_next s1), y. split; [|done]. cbn. apply lookup_insert. }
  destruct r; cbn [m_handle] in Hh.
  - injection Hh as <- <-. left. split; [apply H1|]. exact Hn.
  - injection Hh as <- <-. left. split; [apply H1|]. exact Hn.
  - destruct (rm_site _ _) as [ss [x|]]; injection Hh as <- <-.
    + right. split; [done|]. apply Hsp. by left.
    + left. split; [apply H1|]. exact Hn.
  - destruct (get_site _ _) as [ss [c|]]; injection Hh as <- <-.
    + right. split; [done|]. apply Hsp. by left.
    + left. split; [apply H1|]. exact Hn.
  - destruct (get_site _ _) as [ss a]; injection Hh as <- <-. left. split; [apply H1|]. exact Hn.
  - injection Hh as <- <-. right. split; [done|]. apply Hsp. by left.
  - injection Hh as <- <-. left. split; [apply H1|]. intros t x Hx. rewrite set_data_tasks in Hx.
    destruct (decide _); [|by eapply Hn]. destruct (_ !! _) as [y|]; [|done]. injection Hx as <-.
    unfold set_task_of. destruct (my_sites s !! y.1); by intros ?%elem_of_nil.
  - injection Hh as <- <-. left. split; [apply H1|]. intros t x. cbn. intros [[<- <-]|[_ Hx]]%lookup_insert_Some.
    + by intros ?%elem_of_nil.
    + by eapply Hn.
Qed.

(** Steps that are no request answer only requests with a pending task. *)
Lemma step_answers_pending p s e s' o k :
  minv s -> (forall r, e <> MeReq r) -> m_step p s e = Some (s', o) -> my_reqs s' = my_reqs s ->
  answers k o <> [] -> exists t x, live_task k s t x.
Proof.
  intros Hi He Hs _ Hk.
  destruct e as [r|t|c id|c msg|d]; cbn [m_step] in Hs; [by destruct (He r)|..].
  - destruct (my_alive s) eqn:Ea; [|done]. unfold task_step in Hs.
    assert (forall a r s1 o1, m_handle a None r = (s1, o1) -> answers k (MoHandle r :: o1) = []) as Hown.
    { intros a r s1 o1 E. apply m_handle_frame in E as (_ & _ & _ & _ & _ & Hans & _). by apply (Hans k). }
    assert (forall s1, my_tasks s1 = my_tasks s -> answers k (m_die s1).2 <> [] ->
              exists t x, live_task k s t x) as Hdie.
    { intros s1 H1 Hd. cbn [m_die snd] in Hd. rewrite answers_dropped in Hd.
      destruct (filter (fun j => j = k) ((map_to_list (my_tasks s1)).*2 ≫= task_req)) as [|j l] eqn:E; [done|].
      assert (j ∈ filter (fun j => j = k) ((map_to_list (my_tasks s1)).*2 ≫= task_req)) as Hj by (rewrite E; left).
      apply elem_of_list_filter in Hj as [-> Hj]. apply elem_of_list_bind in Hj as (y & Hy & Hin).
      apply elem_of_list_fmap in Hin as ([t' y'] & -> & Hin%elem_of_map_to_list).
      exists t', y'. split; [by rewrite <- H1|done]. }
    assert (forall j x, answers k (reply j x) <> [] -> j = Some k) as Hrep.
    { intros j x H. destruct j as [j|]; [|done]. destruct (decide (j = k)) as [->|Hne]; [done|].
      exfalso. apply H. apply answers_reply_ne. congruence. }
    destruct (my_tasks s !! t) as [x|] eqn:Et; [|done].
    destruct x as [due|todo ph|kk c|kk c|kk todo acc|c m|id m].
    + destruct (_ <=? _); [|done]. destruct (m_handle _ _ _) as [s1 o1] eqn:E. injection Hs as <- <-.
      exfalso. apply Hk. by eapply Hown.
    + destruct todo as [|[id [rd c]] rest].
      { by injection Hs as <- <-. }
      destruct ph.
      * destruct (send_counter p s c _) as [[s1 r]|] eqn:E; [|done].
        apply send_counter_eq in E as (x & x' & Hx & Hh & ->).
        destruct r; try (injection Hs as <- <-); try done; by eapply Hdie; [|exact Hk].
      * destruct (send_counter p s c _) as [[s1 r]|] eqn:E; [|done].
        apply send_counter_eq in E as (x & x' & Hx & Hh & ->).
        destruct r; try (injection Hs as <- <-); try done; by eapply Hdie; [|exact Hk].
      * destruct (m_handle _ _ _) as [s1 o1] eqn:E. injection Hs as <- <-.
        exfalso. apply Hk. by eapply Hown.
    + destruct (send_counter p s c _) as [[s1 r]|] eqn:E; [|done].
      destruct r; injection Hs as <- <-; apply Hrep in Hk as ->; eexists t, _; (split; [exact Et|by left]).
    + destruct (send_counter p s c _) as [[s1 r]|] eqn:E; [|done].
      destruct r; injection Hs as <- <-; apply Hrep in Hk as ->; eexists t, _; (split; [exact Et|by left]).
    + destruct todo as [|[id [rd c]] rest].
      * injection Hs as <- <-. apply Hrep in Hk as ->. eexists t, _; (split; [exact Et|by left]).
      * destruct (send_counter p s c _) as [[s1 r]|] eqn:E; [|done].
        by destruct r; injection Hs as <- <-.
    + destruct (send_counter p s c _) as [[s1 r]|] eqn:E; [|done]. by injection Hs as <- <-.
    + destruct (m_handle _ _ _) as [s1 o1] eqn:E. injection Hs as <- <-.
      exfalso. apply Hk. by eapply Hown.
  - destruct (my_ctrs s !! c); [|done]. destruct (counter_fire _ _ _); [|done]. by injection Hs as <- <-.
  - destruct (send_counter p s c _) as [[s1 r]|]; [|done]. by injection Hs as <- <-.
  - by injection Hs as <- <-.
Qed.

Lemma m_step_reqs_eq p s e s' o :
  (forall r, e <> MeReq r) -> m_step p s e = Some (s', o) -> my_reqs s' = my_reqs s.
Proof.
  intros He Hs. destruct e as [r|t|c id|c msg|d]; cbn [m_step] in Hs; [by destruct (He r)|..].
  - destruct (my_alive s); [|done]. unfold task_step in Hs.
    assert (forall a r s1 o1, m_handle a None r = (s1, o1) -> my_reqs a = my_reqs s ->
       my_reqs s1 = my_reqs s) as Hown.
    { intros a r s1 o1 E Hr. apply m_handle_frame in E as (_ & -> & _). done. }
    destruct (my_tasks s !! t) as [[due|[|[id [rd c]] rest] []|k c|k c|k [|[id [rd c]] rest] acc|c m|id m]|]; [..|done];
    repeat match goal with
    | H : (if ?b then _ else _) = Some _ |- _ => destruct b; [|done]
    | H : match send_counter p s ?c ?m with _ => _ end = Some _ |- _ =>
        destruct (send_counter p s c m) as [[s1 r]|] eqn:E; [|done];
        apply send_counter_eq in E as (x & x' & Hx & Hh & ->); try destruct r
    | H : (let '(_, _) := ?x in _) = Some _ |- _ => destruct x as [s1 o1] eqn:E
    end; try (injection Hs as <- <-); try done; eapply Hown; eauto.
  - destruct (my_ctrs s !! c); [|done]. destruct (counter_fire _ _ _); [|done]. by injection Hs as <- <-.
  - destruct (send_counter p s c _) as [[s1 r]|] eqn:E; [|done].
    apply send_counter_eq in E as (x & x' & Hx & Hh & ->). by injection Hs as <- <-.
  - by injection Hs as <- <-.
Qed.

(** A pending task of a request answers it or goes on. *)
Lemma own_task_step p s t x k s' o :
  minv s -> my_alive s = true -> live_task k s t x -> m_step p s (MeTask t) = Some (s', o) ->
  (length (answers k o) = 1%nat /\ no_task k s') \/
  (answers k o = [] /\ my_alive s' = true /\ exists x', live_task k s' t x').
Proof.
  intros Hi Ha [Ht Hk] Hs. cbn [m_step] in Hs. rewrite Ha in Hs. unfold task_step in Hs. rewrite Ht in Hs.
  assert (forall s1, my_tasks s1 = my_tasks s -> no_task k (end_task s1 t)) as Hend.
  { intros s1 H1 t' y. cbn. rewrite H1. intros [Hne Hy]%lookup_delete_Some Hin. apply Hne.
    eapply (mv_uniq _ Hi); [exact Ht|exact Hy|done|done]. }
  destruct x as [due|todo ph|kk c|kk c|kk todo acc|c m|id m]; try (by apply elem_of_nil in Hk);
    (destruct kk as [kk|]; [|by apply elem_of_nil in Hk]); apply elem_of_list_singleton in Hk as <-.
  - destruct (send_counter p s c _) as [[s1 r]|] eqn:E; [|done].
    apply send_counter_eq in E as (x & x' & Hx & Hh & ->). left.
    destruct r; injection Hs as <- <-; (split; [by (simpl; rewrite Nat.eqb_refl)|by apply Hend]).
  - destruct (send_counter p s c _) as [[s1 r]|] eqn:E; [|done].
    apply send_counter_eq in E as (x & x' & Hx & Hh & ->). left.
    destruct r; injection Hs as <- <-; (split; [by (simpl; rewrite Nat.eqb_refl)|by apply Hend]).
  - destruct todo as [|[id [rd c]] rest].
    + left. injection Hs as <- <-. split; [by (simpl; rewrite Nat.eqb_refl)|by apply Hend].
    + destruct (send_counter p s c _) as [[s1 r]|] eqn:E; [|done].
      apply send_counter_eq in E as (x & x' & Hx & Hh & ->). right.
      destruct r; injection Hs as <- <-; (split; [done|]); (split; [done|]);
        eexists; (split; [cbn; apply lookup_insert|by left]).
Qed.

Definition ainv (s : msys) (tr : list mout) : Prop :=
  minv s /\ (my_alive s = false -> my_tasks s = ∅) /\ forall k,
    ((my_reqs s <= k)%nat -> answers k tr = []) /\
    ((k < my_reqs s)%nat ->
     (answers k tr = [] /\ my_alive s = true /\ exists t x, live_task k s t x) \/
     (length (answers k tr) = 1%nat /\ no_task k s)).

Lemma ainv_step p s tr e s' o :
  ainv s tr -> m_step p s e = Some (s', o) -> ainv s' (tr ++ o).
Proof.
  intros (Hi & Hdead & Hk) Hs. pose proof (m_step_inv _ _ _ _ _ Hi Hs) as Hi'. split; [done|].
  assert (my_alive s' = false -> my_tasks s' = ∅) as Hdead'.
  { intros Ha'. destruct (my_alive s) eqn:Ea.
    - destruct (m_step_tasks _ _ _ _ _ Hi Hs) as [(s1 & _ & [= -> _] & _)|(Hal & _)]; [done|congruence].
    - specialize (Hdead eq_refl). destruct e as [r|t|c id|c msg|d]; cbn [m_step] in Hs; rewrite Ea in Hs || idtac.
      + by injection Hs as <- <-.
      + done.
      + destruct (my_ctrs s !! c); [|done]. destruct (counter_fire _ _ _); [|done]. by injection Hs as <- <-.
      + destruct (send_counter p s c _) as [[s1 r]|] eqn:E; [|done].
        apply send_counter_eq in E as (x & x' & Hx & Hh & ->). by injection Hs as <- <-.
      + by injection Hs as <- <-. }
  split; [done|]. intros k. rewrite answers_app.
  assert ((exists r, e = MeReq r) \/ ~ (exists r, e = MeReq r)) as [[r ->]|He].
  { destruct e as [r| | | |]; [left; by exists r|..]; right; by intros (? & ?). }
  { (* a new request *)
    assert (my_reqs s' = S (my_reqs s)) as Hrq.
    { cbn [m_step] in Hs. destruct (my_alive s).
      - destruct (m_handle _ _ _) as [s1 o1] eqn:E. injection Hs as <- <-.
        apply m_handle_frame in E as (_ & -> & _). done.
      - by injection Hs as <- <-. }
    rewrite Hrq. destruct (decide (k = my_reqs s)) as [->|Hne].
    - split; [lia|]. intros _. destruct (Hk (my_reqs s)) as [Hnil _]. rewrite Hnil by lia. simpl.
      assert (no_task (my_reqs s) s) as Hno.
      { intros t x Hx Hin. destruct (mv_task _ Hi _ _ Hx) as (_ & _ & Hf & _).
        rewrite Forall_forall in Hf. specialize (Hf _ Hin). simpl in Hf. lia. }
      cbn [m_step] in Hs. destruct (my_alive s) eqn:Ea.
      + destruct (m_handle _ _ _) as [s1 o1] eqn:E. injection Hs as <- <-.
        pose proof E as E'. apply m_handle_frame in E' as (Hal & _). cbn in Hal.
        apply m_handle_fresh in E as [[H1 H2]|[H1 H2]]; [right|left|done]; simpl; [done|].
        split; [done|]. split; [congruence|done].
      + injection Hs as <- <-. right. simpl. rewrite Nat.eqb_refl. split; [done|exact Hno].
    - split.
      + intros Hle. destruct (Hk k) as [Hnil _]. rewrite Hnil by lia. simpl.
        cbn [m_step] in Hs. destruct (my_alive s).
        * destruct (m_handle _ _ _) as [s1 o1] eqn:E. injection Hs as <- <-.
          apply m_handle_frame in E as (_ & _ & _ & _ & _ & Hans & _). apply (Hans k). congruence.
        * injection Hs as <- <-. simpl. destruct (Nat.eqb_spec (my_reqs s) k); [lia|done].
      + intros Hlt. assert (k < my_reqs s)%nat as Hlt' by lia. destruct (Hk k) as [_ Hc].
        destruct (Hc Hlt') as [(Hnil & Hal & t & x & Hl)|[Hone Hno]].
        * left. destruct (m_step_tasks _ _ _ _ _ Hi Hs) as [(s1 & _ & Hd & _)|(Hal' & Hold & Hans & _)].
          { exfalso. cbn [m_step] in Hs. rewrite Hal in Hs. destruct (m_handle _ _ _) as [s2 o2] eqn:E.
            injection Hs as <- <-. injection Hd as -> _. apply m_handle_frame in E as (Hx & _). cbn in Hx. congruence. }
          rewrite Hnil, Hans by (done || by intros). split; [done|]. split; [congruence|].
          exists t, x. destruct Hl as [Hl1 Hl2]. split; [by apply Hold|done].
        * right. destruct (gone_step _ _ _ _ _ _ Hi (conj Hlt' Hno) Hs) as [[_ Hno'] ->].
          rewrite app_nil_r. done. }
  assert (forall r, e <> MeReq r) as He' by (intros r ->; apply He; eauto).
  pose proof (m_step_reqs_eq _ _ _ _ _ He' Hs) as Hrq. rewrite Hrq. split.
  - intros Hle. destruct (Hk k) as [Hnil _]. rewrite Hnil by done. simpl.
    destruct (answers k o) as [|y l] eqn:Eo; [done|]. exfalso.
    destruct (step_answers_pending _ _ _ _ _ k Hi He' Hs Hrq) as (t & x & Hx & Hin); [by rewrite Eo|].
    destruct (mv_task _ Hi _ _ Hx) as (_ & _ & Hf & _). rewrite Forall_forall in Hf.
    specialize (Hf _ Hin). simpl in Hf. lia.
  - intros Hlt. destruct (Hk k) as [_ Hc]. destruct (Hc Hlt) as [(Hnil & Hal & t & x & Hl)|[Hone Hno]].
    + rewrite Hnil. simpl. destruct (is_task_dec e t) as [->|Hne].
      * destruct (own_task_step _ _ _ _ _ _ _ Hi Hal Hl Hs) as [H|(H1 & H2 & x' & H3)]; [by right|].
        left. eauto.
      * destruct (m_step_tasks _ _ _ _ _ Hi Hs) as [(s1 & Hts & Hd & _ & Hrq1)|(Hal' & Hold & Hans & _)].
        -- right. destruct Hl as [Hl1 Hl2].
           assert (minv (MSys (my_now s) (my_alive s) (my_gc s) (my_sites s) (my_ctrs s) (my_tasks s1)
                 (my_next s) (my_reqs s))) as Hi2 by (rewrite Hts; by destruct Hi).
           rewrite <- Hts in Hl1.
           assert (task_req x = [k]) as Hx1.
           { destruct x as [|? ?|[]|[]|[] |? ?|? ?]; cbn in Hl2 |- *; try (by apply elem_of_nil in Hl2);
               by apply elem_of_list_singleton in Hl2 as ->. }
           pose proof (dropped_once _ k t _ Hi2 Hl1 Hx1) as Hdr. cbn [m_die snd my_tasks] in Hdr.
           injection Hd as -> ->. cbn [m_die snd]. rewrite Hdr. split; [done|].
           intros t' z. cbn. by rewrite lookup_empty.
        -- left. rewrite Hans; [|done|].
           ++ split; [done|]. split; [congruence|]. exists t, x. destruct Hl as [Hl1 Hl2].
              split; [by apply Hold|done].
           ++ intros t' y -> Hy Hin. apply Hne. f_equal. destruct Hl as [Hl1 Hl2].
              eapply (mv_uniq _ Hi); [exact Hy|exact Hl1|done|done].
    + right. destruct (gone_step _ _ _ _ _ _ Hi (conj Hlt Hno) Hs) as [[_ Hno'] ->].
      rewrite app_nil_r. done.
Qed.

Lemma run_ainv p t gc es s tr : m_run p (m_start t gc) es = Some (s, tr) -> ainv s tr.
Proof.
  apply (m_run_ind ainv).
  - split; [apply m_start_inv|]. split; [done|]. intros k. split; [done|]. cbn. lia.
  - intros s1 tr1 e s2 o H1 H2. by eapply ainv_step.
Qed.

(** A pending request is answered when its task runs. *)
Lemma pending_completes p s t x k :
  minv s -> my_alive s = true -> live_task k s t x ->
  exists n s' tr', m_run p s (replicate n (MeTask t)) = Some (s', tr') /\ length (answers k tr') = 1%nat.
Proof.
  intros Hi Ha [Ht Hk].
  destruct x as [due|todo ph|kk c|kk c|kk todo acc|c m|id m]; try (by apply elem_of_nil in Hk);
    (destruct kk as [kk|]; [|by apply elem_of_nil in Hk]); apply elem_of_list_singleton in Hk as <-.
  - destruct (mv_task _ Hi _ _ Ht) as (_ & Hf & _). cbn in Hf. rewrite Forall_singleton in Hf.
    destruct (lookup_lt_is_Some_2 _ _ Hf) as [y Hy].
    assert (is_Some (m_step p s (MeTask t))) as [[s' o] Hs].
    { cbn [m_step]. rewrite Ha. unfold task_step. rewrite Ht. unfold send_counter. rewrite Hy.
      destruct (counter_handle _ _ _ _) as [y' []]; eauto. }
    exists 1%nat, s', o. cbn [replicate m_run]. rewrite Hs, app_nil_r. split; [done|].
    destruct (visit_step _ _ _ _ _ _ _ Ht Ha Hs) as (? & ? & ? & _ & _ & _ & ->). simpl. by rewrite Nat.eqb_refl.
  - destruct (mv_task _ Hi _ _ Ht) as (_ & Hf & _). cbn in Hf. rewrite Forall_singleton in Hf.
    destruct (lookup_lt_is_Some_2 _ _ Hf) as [y Hy].
    exists 1%nat. cbn [replicate m_run m_step]. rewrite Ha. unfold task_step. rewrite Ht.
    unfold send_counter. rewrite Hy.
    destruct (counter_handle _ _ _ _) as [y' []]; eexists _, _; (split; [done|]);
      rewrite app_nil_r; by (simpl; rewrite Nat.eqb_refl).
  - destruct (get_pass p t (Some k) todo acc s Hi Ha Ht) as (d & Hr & _).
    eexists _, _, _. split; [exact Hr|]. by (simpl; rewrite Nat.eqb_refl).
Qed.
