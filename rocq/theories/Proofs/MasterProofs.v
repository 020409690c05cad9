(** Proofs about the Master actor. *)
From Coq Require Import ZifyBool ZifyN ZifyNat Lia.
From Verif Require Import Model.Base Model.Defense Model.MCaptcha Model.Counter Model.Master
  Spec.MCaptchaSpec Spec.CounterSpec Spec.MasterSpec Proofs.MCaptchaProofs Proofs.CounterProofs.

(** * Runs *)
Lemma m_run_app p s es1 es2 s2 tr :
  m_run p s (es1 ++ es2) = Some (s2, tr) <->
  exists s1 tr1 tr2, m_run p s es1 = Some (s1, tr1) /\ m_run p s1 es2 = Some (s2, tr2) /\ tr = tr1 ++ tr2.
Proof.
  revert s tr. induction es1 as [|x es IH]; intros s tr; cbn [app m_run].
  - split.
    + intros H. exists s, [], tr. done.
    + intros (s1 & tr1 & tr2 & H1 & H2 & ->). by injection H1 as <- <-.
  - destruct (m_step p s x) as [[s0 o]|]; [|split; [done|by intros (? & ? & ? & ? & _)]].
    split.
    + destruct (m_run p s0 (es ++ es2)) as [[s3 os]|] eqn:E; [|done]. intros [= <- <-].
      apply IH in E as (s1 & tr1 & tr2 & H1 & H2 & ->).
      exists s1, (o ++ tr1), tr2. rewrite H1, (assoc_L (++)). done.
    + intros (s1 & tr1 & tr2 & H1 & H2 & ->).
      destruct (m_run p s0 es) as [[s3 os]|] eqn:E; [|done]. injection H1 as <- <-.
      rewrite (proj2 (IH s0 (os ++ tr2))) by eauto 10. by rewrite (assoc_L (++)).
Qed.
Lemma m_run_snoc p s es e s2 tr :
  m_run p s (es ++ [e]) = Some (s2, tr) <->
  exists s1 tr1 o, m_run p s es = Some (s1, tr1) /\ m_step p s1 e = Some (s2, o) /\ tr = tr1 ++ o.
Proof.
  rewrite m_run_app. cbn [m_run]. split.
  - intros (s1 & tr1 & tr2 & H1 & H2 & ->). exists s1, tr1.
    destruct (m_step p s1 e) as [[s3 o]|]; [|done]. injection H2 as <- <-. exists o.
    by rewrite app_nil_r.
  - intros (s1 & tr1 & o & H1 & H2 & ->). exists s1, tr1, o. rewrite H2, app_nil_r. done.
Qed.
Lemma m_run_ind (P : msys -> list mout -> Prop) p s0 :
  P s0 [] ->
  (forall s tr e s' o, P s tr -> m_step p s e = Some (s', o) -> P s' (tr ++ o)) ->
  forall es s tr, m_run p s0 es = Some (s, tr) -> P s tr.
Proof.
  intros H0 HS es. induction es as [|e es IH] using rev_ind; intros s tr Hr.
  - by injection Hr as <- <-.
  - apply m_run_snoc in Hr as (s1 & tr1 & o & H1 & H2 & ->). eauto.
Qed.

(** * The registry and its specification *)
Lemma handled_app a b : handled (a ++ b) = handled a ++ handled b.
Proof. apply omap_app. Qed.
Lemma handled_reply k x : handled (reply k x) = [].
Proof. by destruct k. Qed.
Lemma answers_app k a b : answers k (a ++ b) = answers k a ++ answers k b.
Proof. apply omap_app. Qed.

Definition entry (h : list mreq) (id : string) : option site :=
  match bound h id with Some c => Some (Site (used h id) c) | None => None end.
Definition tracks (h : list mreq) (s : msys) : Prop :=
  (forall id, my_sites s !! id = entry h id) /\ length (my_ctrs s) = registrations h.

Lemma registrations_cons r h :
  registrations (r :: h) = ((match r with RqAddSite _ _ => 1 | _ => 0 end) + registrations h)%nat.
Proof. unfold registrations. by destruct r. Qed.
Lemma bound_lt h id c : bound h id = Some c -> (c < registrations h)%nat.
Proof.
  revert id c. induction h as [|r h IH]; intros id c; [done|]. rewrite registrations_cons. cbn [bound].
  assert (forall id c, bound h id = Some c ->
     (c < (match r with RqAddSite _ _ => 1 | _ => 0 end) + registrations h)%nat) as IH'.
  { intros id' c' H. apply IH in H. lia. }
  destruct r; try by apply IH'.
  - destruct (String.eqb id id0); [|by apply IH']. intros [= <-]. lia.
  - destruct (bound h name) as [k|] eqn:E; [|by apply IH'].
    destruct (String.eqb id rename_to); [intros [= <-]; by eapply IH'|].
    destruct (String.eqb id name); [done|by apply IH'].
  - destruct (String.eqb id id0); [done|by apply IH'].
Qed.
Lemma bound_inj h id id' c : bound h id = Some c -> bound h id' = Some c -> id = id'.
Proof.
  revert id id' c. induction h as [|r h IH]; intros id id' c; [done|]. cbn [bound].
  destruct r; try by apply IH.
  - destruct (String.eqb_spec id id0), (String.eqb_spec id' id0); subst; try done.
    + intros [= <-] H. apply bound_lt in H. lia.
    + intros H [= <-]. apply bound_lt in H. lia.
    + apply IH.
  - destruct (bound h name) as [k|] eqn:E; [|by apply IH].
    destruct (String.eqb_spec id rename_to), (String.eqb_spec id' rename_to); subst; try done.
    + intros [= <-]. destruct (String.eqb_spec id' name); [done|]. intros H. by destruct n0; eapply IH.
    + intros H [= <-]. destruct (String.eqb_spec id name); [done|]. by destruct n0; eapply IH.
    + destruct (String.eqb_spec id name), (String.eqb_spec id' name); try done. apply IH.
  - destruct (String.eqb_spec id id0), (String.eqb_spec id' id0); try done. apply IH.
Qed.

Lemma get_site_lookup ss id id' :
  (get_site ss id).1 !! id' =
  match ss !! id' with
  | Some x => Some (Site (String.eqb id' id || si_read x) (si_ctr x))
  | None => None
  end.
Proof.
  unfold get_site. destruct (ss !! id) as [x|] eqn:E; simpl.
  - destruct (String.eqb_spec id' id) as [->|Hn].
    + by rewrite lookup_insert, E.
    + rewrite lookup_insert_ne by done. by destruct (ss !! id') as [[]|].
  - destruct (String.eqb_spec id' id) as [->|Hn]; [by rewrite E|]. by destruct (ss !! id') as [[]|].
Qed.
Lemma get_site_addr ss id : (get_site ss id).2 = si_ctr <$> ss !! id.
Proof. unfold get_site. by destruct (ss !! id). Qed.

Lemma set_data_lookup l s id :
  my_sites (foldl set_data_one s l) !! id =
  match my_sites s !! id with
  | Some x => Some (Site (bool_decide (id ∈ l.*1) || si_read x) (si_ctr x))
  | None => None
  end.
Proof.
  revert s. induction l as [|[nm m] l IH]; intros s; cbn [foldl].
  - destruct (my_sites s !! id) as [[]|]; [|done]. by rewrite bool_decide_false by apply not_elem_of_nil.
  - rewrite IH. unfold set_data_one. cbn [fst snd].
    pose proof (get_site_lookup (my_sites s) nm id) as Hl.
    destruct (get_site (my_sites s) nm) as [ss a]. cbn [spawn set_sites my_sites fst] in *. rewrite Hl.
    destruct (my_sites s !! id) as [x|]; [|done]. cbn [si_read si_ctr]. f_equal. f_equal.
    rewrite fmap_cons. cbn [fst].
    destruct (String.eqb_spec id nm) as [->|Hn].
    + rewrite (bool_decide_true (nm ∈ nm :: _)) by (by left). by rewrite orb_true_r.
    + simpl. f_equal. apply bool_decide_ext. rewrite elem_of_cons. naive_solver.
Qed.
Lemma set_data_frame l s :
  my_ctrs (foldl set_data_one s l) = my_ctrs s /\ my_now (foldl set_data_one s l) = my_now s /\
  my_alive (foldl set_data_one s l) = my_alive s /\ my_gc (foldl set_data_one s l) = my_gc s /\
  my_reqs (foldl set_data_one s l) = my_reqs s /\
  my_next (foldl set_data_one s l) = (my_next s + length l)%nat.
Proof.
  revert s. induction l as [|[nm m] l IH]; intros s; cbn [foldl length].
  - split_and!; try done.
  - destruct (IH (set_data_one s (nm, m))) as (H1 & H2 & H3 & H4 & H5 & H6).
    rewrite H1, H2, H3, H4, H5, H6. unfold set_data_one. cbn [fst snd].
    destruct (get_site (my_sites s) nm) as [ss a]. cbn. split_and!; try done.
Qed.

Lemma m_handle_tracks h s k r s' o :
  tracks h s -> m_handle s k r = (s', o) -> tracks (r :: h) s' /\ handled o = [].
Proof.
  intros [Hs Hc] Hh. unfold tracks, entry.
  assert (forall r, (forall id m, r <> RqAddSite id m) -> registrations (r :: h) = registrations h) as Hreg.
  { intros r0 Hr. rewrite registrations_cons. destruct r0; try done. by destruct (Hr id m). }
  destruct r; cbn [m_handle] in Hh.
  - injection Hh as <- <-. split; [split|apply handled_reply].
    + intros id'. cbn [my_sites set_sites set_ctrs bound used]. unfold add_site.
      destruct (String.eqb_spec id' id) as [->|Hn].
      * by rewrite lookup_insert, <- Hc.
      * rewrite lookup_insert_ne by done. apply Hs.
    + cbn [my_ctrs set_sites set_ctrs]. rewrite app_length, Hc, registrations_cons. simpl. lia.
  - injection Hh as <- <-. split; [split|apply handled_reply].
    + intros id'. cbn [my_sites set_sites bound used]. unfold rename, add_site.
      pose proof (Hs name) as Hn. unfold entry in Hn.
      destruct (my_sites s !! name) as [x|] eqn:E.
      * destruct (bound h name) as [c|] eqn:Eb; [|done]. injection Hn as ->. cbn [si_ctr].
        destruct (String.eqb_spec id' rename_to) as [->|Hn1]; [by rewrite lookup_insert|].
        rewrite lookup_insert_ne by done.
        destruct (String.eqb_spec id' name) as [->|Hn2]; [by rewrite lookup_delete|].
        rewrite lookup_delete_ne by done. apply Hs.
      * destruct (bound h name); [done|]. apply Hs.
    + rewrite Hreg by done. done.
  - unfold rm_site in Hh.
    assert (forall id', delete id (my_sites s) !! id' =
      match bound (RqRemove id :: h) id' with
      | Some c => Some (Site (used (RqRemove id :: h) id') c) | None => None end) as Hd.
    { intros id'. cbn [bound used]. destruct (String.eqb_spec id' id) as [->|Hn].
      - by rewrite lookup_delete.
      - rewrite lookup_delete_ne by done. apply Hs. }
    destruct (my_sites s !! id) as [x|]; injection Hh as <- <-;
      (split; [split|by rewrite ?handled_reply]); first [exact Hd | by rewrite Hreg].
  - assert (forall id', (get_site (my_sites s) id).1 !! id' =
      match bound (RqAddVisitor id :: h) id' with
      | Some c => Some (Site (used (RqAddVisitor id :: h) id') c) | None => None end) as Hd.
    { intros id'. rewrite get_site_lookup, Hs. unfold entry. cbn [bound used].
      destruct (bound h id') eqn:E; [|done]. done. }
    destruct (get_site (my_sites s) id) as [ss [a|]]; injection Hh as <- <-;
      (split; [split|by rewrite ?handled_reply]); first [exact Hd | by rewrite Hreg].
  - assert (forall id', (get_site (my_sites s) id).1 !! id' =
      match bound (RqGetSite id :: h) id' with
      | Some c => Some (Site (used (RqGetSite id :: h) id') c) | None => None end) as Hd.
    { intros id'. rewrite get_site_lookup, Hs. unfold entry. cbn [bound used].
      destruct (bound h id') eqn:E; [|done]. done. }
    destruct (get_site (my_sites s) id) as [ss a]; injection Hh as <- <-;
      (split; [split|by rewrite ?handled_reply]); first [exact Hd | by rewrite Hreg].
  - injection Hh as <- <-. split; [split|done]; [exact Hs|by rewrite Hreg].
  - injection Hh as <- <-. split; [split|apply handled_reply].
    + intros id'. rewrite set_data_lookup, Hs. unfold entry. cbn [bound used].
      destruct (bound h id') eqn:E; [|done]. cbn [si_read si_ctr]. do 3 f_equal.
      apply bool_decide_ext. rewrite elem_of_list_fmap. split.
      * intros ([x m] & -> & Hin%elem_of_map_to_list). by exists m.
      * intros [m Hm]. exists (id', m). split; [done|]. by apply elem_of_map_to_list.
    + rewrite Hreg by done. by rewrite (proj1 (set_data_frame _ _)).
  - injection Hh as <- <-. split; [split|apply handled_reply]; [exact Hs|by rewrite Hreg].
Qed.

(** What each step does to the registry: it handles one message or none. *)
Lemma send_counter_eq p s c msg s' r :
  send_counter p s c msg = Some (s', r) ->
  exists x x', my_ctrs s !! c = Some x /\ counter_handle p (my_now s) x msg = (x', r) /\
    s' = set_ctrs s (<[c := x']> (my_ctrs s)).
Proof.
  unfold send_counter. destruct (my_ctrs s !! c) as [x|]; [|done].
  destruct (counter_handle p (my_now s) x msg) as [x' r'] eqn:E. intros [= <- <-]. eauto.
Qed.
Lemma handled_dropped l : handled ((fun k => MoReply k MrDropped) <$> l) = [].
Proof. induction l; [done|]. by simpl. Qed.
Lemma set_ctrs_tracks h s c x : tracks h s -> tracks h (set_ctrs s (<[c := x]> (my_ctrs s))).
Proof. intros [H1 H2]. split; [done|]. cbn [my_ctrs set_ctrs]. by rewrite insert_length. Qed.

Lemma m_step_tracks h p s e s' o :
  tracks h s -> m_step p s e = Some (s', o) -> tracks (reverse (handled o) ++ h) s'.
Proof.
  intros Ht Hs. destruct e as [r|t|c id|c msg|d]; cbn [m_step] in Hs.
  - destruct (my_alive s).
    + destruct (m_handle _ _ r) as [s1 o1] eqn:E. injection Hs as <- <-.
      apply (m_handle_tracks h) in E as [E Ho]; [|exact Ht]. cbn. fold (handled o1). by rewrite Ho.
    + injection Hs as <- <-. exact Ht.
  - destruct (my_alive s); [|done]. unfold task_step in Hs.
    destruct (my_tasks s !! t) as [[due|todo ph|k c|k c|k todo acc|c m|id m]|]; [..|done].
    + destruct (due <=? my_now s); [|done].
      destruct (m_handle _ _ RqCleanUp) as [s1 o1] eqn:E. injection Hs as <- <-.
      apply (m_handle_tracks h) in E as [E Ho]; [|exact Ht]. cbn. fold (handled o1). by rewrite Ho.
    + destruct todo as [|[id [rd c]] rest]; [injection Hs as <- <-; exact Ht|].
      destruct ph.
      * destruct (send_counter p s c _) as [[s1 r]|] eqn:E; [|done].
        apply send_counter_eq in E as (x & x' & Hx & Hh & ->).
        pose proof (set_ctrs_tracks h s c x' Ht) as Ht1.
        destruct r; injection Hs as <- <-; rewrite ?handled_dropped; exact Ht1.
      * destruct (send_counter p s c _) as [[s1 r]|] eqn:E; [|done].
        apply send_counter_eq in E as (x & x' & Hx & Hh & ->).
        pose proof (set_ctrs_tracks h s c x' Ht) as Ht1.
        destruct r; injection Hs as <- <-; rewrite ?handled_dropped; exact Ht1.
      * destruct (m_handle _ _ _) as [s1 o1] eqn:E. injection Hs as <- <-.
        apply (m_handle_tracks h) in E as [E Ho]; [|exact Ht]. cbn. fold (handled o1). by rewrite Ho.
    + destruct (send_counter p s c _) as [[s1 r]|] eqn:E; [|done].
      apply send_counter_eq in E as (x & x' & Hx & Hh & ->).
      pose proof (set_ctrs_tracks h s c x' Ht) as Ht1.
      destruct r; injection Hs as <- <-; rewrite ?handled_reply; exact Ht1.
    + destruct (send_counter p s c _) as [[s1 r]|] eqn:E; [|done].
      apply send_counter_eq in E as (x & x' & Hx & Hh & ->).
      pose proof (set_ctrs_tracks h s c x' Ht) as Ht1.
      destruct r; injection Hs as <- <-; rewrite ?handled_reply; exact Ht1.
    + destruct todo as [|[id [rd c]] rest]; [injection Hs as <- <-; rewrite handled_reply; exact Ht|].
      destruct (send_counter p s c _) as [[s1 r]|] eqn:E; [|done].
      apply send_counter_eq in E as (x & x' & Hx & Hh & ->).
      pose proof (set_ctrs_tracks h s c x' Ht) as Ht1.
      destruct r; injection Hs as <- <-; exact Ht1.
    + destruct (send_counter p s c _) as [[s1 r]|] eqn:E; [|done].
      apply send_counter_eq in E as (x & x' & Hx & Hh & ->).
      injection Hs as <- <-. by apply set_ctrs_tracks.
    + destruct (m_handle _ _ _) as [s1 o1] eqn:E. injection Hs as <- <-.
      apply (m_handle_tracks h) in E as [E Ho]; [|exact Ht]. cbn. fold (handled o1). by rewrite Ho.
  - destruct (my_ctrs s !! c); [|done]. destruct (counter_fire _ _ _); [|done]. injection Hs as <- <-.
    by apply set_ctrs_tracks.
  - destruct (send_counter p s c _) as [[s1 r]|] eqn:E; [|done].
    apply send_counter_eq in E as (x & x' & Hx & Hh & ->).
    injection Hs as <- <-. by apply set_ctrs_tracks.
  - injection Hs as <- <-. exact Ht.
Qed.
Lemma run_tracks p t gc es s tr : m_run p (m_start t gc) es = Some (s, tr) -> tracks (hist tr) s.
Proof.
  apply (m_run_ind (fun s tr => tracks (hist tr) s)).
  - split; [|done]. intros id. apply lookup_empty.
  - intros s0 tr0 e s' o IH Hs. unfold hist. rewrite handled_app, reverse_app.
    by eapply m_step_tracks.
Qed.

(** * Tasks *)
Definition set_task_of (ss : sites) (nm : string * mcaptcha) : task :=
  match ss !! fst nm with Some x => TSet (si_ctr x) (snd nm) | None => TAdd (fst nm) (snd nm) end.
Lemma set_data_tasks l s t :
  my_tasks (foldl set_data_one s l) !! t =
  if decide (my_next s <= t < my_next s + length l)%nat
  then set_task_of (my_sites s) <$> l !! (t - my_next s)%nat
  else my_tasks s !! t.
Proof.
  revert s. induction l as [|[nm m] l IH]; intros s; cbn [foldl length].
  - rewrite decide_False by lia. done.
  - rewrite IH. unfold set_data_one at 1 2 3 4 5. cbn [fst snd].
    pose proof (get_site_lookup (my_sites s) nm) as Hl. pose proof (get_site_addr (my_sites s) nm) as Ha.
    unfold set_data_one. cbn [fst snd].
    destruct (get_site (my_sites s) nm) as [ss a]. cbn [fst snd] in Hl, Ha.
    cbn [spawn set_sites my_sites my_next my_tasks].
    assert (forall x, set_task_of ss x = set_task_of (my_sites s) x) as Hst.
    { intros [nm' m']. unfold set_task_of. cbn [fst snd]. rewrite Hl. by destruct (my_sites s !! nm') as [[]|]. }
    destruct (decide (S (my_next s) <= t < S (my_next s) + length l)%nat) as [Hd|Hd].
    + rewrite decide_True by lia.
      replace (t - my_next s)%nat with (S (t - S (my_next s))) by lia. simpl.
      destruct (l !! _); [|done]. simpl. by rewrite Hst.
    + destruct (decide (t = my_next s)) as [->|Hn].
      * rewrite lookup_insert, decide_True by lia. rewrite Nat.sub_diag. simpl. unfold set_task_of.
        cbn [fst snd]. rewrite Ha. by destruct (my_sites s !! nm).
      * rewrite lookup_insert_ne by done. rewrite decide_False by lia. done.
Qed.

Definition task_ctrs (t : task) : list nat :=
  match t with
  | TVisit _ c | TStop _ c | TSet c _ => [c]
  | TClean todo _ | TGet _ todo _ => (fun x => si_ctr (snd x)) <$> todo
  | _ => []
  end.
Definition distinct_todo (t : task) : Prop :=
  match t with
  | TClean todo _ | TGet _ todo _ => NoDup (todo.*1) /\ NoDup ((fun x => si_ctr (snd x)) <$> todo)
  | _ => True
  end.
Record minv (s : msys) : Prop := MInv {
  mv_task : forall t x, my_tasks s !! t = Some x ->
    (t < my_next s)%nat /\ Forall (fun c => c < length (my_ctrs s))%nat (task_ctrs x) /\
    Forall (fun k => k < my_reqs s)%nat (task_req x) /\ distinct_todo x;
  mv_uniq : forall t1 t2 x1 x2 k, my_tasks s !! t1 = Some x1 -> my_tasks s !! t2 = Some x2 ->
    k ∈ task_req x1 -> k ∈ task_req x2 -> t1 = t2;
  mv_site : forall id x, my_sites s !! id = Some x -> (si_ctr x < length (my_ctrs s))%nat;
  mv_inj : forall id id' x x', my_sites s !! id = Some x -> my_sites s !! id' = Some x' ->
    si_ctr x = si_ctr x' -> id = id' }.

(** A step that keeps the registry, perhaps changes one counter and replaces
    the task [t] by another with the same request (or none). *)
Lemma sites_iter_perm ss : sites_iter ss ≡ₚ map_to_list ss.
Proof. apply merge_sort_Permutation. Qed.
Lemma sites_iter_elem ss id x : (id, x) ∈ sites_iter ss <-> ss !! id = Some x.
Proof. by rewrite sites_iter_perm, elem_of_map_to_list. Qed.
Lemma sites_iter_distinct s :
  minv s -> NoDup ((sites_iter (my_sites s)).*1) /\ NoDup ((fun x => si_ctr (snd x)) <$> sites_iter (my_sites s)).
Proof.
  intros Hi. rewrite sites_iter_perm. split; [apply NoDup_fst_map_to_list|].
  apply NoDup_fmap_2_strong; [|apply NoDup_map_to_list].
  intros [i x] [j y] Hx Hy Hc. apply elem_of_map_to_list in Hx, Hy. cbn [snd] in Hc.
  pose proof (mv_inj _ Hi _ _ _ _ Hx Hy Hc) as ->. congruence.
Qed.
Lemma sites_iter_ctrs s :
  minv s -> Forall (fun c => c < length (my_ctrs s))%nat ((fun x => si_ctr (snd x)) <$> sites_iter (my_sites s)).
Proof.
  intros Hi. apply Forall_fmap, Forall_forall. intros [i x] Hx. apply sites_iter_elem in Hx.
  simpl. by eapply mv_site.
Qed.

Lemma minv_set_task s t x :
  minv s -> (t < my_next s)%nat ->
  Forall (fun c => c < length (my_ctrs s))%nat (task_ctrs x) -> distinct_todo x ->
  (match my_tasks s !! t with Some y => task_req x = task_req y \/ task_req x = [] | None => task_req x = [] end) ->
  minv (set_task s t x).
Proof.
  intros Hi Ht Hc Hd Hr. destruct Hi as [H1 H2 H3 H4]. split; [| |exact H3|exact H4].
  - intros t' x'. cbn [my_tasks set_task set_tasks my_next my_ctrs my_reqs].
    destruct (decide (t' = t)) as [->|Hn]; [|rewrite lookup_insert_ne by done; apply H1].
    rewrite lookup_insert. intros [= <-]. split_and!; try done.
    destruct (my_tasks s !! t) as [y|] eqn:E.
    + destruct Hr as [-> | ->]; [|constructor]. by destruct (H1 _ _ E) as (_ & _ & ? & _).
    + rewrite Hr. constructor.
  - assert (forall t0 x0 k, <[t:=x]> (my_tasks s) !! t0 = Some x0 -> k ∈ task_req x0 ->
        exists y0, my_tasks s !! t0 = Some y0 /\ k ∈ task_req y0) as Hold.
    { intros t0 x0 k. destruct (decide (t0 = t)) as [->|Hn].
      - rewrite lookup_insert. intros [= <-] Hk. destruct (my_tasks s !! t) as [y|].
        + destruct Hr as [Hr|Hr]; rewrite Hr in Hk; [eauto|by apply elem_of_nil in Hk].
        + rewrite Hr in Hk. by apply elem_of_nil in Hk.
      - rewrite lookup_insert_ne by done. eauto. }
    intros t1 t2 x1 x2 k Hx1 Hx2 Hk1 Hk2. cbn in Hx1, Hx2.
    destruct (Hold _ _ _ Hx1 Hk1) as (y1 & ? & ?). destruct (Hold _ _ _ Hx2 Hk2) as (y2 & ? & ?). by eapply H2.
Qed.
Lemma minv_end_task s t : minv s -> minv (end_task s t).
Proof.
  intros [H1 H2 H3 H4]. split; [| |exact H3|exact H4].
  - intros t' x' Hx. cbn in Hx. apply lookup_delete_Some in Hx as [_ Hx]. by apply H1.
  - intros t1 t2 x1 x2 k Hx1 Hx2. cbn in Hx1, Hx2. apply lookup_delete_Some in Hx1 as [_ Hx1].
    apply lookup_delete_Some in Hx2 as [_ Hx2]. by eapply H2.
Qed.
Lemma minv_set_ctrs s c x : minv s -> minv (set_ctrs s (<[c := x]> (my_ctrs s))).
Proof.
  intros [H1 H2 H3 H4]. split; cbn [my_tasks set_ctrs my_next my_ctrs my_reqs my_sites];
    rewrite ?insert_length; done.
Qed.
Lemma minv_die s : minv s -> minv (m_die s).1.
Proof. intros [H1 H2 H3 H4]. split; [| |exact H3|exact H4]; intros *; cbn; by rewrite lookup_empty. Qed.
Lemma minv_spawn s x :
  minv s -> Forall (fun c => c < length (my_ctrs s))%nat (task_ctrs x) -> distinct_todo x ->
  Forall (fun k => k < my_reqs s)%nat (task_req x) ->
  (forall t y k, my_tasks s !! t = Some y -> k ∈ task_req y -> k ∉ task_req x) ->
  minv (spawn s x).
Proof.
  intros [H1 H2 H3 H4] Hc Hd Hr Hf. split; [| |exact H3|exact H4].
  - intros t' x'. cbn [my_tasks spawn my_next my_ctrs my_reqs].
    destruct (decide (t' = my_next s)) as [->|Hn].
    + rewrite lookup_insert. intros [= <-]. split_and!; try done. lia.
    + rewrite lookup_insert_ne by done. intros Hx. destruct (H1 _ _ Hx) as (? & ? & ? & ?).
      split_and!; try done. lia.
  - intros t1 t2 x1 x2 k. cbn [my_tasks spawn].
    destruct (decide (t1 = my_next s)) as [->|Hn1], (decide (t2 = my_next s)) as [->|Hn2]; try done.
    + rewrite lookup_insert, lookup_insert_ne by done. intros [= <-] Hx2 Hk1 Hk2.
      by destruct (Hf _ _ _ Hx2 Hk2).
    + rewrite lookup_insert, lookup_insert_ne by done. intros Hx1 [= <-] Hk1 Hk2.
      by destruct (Hf _ _ _ Hx1 Hk1).
    + rewrite !lookup_insert_ne by done. apply H2.
Qed.
Lemma minv_sites s ss :
  minv s -> (forall id x, ss !! id = Some x -> (si_ctr x < length (my_ctrs s))%nat) ->
  (forall id id' x x', ss !! id = Some x -> ss !! id' = Some x' -> si_ctr x = si_ctr x' -> id = id') ->
  minv (set_sites s ss).
Proof. intros [H1 H2 H3 H4] Ha Hb. by split. Qed.
Lemma minv_get_site s id : minv s -> minv (set_sites s (get_site (my_sites s) id).1).
Proof.
  intros Hi. apply minv_sites; [done| |].
  - intros id' x. rewrite get_site_lookup. destruct (my_sites s !! id') as [y|] eqn:E; [|done].
    intros [= <-]. simpl. by eapply mv_site.
  - intros i i' x x'. rewrite !get_site_lookup.
    destruct (my_sites s !! i) as [y|] eqn:E; [|done]. destruct (my_sites s !! i') as [y'|] eqn:E'; [|done].
    intros [= <-] [= <-]. simpl. by eapply mv_inj.
Qed.
Lemma minv_add_ctr s x : minv s -> minv (set_ctrs s (my_ctrs s ++ [x])).
Proof.
  intros [H1 H2 H3 H4]. split; cbn [my_tasks set_ctrs my_next my_ctrs my_reqs my_sites]; [|done| |done].
  - intros t y Hy. destruct (H1 _ _ Hy) as (? & Hc & ? & ?). split_and!; try done.
    eapply Forall_impl; [exact Hc|]. intros c Hc'. simpl in Hc'. rewrite app_length. lia.
  - intros id y Hy. rewrite app_length. specialize (H3 _ _ Hy). lia.
Qed.

Lemma m_handle_inv s k r s' o :
  minv s -> (match k with Some k => (k < my_reqs s)%nat /\
                (forall t y, my_tasks s !! t = Some y -> k ∉ task_req y) | None => True end) ->
  m_handle s k r = (s', o) -> minv s'.
Proof.
  intros Hi Hk Hh.
  assert (forall x ss, task_req x = match k with Some k => [k] | None => [] end ->
     Forall (fun j => j < my_reqs (set_sites s ss))%nat (task_req x) /\
     (forall t y j, my_tasks (set_sites s ss) !! t = Some y -> j ∈ task_req y -> j ∉ task_req x)) as Hreq.
  { intros x ss ->. destruct k as [k|]; [|split; [constructor|intros; by apply not_elem_of_nil]].
    destruct Hk as [Hk Hk']. split; [by constructor|]. intros t y j Hy Hj Hj'.
    apply elem_of_list_singleton in Hj' as ->. by eapply Hk'. }
  destruct r; cbn [m_handle] in Hh.
  - injection Hh as <- <-. apply minv_sites; [by apply minv_add_ctr|..].
    + intros id' x. cbn [my_ctrs set_ctrs]. unfold add_site. rewrite app_length. simpl.
      destruct (decide (id' = id)) as [->|Hn].
      * rewrite lookup_insert. intros [= <-]. simpl. lia.
      * rewrite lookup_insert_ne by done. intros Hx. pose proof (mv_site _ Hi _ _ Hx). lia.
    + intros i i' x x'. unfold add_site.
      destruct (decide (i = id)) as [->|Hn], (decide (i' = id)) as [->|Hn']; try done;
        rewrite ?lookup_insert, ?lookup_insert_ne by done.
      * intros [= <-] Hx Hc. pose proof (mv_site _ Hi _ _ Hx). simpl in Hc. lia.
      * intros Hx [= <-] Hc. pose proof (mv_site _ Hi _ _ Hx). simpl in Hc. lia.
      * by apply mv_inj.
  - injection Hh as <- <-. unfold rename, add_site. destruct (my_sites s !! name) as [y|] eqn:E.
    + apply minv_sites; [done|..].
      * intros id' x. destruct (decide (id' = rename_to)) as [->|Hn].
        -- rewrite lookup_insert. intros [= <-]. simpl. by eapply mv_site.
        -- rewrite lookup_insert_ne by done. intros [_ Hx]%lookup_delete_Some. by eapply mv_site.
      * intros i i' x x'.
        destruct (decide (i = rename_to)) as [->|Hn], (decide (i' = rename_to)) as [->|Hn']; try done;
          rewrite ?lookup_insert, ?lookup_insert_ne by done.
        -- intros [= <-] [Hne Hx]%lookup_delete_Some Hc. simpl in Hc. by pose proof (mv_inj _ Hi _ _ _ _ E Hx Hc).
        -- intros [Hne Hx]%lookup_delete_Some [= <-] Hc. simpl in Hc. symmetry in Hc.
           by pose proof (mv_inj _ Hi _ _ _ _ E Hx Hc).
        -- intros [_ Hx]%lookup_delete_Some [_ Hx']%lookup_delete_Some. by eapply mv_inj.
    + by apply minv_sites; [|apply mv_site|apply mv_inj].
  - unfold rm_site in Hh.
    assert (minv (set_sites s (delete id (my_sites s)))) as Hd.
    { apply minv_sites; [done|..].
      - intros id' x [_ Hx]%lookup_delete_Some. by eapply mv_site.
      - intros i i' x x' [_ Hx]%lookup_delete_Some [_ Hx']%lookup_delete_Some. by eapply mv_inj. }
    destruct (my_sites s !! id) as [x|] eqn:E; injection Hh as <- <-; [|exact Hd].
    destruct (Hreq (TStop k (si_ctr x)) (delete id (my_sites s))) as [Hr1 Hr2]; [by destruct k|].
    apply minv_spawn; try done. simpl. constructor; [|constructor]. by eapply mv_site.
  - pose proof (minv_get_site s id Hi) as Hg. pose proof (get_site_addr (my_sites s) id) as Ha.
    destruct (get_site (my_sites s) id) as [ss [a|]]; injection Hh as <- <-; [|exact Hg].
    destruct (my_sites s !! id) as [x|] eqn:E; [|done]. cbn [snd fmap option_fmap option_map] in Ha.
    injection Ha as ->.
    destruct (Hreq (TVisit k (si_ctr x)) ss) as [Hr1 Hr2]; [by destruct k|].
    apply minv_spawn; try done. simpl. constructor; [|constructor]. by eapply mv_site.
  - pose proof (minv_get_site s id Hi) as Hg.
    destruct (get_site (my_sites s) id) as [ss a]; injection Hh as <- <-; exact Hg.
  - injection Hh as <- <-.
    destruct (Hreq (TGet k (sites_iter (my_sites s)) ∅) (my_sites s)) as [Hr1 Hr2]; [by destruct k|].
    apply minv_spawn; try done; [by apply sites_iter_ctrs|]. by apply sites_iter_distinct.
  - injection Hh as <- <-. generalize (map_to_list d). intros l. clear Hk Hreq. revert s Hi.
    induction l as [|[nm m] l IH]; intros s Hi; [done|]. cbn [foldl]. apply IH.
    unfold set_data_one. cbn [fst snd].
    pose proof (minv_get_site s nm Hi) as Hg. pose proof (get_site_addr (my_sites s) nm) as Ha.
    destruct (get_site (my_sites s) nm) as [ss [a|]]; cbn [snd] in Ha.
    + destruct (my_sites s !! nm) as [x|] eqn:E; [|done]. injection Ha as ->.
      apply minv_spawn; try done.
      * simpl. constructor; [|constructor]. by eapply mv_site.
      * constructor.
      * intros; by apply not_elem_of_nil.
    + apply minv_spawn; try done.
      * constructor.
      * constructor.
      * intros; by apply not_elem_of_nil.
  - injection Hh as <- <-. apply minv_spawn; try done.
    + by apply sites_iter_ctrs.
    + by apply sites_iter_distinct.
    + constructor.
    + intros; by apply not_elem_of_nil.
Qed.

Lemma m_step_inv p s e s' o : minv s -> m_step p s e = Some (s', o) -> minv s'.
Proof.
  intros Hi Hs. destruct e as [r|t|c id|c msg|d]; cbn [m_step] in Hs.
  - assert (minv (MSys (my_now s) (my_alive s) (my_gc s) (my_sites s) (my_ctrs s) (my_tasks s)
                    (my_next s) (S (my_reqs s)))) as Hi1.
    { destruct Hi as [H1 H2 H3 H4]. split; try done. intros t x Hx. cbn in *.
      destruct (H1 _ _ Hx) as (? & ? & Hk & ?). split_and!; try done.
      eapply Forall_impl; [exact Hk|]. simpl. lia. }
    destruct (my_alive s).
    + destruct (m_handle _ _ r) as [s1 o1] eqn:E. injection Hs as <- <-.
      eapply m_handle_inv in E; [exact E|exact Hi1|]. cbn. split; [lia|].
      intros t y Hy Hk. destruct (mv_task _ Hi _ _ Hy) as (_ & _ & Hf & _).
      rewrite Forall_forall in Hf. specialize (Hf _ Hk). simpl in Hf. lia.
    + injection Hs as <- <-. exact Hi1.
  - destruct (my_alive s); [|done]. unfold task_step in Hs.
    destruct (my_tasks s !! t) as [x|] eqn:Et; [|done].
    destruct (mv_task _ Hi _ _ Et) as (Hlt & Hct & Hrq & Hdt).
    destruct x as [due|todo ph|k c|k c|k todo acc|c m|id m].
    + destruct (due <=? my_now s); [|done].
      destruct (m_handle _ _ RqCleanUp) as [s1 o1] eqn:E. injection Hs as <- <-.
      eapply m_handle_inv in E; [exact E| |done]. by apply minv_end_task.
    + destruct todo as [|[id [rd c]] rest].
      { injection Hs as <- <-. apply minv_set_task; [done|done|constructor|done|]. rewrite Et. by right. }
      cbn [task_ctrs] in Hct. rewrite fmap_cons in Hct. cbn [snd si_ctr] in Hct.
      cbn [distinct_todo] in Hdt. rewrite !fmap_cons in Hdt. cbn [fst snd si_ctr] in Hdt.
      apply Forall_cons in Hct as [Hc Hct]. destruct Hdt as [Hd1 Hd2].
      assert (distinct_todo (TClean rest PCount)) as Hdr
        by (split; [by apply NoDup_cons in Hd1 as []|by apply NoDup_cons in Hd2 as []]).
      assert (forall ph', distinct_todo (TClean ((id, Site rd c) :: rest) ph')) as Hdf by (by intros; split).
      destruct ph.
      * destruct (send_counter p s c _) as [[s1 r]|] eqn:E; [|done].
        apply send_counter_eq in E as (x & x' & Hx & Hh & ->).
        pose proof (minv_set_ctrs s c x' Hi) as Hi1.
        destruct r; injection Hs as <- <-; try by apply (minv_die _ Hi1).
        apply minv_set_task; [done|done|..].
        -- cbn [my_ctrs set_ctrs]. rewrite insert_length. destruct (_ && _); [|exact Hct]. by constructor.
        -- by destruct (_ && _).
        -- cbn [my_tasks set_ctrs]. rewrite Et. right. by destruct (_ && _).
      * destruct (send_counter p s c _) as [[s1 r]|] eqn:E; [|done].
        apply send_counter_eq in E as (x & x' & Hx & Hh & ->).
        pose proof (minv_set_ctrs s c x' Hi) as Hi1.
        destruct r; injection Hs as <- <-; try by apply (minv_die _ Hi1).
        apply minv_set_task; [done|done| |done|].
        -- cbn [my_ctrs set_ctrs]. rewrite insert_length. by constructor.
        -- cbn [my_tasks set_ctrs]. rewrite Et. by right.
      * destruct (m_handle _ _ _) as [s1 o1] eqn:E. injection Hs as <- <-.
        eapply m_handle_inv in E; [exact E| |done]. apply minv_set_task; try done. rewrite Et. by right.
    + destruct (send_counter p s c _) as [[s1 r]|] eqn:E; [|done].
      apply send_counter_eq in E as (x & x' & Hx & Hh & ->).
      destruct r; injection Hs as <- <-; by apply minv_end_task, minv_set_ctrs.
    + destruct (send_counter p s c _) as [[s1 r]|] eqn:E; [|done].
      apply send_counter_eq in E as (x & x' & Hx & Hh & ->).
      destruct r; injection Hs as <- <-; by apply minv_end_task, minv_set_ctrs.
    + destruct todo as [|[id [rd c]] rest]; [injection Hs as <- <-; by apply minv_end_task|].
      cbn [task_ctrs] in Hct. rewrite fmap_cons in Hct. apply Forall_cons in Hct as [Hc Hct].
      cbn [distinct_todo] in Hdt. rewrite !fmap_cons in Hdt. destruct Hdt as [Hd1 Hd2].
      destruct (send_counter p s c _) as [[s1 r]|] eqn:E; [|done].
      apply send_counter_eq in E as (x & x' & Hx & Hh & ->).
      pose proof (minv_set_ctrs s c x' Hi) as Hi1.
      assert (forall acc', minv (set_task (set_ctrs s (<[c:=x']> (my_ctrs s))) t (TGet k rest acc'))) as Hst.
      { intros acc'. apply minv_set_task; [done|done|..].
        - cbn [my_ctrs set_ctrs]. by rewrite insert_length.
        - split; [by apply NoDup_cons in Hd1 as []|by apply NoDup_cons in Hd2 as []].
        - cbn [my_tasks set_ctrs]. rewrite Et. by left. }
      destruct r; injection Hs as <- <-; apply Hst.
    + destruct (send_counter p s c _) as [[s1 r]|] eqn:E; [|done].
      apply send_counter_eq in E as (x & x' & Hx & Hh & ->).
      injection Hs as <- <-; by apply minv_end_task, minv_set_ctrs.
    + destruct (m_handle _ _ _) as [s1 o1] eqn:E. injection Hs as <- <-.
      eapply m_handle_inv in E; [exact E| |done]. by apply minv_end_task.
  - destruct (my_ctrs s !! c); [|done]. destruct (counter_fire _ _ _); [|done]. injection Hs as <- <-.
    by apply minv_set_ctrs.
  - destruct (send_counter p s c _) as [[s1 r]|] eqn:E; [|done].
    apply send_counter_eq in E as (x & x' & Hx & Hh & ->).
    injection Hs as <- <-. by apply minv_set_ctrs.
  - injection Hs as <- <-. by destruct Hi.
Qed.
Lemma m_start_inv t gc : minv (m_start t gc).
Proof.
  split; cbn.
  - intros t' x [<- <-]%lookup_singleton_Some. split_and!; [lia|constructor|constructor|done].
  - intros t1 t2 x1 x2 k [<- <-]%lookup_singleton_Some [<- <-]%lookup_singleton_Some. done.
  - intros id x. by rewrite lookup_empty.
  - intros id id' x x'. by rewrite lookup_empty.
Qed.
Lemma run_inv_from p s0 es s tr : minv s0 -> m_run p s0 es = Some (s, tr) -> minv s.
Proof.
  intros H0. apply (m_run_ind (fun s _ => minv s)); [done|]. intros ? ? ? ? ? ? ?. by eapply m_step_inv.
Qed.
Lemma run_inv p t gc es s tr : m_run p (m_start t gc) es = Some (s, tr) -> minv s.
Proof. apply run_inv_from, m_start_inv. Qed.
