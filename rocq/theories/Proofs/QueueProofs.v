(** Invariants of the work queue. *)
From Coq Require Import ZifyBool ZifyN ZifyNat Lia.
From Verif Require Import Model.Base Model.Queue Spec.QueueSpec.

Lemma q_run_snoc p s es e s' tr :
  q_run p s (es ++ [e]) = Some (s', tr) <->
  exists s1 tr1 o, q_run p s es = Some (s1, tr1) /\ q_step p s1 e = Some (s', o) /\ tr = tr1 ++ o.
Proof.
  revert s tr. induction es as [|x es IH]; intros s tr; cbn [app q_run].
  - split.
    + destruct (q_step p s e) as [[s1 o]|] eqn:E; [|done]. intros [= <- <-].
      exists s, [], o. by rewrite app_nil_r.
    + intros (s1 & tr1 & o & [= <- <-] & -> & ->). by rewrite app_nil_r.
  - destruct (q_step p s x) as [[s0 o0]|]; [|by split; [|intros (?&?&?&?&_)]].
    split.
    + destruct (q_run p s0 (es ++ [e])) as [[s2 os2]|] eqn:E; [|done].
      intros [= <- <-]. destruct (proj1 (IH s0 os2)) as (s1 & os1 & o & Hr & Hs & ->).
      { by rewrite E. }
      rewrite Hr. exists s1, (o0 ++ os1), o. by rewrite app_assoc.
    + intros (s1 & os1 & o & Hr & Hs & ->). destruct (q_run p s0 es) as [[s2 os2]|] eqn:E; [|done].
      injection Hr as -> <-. rewrite (proj2 (IH s0 (os2 ++ o))); [by rewrite app_assoc|].
      by exists s1, os2, o.
Qed.

Lemma q_run_app p s es1 es2 s2 tr :
  q_run p s (es1 ++ es2) = Some (s2, tr) <->
  exists s1 tr1 tr2, q_run p s es1 = Some (s1, tr1) /\ q_run p s1 es2 = Some (s2, tr2) /\ tr = tr1 ++ tr2.
Proof.
  revert s tr. induction es1 as [|x es IH]; intros s tr; cbn [app q_run].
  - split. { intros H. by exists s, [], tr. } intros (s1 & tr1 & tr2 & [= <- <-] & H & ->). done.
  - destruct (q_step p s x) as [[s0 o0]|]; [|by split; [|intros (?&?&?&?&_)]].
    split.
    + destruct (q_run p s0 (es ++ es2)) as [[s3 os3]|] eqn:E; [|done]. intros [= -> <-].
      destruct (proj1 (IH _ _) E) as (s1 & tr1 & tr2 & H1 & H2 & ->). rewrite H1.
      exists s1, (o0 ++ tr1), tr2. by rewrite app_assoc.
    + intros (s1 & tr1 & tr2 & H1 & H2 & ->).
      destruct (q_run p s0 es) as [[s3 os3]|] eqn:E; [|done]. injection H1 as -> <-.
      rewrite (proj2 (IH s0 (os3 ++ tr2))); [by rewrite app_assoc|]. by exists s1, os3, tr2.
Qed.

(** ** Dispatching as a relation *)
Definition nidx (im : inner) : N :=
  if im_index im <? vlen (im_ips im) - 1 then im_index im + 1 else 0.

Inductive dstep (im : inner) (name : nat) : list qout -> inner -> Prop :=
| d_hand r ip work rest :
    im_runners im !! name = Some r -> rn_open r = true ->
    im_ips im !! N.to_nat (nidx im) = Some ip -> nidx im < vlen (im_ips im) ->
    im_queues im !! ip = Some (work :: rest) ->
    dstep im name [QTry name ip; QHand name ip work]
      (Inner (<[ip := rest]> (im_queues im)) (alter (rn_send (RmProve work)) name (im_runners im))
         (im_ips im) (nidx im) (im_queue_length im))
| d_none r ip :
    im_runners im !! name = Some r ->
    im_ips im !! N.to_nat (nidx im) = Some ip -> nidx im < vlen (im_ips im) ->
    im_queues im !! ip = Some [] ->
    dstep im name [QTry name ip]
      (Inner (im_queues im) (im_runners im) (im_ips im) (nidx im) (im_queue_length im)).

Inductive dsteps : inner -> list nat -> list qout -> inner -> Prop :=
| ds_nil im : dsteps im [] [] im
| ds_cons im name o im1 names o' im2 :
    dstep im name o im1 -> dsteps im1 names o' im2 -> dsteps im (name :: names) (o ++ o') im2.

Record im_ok (im : inner) : Prop := {
  io_nodup : NoDup (im_ips im);
  io_dom : forall ip, is_Some (im_queues im !! ip) <-> ip ∈ im_ips im;
  io_len : vlen (im_ips im) <= im_queue_length im;
  io_idx0 : im_ips im = [] -> im_index im = 0;
  io_idx : im_ips im <> [] -> im_index im < vlen (im_ips im) }.

Lemma vlen_pos {A} (l : list A) : l <> [] -> 0 < vlen l.
Proof. destruct l; [done|]. unfold vlen. simpl. lia. Qed.

Lemma nidx_lt im : im_ok im -> im_ips im <> [] -> nidx im < vlen (im_ips im).
Proof.
  intros H Hne. unfold nidx. pose proof (io_idx im H Hne). pose proof (vlen_pos _ Hne).
  destruct (N.ltb_spec (im_index im) (vlen (im_ips im) - 1)); lia.
Qed.

Lemma im_ok_size im : im_ok im -> size (im_queues im) = length (im_ips im).
Proof.
  intros H. rewrite <- size_dom. rewrite <- (size_list_to_set (C := gset string) (im_ips im)) by apply H.
  f_equal. apply set_eq. intros ip. rewrite elem_of_dom, elem_of_list_to_set. apply H.
Qed.

Lemma dispatch_to_dstep p im name r :
  im_ok im -> im_ips im <> [] -> im_runners im !! name = Some r -> rn_open r = true ->
  exists o im', dispatch_to p im name = Val (im', o) /\ dstep im name o im'.
Proof.
  intros Hok Hne Hr Hopen. unfold dispatch_to. rewrite Hr.
  pose proof (vlen_pos _ Hne). unfold usize_sub.
  replace (1 <=? vlen (im_ips im)) with true by (symmetry; apply N.leb_le; lia). simpl obind.
  fold (nidx im). pose proof (nidx_lt im Hok Hne) as Hlt.
  unfold vindex, vget. replace (nidx im <? vlen (im_ips im)) with true by (symmetry; by apply N.ltb_lt).
  destruct (im_ips im !! N.to_nat (nidx im)) as [ip|] eqn:Hip.
  2:{ exfalso. apply lookup_ge_None in Hip. unfold vlen in Hlt. lia. }
  simpl obind. destruct (im_queues im !! ip) as [q|] eqn:Hq.
  2:{ exfalso. apply elem_of_list_lookup_2 in Hip. apply (io_dom im Hok) in Hip. rewrite Hq in Hip.
      by destruct Hip. }
  simpl obind. destruct q as [|work rest].
  - do 2 eexists. split; [reflexivity|]. by econstructor.
  - rewrite Hopen. do 2 eexists. split; [reflexivity|]. by econstructor.
Qed.

Lemma nidx_same im im' : im_ips im' = im_ips im -> im_index im' = im_index im -> nidx im' = nidx im.
Proof. unfold nidx. by intros -> ->. Qed.

Lemma dstep_ok im name o im' :
  im_ok im -> im_ips im <> [] -> dstep im name o im' ->
  im_ok im' /\ im_ips im' = im_ips im /\ im_queue_length im' = im_queue_length im /\
  length (im_runners im') = length (im_runners im) /\
  im_index im' = nidx im.
Proof.
  intros Hok Hne Hd. destruct Hd as [r ip work rest Hr Hopen Hip Hlt Hq|r ip Hr Hip Hlt Hq]; simpl.
  - split_and!; [|done|done| |done].
    + split; simpl; [apply Hok| |apply Hok|done|done].
      intros ip'. rewrite <- (io_dom im Hok). destruct (decide (ip = ip')) as [<-|Hn].
      * rewrite lookup_insert, Hq. split; eauto.
      * by rewrite lookup_insert_ne.
    + by rewrite alter_length.
  - split_and!; try done. split; simpl; [apply Hok|apply Hok|apply Hok|done|done].
Qed.

Definition runners_open (im : inner) : Prop := Forall (fun r => rn_open r = true) (im_runners im).

Lemma alter_Forall {A} (P : A -> Prop) f (l : list A) i :
  Forall P l -> (forall x, P x -> P (f x)) -> Forall P (alter f i l).
Proof.
  intros Hl Hf. revert i. induction Hl as [|x l Hx Hl IH]; intros i; [constructor|].
  destruct i; cbn; constructor; auto.
Qed.

Lemma dstep_open im name o im' : runners_open im -> dstep im name o im' -> runners_open im'.
Proof.
  intros Ho Hd. destruct Hd; [|done]. unfold runners_open. simpl. apply alter_Forall; [done|].
  intros x Hx. done.
Qed.

Lemma dispatch_names_dsteps p im names :
  im_ok im -> im_ips im <> [] -> runners_open im ->
  Forall (fun n => (n < length (im_runners im))%nat) names ->
  exists o im', dispatch_names p im names = Val (im', o) /\ dsteps im names o im'.
Proof.
  revert im. induction names as [|n names IH]; intros im Hok Hne Ho Hf; simpl.
  - exists [], im. split; [done|constructor].
  - apply Forall_cons in Hf as [Hn Hf].
    destruct (lookup_lt_is_Some_2 _ _ Hn) as [r Hr]. rewrite Hr.
    assert (rn_open r = true) as Hro by (by eapply (Forall_lookup_1 _ _ _ _ Ho)).
    destruct (dispatch_to_dstep p im n r Hok Hne Hr Hro) as (o1 & im1 & -> & Hd).
    simpl obind. destruct (dstep_ok _ _ _ _ Hok Hne Hd) as (Hok1 & Hips & _ & Hl & _).
    destruct (IH im1) as (o2 & im2 & -> & Hds).
    + done. + by rewrite Hips. + by eapply dstep_open.
    + by rewrite Hl.
    + simpl. do 2 eexists. split; [reflexivity|]. by econstructor.
Qed.

Lemma dsteps_ok im names o im' :
  im_ok im -> im_ips im <> [] -> dsteps im names o im' ->
  im_ok im' /\ im_ips im' = im_ips im /\ im_queue_length im' = im_queue_length im /\
  length (im_runners im') = length (im_runners im).
Proof.
  intros Hok Hne Hd. induction Hd as [im|im name o im1 names o' im2 Hd Hds IH]; [done|].
  destruct (dstep_ok _ _ _ _ Hok Hne Hd) as (H1 & H2 & H3 & H4 & _).
  destruct IH as (I1 & I2 & I3 & I4); [done|by rewrite H2|]. split_and!; congruence || done.
Qed.
Lemma dsteps_open im names o im' : runners_open im -> dsteps im names o im' -> runners_open im'.
Proof. intros Ho Hd. induction Hd; [done|]. apply IHHd. by eapply dstep_open. Qed.

(** ** The state invariant *)
Definition is_dispatch (m : imsg) : Prop := match m with ImDispatch _ => True | _ => False end.
Definition is_stop (m : imsg) : Prop := match m with ImStop => True | _ => False end.
Definition no_stop (c : list rmsg) : Prop := Forall (fun m => m <> RmStop) c.

Definition runner_inv (mgr : mstate) (r : runner) : Prop :=
  match mgr with
  | MAlive => rn_open r = true /\ no_stop (rn_chan r)
  | MDraining =>
      (rn_open r = true /\ exists c, rn_chan r = c ++ [RmStop] /\ no_stop c) \/
      (rn_state r = RExited /\ rn_chan r = [])
  | MDone => rn_state r = RExited /\ rn_chan r = []
  | _ => False
  end.

Definition inbox_inv (mgr : mstate) (dropped : bool) (inbox : list imsg) : Prop :=
  match mgr with
  | MAlive =>
      if dropped then exists a b, inbox = a ++ ImStop :: b /\ Forall (fun m => ¬ is_stop m) a /\
                                  Forall is_dispatch b
      else Forall (fun m => ¬ is_stop m) inbox
  | _ => dropped = true /\ Forall is_dispatch inbox
  end.

Record qinv (workers : nat) (qlen : N) (s : qsys) : Prop := {
  qi_ok : im_ok (qs_im s);
  qi_len : im_queue_length (qs_im s) = qlen;
  qi_workers : length (im_runners (qs_im s)) = workers;
  qi_mgr : qs_mgr s <> MPanicked /\ qs_mgr s <> MAborted;
  qi_runners : Forall (runner_inv (qs_mgr s)) (im_runners (qs_im s));
  qi_inbox : inbox_inv (qs_mgr s) (qs_dropped s) (qs_inbox s);
  qi_empty : im_ips (qs_im s) = [] ->
     Forall (fun m => ¬ is_dispatch m) (qs_inbox s) /\
     Forall (fun r => proves (rn_chan r) = [] /\ running (rn_state r) = []) (im_runners (qs_im s)) }.

(** What a step can be, once panics are excluded. *)
Inductive qcase (s : qsys) : qevent -> qsys -> list qout -> Prop :=
| qc_add ip : qs_dropped s = false ->
    qcase s (QeAdd ip) (QSys (qs_im s) (qs_inbox s ++ [ImSchedule (qs_next s) ip]) (qs_mgr s)
                          false (S (qs_next s))) []
| qc_stop rest : qs_mgr s = MAlive -> qs_inbox s = ImStop :: rest ->
    qcase s QeManager (QSys (with_runners (qs_im s) (rn_send RmStop <$> im_runners (qs_im s))) rest
                         MDraining (qs_dropped s) (qs_next s)) []
| qc_dispatch name rest o im : qs_mgr s = MAlive -> qs_inbox s = ImDispatch name :: rest ->
    im_ips (qs_im s) <> [] -> dstep (qs_im s) name o im ->
    qcase s QeManager (QSys im rest MAlive (qs_dropped s) (qs_next s)) o
| qc_dispatch_none name rest : qs_mgr s = MAlive -> qs_inbox s = ImDispatch name :: rest ->
    (length (im_runners (qs_im s)) <= name)%nat ->
    qcase s QeManager (QSys (qs_im s) rest MAlive (qs_dropped s) (qs_next s)) []
| qc_full j ip rest : qs_mgr s = MAlive -> qs_inbox s = ImSchedule j ip :: rest ->
    vlen (im_ips (qs_im s)) = im_queue_length (qs_im s) ->
    qcase s QeManager (QSys (qs_im s) rest MAlive (qs_dropped s) (qs_next s))
      [QAnswer j ip (Err QueueFull)]
| qc_sched j ip rest im1 o im2 : qs_mgr s = MAlive -> qs_inbox s = ImSchedule j ip :: rest ->
    vlen (im_ips (qs_im s)) < im_queue_length (qs_im s) ->
    im1 = Inner (<[ip := default [] (im_queues (qs_im s) !! ip) ++ [j]]> (im_queues (qs_im s)))
            (im_runners (qs_im s))
            (if decide (ip ∈ im_ips (qs_im s)) then im_ips (qs_im s) else im_ips (qs_im s) ++ [ip])
            (im_index (qs_im s)) (im_queue_length (qs_im s)) ->
    im_ok im1 -> im_ips im1 <> [] ->
    dsteps im1 (seq 0 (length (im_runners im1))) o im2 ->
    qcase s QeManager (QSys im2 rest MAlive (qs_dropped s) (qs_next s)) (o ++ [QAnswer j ip (Ok tt)])
| qc_exit r c : im_runners (qs_im s) !! r = Some (Runner (RmStop :: c) RIdle) ->
    qcase s (QeRecv r) (set_runner s r (Runner c RExited) (qs_inbox s)) [QExit r]
| qc_recv r j c : im_runners (qs_im s) !! r = Some (Runner (RmProve j :: c) RIdle) ->
    qcase s (QeRecv r) (set_runner s r (Runner c (RRunning j)) (qs_inbox s)) [QStart r j]
| qc_finish r j c : im_runners (qs_im s) !! r = Some (Runner c (RRunning j)) ->
    (qs_mgr s = MAlive \/ qs_mgr s = MDraining) ->
    qcase s (QeFinish r) (set_runner s r (Runner c RIdle) (qs_inbox s ++ [ImDispatch r])) [QFinish r j]
| qc_drop : qs_dropped s = false ->
    qcase s QeDrop (QSys (qs_im s) (qs_inbox s ++ [ImStop]) (qs_mgr s) true (qs_next s)) []
| qc_join : qs_mgr s = MDraining -> Forall (fun r => rn_state r = RExited) (im_runners (qs_im s)) ->
    qcase s QeJoin (QSys (qs_im s) (qs_inbox s) MDone (qs_dropped s) (qs_next s)) [].

Lemma runners_open_of w q s : qinv w q s -> qs_mgr s = MAlive -> runners_open (qs_im s).
Proof.
  intros H Hm. pose proof (qi_runners _ _ _ H) as Hr. rewrite Hm in Hr.
  eapply Forall_impl; [exact Hr|]. by intros r [? _].
Qed.

Lemma step_case p w q s e s' o :
  qinv w q s -> (forall r, e <> QePanic r) -> q_step p s e = Some (s', o) -> qcase s e s' o.
Proof.
  intros H Hnp Hs. destruct (qi_mgr _ _ _ H) as [Hm1 Hm2].
  unfold q_step in Hs.
  assert (match qs_mgr s with MAborted => False | _ => True end) as Hna by (by destruct (qs_mgr s)).
  destruct e as [ip| |r|r|r| |].
  - destruct (qs_mgr s) eqn:Em; try done; destruct (qs_dropped s) eqn:Ed; try done;
      injection Hs as <- <-; rewrite <- Em; by constructor.
  - assert (mgr_step p s = Some (s', o)) as Hs' by (by destruct (qs_mgr s)). clear Hs.
    unfold mgr_step in Hs'. destruct (qs_mgr s) eqn:Em; try done.
    pose proof (runners_open_of _ _ _ H Em) as Ho.
    destruct (qs_inbox s) as [|[|name|j ip] rest] eqn:Ei; [done| | |].
    + replace (forallb rn_open (im_runners (qs_im s))) with true in Hs'.
      2:{ symmetry. apply forallb_forall. intros x Hx. eapply (proj1 (Forall_forall _ _) Ho).
          by apply elem_of_list_In. }
      injection Hs' as <- <-. by constructor.
    + destruct (im_runners (qs_im s) !! name) as [r|] eqn:Er.
      * assert (im_ips (qs_im s) <> []) as Hne.
        { intros He. destruct (qi_empty _ _ _ H He) as [Hd _]. rewrite Ei in Hd.
          apply Forall_cons in Hd as [Hd _]. by apply Hd. }
        destruct (dispatch_to_dstep p (qs_im s) name r) as (o1 & im1 & Hd & Hds);
          [apply H|done|done|by eapply (Forall_lookup_1 _ _ _ _ Ho)|].
        rewrite Hd in Hs'. injection Hs' as <- <-. by eapply qc_dispatch.
      * unfold dispatch_to in Hs'. rewrite Er in Hs'. injection Hs' as <- <-.
        eapply qc_dispatch_none; try done. by apply lookup_ge_None in Er.
    + unfold schedule in Hs'. pose proof (qi_ok _ _ _ H) as Hok.
      rewrite (im_ok_size _ Hok) in Hs'.
      pose proof (io_len _ Hok) as Hlen. unfold vlen in Hlen.
      destruct (N.eqb_spec (N.of_nat (length (im_ips (qs_im s)))) (im_queue_length (qs_im s))) as [Heq|Hneq].
      * injection Hs' as <- <-. eapply qc_full; try done.
      * set (im1 := Inner (<[ip := default [] (im_queues (qs_im s) !! ip) ++ [j]]> (im_queues (qs_im s)))
            (im_runners (qs_im s))
            (if decide (ip ∈ im_ips (qs_im s)) then im_ips (qs_im s) else im_ips (qs_im s) ++ [ip])
            (im_index (qs_im s)) (im_queue_length (qs_im s))).
        assert (match dispatch p im1 with Val (im2, o0) =>
                  Some (QSys im2 rest MAlive (qs_dropped s) (qs_next s), o0 ++ [QAnswer j ip (Ok tt)])
                | Panic => Some (mgr_panic s rest, []) end = Some (s', o)) as Hs.
        { rewrite <- Hs'. destruct (im_queues (qs_im s) !! ip) as [qq|] eqn:Eq.
          - assert (ip ∈ im_ips (qs_im s)) as Hin by (apply (io_dom _ Hok); by rewrite Eq).
            unfold im1. rewrite decide_True by done. simpl default.
            by destruct (dispatch p _) as [[im2 o2]|].
          - assert (ip ∉ im_ips (qs_im s)) as Hin.
            { intros Hin. apply (io_dom _ Hok) in Hin. rewrite Eq in Hin. by destruct Hin. }
            unfold im1. rewrite decide_False by done. simpl default. simpl app.
            by destruct (dispatch p _) as [[im2 o2]|]. }
        assert (im_ips im1 <> []) as Hne1.
        { unfold im1. simpl. destruct (decide _) as [Hin|]; [|by intros [_ ?]%app_eq_nil].
          by destruct (im_ips (qs_im s)); [apply elem_of_nil in Hin|]. }
        assert (im_ok im1) as Hok1.
        { unfold im1. split; simpl.
          - destruct (decide _); [apply Hok|]. apply NoDup_app. split; [apply Hok|].
            split; [|apply NoDup_singleton]. intros x Hx Hx'. apply elem_of_list_singleton in Hx'. by subst.
          - intros ip'. destruct (decide (ip = ip')) as [<-|Hn].
            + rewrite lookup_insert. split; [|eauto]. intros _. destruct (decide _); [done|].
              apply elem_of_app. right. by apply elem_of_list_singleton.
            + rewrite lookup_insert_ne by done. rewrite (io_dom _ Hok). destruct (decide _); [done|].
              rewrite elem_of_app, elem_of_list_singleton. split; [by left|]. intros [?|?]; [done|by subst].
          - unfold vlen in *. destruct (decide _); [lia|]. rewrite app_length. simpl. lia.
          - intros He. destruct (decide _); [by apply Hok|]. by apply app_eq_nil in He as [_ ?].
          - intros He. destruct (decide _); [by apply Hok|]. unfold vlen. rewrite app_length. simpl.
            destruct (decide (im_ips (qs_im s) = [])) as [E0|E0].
            + rewrite (io_idx0 _ Hok E0). lia.
            + pose proof (io_idx _ Hok E0). unfold vlen in *. lia. }
        unfold dispatch in Hs. destruct (dispatch_names_dsteps p im1 (seq 0 (length (im_runners im1))))
          as (o2 & im2 & Hd & Hds); [done|done| | |].
        { exact Ho. }
        { apply Forall_forall. intros n Hn. apply elem_of_seq in Hn. lia. }
        rewrite Hd in Hs. injection Hs as <- <-. eapply qc_sched; try done. unfold vlen. lia.
  - assert (runner_recv s r = Some (s', o)) as Hs' by (by destruct (qs_mgr s)). clear Hs.
    unfold runner_recv in Hs'. destruct (im_runners (qs_im s) !! r) as [[c st]|] eqn:Er; [|done].
    destruct c as [|[|j] c]; [done| |]; destruct st; try done; injection Hs' as <- <-; by econstructor.
  - assert (runner_finish s r = Some (s', o)) as Hs' by (by destruct (qs_mgr s)). clear Hs.
    unfold runner_finish in Hs'. destruct (im_runners (qs_im s) !! r) as [[c st]|] eqn:Er; [|done].
    destruct st; try done.
    pose proof (Forall_lookup_1 _ _ _ _ (qi_runners _ _ _ H) Er) as Hri.
    destruct (qs_mgr s) eqn:Em; try done.
    + injection Hs' as <- <-. econstructor; [done|by left].
    + injection Hs' as <- <-. econstructor; [done|by right].
    + by destruct Hri as [Hri _].
  - by destruct (Hnp r).
  - destruct (qs_mgr s) eqn:Em; try done; destruct (qs_dropped s) eqn:Ed; try done;
      injection Hs as <- <-; rewrite <- Em; by constructor.
  - destruct (qs_mgr s) eqn:Em; try done.
    destruct (forallb is_exited (im_runners (qs_im s))) eqn:Ef; [|done]. injection Hs as <- <-.
    constructor; [done|]. apply Forall_forall. intros x Hx. rewrite forallb_forall in Ef.
    apply elem_of_list_In in Hx. apply Ef in Hx. unfold is_exited in Hx. by destruct (rn_state x).
Qed.

(** ** Preservation of the state invariant *)
Lemma Forall_insert_1 {A} (P : A -> Prop) (l : list A) i x :
  Forall P l -> P x -> Forall P (<[i := x]> l).
Proof. intros Hl Hx. by apply Forall_insert. Qed.

Lemma inbox_push_dispatch mgr dropped inbox r :
  (mgr = MAlive \/ mgr = MDraining) ->
  inbox_inv mgr dropped inbox -> inbox_inv mgr dropped (inbox ++ [ImDispatch r]).
Proof.
  intros [-> | ->]; simpl.
  - destruct dropped.
    + intros (a & b & -> & Ha & Hb). exists a, (b ++ [ImDispatch r]). rewrite <- app_assoc.
      split; [done|]. split; [done|]. apply Forall_app. by rewrite Forall_singleton.
    + intros H. apply Forall_app. split; [done|]. rewrite Forall_singleton. auto.
  - intros [-> H]. split; [done|]. apply Forall_app. by rewrite Forall_singleton.
Qed.

Lemma inbox_pop dropped m rest :
  ¬ is_stop m -> inbox_inv MAlive dropped (m :: rest) -> inbox_inv MAlive dropped rest.
Proof.
  intros Hm. simpl. destruct dropped.
  - intros (a & b & He & Ha & Hb). destruct a as [|x a]; simpl in He.
    + injection He as -> ->. by destruct Hm.
    + injection He as -> ->. exists a, b. apply Forall_cons in Ha as [_ Ha]. done.
  - intros H. by apply Forall_cons in H as [_ H].
Qed.

Lemma no_stop_snoc c j : no_stop c -> no_stop (c ++ [RmProve j]).
Proof. intros H. apply Forall_app. split; [done|]. by rewrite Forall_singleton. Qed.

Lemma dstep_runners im name o im' :
  Forall (runner_inv MAlive) (im_runners im) -> dstep im name o im' ->
  Forall (runner_inv MAlive) (im_runners im').
Proof.
  intros H Hd. destruct Hd; [|done]. simpl. apply alter_Forall; [done|].
  intros x [? ?]. split; [done|]. simpl. by apply no_stop_snoc.
Qed.
Lemma dsteps_runners im names o im' :
  Forall (runner_inv MAlive) (im_runners im) -> dsteps im names o im' ->
  Forall (runner_inv MAlive) (im_runners im').
Proof. intros H Hd. induction Hd; [done|]. apply IHHd. by eapply dstep_runners. Qed.

Lemma qcase_inv w q s e s' o : qinv w q s -> qcase s e s' o -> qinv w q s'.
Proof.
  intros H Hc. pose proof (qi_ok _ _ _ H) as Hok. pose proof (qi_len _ _ _ H) as Hlen.
  pose proof (qi_workers _ _ _ H) as Hw. pose proof (qi_mgr _ _ _ H) as Hm.
  pose proof (qi_runners _ _ _ H) as Hr. pose proof (qi_inbox _ _ _ H) as Hi.
  pose proof (qi_empty _ _ _ H) as He.
  destruct Hc as [ip Hd|rest Ha Hin|name rest o im Ha Hin Hne Hds|name rest Ha Hin Hge|j ip rest Ha Hin Hl
    |j ip rest im1 o im2 Ha Hin Hl Him1 Hok1 Hne1 Hds|r c Hrr|r j c Hrr|r j c Hrr Hma|Hd|Hma Hall].
  - (* add *) split; simpl; try done.
    + rewrite Hd in Hi. destruct (qs_mgr s); simpl in *; try (by destruct Hi).
      apply Forall_app. split; [done|]. rewrite Forall_singleton. auto.
    + intros E. destruct (He E) as [H1 H2]. split; [|done]. apply Forall_app. split; [done|].
      rewrite Forall_singleton. auto.
  - (* stop *) rewrite Ha, Hin in *. split; simpl.
    + split; apply Hok.
    + done.
    + by rewrite fmap_length.
    + done.
    + apply Forall_fmap. eapply Forall_impl; [exact Hr|]. intros r [Ho Hns]. left. split; [done|].
      simpl. by exists (rn_chan r).
    + destruct (qs_dropped s); simpl in Hi.
      * destruct Hi as (a & b & Heq & Hna & Hb). split; [done|].
        destruct a as [|x a]; simpl in Heq; [by injection Heq as ->|]. injection Heq as <- Heq.
        apply Forall_cons in Hna as [Hna _]. by destruct Hna.
      * apply Forall_cons in Hi as [Hi _]. by destruct Hi.
    + intros E. destruct (He E) as [H1 H2]. apply Forall_cons in H1 as [_ H1]. split; [done|].
      apply Forall_fmap. eapply Forall_impl; [exact H2|]. intros r [Hp Hrn]. simpl.
      unfold proves. rewrite omap_app. fold (proves (rn_chan r)). rewrite Hp. done.
  - (* dispatch *) rewrite Ha, Hin in *. destruct (dstep_ok _ _ _ _ Hok Hne Hds) as (I1 & I2 & I3 & I4 & _).
    split; simpl; try done; try congruence.
    + by eapply dstep_runners.
    + eapply inbox_pop; [|exact Hi]. auto.
  - (* dispatch to unknown runner *) rewrite Ha, Hin in *. split; simpl; try done.
    + eapply inbox_pop; [|exact Hi]. auto.
    + intros E. destruct (He E) as [H1 H2]. by apply Forall_cons in H1 as [_ H1].
  - (* full *) rewrite Ha, Hin in *. split; simpl; try done.
    + eapply inbox_pop; [|exact Hi]. auto.
    + intros E. destruct (He E) as [H1 H2]. by apply Forall_cons in H1 as [_ H1].
  - (* schedule *) rewrite Ha, Hin in *. destruct (dsteps_ok _ _ _ _ Hok1 Hne1 Hds) as (I1 & I2 & I3 & I4).
    split; simpl; try done.
    + rewrite I3. by subst im1.
    + rewrite I4. by subst im1.
    + eapply dsteps_runners; [|exact Hds]. by subst im1.
    + eapply inbox_pop; [|exact Hi]. auto.
    + intros E. congruence.
  - (* exit *)
    pose proof (Forall_lookup_1 _ _ _ _ Hr Hrr) as Hri.
    split; simpl; try done.
    + split; apply Hok.
    + by rewrite insert_length.
    + apply Forall_insert_1; [done|]. destruct (qs_mgr s); simpl in Hri |- *.
      * destruct Hri as [_ Hns]. by apply Forall_cons in Hns as [Hns _].
      * destruct Hri as [(_ & c' & Hc' & Hns)|[? _]]; [|done]. right. split; [done|].
        destruct c' as [|x c']; simpl in Hc'; [by injection Hc'|].
        injection Hc' as <- Hc'. by apply Forall_cons in Hns as [Hns _].
      * by destruct Hri as [Hri _].
      * done. * done.
    + intros E. destruct (He E) as [H1 H2]. split; [done|]. apply Forall_insert_1; [done|].
      pose proof (Forall_lookup_1 _ _ _ _ H2 Hrr) as [Hp _]. by simpl in *.
  - (* recv *)
    pose proof (Forall_lookup_1 _ _ _ _ Hr Hrr) as Hri.
    split; simpl; try done.
    + split; apply Hok.
    + by rewrite insert_length.
    + apply Forall_insert_1; [done|]. destruct (qs_mgr s); simpl in Hri |- *.
      * destruct Hri as [_ Hns]. by apply Forall_cons in Hns as [_ Hns].
      * destruct Hri as [(_ & c' & Hc' & Hns)|[? _]]; [|done]. left. split; [done|].
        destruct c' as [|x c']; simpl in Hc'; [by injection Hc'|].
        injection Hc' as <- Hc'. apply Forall_cons in Hns as [_ Hns]. by exists c'.
      * by destruct Hri as [Hri _].
      * done. * done.
    + intros E. destruct (He E) as [H1 H2]. split; [done|].
      pose proof (Forall_lookup_1 _ _ _ _ H2 Hrr) as [Hp _]. done.
  - (* finish *)
    pose proof (Forall_lookup_1 _ _ _ _ Hr Hrr) as Hri.
    split; simpl; try done.
    + split; apply Hok.
    + by rewrite insert_length.
    + apply Forall_insert_1; [done|]. destruct (qs_mgr s); simpl in Hri |- *.
      * by destruct Hri as [_ Hns].
      * destruct Hri as [(_ & c' & Hc' & Hns)|[? _]]; [|done]. left. split; [done|]. by exists c'.
      * by destruct Hri as [Hri _].
      * done. * done.
    + by apply inbox_push_dispatch.
    + intros E. destruct (He E) as [H1 H2].
      pose proof (Forall_lookup_1 _ _ _ _ H2 Hrr) as [_ Hp]. done.
  - (* drop *) split; simpl; try done.
    + rewrite Hd in Hi. destruct (qs_mgr s); simpl in *; try (by destruct Hi).
      by exists (qs_inbox s), [].
    + intros E. destruct (He E) as [H1 H2]. split; [|done]. apply Forall_app. split; [done|].
      rewrite Forall_singleton. auto.
  - (* join *) rewrite Hma in *. split; simpl; try done.
    apply Forall_forall. intros r Hin. rewrite Forall_forall in Hr, Hall.
    destruct (Hr r Hin) as [[Ho _]|?]; [|done]. specialize (Hall r Hin). unfold rn_open in Ho.
    by rewrite Hall in Ho.
Qed.

Lemma q_start_inv w q : qinv w q (q_start w q).
Proof.
  assert (Forall (fun r : runner => r = Runner [] RIdle) (replicate w (Runner [] RIdle))) as Hrep.
  { apply Forall_forall. intros x Hx. by apply elem_of_replicate_inv in Hx. }
  split; simpl.
  - split; simpl; try done.
    + constructor.
    + intros ip. rewrite lookup_empty. split; [by intros [? ?]|by intros ?%elem_of_nil].
    + unfold vlen. simpl. lia.
  - done.
  - by rewrite replicate_length.
  - done.
  - eapply Forall_impl; [exact Hrep|]. intros r ->. split; [done|constructor].
  - constructor.
  - intros _. split; [constructor|]. eapply Forall_impl; [exact Hrep|]. by intros r ->.
Qed.

(** Induction over panic-free runs. *)
Lemma run_ind (P : qsys -> list qout -> Prop) p w q :
  P (q_start w q) [] ->
  (forall s tr e s' o, qinv w q s -> P s tr -> qcase s e s' o -> P s' (tr ++ o)) ->
  forall es s tr, no_job_panics es -> q_run p (q_start w q) es = Some (s, tr) -> qinv w q s /\ P s tr.
Proof.
  intros H0 Hstep es. induction es as [|e es IH] using rev_ind; intros s tr Hnp Hr.
  - injection Hr as <- <-. split; [apply q_start_inv|done].
  - apply Forall_app in Hnp as [Hnp He]. rewrite Forall_singleton in He.
    apply q_run_snoc in Hr as (s1 & tr1 & o & Hr & Hs & ->).
    destruct (IH s1 tr1 Hnp Hr) as [Hi HP].
    pose proof (step_case _ _ _ _ _ _ _ Hi He Hs) as Hc.
    split; [by eapply qcase_inv|by eapply Hstep].
Qed.

(** ** Counting occurrences of a job *)
Definition cnt (j : job) (l : list job) : nat := count_occ Nat.eq_dec l j.
Arguments cnt : simpl never.
Lemma cnt_app j a b : cnt j (a ++ b) = (cnt j a + cnt j b)%nat.
Proof. apply count_occ_app. Qed.
Lemma cnt_perm a b : (forall j, cnt j a = cnt j b) <-> a ≡ₚ b.
Proof. symmetry. apply Permutation_count_occ. Qed.

Definition waiting (m : gmap string (list job)) : list job := concat (snd <$> map_to_list m).
Lemma concat_perm {A} (l1 l2 : list (list A)) : l1 ≡ₚ l2 -> concat l1 ≡ₚ concat l2.
Proof.
  induction 1 as [|x l1 l2 _ IH|x y l|l1 l2 l3 _ IH1 _ IH2]; simpl; [done| | |by etrans].
  - by apply Permutation_app_head.
  - rewrite !(assoc_L (++)). apply Permutation_app_tail. apply Permutation_app_comm.
Qed.
Lemma cnt_nil j : cnt j [] = 0%nat.
Proof. done. Qed.
Lemma waiting_insert_new m ip q j :
  m !! ip = None -> cnt j (waiting (<[ip := q]> m)) = (cnt j q + cnt j (waiting m))%nat.
Proof.
  intros Hm. rewrite <- cnt_app. apply cnt_perm. unfold waiting.
  change (q ++ concat (snd <$> map_to_list m)) with (concat (q :: (snd <$> map_to_list m))).
  apply concat_perm. change (q :: (snd <$> map_to_list m)) with (snd <$> ((ip, q) :: map_to_list m)).
  apply fmap_Permutation. by apply map_to_list_insert.
Qed.
Lemma waiting_insert m ip q q' j :
  m !! ip = Some q ->
  (cnt j (waiting (<[ip := q']> m)) + cnt j q = cnt j (waiting m) + cnt j q')%nat.
Proof.
  intros Hm. rewrite <- (insert_delete m ip q Hm) at 2. rewrite <- (insert_delete_insert m).
  rewrite !waiting_insert_new by apply lookup_delete. lia.
Qed.
Lemma waiting_push m ip k j :
  cnt j (waiting (<[ip := default [] (m !! ip) ++ [k]]> m)) = (cnt j (waiting m) + cnt j [k])%nat.
Proof.
  destruct (m !! ip) as [q|] eqn:E; simpl default.
  - pose proof (waiting_insert m ip q (q ++ [k]) j E). rewrite cnt_app in H. lia.
  - rewrite waiting_insert_new by done. simpl app. lia.
Qed.

Lemma upd_split {A} (rs : list A) r x :
  rs !! r = Some x -> exists l1 l2, rs = l1 ++ x :: l2 /\ forall x', <[r := x']> rs = l1 ++ x' :: l2.
Proof.
  intros Hr. exists (take r rs), (drop (S r) rs). split; [by rewrite take_drop_middle|].
  intros x'. rewrite insert_take_drop; [done|]. by apply lookup_lt_Some in Hr.
Qed.
Lemma concat_upd {A} (f : A -> list job) (rs : list A) r x x' j :
  rs !! r = Some x ->
  (cnt j (concat (f <$> <[r := x']> rs)) + cnt j (f x) = cnt j (concat (f <$> rs)) + cnt j (f x'))%nat.
Proof.
  intros Hr. destruct (upd_split _ _ _ Hr) as (l1 & l2 & E & E'). rewrite E', E.
  rewrite !fmap_app, !concat_app. simpl. rewrite !cnt_app. lia.
Qed.
Lemma alter_insert {A} (f : A -> A) (rs : list A) r x :
  rs !! r = Some x -> alter f r rs = <[r := f x]> rs.
Proof. intros Hr. apply list_eq. intros i. destruct (decide (i = r)) as [->|Hn].
  - rewrite list_lookup_alter, Hr. rewrite list_lookup_insert; [done|]. by apply lookup_lt_Some in Hr.
  - rewrite list_lookup_alter_ne by done. by rewrite list_lookup_insert_ne.
Qed.

(** ** Invariants relating the trace and the state *)
Definition hjobs (tr : list qout) : list job := (fun x : nat * (string * job) => x.2.2) <$> handed tr.
Definition hrun (tr : list qout) : list (nat * job) :=
  (fun x : nat * (string * job) => (x.1, x.2.2)) <$> handed tr.
Definition hip (tr : list qout) : list (string * job) := snd <$> handed tr.

Lemma handed_app a b : handed (a ++ b) = handed a ++ handed b.
Proof. apply omap_app. Qed.
Lemma accepted_app a b : accepted (a ++ b) = accepted a ++ accepted b.
Proof. apply omap_app. Qed.
Lemma answered_app a b : answered (a ++ b) = answered a ++ answered b.
Proof. apply omap_app. Qed.
Lemma started_app a b : started (a ++ b) = started a ++ started b.
Proof. apply omap_app. Qed.
Lemma finished_app a b : finished (a ++ b) = finished a ++ finished b.
Proof. apply omap_app. Qed.
Lemma tries_app a b : tries (a ++ b) = tries a ++ tries b.
Proof. apply omap_app. Qed.
Lemma of_ip_app ip a b : of_ip ip (a ++ b) = of_ip ip a ++ of_ip ip b.
Proof. apply omap_app. Qed.
Lemma of_runner_app r a b : of_runner r (a ++ b) = of_runner r a ++ of_runner r b.
Proof. apply omap_app. Qed.
Lemma proves_app a b : proves (a ++ b) = proves a ++ proves b.
Proof. apply omap_app. Qed.
Lemma hjobs_app a b : hjobs (a ++ b) = hjobs a ++ hjobs b.
Proof. unfold hjobs. by rewrite handed_app, fmap_app. Qed.
Lemma hrun_app a b : hrun (a ++ b) = hrun a ++ hrun b.
Proof. unfold hrun. by rewrite handed_app, fmap_app. Qed.
Lemma hip_app a b : hip (a ++ b) = hip a ++ hip b.
Proof. unfold hip. by rewrite handed_app, fmap_app. Qed.

Record tinv (acc : list (string * job)) (im : inner) (tr : list qout) : Prop := {
  ti_ip : forall ip, of_ip ip acc = of_ip ip (hip tr) ++ default [] (im_queues im !! ip);
  ti_acc : forall j, cnt j (snd <$> acc) = (cnt j (hjobs tr) + cnt j (waiting (im_queues im)))%nat;
  ti_runner : forall r rn, im_runners im !! r = Some rn ->
     of_runner r (hrun tr) = of_runner r (finished tr) ++ running (rn_state rn) ++ proves (rn_chan rn);
  ti_hand : forall j, cnt j (hjobs tr) =
     (cnt j (concat ((fun r => running (rn_state r)) <$> im_runners im)) +
      cnt j (concat ((fun r => proves (rn_chan r)) <$> im_runners im)) +
      cnt j (snd <$> finished tr))%nat;
  ti_started : forall r rn, im_runners im !! r = Some rn ->
     of_runner r (started tr) = of_runner r (finished tr) ++ running (rn_state rn);
  ti_started_all : forall j, cnt j (snd <$> started tr) =
     (cnt j (concat ((fun r => running (rn_state r)) <$> im_runners im)) +
      cnt j (snd <$> finished tr))%nat;
  ti_ips : forall ip, ip ∈ im_ips im <-> ip ∈ (fst <$> acc) }.

Lemma dstep_tinv acc im name o im' tr :
  dstep im name o im' -> tinv acc im tr -> tinv acc im' (tr ++ o).
Proof.
  intros Hd H. destruct Hd as [r ip work rest Hr Hopen Hip Hlt Hq|r ip Hr Hip Hlt Hq].
  - assert (forall j, cnt j [work] = cnt j [work]) as _ by done.
    rewrite (alter_insert _ _ _ _ Hr).
    split; simpl.
    + intros ip'. rewrite hip_app, of_ip_app. try (unfold hip at 2). simpl. rewrite (ti_ip _ _ _ H ip'), <- app_assoc.
      destruct (decide (ip = ip')) as [<-|Hn].
      * rewrite Hq, lookup_insert. done.
      * by rewrite lookup_insert_ne.
    + intros j. rewrite (ti_acc _ _ _ H j), hjobs_app, cnt_app. try (unfold hjobs at 3). simpl.
      pose proof (waiting_insert (im_queues im) ip (work :: rest) rest j Hq) as Hw.
      change (work :: rest) with ([work] ++ rest) in Hw. rewrite cnt_app in Hw. lia.
    + intros r' rn' Hr'. rewrite hrun_app, of_runner_app, finished_app. simpl. rewrite app_nil_r.
      try (unfold hrun at 2). simpl. destruct (decide (name = r')) as [<-|Hn].
      * rewrite list_lookup_insert in Hr' by (by apply lookup_lt_Some in Hr). injection Hr' as <-. simpl.
        rewrite (ti_runner _ _ _ H _ _ Hr), proves_app, <- !app_assoc. done.
      * rewrite list_lookup_insert_ne in Hr' by done.
        rewrite (ti_runner _ _ _ H _ _ Hr'), app_nil_r. done.
    + intros j. rewrite hjobs_app, cnt_app, finished_app, (ti_hand _ _ _ H j). unfold hjobs. simpl.
      rewrite app_nil_r.
      pose proof (concat_upd (fun r => running (rn_state r)) _ _ _ (rn_send (RmProve work) r) j Hr) as E1.
      pose proof (concat_upd (fun r => proves (rn_chan r)) _ _ _ (rn_send (RmProve work) r) j Hr) as E2.
      simpl in E1, E2; rewrite ?cnt_nil in E1; rewrite ?cnt_nil in E2; rewrite ?cnt_nil. rewrite proves_app, cnt_app in E2. simpl in E2. lia.
    + intros r' rn' Hr'. rewrite started_app, finished_app. simpl. rewrite !app_nil_r.
      destruct (decide (name = r')) as [<-|Hn].
      * rewrite list_lookup_insert in Hr' by (by apply lookup_lt_Some in Hr). injection Hr' as <-. simpl.
        apply (ti_started _ _ _ H _ _ Hr).
      * rewrite list_lookup_insert_ne in Hr' by done. apply (ti_started _ _ _ H _ _ Hr').
    + intros j. rewrite started_app, finished_app. simpl. rewrite !app_nil_r, (ti_started_all _ _ _ H j).
      pose proof (concat_upd (fun r => running (rn_state r)) _ _ _ (rn_send (RmProve work) r) j Hr) as E1.
      simpl in E1; rewrite ?cnt_nil in E1; rewrite ?cnt_nil. lia.
    + apply H.
  - split; simpl.
    + intros ip'. rewrite hip_app. try (unfold hip at 2). simpl. rewrite app_nil_r. apply H.
    + intros j. rewrite hjobs_app. try (unfold hjobs at 2). simpl. rewrite app_nil_r. apply H.
    + intros r' rn' Hr'. rewrite hrun_app, finished_app. try (unfold hrun at 2). simpl. rewrite !app_nil_r. by apply H.
    + intros j. rewrite hjobs_app, finished_app. try (unfold hjobs at 2). simpl. rewrite !app_nil_r. apply H.
    + intros r' rn' Hr'. rewrite started_app, finished_app. simpl. rewrite !app_nil_r. by apply H.
    + intros j. rewrite started_app, finished_app. simpl. rewrite !app_nil_r. apply H.
    + apply H.
Qed.
Lemma dsteps_tinv acc im names o im' tr :
  dsteps im names o im' -> tinv acc im tr -> tinv acc im' (tr ++ o).
Proof.
  intros Hd. revert tr. induction Hd; intros tr Ht; [by rewrite app_nil_r|].
  rewrite app_assoc. apply IHHd. by eapply dstep_tinv.
Qed.
Lemma dstep_silent im name o im' :
  dstep im name o im' -> accepted o = [] /\ answered o = [] /\ length (tries o) = 1%nat.
Proof. by destruct 1. Qed.
Lemma dsteps_silent im names o im' :
  dsteps im names o im' -> accepted o = [] /\ answered o = [] /\ length (tries o) = length names.
Proof.
  induction 1 as [|im name o im1 names o' im2 Hd Hds (I1 & I2 & I3)]; [done|].
  destruct (dstep_silent _ _ _ _ Hd) as (J1 & J2 & J3).
  rewrite accepted_app, answered_app, tries_app, I1, I2, J1, J2, app_length, I3, J3. done.
Qed.

(** Changing only one runner and emitting [o]. *)
Lemma qcase_tinv s e s' o tr :
  qcase s e s' o -> tinv (accepted tr) (qs_im s) tr -> tinv (accepted (tr ++ o)) (qs_im s') (tr ++ o).
Proof.
  intros Hc H.
  destruct Hc as [ip Hd|rest Ha Hin|name rest o im Ha Hin Hne Hds|name rest Ha Hin Hge|j ip rest Ha Hin Hl
    |j ip rest im1 o im2 Ha Hin Hl Him1 Hok1 Hne1 Hds|r c Hrr|r j c Hrr|r j c Hrr Hma|Hd|Hma Hall].
  - by rewrite app_nil_r.
  - rewrite app_nil_r. split; simpl.
    + apply H. + apply H.
    + intros r rn Hr. rewrite list_lookup_fmap in Hr. apply fmap_Some in Hr as (rn0 & Hr & ->). simpl.
      rewrite (ti_runner _ _ _ H _ _ Hr), proves_app. simpl. by rewrite app_nil_r.
    + intros j. rewrite (ti_hand _ _ _ H j), <- !list_fmap_compose.
      f_equal. f_equal. f_equal. f_equal. apply list_fmap_ext. intros _ x _. simpl.
      rewrite proves_app. simpl. by rewrite app_nil_r.
    + intros r rn Hr. rewrite list_lookup_fmap in Hr. apply fmap_Some in Hr as (rn0 & Hr & ->). simpl.
      apply (ti_started _ _ _ H _ _ Hr).
    + intros j. rewrite (ti_started_all _ _ _ H j), <- !list_fmap_compose. done.
    + apply H.
  - destruct (dstep_silent _ _ _ _ Hds) as (E & _). rewrite accepted_app, E, app_nil_r. simpl.
    by eapply dstep_tinv.
  - by rewrite app_nil_r.
  - simpl. split; simpl.
    + intros ip'. rewrite hip_app, accepted_app. simpl. rewrite !app_nil_r. apply H.
    + intros j'. rewrite hjobs_app, accepted_app. try (unfold hjobs at 2). simpl. rewrite !app_nil_r. apply H.
    + intros r rn Hr. rewrite hrun_app, finished_app. try (unfold hrun at 2). simpl. rewrite !app_nil_r. by apply H.
    + intros j'. rewrite hjobs_app, finished_app. try (unfold hjobs at 2). simpl. rewrite !app_nil_r. apply H.
    + intros r rn Hr. rewrite started_app, finished_app. simpl. rewrite !app_nil_r. by apply H.
    + intros j'. rewrite started_app, finished_app. simpl. rewrite !app_nil_r. apply H.
    + intros ip'. rewrite accepted_app. simpl. rewrite app_nil_r. apply H.
  - simpl. destruct (dsteps_silent _ _ _ _ Hds) as (E & _). rewrite app_assoc.
    rewrite (accepted_app (tr ++ o)), (accepted_app tr o), E, app_nil_r. simpl.
    assert (tinv (accepted tr ++ [(ip, j)]) im1 tr) as H1.
    { subst im1. split; simpl.
      - intros ip'. rewrite of_ip_app, (ti_ip _ _ _ H ip'), <- app_assoc. f_equal. simpl.
        destruct (decide (ip = ip')) as [<-|Hn].
        + by rewrite lookup_insert. + by rewrite lookup_insert_ne, app_nil_r.
      - intros j'. rewrite fmap_app, cnt_app, waiting_push, (ti_acc _ _ _ H j'). simpl. lia.
      - apply H. - apply H. - apply H. - apply H.
      - intros ip'. rewrite fmap_app, elem_of_app. simpl. rewrite elem_of_list_singleton.
        rewrite <- (ti_ips _ _ _ H ip'). destruct (decide (ip ∈ im_ips (qs_im s))).
        + split; [by left|]. intros [?| ->]; done.
        + by rewrite elem_of_app, elem_of_list_singleton. }
    pose proof (dsteps_tinv _ _ _ _ _ _ Hds H1) as H2.
    split; simpl.
    + intros ip'. rewrite hip_app. simpl. rewrite app_nil_r. apply H2.
    + intros j'. rewrite (hjobs_app (tr ++ o)). try (unfold hjobs at 2). simpl. rewrite app_nil_r. apply H2.
    + intros r rn Hr. rewrite (hrun_app (tr ++ o)), (finished_app (tr ++ o)). try (unfold hrun at 2). simpl.
      rewrite !app_nil_r. by apply H2.
    + intros j'. rewrite (hjobs_app (tr ++ o)), (finished_app (tr ++ o)). try (unfold hjobs at 2). simpl.
      rewrite !app_nil_r. apply H2.
    + intros r rn Hr. rewrite (started_app (tr ++ o)), (finished_app (tr ++ o)). simpl.
      rewrite !app_nil_r. by apply H2.
    + intros j'. rewrite (started_app (tr ++ o)), (finished_app (tr ++ o)). simpl. rewrite !app_nil_r. apply H2.
    + apply H2.
  - (* exit *) split; simpl.
    + intros ip'. rewrite hip_app, accepted_app. simpl. rewrite !app_nil_r. apply H.
    + intros j'. rewrite hjobs_app, accepted_app. try (unfold hjobs at 2). simpl. rewrite !app_nil_r. apply H.
    + intros r' rn Hr. rewrite hrun_app, finished_app. try (unfold hrun at 2). simpl. rewrite !app_nil_r.
      destruct (decide (r = r')) as [<-|Hn].
      * rewrite list_lookup_insert in Hr by (by apply lookup_lt_Some in Hrr). injection Hr as <-. simpl.
        by rewrite (ti_runner _ _ _ H _ _ Hrr).
      * rewrite list_lookup_insert_ne in Hr by done. by apply H.
    + intros j'. rewrite hjobs_app, finished_app. try (unfold hjobs at 2). simpl. rewrite !app_nil_r.
      rewrite (ti_hand _ _ _ H j').
      pose proof (concat_upd (fun r => running (rn_state r)) _ _ _ (Runner c RExited) j' Hrr) as E1.
      pose proof (concat_upd (fun r => proves (rn_chan r)) _ _ _ (Runner c RExited) j' Hrr) as E2.
      simpl in E1, E2; rewrite ?cnt_nil in E1; rewrite ?cnt_nil in E2; rewrite ?cnt_nil. lia.
    + intros r' rn Hr. rewrite started_app, finished_app. simpl. rewrite !app_nil_r.
      destruct (decide (r = r')) as [<-|Hn].
      * rewrite list_lookup_insert in Hr by (by apply lookup_lt_Some in Hrr). injection Hr as <-. simpl.
        by rewrite (ti_started _ _ _ H _ _ Hrr).
      * rewrite list_lookup_insert_ne in Hr by done. by apply H.
    + intros j'. rewrite started_app, finished_app. simpl. rewrite !app_nil_r, (ti_started_all _ _ _ H j').
      pose proof (concat_upd (fun r => running (rn_state r)) _ _ _ (Runner c RExited) j' Hrr) as E1.
      simpl in E1; rewrite ?cnt_nil in E1; rewrite ?cnt_nil. lia.
    + intros ip'. rewrite accepted_app. simpl. rewrite app_nil_r. apply H.
  - (* recv *) split; simpl.
    + intros ip'. rewrite hip_app, accepted_app. simpl. rewrite !app_nil_r. apply H.
    + intros j'. rewrite hjobs_app, accepted_app. try (unfold hjobs at 2). simpl. rewrite !app_nil_r. apply H.
    + intros r' rn Hr. rewrite hrun_app, finished_app. try (unfold hrun at 2). simpl. rewrite !app_nil_r.
      destruct (decide (r = r')) as [<-|Hn].
      * rewrite list_lookup_insert in Hr by (by apply lookup_lt_Some in Hrr). injection Hr as <-. simpl.
        by rewrite (ti_runner _ _ _ H _ _ Hrr).
      * rewrite list_lookup_insert_ne in Hr by done. by apply H.
    + intros j'. rewrite hjobs_app, finished_app. try (unfold hjobs at 2). simpl. rewrite !app_nil_r.
      rewrite (ti_hand _ _ _ H j').
      pose proof (concat_upd (fun r => running (rn_state r)) _ _ _ (Runner c (RRunning j)) j' Hrr) as E1.
      pose proof (concat_upd (fun r => proves (rn_chan r)) _ _ _ (Runner c (RRunning j)) j' Hrr) as E2.
      simpl in E1, E2; rewrite ?cnt_nil in E1; rewrite ?cnt_nil in E2; rewrite ?cnt_nil. fold (proves c) in E2. change (j :: proves c) with ([j] ++ proves c) in E2.
      rewrite cnt_app in E2. lia.
    + intros r' rn Hr. rewrite started_app, finished_app, of_runner_app. simpl. rewrite !app_nil_r.
      destruct (decide (r = r')) as [<-|Hn].
      * rewrite list_lookup_insert in Hr by (by apply lookup_lt_Some in Hrr). injection Hr as <-. simpl.
        rewrite (ti_started _ _ _ H _ _ Hrr). simpl. by rewrite app_nil_r.
      * rewrite list_lookup_insert_ne in Hr by done. rewrite app_nil_r. by apply H.
    + intros j'. rewrite started_app, finished_app, fmap_app, cnt_app. simpl. rewrite !app_nil_r.
      rewrite (ti_started_all _ _ _ H j').
      pose proof (concat_upd (fun r => running (rn_state r)) _ _ _ (Runner c (RRunning j)) j' Hrr) as E1.
      simpl in E1; rewrite ?cnt_nil in E1; rewrite ?cnt_nil. lia.
    + intros ip'. rewrite accepted_app. simpl. rewrite app_nil_r. apply H.
  - (* finish *) split; simpl.
    + intros ip'. rewrite hip_app, accepted_app. simpl. rewrite !app_nil_r. apply H.
    + intros j'. rewrite hjobs_app, accepted_app. try (unfold hjobs at 2). simpl. rewrite !app_nil_r. apply H.
    + intros r' rn Hr. rewrite hrun_app, finished_app, !of_runner_app. try (unfold hrun at 2). simpl. rewrite !app_nil_r.
      destruct (decide (r = r')) as [<-|Hn].
      * rewrite list_lookup_insert in Hr by (by apply lookup_lt_Some in Hrr). injection Hr as <-. simpl.
        rewrite (ti_runner _ _ _ H _ _ Hrr). by rewrite <- app_assoc.
      * rewrite list_lookup_insert_ne in Hr by done. rewrite app_nil_r. by apply H.
    + intros j'. rewrite hjobs_app, finished_app, fmap_app, !cnt_app. try (unfold hjobs at 2). simpl.
      rewrite (ti_hand _ _ _ H j').
      pose proof (concat_upd (fun r => running (rn_state r)) _ _ _ (Runner c RIdle) j' Hrr) as E1.
      pose proof (concat_upd (fun r => proves (rn_chan r)) _ _ _ (Runner c RIdle) j' Hrr) as E2.
      simpl in E1, E2; rewrite ?cnt_nil in E1; rewrite ?cnt_nil in E2; rewrite ?cnt_nil. lia.
    + intros r' rn Hr. rewrite started_app, finished_app, !of_runner_app. simpl. rewrite !app_nil_r.
      destruct (decide (r = r')) as [<-|Hn].
      * rewrite list_lookup_insert in Hr by (by apply lookup_lt_Some in Hrr). injection Hr as <-. simpl.
        rewrite (ti_started _ _ _ H _ _ Hrr). simpl. by rewrite ?app_nil_r.
      * rewrite list_lookup_insert_ne in Hr by done. rewrite app_nil_r. by apply H.
    + intros j'. rewrite started_app, finished_app, (fmap_app snd (finished tr)), cnt_app. simpl. rewrite !app_nil_r.
      rewrite (ti_started_all _ _ _ H j').
      pose proof (concat_upd (fun r => running (rn_state r)) _ _ _ (Runner c RIdle) j' Hrr) as E1.
      simpl in E1; rewrite ?cnt_nil in E1; rewrite ?cnt_nil. lia.
    + intros ip'. rewrite accepted_app. simpl. rewrite app_nil_r. apply H.
  - by rewrite app_nil_r.
  - by rewrite app_nil_r.
Qed.

(** ** Consequences for whole runs *)
Lemma run_ind_from (P : qsys -> list qout -> Prop) p w q s0 :
  qinv w q s0 -> P s0 [] ->
  (forall s tr e s' o, qinv w q s -> P s tr -> qcase s e s' o -> P s' (tr ++ o)) ->
  forall es s tr, no_job_panics es -> q_run p s0 es = Some (s, tr) -> qinv w q s /\ P s tr.
Proof.
  intros Hi0 H0 Hstep es. induction es as [|e es IH] using rev_ind; intros s tr Hnp Hr.
  - by injection Hr as <- <-.
  - apply Forall_app in Hnp as [Hnp He]. rewrite Forall_singleton in He.
    apply q_run_snoc in Hr as (s1 & tr1 & o & Hr & Hs & ->).
    destruct (IH s1 tr1 Hnp Hr) as [Hi HP].
    pose proof (step_case _ _ _ _ _ _ _ Hi He Hs) as Hc.
    split; [by eapply qcase_inv|by eapply Hstep].
Qed.

Lemma tinv_start w q : tinv [] (qs_im (q_start w q)) [].
Proof.
  assert (forall {B} (f : runner -> list B), f (Runner [] RIdle) = [] ->
            concat (f <$> replicate w (Runner [] RIdle)) = []) as Hc.
  { intros B f Hf. induction w as [|n IH]; [done|]. rewrite replicate_S, fmap_cons. cbn [concat].
    by rewrite Hf, IH. }
  split; simpl.
  - intros ip. by rewrite lookup_empty.
  - intros j. unfold waiting. rewrite map_to_list_empty. done.
  - intros r rn Hr. apply elem_of_list_lookup_2, elem_of_replicate_inv in Hr as ->. done.
  - intros j. by rewrite !Hc.
  - intros r rn Hr. apply elem_of_list_lookup_2, elem_of_replicate_inv in Hr as ->. done.
  - intros j. by rewrite !Hc.
  - intros ip. split; by intros ?%elem_of_nil.
Qed.

Lemma run_tinv p w q es s tr :
  no_job_panics es -> q_run p (q_start w q) es = Some (s, tr) ->
  qinv w q s /\ tinv (accepted tr) (qs_im s) tr.
Proof.
  apply (run_ind (fun s tr => tinv (accepted tr) (qs_im s) tr)).
  - apply tinv_start.
  - intros s0 tr0 e s' o Hi HP Hc. by eapply qcase_tinv.
Qed.

(** Answers are given in the order of the calls. *)
Definition sched_ids (l : list imsg) : list job :=
  omap (fun m => match m with ImSchedule j _ => Some j | _ => None end) l.
Lemma run_answers p w q es s tr :
  no_job_panics es -> q_run p (q_start w q) es = Some (s, tr) ->
  answered tr ++ sched_ids (qs_inbox s) = seq 0 (qs_next s).
Proof.
  intros Hnp Hr. eapply (run_ind (fun s tr => answered tr ++ sched_ids (qs_inbox s) = seq 0 (qs_next s)));
    [done| |done|done].
  clear. intros s tr e s' o Hi IH Hc. rewrite answered_app.
  destruct Hc as [ip Hd|rest Ha Hin|name rest o im Ha Hin Hne Hds|name rest Ha Hin Hge|j ip rest Ha Hin Hl
    |j ip rest im1 o im2 Ha Hin Hl Him1 Hok1 Hne1 Hds|r c Hrr|r j c Hrr|r j c Hrr Hma|Hd|Hma Hall];
    cbn [answered qs_inbox qs_next omap list_omap set_runner]; rewrite ?app_nil_r.
  - unfold sched_ids. rewrite omap_app. fold (sched_ids (qs_inbox s)). rewrite app_assoc, IH, seq_S. done.
  - by rewrite Hin in IH.
  - rewrite Hin in IH. destruct (dstep_silent _ _ _ _ Hds) as (_ & -> & _). by rewrite app_nil_r.
  - by rewrite Hin in IH.
  - rewrite Hin in IH. simpl in IH |- *. rewrite <- IH, <- app_assoc. done.
  - rewrite Hin in IH. destruct (dsteps_silent _ _ _ _ Hds) as (_ & E & _).
    rewrite answered_app, E. simpl in IH |- *. rewrite <- IH, <- app_assoc. done.
  - done.
  - done.
  - unfold sched_ids. rewrite omap_app. simpl. by rewrite app_nil_r.
  - unfold sched_ids. rewrite omap_app. simpl. by rewrite app_nil_r.
  - done.
Qed.

Lemma accepted_sublist tr : (snd <$> accepted tr) `sublist_of` answered tr.
Proof.
  induction tr as [|o tr IH]; [constructor|]. destruct o as [j ip [[]|e]| | | | |]; simpl; try done.
  - by constructor.
  - by constructor.
Qed.
Lemma rejected_accepted_disjoint tr :
  NoDup (answered tr) -> forall j, j ∈ rejected tr -> j ∉ (snd <$> accepted tr).
Proof.
  intros Hnd j Hr Ha. induction tr as [|o tr IH]; [by apply elem_of_nil in Hr|].
  destruct o as [j' ip [[]|e]| | | | |]; simpl in *; try (by apply IH).
  - apply NoDup_cons in Hnd as [Hn Hnd]. apply elem_of_cons in Ha as [->|Ha]; [|by apply IH].
    apply Hn. clear -Hr. induction tr as [|o tr IH]; [done|].
    destruct o as [j ip [[]|e]| | | | |]; simpl in *; try (by apply IH).
    + right. by apply IH. + apply elem_of_cons in Hr as [->|Hr]; [by left|right; by apply IH].
  - apply NoDup_cons in Hnd as [Hn Hnd]. apply elem_of_cons in Hr as [->|Hr]; [|by apply IH].
    apply Hn. eapply elem_of_submseteq; [exact Ha|]. apply sublist_submseteq, accepted_sublist.
Qed.
Lemma NoDup_sublist {A} (l k : list A) : l `sublist_of` k -> NoDup k -> NoDup l.
Proof.
  induction 1 as [|x l k Hs IH|x l k Hs IH]; intros Hk; [constructor| |].
  - apply NoDup_cons in Hk as [Hx Hk]. apply NoDup_cons. split; [|by apply IH].
    intros Hin. apply Hx. eapply elem_of_submseteq; [exact Hin|]. by apply sublist_submseteq.
  - apply NoDup_cons in Hk as [_ Hk]. by apply IH.
Qed.

Lemma elem_of_cnt j l : j ∈ l <-> (0 < cnt j l)%nat.
Proof. unfold cnt. rewrite elem_of_list_In. symmetry. rewrite (count_occ_In Nat.eq_dec). lia. Qed.

Lemma conservation p w q es s tr :
  no_job_panics es -> q_run p (q_start w q) es = Some (s, tr) ->
  NoDup (answered tr) /\
  (snd <$> accepted tr) ≡ₚ
    waiting_in_queues s ++ at_runners s ++ running_jobs s ++ (snd <$> finished tr) /\
  NoDup (snd <$> accepted tr) /\
  (forall j, j ∈ rejected tr -> j ∉ (snd <$> started tr) /\ j ∉ (snd <$> accepted tr)).
Proof.
  intros Hnp Hr. destruct (run_tinv _ _ _ _ _ _ Hnp Hr) as [Hi Ht].
  pose proof (run_answers _ _ _ _ _ _ Hnp Hr) as Ha.
  assert (NoDup (answered tr)) as Hnd.
  { assert (NoDup (answered tr ++ sched_ids (qs_inbox s))) as H by (rewrite Ha; apply NoDup_seq).
    by apply NoDup_app in H as [H _]. }
  split; [done|]. split.
  { apply cnt_perm. intros j. rewrite (ti_acc _ _ _ Ht j), (ti_hand _ _ _ Ht j), !cnt_app.
    unfold waiting_in_queues, waiting, at_runners, running_jobs. lia. }
  split. { eapply NoDup_sublist; [apply accepted_sublist|done]. }
  intros j Hj. pose proof (rejected_accepted_disjoint _ Hnd j Hj) as Hna. split; [|done].
  intros Hs. apply Hna. apply elem_of_cnt. apply elem_of_cnt in Hs.
  rewrite (ti_acc _ _ _ Ht j), (ti_hand _ _ _ Ht j). rewrite (ti_started_all _ _ _ Ht j) in Hs. lia.
Qed.

(** Number of distinct IPs. *)
Lemma ips_distinct acc im tr :
  im_ok im -> tinv acc im tr -> length (im_ips im) = length (remove_dups (fst <$> acc)).
Proof.
  intros Hok Ht. apply Permutation_length. apply NoDup_Permutation; [apply Hok|apply NoDup_remove_dups|].
  intros ip. rewrite elem_of_remove_dups. apply Ht.
Qed.

(** ** Fairness *)
Definition rank (B : N) (im : inner) (pos : N) : N :=
  if im_index im <? pos then pos - im_index im else B - im_index im + pos.

Lemma rank_bounds B im pos ip :
  im_ok im -> vlen (im_ips im) <= B -> im_ips im !! N.to_nat pos = Some ip -> 1 <= rank B im pos <= B.
Proof.
  intros Hok HB Hp. assert (im_ips im <> []) as Hne by (intros E; by rewrite E in Hp).
  pose proof (io_idx _ Hok Hne). pose proof (io_len _ Hok). apply lookup_lt_Some in Hp.
  unfold rank. unfold vlen in *. destruct (N.ltb_spec (im_index im) pos); lia.
Qed.

Lemma pos_unique im i ip : im_ok im -> im_ips im !! i = Some ip -> forall i', im_ips im !! i' = Some ip -> i = i'.
Proof. intros Hok H1 i' H2. eapply NoDup_lookup; [apply Hok|done|done]. Qed.

Lemma dstep_fair B im name o im' ip pos :
  im_ok im -> vlen (im_ips im) <= B -> im_ips im !! N.to_nat pos = Some ip -> dstep im name o im' ->
  (* hit *)
  (nidx im = pos /\ rank B im' pos = B /\
   match default [] (im_queues im !! ip) with
   | [] => o = [QTry name ip] /\ default [] (im_queues im' !! ip) = []
   | j :: rest => o = [QTry name ip; QHand name ip j] /\ default [] (im_queues im' !! ip) = rest
   end) \/
  (* miss *)
  (rank B im' pos + 1 <= rank B im pos /\ default [] (im_queues im' !! ip) = default [] (im_queues im !! ip)).
Proof.
  intros Hok Hlen Hp Hd. assert (im_ips im <> []) as Hne by (intros E; by rewrite E in Hp).
  destruct (dstep_ok _ _ _ _ Hok Hne Hd) as (Hok' & Hips & Hql & Hlr & Hix).
  pose proof (io_idx _ Hok Hne) as Hidx.
  pose proof (lookup_lt_Some _ _ _ Hp) as Hpl. pose proof (nidx_lt _ Hok Hne) as Hnl.
  destruct (decide (nidx im = pos)) as [Heq|Hneq].
  - left. split; [done|]. split.
    { unfold rank. rewrite Hix, Heq. rewrite N.ltb_irrefl. unfold vlen in *. lia. }
    destruct Hd as [r ip' work rest Hr Hopen Hip Hlt Hq|r ip' Hr Hip Hlt Hq];
      rewrite Heq, Hp in Hip; injection Hip as <-; rewrite Hq; simpl.
    + by rewrite lookup_insert.
    + by rewrite Hq.
  - right. split.
    + unfold rank. rewrite Hix. unfold nidx in *. unfold vlen in *.
      destruct (N.ltb_spec (im_index im) (N.of_nat (length (im_ips im)) - 1)).
      * destruct (N.ltb_spec (im_index im + 1) pos); destruct (N.ltb_spec (im_index im) pos); lia.
      * destruct (N.ltb_spec 0 pos); destruct (N.ltb_spec (im_index im) pos); lia.
    + destruct Hd as [r ip' work rest Hr Hopen Hip Hlt Hq|r ip' Hr Hip Hlt Hq]; simpl; [|done].
      destruct (decide (ip' = ip)) as [->|]; [|by rewrite lookup_insert_ne].
      exfalso. apply Hneq. pose proof (pos_unique _ _ _ Hok Hip _ Hp). lia.
Qed.

(** The potential of a job at position [k] of [ip]'s queue. *)
Definition pending_at (im : inner) (ip : string) (pos : N) (j : job) (bound : N) (tr : list qout) : Prop :=
  (exists r, QHand r ip j ∈ tr) \/
  (exists k, default [] (im_queues im !! ip) !! k = Some j /\
     N.of_nat k * im_queue_length im + rank (im_queue_length im) im pos + N.of_nat (length (tries tr)) <= bound).

Lemma dstep_pending im name o im' ip pos j bound tr :
  im_ok im -> im_ips im !! N.to_nat pos = Some ip -> dstep im name o im' ->
  pending_at im ip pos j bound tr -> pending_at im' ip pos j bound (tr ++ o).
Proof.
  intros Hok Hp Hd [(r & Hr)|(k & Hk & Hb)]; [left; exists r; apply elem_of_app; by left|].
  assert (im_ips im <> []) as Hne by (intros E; by rewrite E in Hp).
  destruct (dstep_ok _ _ _ _ Hok Hne Hd) as (Hok' & Hips & Hql & Hlr & Hix).
  destruct (dstep_silent _ _ _ _ Hd) as (_ & _ & Htl).
  pose proof (rank_bounds _ _ _ _ Hok (io_len _ Hok) Hp) as Hrb.
  destruct (dstep_fair _ _ _ _ _ _ _ Hok (io_len _ Hok) Hp Hd) as [(Hn & Hrk & Hm)|[Hrk Hq]].
  - destruct (default [] (im_queues im !! ip)) as [|w rest] eqn:Eq; [done|].
    destruct Hm as [-> Hq']. destruct k as [|k]; simpl in Hk.
    + injection Hk as ->. left. exists name. apply elem_of_app. right. right. by left.
    + right. exists k. rewrite Hq'. split; [done|]. rewrite tries_app, app_length, Hql, Hrk, Htl. nia.
  - right. exists k. rewrite Hq. split; [done|]. rewrite tries_app, app_length, Hql, Htl. nia.
Qed.
Lemma dsteps_pending im names o im' ip pos j bound tr :
  im_ok im -> im_ips im !! N.to_nat pos = Some ip -> dsteps im names o im' ->
  pending_at im ip pos j bound tr -> pending_at im' ip pos j bound (tr ++ o).
Proof.
  intros Hok Hp Hd. revert tr. induction Hd as [|im name o im1 names o' im2 Hd Hds IH]; intros tr Hpe.
  - by rewrite app_nil_r.
  - assert (im_ips im <> []) as Hne by (intros E; by rewrite E in Hp).
    destruct (dstep_ok _ _ _ _ Hok Hne Hd) as (Hok' & Hips & _).
    rewrite app_assoc. apply IH; [done|by rewrite Hips|]. exact (dstep_pending _ _ _ _ _ _ _ _ _ Hok Hp Hd Hpe).
Qed.

Lemma pending_silent im ip pos j bound tr o :
  tries o = [] -> pending_at im ip pos j bound tr -> pending_at im ip pos j bound (tr ++ o).
Proof.
  intros Ho [(r & Hr)|(k & Hk & Hb)]; [left; exists r; apply elem_of_app; by left|].
  right. exists k. by rewrite tries_app, Ho, app_nil_r.
Qed.
Lemma pending_im im im' ip pos j bound tr :
  im_queues im' = im_queues im -> im_index im' = im_index im ->
  im_queue_length im' = im_queue_length im ->
  pending_at im ip pos j bound tr -> pending_at im' ip pos j bound tr.
Proof. unfold pending_at, rank. by intros -> -> ->. Qed.

Lemma qcase_pending w q s e s' o ip pos j bound tr :
  qinv w q s -> im_ips (qs_im s) !! N.to_nat pos = Some ip -> qcase s e s' o ->
  pending_at (qs_im s) ip pos j bound tr ->
  im_ips (qs_im s') !! N.to_nat pos = Some ip /\ pending_at (qs_im s') ip pos j bound (tr ++ o).
Proof.
  intros Hi Hp Hc Hpe. pose proof (qi_ok _ _ _ Hi) as Hok.
  destruct Hc as [ip' Hd|rest Ha Hin|name rest o im Ha Hin Hne Hds|name rest Ha Hin Hge|j' ip' rest Ha Hin Hl
    |j' ip' rest im1 o im2 Ha Hin Hl Him1 Hok1 Hne1 Hds|r c Hrr|r j' c Hrr|r j' c Hrr Hma|Hd|Hma Hall];
    simpl.
  - by rewrite app_nil_r.
  - rewrite app_nil_r. split; [done|]. by eapply pending_im.
  - destruct (dstep_ok _ _ _ _ Hok Hne Hds) as (_ & -> & _). split; [done|]. by eapply dstep_pending.
  - by rewrite app_nil_r.
  - split; [done|]. by apply pending_silent.
  - assert (im_ips im1 !! N.to_nat pos = Some ip) as Hp1.
    { subst im1. simpl. destruct (decide _); [done|]. by apply lookup_app_l_Some. }
    destruct (dsteps_ok _ _ _ _ Hok1 Hne1 Hds) as (_ & -> & _). split; [done|].
    rewrite app_assoc. apply pending_silent; [done|]. eapply (dsteps_pending _ _ _ _ _ _ _ _ _ Hok1 Hp1 Hds).
    destruct Hpe as [?|(k & Hk & Hb)]; [by left|]. right. exists k. subst im1. simpl.
    unfold rank in *. simpl. split; [|done].
    destruct (decide (ip' = ip)) as [->|].
    + rewrite lookup_insert. simpl. by apply lookup_app_l_Some.
    + by rewrite lookup_insert_ne.
  - split; [done|]. apply pending_silent; [done|]. by eapply pending_im.
  - split; [done|]. apply pending_silent; [done|]. by eapply pending_im.
  - split; [done|]. apply pending_silent; [done|]. by eapply pending_im.
  - by rewrite app_nil_r.
  - by rewrite app_nil_r.
Qed.

Lemma fairness p w q s0 ip j k es s tr :
  qinv w q s0 -> queue_of s0 ip !! k = Some j -> no_job_panics es ->
  q_run p s0 es = Some (s, tr) ->
  (N.of_nat (S k)) * q <= N.of_nat (length (tries tr)) ->
  exists r, QHand r ip j ∈ tr.
Proof.
  intros Hi Hk Hnp Hr Hlen. unfold queue_of in Hk.
  assert (ip ∈ im_ips (qs_im s0)) as Hin.
  { apply (io_dom _ (qi_ok _ _ _ Hi)). destruct (im_queues (qs_im s0) !! ip); [eauto|].
    simpl in Hk. by rewrite lookup_nil in Hk. }
  apply elem_of_list_lookup_1 in Hin as [i Hp].
  set (pos := N.of_nat i). assert (im_ips (qs_im s0) !! N.to_nat pos = Some ip) as Hp'.
  { unfold pos. by rewrite Nat2N.id. }
  set (bound := N.of_nat k * q + rank q (qs_im s0) pos).
  destruct (run_ind_from (fun s tr => im_ips (qs_im s) !! N.to_nat pos = Some ip /\
       pending_at (qs_im s) ip pos j bound tr) p w q s0 Hi) with (es := es) (s := s) (tr := tr)
    as (Hi' & Hp2 & Hpe); [| |done|done|].
  - split; [done|]. right. exists k. split; [done|]. unfold bound. rewrite (qi_len _ _ _ Hi). simpl. lia.
  - intros s1 tr1 e s2 o Hi1 [Hp1 Hpe1] Hc. by eapply qcase_pending.
  - destruct Hpe as [?|(k' & Hk' & Hb)]; [done|]. exfalso.
    pose proof (rank_bounds _ _ _ _ (qi_ok _ _ _ Hi) (io_len _ (qi_ok _ _ _ Hi)) Hp') as [_ Hrb].
    pose proof (rank_bounds _ _ _ _ (qi_ok _ _ _ Hi') (io_len _ (qi_ok _ _ _ Hi')) Hp2) as [Hrb' _].
    rewrite (qi_len _ _ _ Hi) in Hrb. unfold bound in Hb. nia.
Qed.

(** ** Nothing waits with enough runners *)
Definition all_empty (im : inner) : Prop := forall ip, default [] (im_queues im !! ip) = [].
Lemma dstep_empty im name o im' :
  all_empty im -> dstep im name o im' -> all_empty im' /\ handed o = [].
Proof.
  intros He Hd. destruct Hd as [r ip work rest Hr Hopen Hip Hlt Hq|r ip Hr Hip Hlt Hq].
  - specialize (He ip). by rewrite Hq in He.
  - done.
Qed.
Lemma dsteps_empty im names o im' : all_empty im -> dsteps im names o im' -> all_empty im'.
Proof.
  intros He Hd. induction Hd as [|im name o im1 names o' im2 Hd Hds IH]; [done|].
  apply IH. by eapply dstep_empty.
Qed.
Lemma dsteps_drain im names o im' ip pos :
  im_ok im -> im_ips im !! N.to_nat pos = Some ip -> dsteps im names o im' ->
  rank (vlen (im_ips im)) im pos <= N.of_nat (length names) ->
  (forall ip', ip' <> ip -> default [] (im_queues im !! ip') = []) ->
  (length (default [] (im_queues im !! ip)) <= 1)%nat ->
  all_empty im'.
Proof.
  intros Hok Hp Hd. induction Hd as [im|im name o im1 names o' im2 Hd Hds IH]; intros Hrk Hoth Hone.
  - pose proof (rank_bounds _ _ _ _ Hok (N.le_refl _) Hp). simpl in Hrk. lia.
  - assert (im_ips im <> []) as Hne by (intros E; by rewrite E in Hp).
    destruct (dstep_ok _ _ _ _ Hok Hne Hd) as (Hok' & Hips & _).
    assert (forall ip', ip' <> ip -> default [] (im_queues im1 !! ip') = []) as Hoth1.
    { intros ip' Hn. specialize (Hoth ip' Hn).
      destruct Hd as [r ip0 work rest Hr Hopen Hip Hlt Hq|r ip0 Hr Hip Hlt Hq]; simpl; [|done].
      destruct (decide (ip0 = ip')) as [->|]; [|by rewrite lookup_insert_ne]. by rewrite Hq in Hoth. }
    destruct (dstep_fair _ _ _ _ _ _ _ Hok (N.le_refl _) Hp Hd) as [(Hn & Hrk' & Hm)|[Hrk' Hq]].
    + eapply dsteps_empty; [|exact Hds]. intros ip'. destruct (decide (ip' = ip)) as [->|]; [|by apply Hoth1].
      destruct (default [] (im_queues im !! ip)) as [|j rest]; [by apply Hm|]. destruct Hm as [_ ->].
      simpl in Hone. destruct rest; [done|simpl in Hone; lia].
    + apply IH; [done|by rewrite Hips| |done|by rewrite Hq]. rewrite Hips. simpl in Hrk. lia.
Qed.

Lemma all_empty_waiting im : all_empty im <-> concat (snd <$> map_to_list (im_queues im)) = [].
Proof.
  split.
  - intros He. apply elem_of_nil_inv. intros j Hj. apply elem_of_list_In, in_concat in Hj as (l & Hl & Hj).
    apply elem_of_list_In, elem_of_list_fmap in Hl as ([ip q] & -> & Hin). apply elem_of_map_to_list in Hin.
    specialize (He ip). rewrite Hin in He. simpl in *. by subst.
  - intros Hc ip. destruct (im_queues im !! ip) as [q|] eqn:E; [|done]. simpl.
    apply elem_of_nil_inv. intros j Hj. eapply elem_of_nil. rewrite <- Hc.
    apply elem_of_list_In, in_concat. exists q. split; [|by apply elem_of_list_In].
    apply elem_of_list_In, elem_of_list_fmap. exists (ip, q). split; [done|]. by apply elem_of_map_to_list.
Qed.

Lemma qcase_all_empty w q s e s' o :
  qinv w q s -> qcase s e s' o -> (length (im_ips (qs_im s')) <= w)%nat ->
  ((length (im_ips (qs_im s)) <= w)%nat -> all_empty (qs_im s)) -> all_empty (qs_im s').
Proof.
  intros Hi Hc Hle IH. pose proof (qi_ok _ _ _ Hi) as Hok. pose proof (qi_workers _ _ _ Hi) as Hw.
  destruct Hc as [ip' Hd|rest Ha Hin|name rest o im Ha Hin Hne Hds|name rest Ha Hin Hge|j' ip' rest Ha Hin Hl
    |j' ip' rest im1 o im2 Ha Hin Hl Him1 Hok1 Hne1 Hds|r c Hrr|r j' c Hrr|r j' c Hrr Hma|Hd|Hma Hall];
    simpl in Hle |- *; try (by apply IH).
  - destruct (dstep_ok _ _ _ _ Hok Hne Hds) as (_ & Hips & _). rewrite Hips in Hle.
    eapply dstep_empty; [by apply IH|done].
  - destruct (dsteps_ok _ _ _ _ Hok1 Hne1 Hds) as (_ & Hips & _). rewrite Hips in Hle.
    assert (ip' ∈ im_ips im1) as Hin1.
    { subst im1. simpl. destruct (decide _); [done|]. apply elem_of_app. right. by apply elem_of_list_singleton. }
    apply elem_of_list_lookup_1 in Hin1 as [i Hp].
    assert (im_ips im1 !! N.to_nat (N.of_nat i) = Some ip') as Hp' by (by rewrite Nat2N.id).
    assert (length (im_ips (qs_im s)) <= w)%nat as Hle0.
    { subst im1. simpl in Hle. destruct (decide _); [done|]. rewrite app_length in Hle. lia. }
    specialize (IH Hle0).
    eapply (dsteps_drain _ _ _ _ _ _ Hok1 Hp' Hds).
    + pose proof (rank_bounds _ _ _ _ Hok1 (N.le_refl _) Hp') as [_ Hrb].
      rewrite seq_length. subst im1. simpl in *. unfold vlen in *. lia.
    + intros ip Hn. subst im1. simpl. rewrite lookup_insert_ne by done. apply IH.
    + subst im1. simpl. rewrite lookup_insert. simpl. rewrite (IH ip'). simpl. lia.
Qed.

Lemma nothing_waits p w q es s tr :
  no_job_panics es -> q_run p (q_start w q) es = Some (s, tr) ->
  (length (im_ips (qs_im s)) <= w)%nat -> all_empty (qs_im s).
Proof.
  intros Hnp Hr.
  apply (run_ind (fun s tr => (length (im_ips (qs_im s)) <= w)%nat -> all_empty (qs_im s)) p w q) in Hr;
    [by destruct Hr| | |done].
  - intros _ ip. simpl. by rewrite lookup_empty.
  - intros s0 tr0 e s' o Hi IH Hc Hle. by eapply qcase_all_empty.
Qed.

(** ** Stranded jobs *)
Lemma nidx_rank1 im pos ip :
  im_ok im -> im_ips im !! N.to_nat pos = Some ip -> nidx im = pos -> rank (vlen (im_ips im)) im pos = 1.
Proof.
  intros Hok Hp. assert (im_ips im <> []) as Hne by (intros E; by rewrite E in Hp).
  pose proof (io_idx _ Hok Hne). unfold nidx, rank. intros <-.
  destruct (N.ltb_spec (im_index im) (vlen (im_ips im) - 1)).
  - destruct (N.ltb_spec (im_index im) (im_index im + 1)); lia.
  - destruct (N.ltb_spec (im_index im) 0); lia.
Qed.
Lemma dsteps_miss im names o im' ip pos :
  im_ok im -> im_ips im !! N.to_nat pos = Some ip -> dsteps im names o im' ->
  N.of_nat (length names) < rank (vlen (im_ips im)) im pos ->
  (forall ip', ip' <> ip -> default [] (im_queues im !! ip') = []) ->
  im_queues im' = im_queues im /\ im_runners im' = im_runners im /\ handed o = [].
Proof.
  intros Hok Hp Hd. induction Hd as [im|im name o im1 names o' im2 Hd Hds IH]; intros Hrk Hoth; [done|].
  assert (im_ips im <> []) as Hne by (intros E; by rewrite E in Hp).
  destruct (dstep_ok _ _ _ _ Hok Hne Hd) as (Hok' & Hips & _ & _ & Hix).
  pose proof (lookup_lt_Some _ _ _ Hp) as Hpl.
  assert (nidx im <> pos) as Hnp.
  { intros Hn. pose proof (nidx_rank1 _ _ _ Hok Hp Hn) as H1. rewrite H1 in Hrk. simpl in Hrk. lia. }
  assert (rank (vlen (im_ips im1)) im1 pos + 1 = rank (vlen (im_ips im)) im pos) as Hrk'.
  { rewrite Hips. unfold rank. rewrite Hix. pose proof (io_idx _ Hok Hne). unfold nidx, vlen in *.
    destruct (N.ltb_spec (im_index im) (N.of_nat (length (im_ips im)) - 1)).
    - destruct (N.ltb_spec (im_index im + 1) pos); destruct (N.ltb_spec (im_index im) pos); lia.
    - destruct (N.ltb_spec 0 pos); destruct (N.ltb_spec (im_index im) pos); lia. }
  assert (im_queues im1 = im_queues im /\ im_runners im1 = im_runners im /\ handed o = []) as (E1 & E2 & E3).
  { destruct Hd as [r ip0 work rest Hr Hopen Hip Hlt Hq|r ip0 Hr Hip Hlt Hq]; [|done].
    exfalso. destruct (decide (ip0 = ip)) as [->|Hn].
    - apply Hnp. pose proof (pos_unique _ _ _ Hok Hip _ Hp). lia.
    - specialize (Hoth ip0 Hn). by rewrite Hq in Hoth. }
  destruct IH as (I1 & I2 & I3); [done|by rewrite Hips| |by rewrite E1|].
  { simpl in Hrk. lia. }
  rewrite handed_app, E3, I3. split_and!; congruence || done.
Qed.

(** In a quiescent state only clients can act. *)
Lemma quiescent_stuck p s e :
  quiescent s -> (forall ip, e <> QeAdd ip) -> e <> QeDrop -> e <> QeJoin -> q_step p s e = None.
Proof.
  intros [Hi Hr] Ha Hd Hj. unfold q_step.
  assert (forall r rn, im_runners (qs_im s) !! r = Some rn -> rn = Runner [] RIdle) as Hrn.
  { intros r rn Hl. pose proof (Forall_lookup_1 _ _ _ _ Hr Hl) as [H1 H2]. destruct rn. simpl in *. by subst. }
  assert (mgr_step p s = None) as Hm by (unfold mgr_step; rewrite Hi; by destruct (qs_mgr s)).
  destruct e as [ip| |r|r|r| |]; try (by destruct (Ha ip)); try done.
  - by destruct (qs_mgr s).
  - unfold runner_recv. destruct (im_runners (qs_im s) !! r) eqn:E; [apply Hrn in E as ->|]; by destruct (qs_mgr s).
  - unfold runner_finish. destruct (im_runners (qs_im s) !! r) eqn:E; [apply Hrn in E as ->|]; by destruct (qs_mgr s).
  - unfold runner_panic. destruct (im_runners (qs_im s) !! r) eqn:E; [apply Hrn in E as ->|]; by destruct (qs_mgr s).
Qed.

Lemma stranded p w q s :
  qinv w q s -> qs_mgr s = MAlive -> qs_dropped s = false -> quiescent s -> all_empty (qs_im s) ->
  (w < length (im_ips (qs_im s)))%nat -> vlen (im_ips (qs_im s)) < q ->
  exists ip s' tr, ip ∈ im_ips (qs_im s) /\
    q_run p s [QeAdd ip; QeManager] = Some (s', tr) /\
    QAnswer (qs_next s) ip (Ok tt) ∈ tr /\ handed tr = [] /\
    quiescent s' /\ qs_mgr s' = MAlive /\ queue_of s' ip = [qs_next s].
Proof.
  intros Hi Hm Hd [Hin Hrs] He Hw Hq. pose proof (qi_ok _ _ _ Hi) as Hok.
  assert (im_ips (qs_im s) <> []) as Hne by (destruct (im_ips (qs_im s)); [simpl in Hw; lia|done]).
  pose proof (io_idx _ Hok Hne) as Hidx. unfold vlen in Hidx.
  destruct (lookup_lt_is_Some_2 (im_ips (qs_im s)) (N.to_nat (im_index (qs_im s)))) as [ip Hip]; [lia|].
  set (s1 := QSys (qs_im s) (qs_inbox s ++ [ImSchedule (qs_next s) ip]) (qs_mgr s) false (S (qs_next s))).
  assert (q_step p s (QeAdd ip) = Some (s1, [])) as H1.
  { unfold q_step, s1. by rewrite Hm, Hd. }
  assert (qinv w q s1) as Hi1.
  { eapply qcase_inv; [exact Hi|]. eapply step_case; [exact Hi| |exact H1]. done. }
  assert (exists s2 o, q_step p s1 QeManager = Some (s2, o)) as (s2 & o & H2).
  { unfold q_step, s1, mgr_step. simpl. rewrite Hm, Hin. simpl.
    destruct (schedule p (qs_im s) ip (qs_next s)) as [[[im2 o] r]|]; eauto. }
  assert (forall r, QeManager <> QePanic r) as Hnpm by done.
  pose proof (step_case _ _ _ _ _ _ _ Hi1 Hnpm H2) as Hc.
  exists ip, s2, ([] ++ (o ++ [])). split; [by eapply elem_of_list_lookup_2|].
  split. { cbn [q_run]. by rewrite H1, H2. }
  rewrite app_nil_r. simpl.
  inversion Hc as [|rest Ha Hin' |name rest o' im Ha Hin' Hne' Hds|name rest Ha Hin' Hge|j ip' rest Ha Hin' Hl
    |j ip' rest im1 o' im2 Ha Hin' Hl Him1 Hok1 Hne1 Hds| | | | | ]; subst; simpl in *; rewrite Hin in Hin';
    simpl in Hin'; try done.
  - injection Hin' as <- <- <-. rewrite (qi_len _ _ _ Hi) in Hl. unfold vlen in *. lia.
  - injection Hin' as <- <- <-. rewrite He in Hds. simpl in Hds.
    assert (ip ∈ im_ips (qs_im s)) as Hmem by (by eapply elem_of_list_lookup_2).
    rewrite decide_True in Hds by done. rewrite decide_True in Hok1 by done.
    rewrite He in Hok1. simpl in Hok1.
    pose proof Hds as Hds'. eapply dsteps_miss in Hds' as (E1 & E2 & E3).
    + split. { apply elem_of_app. right. by apply elem_of_list_singleton. }
      split. { rewrite handed_app, E3. done. }
      split. { split; [done|]. simpl. rewrite E2. exact Hrs. }
      split; [done|]. unfold queue_of. simpl. rewrite E1. simpl. by rewrite lookup_insert.
    + done.
    + simpl. exact Hip.
    + simpl. rewrite seq_length, (qi_workers _ _ _ Hi). unfold rank. simpl. rewrite N.ltb_irrefl.
      unfold vlen. lia.
    + simpl. intros ip' Hn. rewrite lookup_insert_ne by done. apply He.
Qed.

(** ** Full stays full *)
Lemma full_forever p w q s0 es s tr :
  qinv w q s0 -> vlen (im_ips (qs_im s0)) = q -> no_job_panics es -> q_run p s0 es = Some (s, tr) ->
  vlen (im_ips (qs_im s)) = q /\ (forall j ip r, QAnswer j ip r ∈ tr -> r = Err QueueFull).
Proof.
  intros Hi Hf Hnp Hr.
  eapply (run_ind_from (fun s tr => vlen (im_ips (qs_im s)) = q /\
     (forall j ip r, QAnswer j ip r ∈ tr -> r = Err QueueFull)) p w q s0 Hi) in Hr; [by destruct Hr| | |done].
  - split; [done|]. by intros j ip r ?%elem_of_nil.
  - clear. intros s tr e s' o Hi [Hf IH] Hc. pose proof (qi_ok _ _ _ Hi) as Hok.
    assert (forall j ip r, QAnswer j ip r ∈ o -> r = Err QueueFull) as Ho.
    { intros j ip r Hin. destruct Hc as [ip' Hd|rest Ha Hii|name rest o im Ha Hii Hne Hds|name rest Ha Hii Hge|j' ip' rest Ha Hii Hl
    |j' ip' rest im1 o im2 Ha Hii Hl Him1 Hok1 Hne1 Hds|r' c Hrr|r' j' c Hrr|r' j' c Hrr Hma|Hd|Hma Hall];
      try (by apply elem_of_nil in Hin); try (by apply elem_of_list_singleton in Hin).
      - destruct Hds; repeat (apply elem_of_cons in Hin as [Hin|Hin]; [done|]); by apply elem_of_nil in Hin.
      - apply elem_of_list_singleton in Hin. by injection Hin as _ _ ->.
      - rewrite (qi_len _ _ _ Hi) in Hl. lia. }
    split.
    + destruct Hc as [ip' Hd|rest Ha Hii|name rest o im Ha Hii Hne Hds|name rest Ha Hii Hge|j' ip' rest Ha Hii Hl
    |j' ip' rest im1 o im2 Ha Hii Hl Him1 Hok1 Hne1 Hds|r' c Hrr|r' j' c Hrr|r' j' c Hrr Hma|Hd|Hma Hall]; simpl; try done.
      * destruct (dstep_ok _ _ _ _ Hok Hne Hds) as (_ & -> & _). done.
      * rewrite (qi_len _ _ _ Hi) in Hl. lia.
    + intros j ip r Hin. apply elem_of_app in Hin as [Hin|Hin]; [by eapply IH|by eapply Ho].
Qed.

(** ** Shutdown *)
Lemma after_stop p w q s0 es s tr :
  qinv w q s0 -> qs_mgr s0 <> MAlive -> no_job_panics es -> q_run p s0 es = Some (s, tr) ->
  qs_mgr s <> MAlive /\ handed tr = [] /\ answered tr = [] /\ im_queues (qs_im s) = im_queues (qs_im s0).
Proof.
  intros Hi Hm Hnp Hr.
  eapply (run_ind_from (fun s tr => qs_mgr s <> MAlive /\ handed tr = [] /\ answered tr = [] /\
     im_queues (qs_im s) = im_queues (qs_im s0)) p w q s0 Hi) in Hr; [by destruct Hr|done| |done].
  clear -Hm. intros s tr e s' o Hi (Hma & Hh & Han & Hq) Hc. rewrite handed_app, answered_app, Hh, Han.
  destruct Hc; simpl; try done.
Qed.

Definition shutdown_measure (s : qsys) : nat :=
  list_sum ((fun r => 2 * length (rn_chan r) + length (running (rn_state r)))%nat <$> im_runners (qs_im s))
  + (match qs_mgr s with MDraining => 1 | _ => 0 end).
Lemma list_sum_upd {A} (f : A -> nat) (rs : list A) r x x' :
  rs !! r = Some x ->
  (list_sum (f <$> <[r := x']> rs) + f x = list_sum (f <$> rs) + f x')%nat.
Proof.
  intros Hr. destruct (upd_split _ _ _ Hr) as (l1 & l2 & E & E'). rewrite E', E.
  rewrite !fmap_app, !list_sum_app. simpl. lia.
Qed.
Lemma shutdown_decreases w q s e s' o :
  qinv w q s -> qs_mgr s <> MAlive -> qcase s e s' o -> (shutdown_measure s' < shutdown_measure s)%nat.
Proof.
  intros Hi Hm Hc. pose proof (qi_inbox _ _ _ Hi) as Hib.
  assert (qs_dropped s = true) as Hdr by (destruct (qs_mgr s); simpl in Hib; [done|by destruct Hib..]).
  destruct Hc as [ip' Hd|rest Ha Hii|name rest o im Ha Hii Hne Hds|name rest Ha Hii Hge|j' ip' rest Ha Hii Hl
    |j' ip' rest im1 o im2 Ha Hii Hl Him1 Hok1 Hne1 Hds|r' c Hrr|r' j' c Hrr|r' j' c Hrr Hma|Hd|Hma Hall];
    try congruence; unfold shutdown_measure, set_runner; simpl.
  - pose proof (list_sum_upd (fun r => 2 * length (rn_chan r) + length (running (rn_state r)))%nat _ _ _
      (Runner c RExited) Hrr) as E. simpl in E. lia.
  - pose proof (list_sum_upd (fun r => 2 * length (rn_chan r) + length (running (rn_state r)))%nat _ _ _
      (Runner c (RRunning j')) Hrr) as E. simpl in E. lia.
  - pose proof (list_sum_upd (fun r => 2 * length (rn_chan r) + length (running (rn_state r)))%nat _ _ _
      (Runner c RIdle) Hrr) as E. simpl in E. lia.
  - rewrite Hma. lia.
Qed.
Lemma shutdown_bounded p w q s0 es s tr :
  qinv w q s0 -> qs_mgr s0 <> MAlive -> no_job_panics es -> q_run p s0 es = Some (s, tr) ->
  (length es + shutdown_measure s <= shutdown_measure s0)%nat.
Proof.
  intros Hi Hm. revert s tr. induction es as [|e es IH] using rev_ind; intros s tr Hnp Hr.
  - injection Hr as <- <-. simpl. lia.
  - apply Forall_app in Hnp as [Hnp He]. rewrite Forall_singleton in He.
    apply q_run_snoc in Hr as (s1 & tr1 & o & Hr & Hs & ->). specialize (IH _ _ Hnp Hr).
    assert (qinv w q s1) as Hi1.
    { eapply (run_ind_from (fun _ _ => True) p w q s0 Hi); eauto. }
    destruct (after_stop _ _ _ _ _ _ _ Hi Hm Hnp Hr) as (Hm1 & _).
    pose proof (shutdown_decreases _ _ _ _ _ _ Hi1 Hm1 (step_case _ _ _ _ _ _ _ Hi1 He Hs)).
    rewrite app_length. simpl. lia.
Qed.
Lemma shutdown_progress p w q s :
  qinv w q s -> qs_mgr s = MDraining ->
  exists e s' o, (forall r, e <> QePanic r) /\ q_step p s e = Some (s', o).
Proof.
  intros Hi Hm. destruct (forallb is_exited (im_runners (qs_im s))) eqn:Ef.
  - exists QeJoin. unfold q_step. rewrite Hm, Ef. eauto.
  - assert (exists r rn, im_runners (qs_im s) !! r = Some rn /\ is_exited rn = false) as (r & rn & Hr & Hne).
    { clear -Ef. induction (im_runners (qs_im s)) as [|x l IH]; [done|]. simpl in Ef.
      destruct (is_exited x) eqn:E; [|by exists 0%nat, x].
      destruct (IH Ef) as (r & rn & Hr & Hn). by exists (S r), rn. }
    pose proof (Forall_lookup_1 _ _ _ _ (qi_runners _ _ _ Hi) Hr) as Hri. rewrite Hm in Hri.
    destruct Hri as [(Ho & c & Hc & Hns)|[Hx _]].
    2:{ unfold is_exited in Hne. by rewrite Hx in Hne. }
    destruct rn as [ch st]. simpl in Hc, Ho. subst ch. destruct st as [|j| |]; try done.
    + exists (QeRecv r). unfold q_step. rewrite Hm. unfold runner_recv. rewrite Hr.
      destruct c as [|[|j] c]; simpl; eauto.
    + exists (QeFinish r). unfold q_step. rewrite Hm. unfold runner_finish. rewrite Hr, Hm. eauto.
Qed.

(** ** Running to quiescence *)
Lemma waiting_pop m ip k rest :
  m !! ip = Some (k :: rest) -> length (waiting m) = S (length (waiting (<[ip := rest]> m))).
Proof.
  intros Hm. change (S (length (waiting (<[ip := rest]> m)))) with (length (k :: waiting (<[ip := rest]> m))).
  apply Permutation_length. apply cnt_perm. intros j.
  pose proof (waiting_insert m ip (k :: rest) rest j Hm) as H.
  change (k :: rest) with ([k] ++ rest) in H. rewrite cnt_app in H.
  change (k :: waiting (<[ip := rest]> m)) with ([k] ++ waiting (<[ip := rest]> m)). rewrite cnt_app. lia.
Qed.
Lemma waiting_push_length m ip k :
  length (waiting (<[ip := default [] (m !! ip) ++ [k]]> m)) = S (length (waiting m)).
Proof.
  change (S (length (waiting m))) with (length (k :: waiting m)).
  apply Permutation_length. apply cnt_perm. intros j. rewrite waiting_push.
  change (k :: waiting m) with ([k] ++ waiting m). rewrite cnt_app. lia.
Qed.

Definition rweight (r : runner) : nat := (3 * length (rn_chan r) + 2 * length (running (rn_state r)))%nat.
Arguments rweight : simpl never.
Definition load (im : inner) : nat :=
  (4 * length (waiting (im_queues im)) +
   list_sum (rweight <$> im_runners im))%nat.
Arguments load : simpl never.
Definition mweight (m : imsg) : nat := match m with ImSchedule _ _ => 6 | _ => 1 end.
Definition total_load (s : qsys) : nat :=
  (load (qs_im s) + list_sum (mweight <$> qs_inbox s))%nat.

Lemma dstep_load im name o im' : dstep im name o im' -> (load im' <= load im)%nat.
Proof.
  intros Hd. destruct Hd as [r ip work rest Hr Hopen Hip Hlt Hq|r ip Hr Hip Hlt Hq]; [|done].
  unfold load. simpl im_queues. simpl im_runners. rewrite (alter_insert _ _ _ _ Hr).
  pose proof (list_sum_upd rweight _ _ _
      (rn_send (RmProve work) r) Hr) as E.
  assert (rweight (rn_send (RmProve work) r) = 3 + rweight r)%nat as E'.
  { unfold rweight. simpl. rewrite app_length. simpl. lia. }
  rewrite (waiting_pop _ _ _ _ Hq). lia.
Qed.
Lemma dsteps_load im names o im' : dsteps im names o im' -> (load im' <= load im)%nat.
Proof. induction 1; [done|]. apply dstep_load in H. lia. Qed.

(** Events of the threads (no client acts). *)
Definition thread_event (e : qevent) : Prop :=
  match e with QeManager | QeRecv _ | QeFinish _ => True | _ => False end.

Lemma lsum_cons x l : list_sum (x :: l) = (x + list_sum l)%nat.
Proof. done. Qed.
Lemma qcase_load w q s e s' o :
  qinv w q s -> thread_event e -> qs_mgr s = MAlive -> qs_dropped s = false -> qcase s e s' o ->
  (total_load s' < total_load s)%nat /\ qs_mgr s' = MAlive /\ qs_dropped s' = false.
Proof.
  intros Hi He Hm Hdr Hc. pose proof (qi_inbox _ _ _ Hi) as Hib. rewrite Hm, Hdr in Hib. simpl in Hib.
  destruct Hc as [ip' Hd|rest Ha Hii|name rest o im Ha Hii Hne Hds|name rest Ha Hii Hge|j' ip' rest Ha Hii Hl
    |j' ip' rest im1 o im2 Ha Hii Hl Him1 Hok1 Hne1 Hds|r' c Hrr|r' j' c Hrr|r' j' c Hrr Hma|Hd|Hma Hall];
    try done; unfold total_load, set_runner; simpl.
  - rewrite Hii in Hib. apply Forall_cons in Hib as [Hib _]. by destruct Hib.
  - rewrite Hii, fmap_cons, lsum_cons. cbn [mweight]. pose proof (dstep_load _ _ _ _ Hds). split; [lia|done].
  - rewrite Hii, fmap_cons, lsum_cons. cbn [mweight]. split; [lia|done].
  - rewrite Hii, fmap_cons, lsum_cons. cbn [mweight]. split; [lia|done].
  - rewrite Hii, fmap_cons, lsum_cons. cbn [mweight]. pose proof (dsteps_load _ _ _ _ Hds) as Hl2.
    assert (load im1 = (4 + load (qs_im s))%nat) as E.
    { subst im1. unfold load. simpl im_queues. simpl im_runners. rewrite waiting_push_length. lia. }
    split; [lia|done].
  - pose proof (Forall_lookup_1 _ _ _ _ (qi_runners _ _ _ Hi) Hrr) as Hri. rewrite Hm in Hri.
    destruct Hri as [_ Hns]. by apply Forall_cons in Hns as [Hns _].
  - pose proof (list_sum_upd rweight _ _ _
      (Runner c (RRunning j')) Hrr) as E. unfold rweight at 2 4 in E. simpl in E. unfold load. cbn [im_queues im_runners with_runners]. split; [lia|done].
  - pose proof (list_sum_upd rweight _ _ _
      (Runner c RIdle) Hrr) as E. unfold rweight at 2 4 in E. simpl in E. unfold load. cbn [im_queues im_runners with_runners].
    rewrite fmap_app, list_sum_app, fmap_cons, lsum_cons. cbn [mweight fmap list_fmap].
    change (list_sum []) with 0%nat.
    split; [lia|done].
Qed.

Lemma quiescent_or_progress p w q s :
  qinv w q s -> qs_mgr s = MAlive ->
  quiescent s \/ exists e s' o, thread_event e /\ q_step p s e = Some (s', o).
Proof.
  intros Hi Hm. destruct (qs_inbox s) as [|m rest] eqn:Ei.
  2:{ right. exists QeManager. unfold q_step. rewrite Hm. unfold mgr_step. rewrite Hm, Ei.
      destruct m as [|name|j ip].
      - destruct (forallb _ _); by do 2 eexists.
      - destruct (dispatch_to _ _ _) as [[? ?]|]; by do 2 eexists.
      - destruct (schedule _ _ _ _) as [[[? ?] ?]|]; by do 2 eexists. }
  destruct (decide (Forall (fun r => rn_chan r = [] /\ running (rn_state r) = []) (im_runners (qs_im s)))) as [Hf|Hf].
  - left. split; [done|]. pose proof (qi_runners _ _ _ Hi) as Hr. rewrite Hm in Hr.
    apply Forall_forall. intros r Hin. rewrite Forall_forall in Hf, Hr.
    destruct (Hf r Hin) as [H1 H2]. destruct (Hr r Hin) as [H3 _]. split; [done|].
    unfold rn_open in H3. by destruct (rn_state r).
  - right. apply not_Forall_Exists in Hf; [|intros x; apply _].
    apply Exists_exists in Hf as (rn & Hin & Hn). apply elem_of_list_lookup_1 in Hin as [r Hr].
    pose proof (Forall_lookup_1 _ _ _ _ (qi_runners _ _ _ Hi) Hr) as Hri. rewrite Hm in Hri.
    destruct Hri as [Ho Hns]. destruct rn as [c st]. simpl in *. destruct st as [|j| |]; try done.
    + destruct c as [|m c]; [by destruct Hn|]. exists (QeRecv r). unfold q_step. rewrite Hm.
      unfold runner_recv. rewrite Hr. destruct m; by do 2 eexists.
    + exists (QeFinish r). unfold q_step. rewrite Hm. unfold runner_finish. rewrite Hr, Hm. by do 2 eexists.
Qed.

Lemma thread_no_panic e : thread_event e -> forall r, e <> QePanic r.
Proof. by destruct e. Qed.

Lemma settle p w q s :
  qinv w q s -> qs_mgr s = MAlive -> qs_dropped s = false ->
  exists es s' tr, Forall thread_event es /\ q_run p s es = Some (s', tr) /\ quiescent s' /\
    qinv w q s' /\ qs_mgr s' = MAlive /\ qs_dropped s' = false.
Proof.
  remember (total_load s) as n eqn:En. revert s En.
  induction n as [n IH] using lt_wf_ind; intros s -> Hi Hm Hd.
  destruct (quiescent_or_progress p w q s Hi Hm) as [Hq|(e & s1 & o & He & Hs)].
  - exists [], s, []. done.
  - pose proof (step_case _ _ _ _ _ _ _ Hi (thread_no_panic _ He) Hs) as Hc.
    destruct (qcase_load _ _ _ _ _ _ Hi He Hm Hd Hc) as (Hl & Hm1 & Hd1).
    destruct (IH _ Hl s1 eq_refl (qcase_inv _ _ _ _ _ _ Hi Hc) Hm1 Hd1)
      as (es & s' & tr & Hes & Hr & Hrest).
    exists (e :: es), s', (o ++ tr). split; [by constructor|]. split; [|done]. simpl. by rewrite Hs, Hr.
Qed.
Lemma thread_no_panics es : Forall thread_event es -> no_job_panics es.
Proof. intros H. eapply Forall_impl; [exact H|]. intros e He. by apply thread_no_panic. Qed.

Lemma qcase_ips w q s e s' o :
  qinv w q s -> qcase s e s' o ->
  (length (im_ips (qs_im s)) <= length (im_ips (qs_im s')))%nat.
Proof.
  intros Hi Hc. pose proof (qi_ok _ _ _ Hi) as Hok.
  destruct Hc as [ip' Hd|rest Ha Hii|name rest o im Ha Hii Hne Hds|name rest Ha Hii Hge|j' ip' rest Ha Hii Hl
    |j' ip' rest im1 o im2 Ha Hii Hl Him1 Hok1 Hne1 Hds|r' c Hrr|r' j' c Hrr|r' j' c Hrr Hma|Hd|Hma Hall];
    simpl; try done.
  - destruct (dstep_ok _ _ _ _ Hok Hne Hds) as (_ & -> & _). done.
  - destruct (dsteps_ok _ _ _ _ Hok1 Hne1 Hds) as (_ & -> & _). subst im1. simpl.
    destruct (decide _); [done|]. rewrite app_length. lia.
Qed.

Lemma thread_ips p w q s es s' tr :
  qinv w q s -> Forall thread_event es -> q_run p s es = Some (s', tr) ->
  (forall m, m ∈ qs_inbox s -> is_dispatch m) ->
  im_ips (qs_im s') = im_ips (qs_im s).
Proof.
  intros Hi He Hr Hib.
  assert (im_ips (qs_im s') = im_ips (qs_im s) /\ (forall m, m ∈ qs_inbox s' -> is_dispatch m)) as [? _]; [|done].
  revert s' tr Hr. induction es as [|e es IH] using rev_ind; intros s' tr Hr; [by injection Hr as <- <-|].
  apply Forall_app in He as [He He1]. rewrite Forall_singleton in He1.
  apply q_run_snoc in Hr as (s1 & tr1 & o & Hr & Hs & ->). destruct (IH He _ _ Hr) as [E1 E2].
  assert (qinv w q s1) as Hi1.
  { eapply (run_ind_from (fun _ _ => True) p w q s Hi); eauto. by apply thread_no_panics. }
  pose proof (step_case _ _ _ _ _ _ _ Hi1 (thread_no_panic _ He1) Hs) as Hc.
  destruct Hc as [ip' Hd|rest Ha Hii|name rest o im Ha Hii Hne Hds|name rest Ha Hii Hge|j' ip' rest Ha Hii Hl
    |j' ip' rest im1 o im2 Ha Hii Hl Him1 Hok1 Hne1 Hds|r' c Hrr|r' j' c Hrr|r' j' c Hrr Hma|Hd|Hma Hall];
    try done; simpl; rewrite ?Hii in E2.
  - by specialize (E2 ImStop ltac:(by left)).
  - destruct (dstep_ok _ _ _ _ (qi_ok _ _ _ Hi1) Hne Hds) as (_ & -> & _). split; [done|].
    intros m Hm. apply E2. by right.
  - split; [done|]. intros m Hm. apply E2. by right.
  - by specialize (E2 (ImSchedule j' ip') ltac:(by left)).
  - by specialize (E2 (ImSchedule j' ip') ltac:(by left)).
  - split; [done|]. intros m Hm. apply elem_of_app in Hm as [Hm|Hm]; [by apply E2|].
    apply elem_of_list_singleton in Hm as ->. done.
Qed.

(** For every number of workers and every larger queue there is an execution
    without any panic that ends quiescent with an accepted job waiting. *)
Lemma quiescent_waiting_exists p w q :
  N.of_nat w + 1 < q ->
  exists es s tr, no_job_panics es /\ q_run p (q_start w q) es = Some (s, tr) /\
    quiescent s /\ qs_mgr s = MAlive /\ qs_dropped s = false /\ waiting_in_queues s <> [].
Proof.
  intros Hq.
  (* reach a quiescent state with n known IPs, or finish early *)
  assert (forall n, (n <= S w)%nat ->
    exists es s tr, no_job_panics es /\ q_run p (q_start w q) es = Some (s, tr) /\
      quiescent s /\ qinv w q s /\ qs_mgr s = MAlive /\ qs_dropped s = false /\
      (waiting_in_queues s <> [] \/ length (im_ips (qs_im s)) = n)) as Hbuild.
  { induction n as [|n IH]; intros Hn.
    - exists [], (q_start w q), []. split; [constructor|]. split; [done|]. split.
      { split; [done|]. simpl. apply Forall_forall. intros r Hr. by apply elem_of_replicate_inv in Hr as ->. }
      split; [apply q_start_inv|]. split; [done|]. split; [done|]. by right.
    - destruct IH as (es & s & tr & Hnp & Hr & Hqs & Hi & Hm & Hd & [Hw|Hl]); [lia| |].
      { exists es, s, tr. split_and!; try done. by left. }
      set (ip := fresh (list_to_set (C := gset string) (im_ips (qs_im s)))).
      assert (ip ∉ im_ips (qs_im s)) as Hip.
      { intros Hin. apply (is_fresh (list_to_set (C := gset string) (im_ips (qs_im s)))).
        by apply elem_of_list_to_set. }
      destruct Hqs as [Hib Hrs].
      set (s1 := QSys (qs_im s) (qs_inbox s ++ [ImSchedule (qs_next s) ip]) (qs_mgr s) false (S (qs_next s))).
      assert (q_step p s (QeAdd ip) = Some (s1, [])) as H1 by (unfold q_step, s1; by rewrite Hm, Hd).
      assert (forall r, QeAdd ip <> QePanic r) as Hna by done.
      pose proof (qcase_inv _ _ _ _ _ _ Hi (step_case _ _ _ _ _ _ _ Hi Hna H1)) as Hi1.
      assert (exists s2 o, q_step p s1 QeManager = Some (s2, o)) as (s2 & o & H2).
      { unfold q_step, s1, mgr_step. simpl. rewrite Hm, Hib. simpl.
        destruct (schedule p (qs_im s) ip (qs_next s)) as [[[im2 o] r]|]; eauto. }
      assert (forall r, QeManager <> QePanic r) as Hnm by done.
      pose proof (step_case _ _ _ _ _ _ _ Hi1 Hnm H2) as Hc.
      pose proof (qcase_inv _ _ _ _ _ _ Hi1 Hc) as Hi2.
      assert (length (im_ips (qs_im s2)) = S n /\ qs_inbox s2 = [] /\ qs_mgr s2 = MAlive /\ qs_dropped s2 = false)
        as (Hl2 & Hib2 & Hm2 & Hd2).
      { inversion Hc as [|rest Ha Hin' |name rest o' im Ha Hin' Hne' Hds|name rest Ha Hin' Hge|j ip' rest Ha Hin' Hl'
    |j ip' rest im1 o' im2 Ha Hin' Hl' Him1 Hok1 Hne1 Hds| | | | | ]; subst; simpl in *; rewrite Hib in Hin';
        simpl in Hin'; try done.
        - injection Hin' as <- <- <-. rewrite (qi_len _ _ _ Hi) in Hl'. unfold vlen in *. lia.
        - injection Hin' as <- <- <-. destruct (dsteps_ok _ _ _ _ Hok1 Hne1 Hds) as (_ & -> & _). simpl.
          rewrite decide_False by done. rewrite app_length. simpl. split; [lia|done]. }
      destruct (settle p w q s2 Hi2 Hm2 Hd2) as (es3 & s3 & tr3 & Hes3 & Hr3 & Hq3 & Hi3 & Hm3 & Hd3).
      exists (es ++ [QeAdd ip; QeManager] ++ es3), s3, (tr ++ ([] ++ o ++ tr3)).
      split. { apply Forall_app. split; [done|]. apply Forall_app. split; [by repeat constructor|].
               by apply thread_no_panics. }
      split. { apply q_run_app. exists s, tr, ([] ++ o ++ tr3). split; [done|]. split; [|done].
               cbn [app q_run]. by rewrite H1, H2, Hr3. }
      split; [done|]. split; [done|]. split; [done|]. split; [done|]. right.
      rewrite (thread_ips _ _ _ _ _ _ _ Hi2 Hes3 Hr3); [done|]. rewrite Hib2. by intros m ?%elem_of_nil. }
  destruct (Hbuild (S w) (Nat.le_refl _)) as (es & s & tr & Hnp & Hr & Hqs & Hi & Hm & Hd & [Hw|Hl]).
  { exists es, s, tr. done. }
  destruct (decide (waiting_in_queues s = [])) as [He|Hne].
  2:{ exists es, s, tr. done. }
  destruct (stranded p w q s Hi Hm Hd Hqs) as (ip & s' & tr' & Hip & Hr' & Ha & Hh & Hq' & Hm' & Hw').
  - by apply all_empty_waiting.
  - lia.
  - unfold vlen. lia.
  - exists (es ++ [QeAdd ip; QeManager]), s', (tr ++ tr').
    split. { apply Forall_app. split; [done|]. by repeat constructor. }
    split. { apply q_run_app. eauto 10. }
    split; [done|]. split; [done|]. split.
    { cbn [q_run] in Hr'. destruct (q_step p s (QeAdd ip)) as [[sa oa]|] eqn:Ea; [|done].
      unfold q_step in Ea. rewrite Hm, Hd in Ea. injection Ea as <- <-.
      destruct (q_step p _ QeManager) as [[sb ob]|] eqn:Eb; [|done]. injection Hr' as <- _.
      unfold q_step, mgr_step in Eb. simpl in Eb. destruct Hqs as [Hib _]. rewrite Hib in Eb. simpl in Eb.
      destruct (schedule p (qs_im s) ip (qs_next s)) as [[[im2 o2] r2]|]; injection Eb as <- _; done. }
    intros E. apply (all_empty_waiting (qs_im s')) in E. specialize (E ip). unfold queue_of in Hw'.
    rewrite E in Hw'. done.
Qed.

(** ** Every call is answered in order, with its own IP *)
Definition sched_calls (l : list imsg) : list (job * string) :=
  omap (fun m => match m with ImSchedule j ip => Some (j, ip) | _ => None end) l.
Lemma answered_calls_app a b : answered_calls (a ++ b) = answered_calls a ++ answered_calls b.
Proof. apply omap_app. Qed.
Lemma dstep_no_answer im name o im' : dstep im name o im' -> answered_calls o = [].
Proof. by intros []. Qed.
Lemma dsteps_no_answer im names o im' : dsteps im names o im' -> answered_calls o = [].
Proof.
  intros Hd. induction Hd as [|im name o im1 names o' im2 Hd Hds IH]; [done|].
  by rewrite answered_calls_app, IH, (dstep_no_answer _ _ _ _ Hd).
Qed.
Lemma calls_snoc es e :
  calls (es ++ [e]) = calls es ++ match e with QeAdd ip => [(length (calls es), ip)] | _ => [] end.
Proof.
  unfold calls. rewrite omap_app. set (ips := omap _ es).
  assert (length (zip (seq 0 (length ips)) ips) = length ips) as Hlen.
  { rewrite zip_with_length, seq_length. lia. }
  destruct e; simpl; rewrite ?app_nil_r; try done.
  rewrite app_length. simpl. rewrite seq_app, zip_with_app by (by rewrite seq_length). simpl.
  by rewrite Hlen.
Qed.
Lemma run_calls p w q es s tr :
  no_job_panics es -> q_run p (q_start w q) es = Some (s, tr) ->
  qinv w q s /\ answered_calls tr ++ sched_calls (qs_inbox s) = calls es /\ qs_next s = length (calls es).
Proof.
  revert s tr. induction es as [|e es IH] using rev_ind; intros s tr Hnp Hr.
  - injection Hr as <- <-. split; [apply q_start_inv|]. done.
  - apply Forall_app in Hnp as [Hnp He]. rewrite Forall_singleton in He.
    apply q_run_snoc in Hr as (s1 & tr1 & o & Hr & Hs & ->).
    destruct (IH s1 tr1 Hnp Hr) as (Hi & H1 & H2). clear IH.
    pose proof (step_case _ _ _ _ _ _ _ Hi He Hs) as Hc.
    split; [by eapply qcase_inv|]. rewrite calls_snoc, answered_calls_app.
    destruct Hc as [ip Hd|rest Ha Hin|name rest o im Ha Hin Hne Hds|name rest Ha Hin Hge|j ip rest Ha Hin Hl
      |j ip rest im1 o im2 Ha Hin Hl Him1 Hok1 Hne1 Hds|r c Hrr|r j c Hrr|r j c Hrr Hma|Hd|Hma Hall];
      cbn [answered_calls qs_inbox qs_next omap list_omap set_runner]; rewrite ?app_nil_r;
      try (rewrite Hin in H1; simpl in H1).
    + unfold sched_calls. rewrite omap_app. fold (sched_calls (qs_inbox s1)).
      rewrite app_assoc, H1, app_length. simpl. rewrite H2. split; [done|lia].
    + done.
    + rewrite (dstep_no_answer _ _ _ _ Hds), app_nil_r. done.
    + done.
    + rewrite <- app_assoc. done.
    + rewrite answered_calls_app, (dsteps_no_answer _ _ _ _ Hds), <- app_assoc. done.
    + done.
    + done.
    + unfold sched_calls. rewrite omap_app. simpl. rewrite app_nil_r. done.
    + unfold sched_calls. rewrite omap_app. simpl. rewrite app_nil_r. done.
    + done.
Qed.

Lemma manager_progress p w q s m rest :
  qinv w q s -> qs_mgr s = MAlive -> qs_inbox s = m :: rest ->
  exists s' o, q_step p s QeManager = Some (s', o) /\ qs_inbox s' = rest /\
    forall j ip, m = ImSchedule j ip -> exists r, QAnswer j ip r ∈ o.
Proof.
  intros Hi Hm Hib.
  assert (exists s' o, q_step p s QeManager = Some (s', o)) as (s' & o & Hs).
  { unfold q_step. rewrite Hm. unfold mgr_step. rewrite Hm, Hib. destruct m as [|name|j ip].
    - destruct (forallb _ _); by do 2 eexists.
    - destruct (dispatch_to _ _ _) as [[? ?]|]; by do 2 eexists.
    - destruct (schedule _ _ _ _) as [[[? ?] ?]|]; by do 2 eexists. }
  exists s', o. split; [done|].
  pose proof (step_case p w q s QeManager s' o Hi (fun r => ltac:(done)) Hs) as Hc. clear Hs.
  inversion Hc as [ |rest' Ha Hin|name rest' o' im Ha Hin Hne Hds|name rest' Ha Hin Hge|j ip rest' Ha Hin Hl
      |j ip rest' im1 o' im2 Ha Hin Hl Him1 Hok1 Hne1 Hds| | | | | ]; subst; simpl;
    rewrite Hib in Hin; injection Hin as -> ->; (split; [done|]); intros j' ip' Heq; try done;
    injection Heq as -> ->; eexists; first [by left|apply elem_of_app; right; by left].
Qed.

(** ** Dispatch attempts *)
Definition dispatches (l : list imsg) : list nat :=
  omap (fun m => match m with ImDispatch r => Some r | _ => None end) l.
Lemma dstep_no_finish im name o im' : dstep im name o im' -> finished o = [].
Proof. by intros []. Qed.
Lemma dsteps_no_finish im names o im' : dsteps im names o im' -> finished o = [].
Proof.
  intros Hd. induction Hd as [|im name o im1 names o' im2 Hd Hds IH]; [done|].
  by rewrite finished_app, IH, (dstep_no_finish _ _ _ _ Hd).
Qed.
Lemma dstep_one_try im name o im' : dstep im name o im' -> length (tries o) = 1%nat.
Proof. by intros []. Qed.
Lemma dsteps_tries im names o im' : dsteps im names o im' -> length (tries o) = length names.
Proof.
  intros Hd. induction Hd as [|im name o im1 names o' im2 Hd Hds IH]; [done|].
  rewrite tries_app, app_length, IH, (dstep_one_try _ _ _ _ Hd). done.
Qed.
Lemma run_attempts p w q es s tr :
  no_job_panics es -> q_run p (q_start w q) es = Some (s, tr) ->
  qs_mgr s = MAlive ->
  (length (tries tr) + length (dispatches (qs_inbox s)) =
     w * length (accepted tr) + length (finished tr))%nat.
Proof.
  intros Hnp Hr.
  apply (run_ind (fun s tr => qs_mgr s = MAlive -> Forall (fun r => r < w)%nat (dispatches (qs_inbox s)) /\
     (length (tries tr) + length (dispatches (qs_inbox s)) =
        w * length (accepted tr) + length (finished tr))%nat) p w q) in Hr;
    [by intros; apply Hr| | |done].
  - intros _. simpl. split; [constructor|lia].
  - clear. intros s tr e s' o Hi IH Hc Ha'.
    rewrite tries_app, accepted_app, finished_app, !app_length.
    destruct Hc as [ip Hd|rest Ha Hin|name rest o im Ha Hin Hne Hds|name rest Ha Hin Hge|j ip rest Ha Hin Hl
      |j ip rest im1 o im2 Ha Hin Hl Him1 Hok1 Hne1 Hds|r c Hrr|r j c Hrr|r j c Hrr Hma|Hd|Hma Hall];
      cbn [qs_mgr set_runner qs_inbox] in Ha' |- *; try done; destruct IH as [Hn IH]; try done;
      try (rewrite Hin in IH, Hn; cbn [dispatches omap list_omap] in IH, Hn);
      unfold dispatches in *; rewrite ?omap_app, ?app_length in *; simpl in *; rewrite ?app_nil_r.
    + split; [done|lia].
    + apply Forall_cons in Hn as [_ Hn]. split; [done|].
      rewrite (dstep_one_try _ _ _ _ Hds). destruct (dstep_silent _ _ _ _ Hds) as (Hacc & _).
      rewrite Hacc, (dstep_no_finish _ _ _ _ Hds). simpl. lia.
    + apply Forall_cons in Hn as [Hlt _]. rewrite (qi_workers _ _ _ Hi) in Hge. lia.
    + split; [done|lia].
    + split; [done|]. rewrite tries_app, accepted_app, finished_app, !app_length. simpl.
      rewrite (dsteps_tries _ _ _ _ Hds), seq_length.
      destruct (dsteps_silent _ _ _ _ Hds) as (Hacc & _). rewrite Hacc, (dsteps_no_finish _ _ _ _ Hds). simpl.
      assert (length (im_runners im1) = w) as -> by (subst im1; apply (qi_workers _ _ _ Hi)). lia.
    + split; [done|lia].
    + split; [done|lia].
    + split; [|lia]. apply Forall_app. split; [done|]. repeat constructor.
      rewrite <- (qi_workers _ _ _ Hi). by eapply lookup_lt_Some.
    + split; [done|lia].
Qed.
