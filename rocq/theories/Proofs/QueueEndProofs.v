(** Proofs for property C109: the end of a queue. *)
From Coq Require Import ZifyBool ZifyN ZifyNat Lia.
From Verif Require Import Model.Base Model.Queue Model.QueueEnd Spec.QueueSpec Spec.QueueEndSpec
  Proofs.QueueProofs Proofs.QueuePanics.

Lemma e_run_app s es1 es2 s2 tr :
  e_run s (es1 ++ es2) = Some (s2, tr) <->
  exists s1 tr1 tr2, e_run s es1 = Some (s1, tr1) /\ e_run s1 es2 = Some (s2, tr2) /\ tr = tr1 ++ tr2.
Proof.
  revert s tr. induction es1 as [|x es IH]; intros s tr; cbn [app e_run].
  - split; [intros H; by exists s, [], tr|]. by intros (s1 & tr1 & tr2 & [= <- <-] & ? & ->).
  - destruct (e_step s x) as [[s1 o1]|]; [|split; [done|by intros (? & ? & ? & ? & _)]]. split.
    + destruct (e_run s1 (es ++ es2)) as [[s3 tr3]|] eqn:E; [|done]. intros [= <- <-].
      apply IH in E as (s4 & tr4 & tr5 & E & E' & ->). exists s4, (o1 ++ tr4), tr5. by rewrite E, app_assoc.
    + intros (s3 & tr3 & tr4 & E & E' & ->). destruct (e_run s1 es) as [[s5 tr5]|] eqn:E5; [|done].
      injection E as <- <-. rewrite (proj2 (IH s1 (tr5 ++ tr4))); [by rewrite app_assoc|]. by exists s5, tr5, tr4.
Qed.
Lemma e_run_snoc s es e s' tr :
  e_run s (es ++ [e]) = Some (s', tr) <->
  exists s1 tr1 o, e_run s es = Some (s1, tr1) /\ e_step s1 e = Some (s', o) /\ tr = tr1 ++ o.
Proof.
  rewrite e_run_app. split.
  - intros (s1 & tr1 & tr2 & H1 & H2 & ->). cbn [e_run] in H2. destruct (e_step s1 e) as [[s2 o]|] eqn:E; [|done].
    injection H2 as <- <-. rewrite app_nil_r. by exists s1, tr1, o.
  - intros (s1 & tr1 & o & H1 & H2 & ->). exists s1, tr1, o. split; [done|]. split; [|done]. cbn [e_run].
    by rewrite H2, app_nil_r.
Qed.
Lemma runner_outs_app a b : runner_outs (a ++ b) = runner_outs a ++ runner_outs b.
Proof. apply omap_app. Qed.
Lemma spins_app a b : spins (a ++ b) = spins a ++ spins b.
Proof. apply omap_app. Qed.

(** * What a step can be *)
Inductive ecase (s : esys) : eevent -> esys -> list eout -> Prop :=
| ec_tell r todo all x : es_phase s = EpSend (r :: todo) all -> es_runners s !! r = Some x -> rn_open x = true ->
    ecase s EeSend (ESys (<[r := rn_send RmStop x]> (es_runners s))
      match todo with [] => EpJoin all | _ => EpSend todo all end) []
| ec_tell_dead r todo all x : es_phase s = EpSend (r :: todo) all -> es_runners s !! r = Some x -> rn_open x = false ->
    ecase s EeSend (ESys (es_runners s) EpUnwinds) []
| ec_join r todo c : es_phase s = EpJoin (r :: todo) -> es_runners s !! r = Some (Runner c RExited) ->
    ecase s EeJoin (ESys (es_runners s) (EpJoin todo)) []
| ec_join_dead r todo c : es_phase s = EpJoin (r :: todo) -> es_runners s !! r = Some (Runner c RDead) ->
    ecase s EeJoin (ESys (es_runners s) EpUnwinds) []
| ec_done : es_phase s = EpJoin [] -> ecase s EeJoin (ESys (es_runners s) EpReturned) [EoReturns]
| ec_unwound : es_phase s = EpUnwinds -> ecase s EeJoin (ESys (es_runners s) EpPanicked) [EoPanics]
| ec_exit r c : es_runners s !! r = Some (Runner (RmStop :: c) RIdle) ->
    ecase s (EeRecv r) (e_set s r (Runner c RExited)) [EoQ (QExit r)]
| ec_start r j c : es_runners s !! r = Some (Runner (RmProve j :: c) RIdle) ->
    ecase s (EeRecv r) (e_set s r (Runner c (RRunning j))) [EoQ (QStart r j)]
| ec_spin r : es_runners s !! r = Some (Runner [] RIdle) -> closed (es_phase s) = true ->
    ecase s (EeRecv r) s [EoSpin r]
| ec_last r j c : es_runners s !! r = Some (Runner c (RRunning j)) -> gone (es_phase s) = true ->
    ecase s (EeFinish r) (e_set s r (Runner c RExited)) [EoQ (QFinish r j); EoQ (QExit r)]
| ec_finish r j c : es_runners s !! r = Some (Runner c (RRunning j)) -> gone (es_phase s) = false ->
    ecase s (EeFinish r) (e_set s r (Runner c RIdle)) [EoQ (QFinish r j)]
| ec_panic r j c : es_runners s !! r = Some (Runner c (RRunning j)) ->
    ecase s (EePanic r) (e_set s r (Runner [] RDead)) [].
Lemma e_step_case s e s' o : e_step s e = Some (s', o) -> ecase s e s' o.
Proof.
  destruct e as [| |r|r|r]; cbn.
  - unfold e_send. destruct (es_phase s) as [[|r todo] all|todo| | |] eqn:E; try done.
    destruct (es_runners s !! r) as [x|] eqn:Ex; [|done]. destruct (rn_open x) eqn:Eo; intros [= <- <-].
    + rewrite (alter_insert _ _ _ _ Ex). by eapply ec_tell.
    + by eapply ec_tell_dead.
  - unfold e_join. destruct (es_phase s) as [|[|r todo]| | |] eqn:E; try done.
    + intros [= <- <-]. by apply ec_done.
    + destruct (es_runners s !! r) as [[c []]|] eqn:Ex; try done; intros [= <- <-].
      * by eapply ec_join.
      * by eapply ec_join_dead.
    + intros [= <- <-]. by apply ec_unwound.
  - unfold e_recv. destruct (es_runners s !! r) as [[[|[|j] c] []]|] eqn:Ex; try done.
    + destruct (closed _) eqn:Ec; [|done]. intros [= <- <-]. by eapply ec_spin.
    + intros [= <- <-]. by eapply ec_exit.
    + intros [= <- <-]. by eapply ec_start.
  - unfold e_finish. destruct (es_runners s !! r) as [[c []]|] eqn:Ex; try done.
    destruct (gone _) eqn:Eg; intros [= <- <-]; [by eapply ec_last|by eapply ec_finish].
  - unfold e_panic. destruct (es_runners s !! r) as [[c []]|] eqn:Ex; try done.
    intros [= <- <-]. by eapply ec_panic.
Qed.

(** * Every end comes to an end *)
Definition weight (x : runner) : nat := 2 * length (rn_chan x) + length (running (rn_state x)).
Definition left_to_do (s : esys) : nat :=
  list_sum (weight <$> es_runners s) +
  match es_phase s with
  | EpSend todo all => 3 * length todo + length all + 3
  | EpJoin todo => length todo + 3
  | EpUnwinds => 1
  | _ => 0
  end.
Lemma weight_upd (rs : list runner) r x y :
  rs !! r = Some x -> (list_sum (weight <$> <[r := y]> rs) + weight x = list_sum (weight <$> rs) + weight y)%nat.
Proof. apply list_sum_upd. Qed.
Lemma step_measure s e s' o : ecase s e s' o -> (left_to_do s' + 1 <= left_to_do s + length (spins o))%nat.
Proof.
  destruct 1 as [r todo all x Hp Hx Ho|r todo all x Hp Hx Ho|r todo c Hp Hx|r todo c Hp Hx|Hp|Hp|r c Hx|r j c Hx|r Hx Hc|r j c Hx Hg
    |r j c Hx Hg|r j c Hx]; unfold left_to_do, e_set; cbn [es_runners es_phase]; rewrite ?Hp; cbn [spins omap list_omap length].
  - pose proof (weight_upd _ _ _ (rn_send RmStop x) Hx) as E. unfold weight at 2 4 in E. cbn [rn_send rn_chan rn_state] in E.
    rewrite app_length in E. cbn [length] in E. destruct todo; cbn [length]; lia.
  - lia.
  - lia.
  - lia.
  - lia.
  - lia.
  - pose proof (weight_upd _ _ _ (Runner c RExited) Hx) as E. unfold weight at 2 4 in E. cbn [rn_chan rn_state running length] in E. lia.
  - pose proof (weight_upd _ _ _ (Runner c (RRunning j)) Hx) as E. unfold weight at 2 4 in E. cbn [rn_chan rn_state running length] in E. lia.
  - cbn. lia.
  - pose proof (weight_upd _ _ _ (Runner c RExited) Hx) as E. unfold weight at 2 4 in E. cbn [rn_chan rn_state running length] in E. lia.
  - pose proof (weight_upd _ _ _ (Runner c RIdle) Hx) as E. unfold weight at 2 4 in E. cbn [rn_chan rn_state running length] in E. lia.
  - pose proof (weight_upd _ _ _ (Runner [] RDead) Hx) as E. unfold weight at 2 4 in E. cbn [rn_chan rn_state running length] in E. lia.
Qed.
Lemma run_measure s es s' tr :
  e_run s es = Some (s', tr) -> (length es + left_to_do s' <= left_to_do s + length (spins tr))%nat.
Proof.
  revert s' tr. induction es as [|e es IH] using rev_ind; intros s' tr H.
  - injection H as <- <-. cbn. lia.
  - apply e_run_snoc in H as (s1 & tr1 & o & H1 & H2 & ->). specialize (IH _ _ H1).
    pose proof (step_measure _ _ _ _ (e_step_case _ _ _ _ H2)). rewrite spins_app, !app_length. cbn. lia.
Qed.

(** * The invariant *)
Definition informed (x : runner) : Prop :=
  rn_open x = true -> exists c, rn_chan x = c ++ [RmStop] /\ no_stop c.
Definition exited (x : runner) : Prop := rn_state x = RExited.
Record einv (order : list nat) (s : esys) : Prop := {
  ei_order : order ≡ₚ seq 0 (length (es_runners s));
  ei_phase :
    match es_phase s with
    | EpSend todo all => all = order /\ todo <> [] /\ (exists told, order = told ++ todo) /\
        (forall r x, es_runners s !! r = Some x -> r ∈ todo -> unmet x) /\
        (forall r x, es_runners s !! r = Some x -> r ∉ todo -> informed x)
    | EpJoin todo => (forall r x, es_runners s !! r = Some x -> informed x) /\
        exists joined, order = joined ++ todo /\ forall r x, es_runners s !! r = Some x -> r ∈ joined -> exited x
    | EpReturned => forall r x, es_runners s !! r = Some x -> exited x
    | _ => True
    end }.

(** A change to one runner that both kinds of facts survive. *)
Lemma einv_set order s r x y :
  einv order s -> es_runners s !! r = Some x -> (gone (es_phase s) = false -> unmet x -> unmet y) -> (informed x -> informed y) -> (exited x -> exited y) ->
  einv order (e_set s r y).
Proof.
  intros [Ho Hp] Hx H1 H2 H3. assert (r < length (es_runners s))%nat as Hlt by (by eapply lookup_lt_Some).
  split; cbn [e_set es_runners es_phase]; [by rewrite insert_length|].
  assert (forall r' x', <[r := y]> (es_runners s) !! r' = Some x' ->
     (r' = r /\ x' = y) \/ es_runners s !! r' = Some x') as Hl.
  { intros r' x' H. apply list_lookup_insert_Some in H as [(-> & <- & _)|[_ ?]]; auto. }
  destruct (es_phase s) as [todo all|todo| | |]; try done.
  - destruct Hp as (? & ? & ? & Ha & Hb). split_and!; try done; intros r' x' [[-> ->]|?]%Hl ?; eauto.
  - destruct Hp as (Ha & j & Hj & Hb). split; [intros r' x' [[-> ->]|?]%Hl; eauto|].
    exists j. split; [done|]. intros r' x' [[-> ->]|?]%Hl ?; eauto.
  - intros r' x' [[-> ->]|?]%Hl; eauto.
Qed.
Lemma einv_step order s e s' o : einv order s -> ecase s e s' o -> einv order s'.
Proof.
  intros Hi Hc. destruct Hc as [r todo all x Hp Hx Ho|r todo all x Hp Hx Ho|r todo c Hp Hx|r todo c Hp Hx|Hp|Hp|r c Hx|r j c Hx|r Hx Hc|r j c Hx Hg
    |r j c Hx Hg|r j c Hx].
  - destruct Hi as [Hord Hph]. rewrite Hp in Hph. destruct Hph as (-> & _ & [told Ht] & Ha & Hb).
    assert (NoDup order) as Hnd by (rewrite Hord; apply NoDup_seq).
    assert (r ∉ todo) as Hnr.
    { rewrite Ht in Hnd. apply NoDup_app in Hnd as (_ & _ & Hnd). by apply NoDup_cons in Hnd as [? _]. }
    assert (informed (rn_send RmStop x)) as Hin.
    { intros _. cbn. exists (rn_chan x). split; [done|]. apply (Ha _ _ Hx). set_solver. }
    assert (forall r' x', <[r := rn_send RmStop x]> (es_runners s) !! r' = Some x' ->
       (r' = r /\ x' = rn_send RmStop x) \/ (r' <> r /\ es_runners s !! r' = Some x')) as Hl.
    { intros r' x' H. apply list_lookup_insert_Some in H as [(-> & <- & _)|[? ?]]; auto. }
    split; cbn; [by rewrite insert_length|].
    destruct todo as [|r2 todo].
    + split; [|exists []; split; [done|]; intros ? ? _ H; by apply elem_of_nil in H].
      intros r' x' [[-> ->]|[Hn ?]]%Hl; [done|]. eapply Hb; [done|]. set_solver.
    + split_and!; try done.
      * exists (told ++ [r]). by rewrite <- app_assoc.
      * intros r' x' [[-> ->]|[Hn ?]]%Hl ?; [done|]. eapply Ha; [done|]. set_solver.
      * intros r' x' [[-> ->]|[Hn ?]]%Hl ?; [done|]. eapply Hb; [done|]. set_solver.
  - destruct Hi. by split.
  - destruct Hi as [Hord Hph]. split; [done|]. rewrite Hp in Hph. cbn. destruct Hph as (Ha & j & -> & Hb).
    split; [done|]. exists (j ++ [r]). split; [by rewrite <- app_assoc|]. intros r' x' Hx' [?|Hr]%elem_of_app.
    + by eapply Hb.
    + apply elem_of_list_singleton in Hr as ->. rewrite Hx in Hx'. by injection Hx' as <-.
  - destruct Hi. by split.
  - destruct Hi as [Hord Hph]. split; [done|]. rewrite Hp in Hph. cbn. destruct Hph as (Ha & j & E & Hb). rewrite app_nil_r in E. subst j.
    intros r x Hx. eapply Hb; [exact Hx|]. rewrite Hord. apply elem_of_seq. apply lookup_lt_Some in Hx. lia.
  - destruct Hi. by split.
  - eapply einv_set; [done|exact Hx| | |done]; try done. intros _ [_ H]. cbn in H. by inversion H.
  - eapply einv_set; [done|exact Hx| | |done].
    + intros _ [_ H]. split; [done|]. cbn in *. by inversion H.
    + intros H _. destruct (H eq_refl) as (c' & E & Hc'). cbn in *. destruct c' as [|m c']; [done|]. injection E as <- ->.
      exists c'. split; [done|]. by inversion Hc'.
  - done.
  - eapply einv_set; [done|exact Hx| | |].
    + congruence.
    + intros _ ?. done.
    + done.
  - eapply einv_set; [done|exact Hx| | |done].
    + intros _ [_ ?]. by split.
    + intros H _. by apply H.
  - eapply einv_set; [done|exact Hx| | |done].
    + intros _ _. split; [done|]. apply Forall_nil_2.
    + intros _ ?. done.
Qed.
Lemma einv_run order s es s' tr : einv order s -> e_run s es = Some (s', tr) -> einv order s'.
Proof.
  intros Hi. revert s' tr. induction es as [|e es IH] using rev_ind; intros s' tr H; [by injection H as <- <-|].
  apply e_run_snoc in H as (s1 & tr1 & o & H1 & H2 & ->). eapply einv_step; [by eapply IH|by apply e_step_case].
Qed.
Lemma e_begin_inv s order s0 :
  e_begin s order = Some s0 ->
  qs_mgr s = MAlive /\ (exists rest, qs_inbox s = ImStop :: rest) /\ es_runners s0 = im_runners (qs_im s) /\
  es_phase s0 = match order with [] => EpJoin [] | _ => EpSend order order end.
Proof.
  unfold e_begin. destruct (qs_mgr s); try done. destruct (qs_inbox s) as [|[| |] rest]; try done.
  intros [= <-]. eauto.
Qed.
Lemma begin_einv p w q es s tr order s0 :
  q_run p (q_start w q) es = Some (s, tr) -> order ≡ₚ seq 0 w -> e_begin s order = Some s0 -> einv order s0.
Proof.
  intros Hr Ho (Hm & _ & Er & Ep)%e_begin_inv. pose proof (run_pinv _ _ _ _ _ _ Hr) as Hp.
  pose proof (pv_im _ _ _ _ _ Hp) as Hi.
  split; rewrite Er; [by rewrite (iv_workers _ _ _ _ _ _ _ _ Hi)|]. rewrite Ep.
  destruct order as [|r order].
  - assert (im_runners (qs_im s) = []) as ->.
    { apply nil_length_inv. rewrite (iv_workers _ _ _ _ _ _ _ _ Hi). symmetry in Ho. apply Permutation_nil_r in Ho. by destruct w. }
    split; [done|]. exists []. done.
  - split_and!; try done; [by exists []| |].
    + intros r' x Hx _. eapply (Forall_lookup_1 _ _ _ _ (iv_alive _ _ _ _ _ _ _ _ Hi Hm) Hx).
    + intros r' x Hx []. rewrite Ho. apply elem_of_seq. apply lookup_lt_Some in Hx.
      rewrite (iv_workers _ _ _ _ _ _ _ _ Hi) in Hx. lia.
Qed.

(** Until the call is over, some thread can do something that is not a spin. *)
Lemma progress order s : einv order s -> gone (es_phase s) = false ->
  exists e s' o, (forall r, e <> EePanic r) /\ e_step s e = Some (s', o) /\ spins o = [].
Proof.
  intros [Ho Hp] Hg. assert (forall r, r ∈ order -> is_Some (es_runners s !! r)) as Hl.
  { intros r. rewrite Ho. intros H%elem_of_seq. apply lookup_lt_is_Some_2. lia. }
  destruct (es_phase s) as [todo all|todo| | |] eqn:E; try done.
  - destruct Hp as (-> & Hne & [told Ht] & _). destruct todo as [|r todo]; [done|].
    destruct (Hl r) as [x Hx]; [rewrite Ht; set_solver|]. exists EeSend. cbn. unfold e_send. rewrite E, Hx.
    destruct (rn_open x); eexists _, _; (split; [done|]); (split; [reflexivity|]); done.
  - destruct Hp as (Ha & j & Hj & _). destruct todo as [|r todo].
    + exists EeJoin. cbn. unfold e_join. rewrite E. eexists _, _. split; [done|]. split; [reflexivity|]. done.
    + destruct (Hl r) as [[c st] Hx]; [rewrite Hj; set_solver|]. specialize (Ha _ _ Hx).
      destruct st as [|jb| |].
      * destruct (Ha eq_refl) as (c' & Ec & _). cbn in Ec. subst c. exists (EeRecv r). cbn. unfold e_recv. rewrite Hx.
        destruct c' as [|[|jb] c']; cbn; eexists _, _; (split; [done|]); (split; [reflexivity|]); done.
      * exists (EeFinish r). cbn. unfold e_finish. rewrite Hx, E. eexists _, _. split; [done|]. split; [reflexivity|]. done.
      * exists EeJoin. cbn. unfold e_join. rewrite E, Hx. eexists _, _. split; [done|]. split; [reflexivity|]. done.
      * exists EeJoin. cbn. unfold e_join. rewrite E, Hx. eexists _, _. split; [done|]. split; [reflexivity|]. done.
  - exists EeJoin. cbn. unfold e_join. rewrite E. eexists _, _. split; [done|]. split; [reflexivity|]. done.
Qed.

(** How the call ended is told by the phase. *)
Lemma over_phase order s es s' tr :
  einv order s -> gone (es_phase s) = false -> e_run s es = Some (s', tr) ->
  (EoReturns ∈ tr <-> es_phase s' = EpReturned) /\ (EoPanics ∈ tr <-> es_phase s' = EpPanicked).
Proof.
  intros Hi Hg. revert s' tr. induction es as [|e es IH] using rev_ind; intros s' tr H.
  { injection H as <- <-. rewrite !elem_of_nil. destruct (es_phase s); done. }
  apply e_run_snoc in H as (s1 & tr1 & o & H1 & H2%e_step_case & ->). specialize (IH _ _ H1) as [IHa IHb].
  rewrite !elem_of_app.
  destruct H2 as [r todo all x Hp Hx Ho|r todo all x Hp Hx Ho|r todo c Hp Hx|r todo c Hp Hx|Hp|Hp|r c Hx|r j c Hx|r Hx Hc|r j c Hx Hgo
    |r j c Hx Hgo|r j c Hx]; cbn [es_phase e_set]; rewrite ?IHa, ?IHb, ?Hp, ?elem_of_cons, ?elem_of_nil;
    try (destruct todo); split; split; intros; destruct_or?; try done; auto.
Qed.

(** The dead stay dead. *)
Definition is_dead (s : esys) (r : nat) : Prop := exists x, es_runners s !! r = Some x /\ rn_state x = RDead.
Lemma dead_step s e s' o r : ecase s e s' o -> is_dead s r \/ e = EePanic r -> is_dead s' r.
Proof.
  intros Hc Hd.
  assert (forall r' x y, es_runners s !! r' = Some x -> rn_state x <> RDead -> is_dead s r ->
     exists z, <[r' := y]> (es_runners s) !! r = Some z /\ rn_state z = RDead) as Hset.
  { intros r' x y Hx Hn (z & Hz & Hd'). destruct (decide (r' = r)) as [->|Hne]; [congruence|].
    exists z. by rewrite list_lookup_insert_ne. }
  destruct Hc as [r' todo all x Hp Hx Ho|r' todo all x Hp Hx Ho|r' todo c Hp Hx|r' todo c Hp Hx|Hp|Hp|r' c Hx|r' j c Hx|r' Hx Hc|r' j c Hx Hgo
    |r' j c Hx Hgo|r' j c Hx]; destruct Hd as [Hd|[=]]; try exact Hd; unfold is_dead; cbn;
    try (eapply Hset; [exact Hx|try done|exact Hd]).
  - destruct x as [c []]; done.
  - subst r'. exists (Runner [] RDead). split; [|done]. apply list_lookup_insert. by eapply lookup_lt_Some.
Qed.
Lemma dead_run' s es s' tr r : e_run s es = Some (s', tr) -> is_dead s r \/ EePanic r ∈ es -> is_dead s' r.
Proof.
  revert s' tr. induction es as [|e es IH] using rev_ind; intros s' tr H Hd.
  { injection H as <- <-. destruct Hd as [?|Hd]; [done|]. by apply elem_of_nil in Hd. }
  apply e_run_snoc in H as (s1 & tr1 & o & H1 & H2%e_step_case & ->). eapply dead_step; [exact H2|].
  rewrite elem_of_app, elem_of_list_singleton in Hd. destruct Hd as [Hd|[Hd|<-]]; eauto.
Qed.

(** Dead runners keep the call from returning. *)
Lemma dead_no_return order s es s' tr r :
  einv order s -> gone (es_phase s) = false -> e_run s es = Some (s', tr) -> is_dead s r \/ EePanic r ∈ es ->
  EoReturns ∉ tr.
Proof.
  intros Hi Hg H Hd Hin. apply (over_phase _ _ _ _ _ Hi Hg H) in Hin.
  destruct (dead_run' _ _ _ _ _ H Hd) as (x & Hx & Hdx).
  pose proof (ei_phase _ _ (einv_run _ _ _ _ _ Hi H)) as Hp. rewrite Hin in Hp. specialize (Hp _ _ Hx).
  unfold exited in Hp. congruence.
Qed.

(** * The end without panics *)
Record ninv (h f : nat -> list job) (s : esys) : Prop := {
  ni_phase : match es_phase s with EpSend _ _ | EpJoin _ | EpReturned => True | _ => False end;
  ni_run : forall r x, es_runners s !! r = Some x ->
    rn_state x <> RDead /\ (rn_state x = RExited -> rn_chan x = []) /\
    h r = f r ++ running (rn_state x) ++ proves (rn_chan x) }.
Lemma proves_stop c : proves (c ++ [RmStop]) = proves c.
Proof. rewrite proves_app. cbn. by rewrite app_nil_r. Qed.
Lemma no_stop_tail c c' : RmStop :: c = c' ++ [RmStop] -> no_stop c' -> c = [].
Proof.
  intros E Hn. destruct c' as [|m c']; [by injection E|]. injection E as <- _. by inversion Hn.
Qed.

Lemma either_kind order s r x :
  einv order s -> closed (es_phase s) = false -> es_runners s !! r = Some x -> unmet x \/ informed x.
Proof.
  intros [_ Hp] Hc Hx. destruct (es_phase s) as [todo all|todo| | |]; try done.
  - destruct Hp as (_ & _ & _ & Ha & Hb). destruct (decide (r ∈ todo)); eauto.
  - destruct Hp as [Ha _]. eauto.
Qed.
Definition fin (tr : list qout) (r : nat) : list job := of_runner r (finished tr).
Lemma fin_app a b r : fin (a ++ b) r = fin a r ++ fin b r.
Proof. unfold fin. by rewrite finished_app, of_runner_app. Qed.
Lemma ninv_set h f s r x y g :
  ninv h f s -> es_runners s !! r = Some x -> (forall r', r' <> r -> g r' = f r') ->
  rn_state y <> RDead -> (rn_state y = RExited -> rn_chan y = []) -> h r = g r ++ running (rn_state y) ++ proves (rn_chan y) ->
  ninv h g (e_set s r y).
Proof.
  intros [Hp Hr] Hx Hg H1 H2 H3. split; [done|]. cbn. intros r' x' H.
  apply list_lookup_insert_Some in H as [(-> & <- & _)|[Hne H]]; [done|]. rewrite Hg by done. by apply Hr.
Qed.
Lemma ninv_step order h tr s e s' o :
  einv order s -> ninv h (fin tr) s -> (forall r, e <> EePanic r) -> ecase s e s' o ->
  ninv h (fin (tr ++ runner_outs o)) s' /\ spins o = [] /\ EoPanics ∉ o.
Proof.
  intros Hi Hn Hnp Hc.
  assert (forall r x, es_runners s !! r = Some x -> es_phase s = EpReturned -> rn_state x = RExited) as Hret.
  { intros r x Hx E. pose proof (ei_phase _ _ Hi) as Hp. rewrite E in Hp. by eapply Hp. }
  assert (forall r x, es_runners s !! r = Some x -> rn_state x <> RExited -> closed (es_phase s) = false) as Hcl.
  { intros r x Hx Hne. pose proof (ni_phase _ _ _ Hn). destruct (es_phase s) eqn:E; try done. by destruct Hne; eapply Hret. }
  destruct Hc as [r todo all x Hp Hx Ho|r todo all x Hp Hx Ho|r todo c Hp Hx|r todo c Hp Hx|Hp|Hp|r c Hx|r j c Hx|r Hx Hc|r j c Hx Hg
    |r j c Hx Hg|r j c Hx]; cbn [runner_outs omap list_omap]; rewrite ?app_nil_r.
  - split; [|split; [done|by apply not_elem_of_nil]].
    destruct (ni_run _ _ _ Hn _ _ Hx) as (H1 & H2 & H3).
    assert (ninv h (fin tr) (e_set s r (rn_send RmStop x))) as [Ha Hb].
    { eapply ninv_set; [done|exact Hx|done|done| |]; cbn.
      - intros E. unfold rn_open in Ho. by rewrite E in Ho.
      - by rewrite proves_stop. }
    split; cbn in *; [by destruct todo|done].
  - exfalso. pose proof (ei_phase _ _ Hi) as Hph. rewrite Hp in Hph. destruct Hph as (_ & _ & _ & Ha & _).
    destruct (Ha _ _ Hx) as [Hne _]; [set_solver|]. destruct (ni_run _ _ _ Hn _ _ Hx) as (H1 & _).
    unfold rn_open in Ho. by destruct (rn_state x).
  - split; [|split; [done|by apply not_elem_of_nil]]. destruct Hn as [Ha Hb]. by split.
  - exfalso. destruct (ni_run _ _ _ Hn _ _ Hx) as (H1 & _). done.
  - split; [|split; [done|]]. { destruct Hn as [Ha Hb]. by split. }
    intros H%elem_of_list_singleton. done.
  - pose proof (ni_phase _ _ _ Hn) as H. by rewrite Hp in H.
  - split; [|split; [done|intros H%elem_of_list_singleton; done]].
    destruct (ni_run _ _ _ Hn _ _ Hx) as (H1 & H2 & H3).
    destruct (either_kind _ _ _ _ Hi (Hcl _ _ Hx ltac:(done)) Hx) as [[_ Hu]|Hin].
    { cbn in Hu. by inversion Hu. }
    destruct (Hin eq_refl) as (c' & E & Hc'). cbn in E. apply no_stop_tail in E as ->; [|done].
    eapply ninv_set; [done|exact Hx| |done|done|]; cbn.
    + intros r' _. by rewrite fin_app, app_nil_r.
    + cbn in H3. by rewrite fin_app, !app_nil_r in *.
  - split; [|split; [done|intros H%elem_of_list_singleton; done]].
    destruct (ni_run _ _ _ Hn _ _ Hx) as (H1 & H2 & H3).
    eapply ninv_set; [done|exact Hx| |done|done|]; cbn.
    + intros r' _. by rewrite fin_app, app_nil_r.
    + cbn in H3. by rewrite fin_app, app_nil_r.
  - exfalso. specialize (Hcl _ _ Hx). cbn in Hcl. rewrite Hcl in Hc; done.
  - exfalso. pose proof (ni_phase _ _ _ Hn) as Hph. destruct (es_phase s) eqn:E; try done.
    by specialize (Hret _ _ Hx eq_refl).
  - split; [|split; [done|intros H%elem_of_list_singleton; done]].
    destruct (ni_run _ _ _ Hn _ _ Hx) as (H1 & H2 & H3).
    eapply ninv_set; [done|exact Hx| |done|done|]; cbn.
    + intros r' Hne. rewrite fin_app. unfold fin at 2. cbn. rewrite decide_False by done. by rewrite app_nil_r.
    + cbn in H3. rewrite fin_app. unfold fin at 2. cbn. rewrite decide_True by done. by rewrite H3, <- app_assoc.
  - by destruct (Hnp r).
Qed.
Lemma ninv_run order h tr s es s' tr' :
  einv order s -> ninv h (fin tr) s -> no_end_panics es -> e_run s es = Some (s', tr') ->
  ninv h (fin (tr ++ runner_outs tr')) s' /\ spins tr' = [] /\ EoPanics ∉ tr'.
Proof.
  intros Hi Hn. revert s' tr'. induction es as [|e es IH] using rev_ind; intros s' tr' Hnp H.
  { injection H as <- <-. cbn. rewrite app_nil_r. split; [done|]. split; [done|]. apply not_elem_of_nil. }
  apply e_run_snoc in H as (s1 & tr1 & o & H1 & H2%e_step_case & ->). apply Forall_app in Hnp as [Hnp He].
  destruct (IH _ _ Hnp H1) as (IHa & IHb & IHc). apply Forall_inv in He.
  destruct (ninv_step _ _ _ _ _ _ _ (einv_run _ _ _ _ _ Hi H1) IHa He H2) as (Ha & Hb & Hc).
  rewrite runner_outs_app, app_assoc, spins_app, IHb, Hb. split; [done|]. split; [done|].
  intros [?|?]%elem_of_app; done.
Qed.

(** * A dead runner in front of an idle one *)
Record sinv (d r : nat) (b : list nat) (s : esys) : Prop := {
  si_dead : is_dead s d;
  si_idle : es_runners s !! r = Some (Runner [] RIdle);
  si_in : r ∈ b;
  si_phase : match es_phase s with
    | EpSend todo _ => exists a, todo = a ++ d :: b /\ NoDup todo
    | EpJoin _ | EpReturned => False
    | _ => True
    end }.
Lemma sinv_step d r b s e s' o : sinv d r b s -> ecase s e s' o -> sinv d r b s' /\ EoQ (QExit r) ∉ o /\ EoReturns ∉ o.
Proof.
  intros Hs Hc. assert (is_dead s' d) as Hd' by (eapply dead_step; [exact Hc|left; apply Hs]).
  destruct Hs as [Hd Hr Hin Hph].
  destruct Hc as [r' todo all x Hp Hx Ho|r' todo all x Hp Hx Ho|r' todo c Hp Hx|r' todo c Hp Hx|Hp|Hp|r' c Hx|r' j c Hx|r' Hx Hc|r' j c Hx Hg
    |r' j c Hx Hg|r' j c Hx]; try (by rewrite Hp in Hph);
  try (assert (r' <> r) as Hne by congruence).
  - rewrite Hp in Hph. destruct Hph as (a & E & Hnd). destruct a as [|a0 a].
    { injection E as -> ->. destruct Hd as (y & Hy & Hyd). rewrite Hx in Hy. injection Hy as <-.
      unfold rn_open in Ho. by rewrite Hyd in Ho. }
    injection E as <- ->. apply NoDup_cons in Hnd as [Hn0 Hnd].
    split; [|split; apply not_elem_of_nil]. split; [done| |done|].
    + cbn. rewrite list_lookup_insert_ne; [done|]. intros ->. apply Hn0. set_solver.
    + cbn. destruct (a ++ d :: b) as [|z l] eqn:E; [by destruct a|]. exists a. by rewrite E.
  - split; [|split; apply not_elem_of_nil]. by split.
  - split; [|split; intros H%elem_of_list_singleton; done]. by split.
  - split; [|split; intros H%elem_of_list_singleton; [by injection H as <-|done]]. split; try done. cbn. by rewrite list_lookup_insert_ne.
  - split; [|split; intros H%elem_of_list_singleton; done]. split; try done. cbn. by rewrite list_lookup_insert_ne.
  - split; [|split; intros H%elem_of_list_singleton; done]. by split.
  - split; [|split; rewrite !elem_of_cons, elem_of_nil; intros [[=]|[[=]|[]]]; congruence]. split; try done. cbn. by rewrite list_lookup_insert_ne.
  - split; [|split; intros H%elem_of_list_singleton; done]. split; try done. cbn. by rewrite list_lookup_insert_ne.
  - split; [|split; apply not_elem_of_nil]. split; try done. cbn. by rewrite list_lookup_insert_ne.
Qed.
Lemma sinv_run d r b s es s' tr :
  sinv d r b s -> e_run s es = Some (s', tr) -> sinv d r b s' /\ EoQ (QExit r) ∉ tr /\ EoReturns ∉ tr.
Proof.
  intros Hs. revert s' tr. induction es as [|e es IH] using rev_ind; intros s' tr H.
  { injection H as <- <-. split; [done|]. split; apply not_elem_of_nil. }
  apply e_run_snoc in H as (s1 & tr1 & o & H1 & H2%e_step_case & ->). destruct (IH _ _ H1) as (IHa & IHb & IHc).
  destruct (sinv_step _ _ _ _ _ _ _ IHa H2) as (Ha & Hb & Hc). rewrite !elem_of_app. tauto.
Qed.

(** * After the call *)
Definition may_start (s : esys) (r : nat) : nat :=
  match es_runners s !! r with Some (Runner _ RIdle) => 1 | _ => 0 end.
Lemma late_step s e s' o r :
  gone (es_phase s) = true -> ecase s e s' o ->
  gone (es_phase s') = true /\
  (length (of_runner r (started (runner_outs o))) + may_start s' r <= may_start s r)%nat.
Proof.
  intros Hgo Hc. assert (forall r' y, may_start (e_set s r' y) r =
     if decide (r' = r) then match es_runners s !! r with Some _ => match y with Runner _ RIdle => 1 | _ => 0 end | None => 0 end
     else may_start s r)%nat as Hset.
  { intros r' y. unfold may_start. cbn. destruct (decide (r' = r)) as [->|Hne].
    - destruct (es_runners s !! r) as [x|] eqn:E.
      + rewrite list_lookup_insert; [done|]. by eapply lookup_lt_Some.
      + by rewrite list_insert_ge, E by (by apply lookup_ge_None).
    - by rewrite list_lookup_insert_ne. }
  destruct Hc as [r' todo all x Hp Hx Ho|r' todo all x Hp Hx Ho|r' todo c Hp Hx|r' todo c Hp Hx|Hp|Hp|r' c Hx|r' j c Hx|r' Hx Hc|r' j c Hx Hg
    |r' j c Hx Hg|r' j c Hx]; try (by rewrite Hp in Hgo); try congruence;
  (split; [done|]); rewrite ?Hset; cbn; try (destruct (decide (r' = r)) as [->|Hne]); cbn;
  unfold may_start; rewrite ?Hx; cbn; lia.
Qed.
Lemma late_run s es s' tr r :
  gone (es_phase s) = true -> e_run s es = Some (s', tr) ->
  gone (es_phase s') = true /\ (length (of_runner r (started (runner_outs tr))) + may_start s' r <= may_start s r)%nat.
Proof.
  intros Hg. revert s' tr. induction es as [|e es IH] using rev_ind; intros s' tr H.
  { injection H as <- <-. split; [done|]. cbn. lia. }
  apply e_run_snoc in H as (s1 & tr1 & o & H1 & H2%e_step_case & ->). destruct (IH _ _ H1) as (IHa & IHb).
  destruct (late_step _ _ _ _ r IHa H2) as (Ha & Hb). split; [done|].
  rewrite runner_outs_app, started_app, of_runner_app, app_length. lia.
Qed.
